(** Model of src/db_compact.cc: writing the live contents of a database to a new file. *)
From Verif Require Import Base Codec File Header Btree BtreeRead SpecMap Db TreeWriter.
Local Open Scope N_scope.

(** Results of the compaction hook, include/libcouchstore/couch_db.h:940-974. Only negative numbers other than these are
    errors; other positive ones (treated like KEEP by error_pass) are not modelled. *)
Inductive hook := HKeep | HDrop | HNeed | HErr (e : err).

(** The arguments of couchstore_compact_db_ex and cb::couchstore::compact (include/libcouchstore/couch_db.h): the flags DROP_DELETES,
    UPGRADE_DB and RECOVERY_MODE; the filter hook, called without a body first; the result of its last call, without document; the
    rewrite hook, [Some m] if it returns non-zero and leaves [m] as rev_meta (nothing else of the DocInfo that it leaves
    is used, src/util.cc:108-135). A hook here is a function: it does not change between calls. There is no precommit
    hook; replay is in Replay.v. *)
Record copts := COpts {
  co_drop : bool;
  co_upgrade : bool;
  co_recovery : bool;
  co_filter : option (doc_info -> option bytes -> hook);
  co_last : res unit;
  co_rewrite : option (doc_info -> bytes -> option bytes)
}.

(** src/db_compact.cc:15-40 compact_ctx: target file, target_mr and tree_writer. *)
Record cstate := CState { cs_st : st; cs_mr : mr; cs_w : writer }.

(** The requests of new_btree_modres in src/db_compact.cc:405-413 and 467-475, and of src/tree_writer.cc:213-225. *)
Definition seq_bulk (c : cfg) : request :=
  Request seq_cmp (Some by_seq_reduce) (Some by_seq_rereduce) (c_kv c) (c_kp c) true None None None None.
Definition id_bulk (c : cfg) : request :=
  Request ebin_cmp (Some by_id_reduce) (Some by_id_rereduce) (c_kv c) (c_kp c) true None None None None.
Definition local_bulk (c : cfg) : request :=
  Request ebin_cmp None None (c_kv c) (c_kp c) true None None None None.

(** The node sizes of the target: src/db_compact.cc:148-156 with src/couch_db.cc:805-817 (for sizes below 16 KiB, the largest that can be
    asked for when opening a file). *)
Definition target_size (n : N) : N := if n / 1024 =? 0 then 1279 else n / 1024 * 1024.
Definition target_cfg (c : cfg) : cfg := Cfg (target_size (c_kv c)) (target_size (c_kp c)).

(** src/db_compact.cc:266-286: the entry of the id index for an entry of the sequence index. *)
Definition id_record (k v : bytes) : res (bytes * bytes) :=
  let* sizes := getb 0 5 v in
  let '(idsize, datasize) := decode_kv_length sizes in
  if lenN v <? 18 + idsize then Err E_CORRUPT
  else if lenN k <? 6 then Err E_CORRUPT
  else
    let* seq := getb 0 6 k in
    let* bp := getb 5 6 v in
    let* rev_seq := getb 11 6 v in
    let* cm := getb 17 1 v in
    let* id := getb 18 idsize v in
    let* rm := getb (18 + idsize) (lenN v - (18 + idsize)) v in
    Ok (id, seq ++ be 4 datasize ++ bp ++ rev_seq ++ cm ++ rm).

(** src/util.cc:108-135 arena_special_copy_buf_and_revmeta; null makes output_seqtree_item fail with a read error. *)
Definition with_rev_meta (v m : bytes) : res bytes :=
  if lenN v <? 18 then Err E_READ else
  let* sizes := getb 0 5 v in
  let '(idsize, _) := decode_kv_length sizes in
  if lenN v <? 18 + idsize then Err E_READ else Ok (take (18 + idsize) v ++ m).

(** Not part of the code: the list with the item added, as mr_push_item leaves it when flushing fails. *)
Definition pushed (i : item) (m : mr) : mr :=
  Mr (m_vals m ++ [i]) (m_ptrs m) (m_len m + item_size i) (m_count m + 1) (m_mod m) (m_type m).

Section WithEnv.
Context {E : Env}.

(** src/db_compact.cc:233-296 output_seqtree_item. *)
Definition output_item (rq : request) (k v : bytes) (meta : option bytes) (u : cstate) : res unit * cstate :=
  match (match meta with None => Ok v | Some m => with_rev_meta v m end) with
  | Err e => (Err e, u)
  | Ok v' =>
      match push_item rq k v' (cs_mr u) (cs_st u) with
      | (Err e, s) => (Err e, CState s (pushed (kv_item (k, v')) (cs_mr u)) (cs_w u))
      | (Ok m, s) =>
          match id_record k v' with
          | Err e => (Err e, CState s m (cs_w u))
          | Ok (ik, iv) => (Ok tt, CState s m (tw_add ik iv (cs_w u)))
          end
      end
  end.

(** src/db_compact.cc:323-356: what the filter hook decides, and the body if it was read. The exception for a second NEED_BODY is the
    outcome E_UB. *)
Definition ask (o : copts) (src : file) (k v : bytes) (bp : N) : res (bool * option bytes * option doc_info) :=
  match co_filter o with
  | None => Ok (true, None, None)
  | Some g =>
      let* i := by_seq_read_docinfo k v in
      match g i None with
      | HKeep => Ok (true, None, Some i)
      | HDrop => Ok (false, None, Some i)
      | HErr e => Err e
      | HNeed =>
          let* b := pread_bin src bp in
          match g i (Some b) with
          | HKeep => Ok (true, Some b, Some i)
          | HDrop => Ok (false, Some b, Some i)
          | HErr e => Err e
          | HNeed => Err E_UB
          end
      end
  end.

(** src/db_compact.cc:298-389 compact_seq_fetchcb. A rewrite hook without filter hook is refused earlier. *)
Definition seq_fetch (o : copts) (rq : request) (src : file) (k : bytes) (v : option bytes) (u : cstate) : res unit * cstate :=
  match v with
  | None => (Err E_UB, u)
  | Some v =>
      if lenN v <? 18 then (Err E_CORRUPT, u) else
      match rd_be 6 5 v with
      | Err e => (Err e, u)
      | Ok w =>
          let bp := N.ldiff w BP_DELETED_FLAG in
          if negb (N.land w BP_DELETED_FLAG =? 0) && (match co_filter o with None => true | Some _ => false end) && co_drop o
          then (Ok tt, u) else
          match ask o src k v bp with
          | Err e => (Err e, u)
          | Ok (false, _, _) => (Ok tt, u)
          | Ok (true, item, info) =>
              if bp =? 0 then output_item rq k v None u
              else
                match (match item with Some b => Ok b | None => pread_bin src bp end) with
                | Err e => (Err e, u)
                | Ok b =>
                    let meta := match co_rewrite o, info with Some g, Some i => g i b | _, _ => None end in
                    match db_write_buf (st_f (cs_st u)) b with
                    | (Err e, f') => (Err e, CState (St f' (st_ev (cs_st u)) (st_en (cs_st u))) (cs_mr u) (cs_w u))
                    | (Ok (p, _), f') =>
                        let v' := take 5 v ++ be 6 (N.lor (N.land w BP_DELETED_FLAG) p) ++ drop 11 v in
                        output_item rq k v' meta (CState (St f' (st_ev (cs_st u)) (st_en (cs_st u))) (cs_mr u) (cs_w u))
                    end
                end
          end
      end
  end.

(** src/db_compact.cc:391-442 compact_seq_tree: its result, the root if it was set, the target file and the collected records. *)
Definition seq_tree_copy (c : cfg) (o : copts) (src : file) (pos : N) (f : file) : res unit * option node_pointer * file * writer :=
  let rq := seq_bulk c in
  let '(x, l) := lookup_inner (LReq seq_cmp (seq_fetch o rq src) None (co_recovery o)) (depth_fuel src) src pos [be 6 0]
                   (Lst (CState (St f [] false) new_btree_modres new_writer) true true) in
  let u := l_u l in
  if (match x with Ok _ => true | Err _ => false end) || co_recovery o then
    match complete_new_btree rq (cs_mr u) (cs_st u) with
    | (Ok r, s) => (x, r, st_f s, cs_w u)
    | (Err e, s) => (Err e, None, st_f s, cs_w u)
    end
  else (x, None, st_f (cs_st u), cs_w u).

(** src/db_compact.cc:444-453 compact_localdocs_fetchcb. *)
Definition local_fetch (rq : request) (k : bytes) (v : option bytes) (u : mr * st) : res unit * (mr * st) :=
  match v with
  | None => (Err E_UB, u)
  | Some v =>
      match push_item rq k v (fst u) (snd u) with
      | (Ok m, s) => (Ok tt, (m, s))
      | (Err e, s) => (Err e, (pushed (kv_item (k, v)) (fst u), s))
      end
  end.

(** src/db_compact.cc:455-497 compact_localdocs_tree. *)
Definition local_tree_copy (c : cfg) (src : file) (pos : N) (f : file) : res (option node_pointer) * file :=
  let rq := local_bulk c in
  let '(x, l) := lookup_inner (LReq ebin_cmp (local_fetch rq) None false) (depth_fuel src) src pos [[]]
                   (Lst (new_btree_modres, St f [] false) true true) in
  match x with
  | Err e => (Err e, st_f (snd (l_u l)))
  | Ok _ => let '(r, s) := complete_new_btree rq (fst (l_u l)) (snd (l_u l)) in (r, st_f s)
  end.


(** src/db_compact.cc:178-210: the two indexes of documents; result of the scan and the two roots. *)
Definition copy_docs (c : cfg) (o : copts) (src : db) (f : file) : res (res unit * option node_pointer * option node_pointer) * file :=
  match h_by_seq (dbh src) with
  | None => (Ok (Ok tt, None, None), f)
  | Some p =>
      let '(scan, seq_root, f1, w) := seq_tree_copy c o (dbf src) (np_pointer p) f in
      match (if co_recovery o then Ok tt else scan) with
      | Err e => (Err e, f1)
      | Ok _ =>
          match tw_sort ebin_cmp w with
          | Err e => (Err e, f1)
          | Ok w1 =>
              match tw_write (id_bulk (target_cfg c)) w1 (St f1 [] false) with
              | (Err e, s) => (Err e, st_f s)
              | (Ok (id_root, w2), s) =>
                  if w_added w2 =? w_written w2 then (Ok (scan, id_root, seq_root), st_f s) else (Err E_CORRUPT, st_f s)
              end
          end
      end
  end.
(** src/db_compact.cc:212-214. *)
Definition copy_locals (c : cfg) (src : db) (f : file) : res (option node_pointer) * file :=
  match h_local (dbh src) with
  | None => (Ok None, f)
  | Some p => local_tree_copy c (dbf src) (np_pointer p) f
  end.

(** src/db_compact.cc:113-231, after the check of the arguments. *)
Definition compact_body (c : cfg) (o : copts) (src : db) (f : file) (key : option keyinfo) : res unit * db :=
  if dropped src then (Err E_FILE_CLOSED, Db f header0 false) else
  match open_new f key ((h_version (dbh src) <=? 11) && negb (co_upgrade o)) true with
  | (Err e, d) => (Err e, d)
  | (Ok _, t) =>
      let h := dbh t in
      let h1 ids seqs locs :=
        Header (h_version h) (h_update_seq (dbh src)) ids seqs locs
          (if co_drop o then (h_purge_seq (dbh src) + 1) mod 2^64 else h_purge_seq (dbh src)) (h_purge_ptr (dbh src))
          (h_position h) (h_timestamp h) (h_prev h) (h_meta h) in
      match copy_docs c o src (dbf t) with
      | (Err e, f1) => (Err e, Db f1 (h1 None None None) false)
      | (Ok (scan, ids, seqs), f1) =>
          match copy_locals c src f1 with
          | (Err e, f2) => (Err e, Db f2 (h1 ids seqs None) false)
          | (Ok locs, f2) =>
              match (match co_filter o with Some _ => co_last o | None => Ok tt end) with
              | Err e => (Err e, Db f2 (h1 ids seqs locs) false)
              | Ok _ =>
                  match commit_ex (Db f2 (h1 ids seqs locs) false) (h_timestamp (dbh src)) 0 with
                  | (Err e, d) => (Err e, d)
                  | (Ok _, d) => (scan, d)
                  end
              end
          end
      end
  end.
(** src/db_compact.cc:97-231 cb::couchstore::compact. [c]: node sizes of the source; [f]: the new, empty target file; [key]: what the key callback says
    for the target. Result: the error code, and the target before it is closed (on an error it is removed). *)
Definition compact (c : cfg) (o : copts) (src : db) (f : file) (key : option keyinfo) : res unit * db :=
  match co_filter o, co_rewrite o with
  | None, Some _ => (Err E_INVALID_ARGUMENTS, Db f header0 false)
  | _, _ => compact_body c o src f key
  end.
End WithEnv.
