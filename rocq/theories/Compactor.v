(** Model of src/compactor.cc, the program couch_compact. *)
From Verif Require Import Base Codec File Header Btree BtreeRead SpecMap Db TreeWriter Compact.
Local Open Scope N_scope.

(** src/internal.h:69-73 time_purge_ctx. *)
Record purge_ctx := Purge { px_ts : N; px_upto : N; px_max : N }.

(** src/compactor.cc:45-72 time_purge_hook for a document: its answer, and the context after the call. Byte 8 to 11 of the metadata are the time of
    expiry or deletion (CouchbaseRevMeta, lines 45-49). *)
Definition time_purge (x : purge_ctx) (i : doc_info) : hook * purge_ctx :=
  if di_deleted i && (16 <=? lenN (di_rev_meta i)) then
    match rd_be 4 8 (di_rev_meta i) with
    | Err e => (HErr e, x)
    | Ok exptime =>
        if (exptime <? px_ts x) && ((px_upto x =? 0) || (di_db_seq i <=? px_upto x))
        then (HDrop, if px_max x <? di_db_seq i then Purge (px_ts x) (px_upto x) (di_db_seq i) else x)
        else (HKeep, x)
    end
  else (HKeep, x).

(** The options of the program, src/compactor.cc:85-121: --purge-before, --purge-only-upto-seq (0 if not given), --dropdeletes, --upgrade. The number
    after --purge-before is what std::stoi returns, converted to 64 bits; texts that it refuses end the program and are not modelled. *)
Record cargs := CArgs { ca_before : option N; ca_upto : N; ca_drop : bool; ca_upgrade : bool }.

(** The arguments of couchstore_compact_db_ex in src/compactor.cc:140-147 while the context of the hook is [x]. *)
Definition purge_opts (a : cargs) (x : purge_ctx) : copts :=
  COpts (ca_drop a) (ca_upgrade a) false (Some (fun i _ => fst (time_purge x i))) (Ok tt) None.
Definition plain_opts (a : cargs) : copts := COpts (ca_drop a) (ca_upgrade a) false None (Ok tt) None.

Section WithEnv.
Context {E : Env}.

(** src/db_compact.cc:298-389 compact_seq_fetchcb with this hook, which is called once if the entry can be decoded (lines 323-331), as it never asks for
    the body. The state of the scan is extended by the context of the hook. *)
Definition purge_fetch (a : cargs) (rq : request) (src : file) (k : bytes) (v : option bytes) (w : cstate * purge_ctx) : res unit * (cstate * purge_ctx) :=
  let '(u, x) := w in
  let '(r, u') := seq_fetch (purge_opts a x) rq src k v u in
  let x' := match v with
            | None => x
            | Some b => if lenN b <? 18 then x else match by_seq_read_docinfo k b with Ok i => snd (time_purge x i) | Err _ => x end
            end in
  (r, (u', x')).

(** src/db_compact.cc:391-442 compact_seq_tree, as [seq_tree_copy] without recovery; also the context of the hook after the scan. *)
Definition purge_seq_tree (c : cfg) (a : cargs) (x0 : purge_ctx) (src : file) (pos : N) (f : file) : res unit * option node_pointer * file * writer * purge_ctx :=
  let rq := seq_bulk c in
  let '(y, l) := lookup_inner (LReq seq_cmp (purge_fetch a rq src) None false) (depth_fuel src) src pos [be 6 0]
                   (Lst (CState (St f [] false) new_btree_modres new_writer, x0) true true) in
  let '(u, x) := l_u l in
  match y with
  | Ok _ =>
      match complete_new_btree rq (cs_mr u) (cs_st u) with
      | (Ok r, s) => (y, r, st_f s, cs_w u, x)
      | (Err e, s) => (Err e, None, st_f s, cs_w u, x)
      end
  | Err _ => (y, None, st_f (cs_st u), cs_w u, x)
  end.

(** src/db_compact.cc:178-210, as [copy_docs]. *)
Definition purge_docs (c : cfg) (a : cargs) (x0 : purge_ctx) (src : db) (f : file) : res (option node_pointer * option node_pointer * purge_ctx) * file :=
  match h_by_seq (dbh src) with
  | None => (Ok (None, None, x0), f)
  | Some p =>
      let '(scan, seq_root, f1, w, x) := purge_seq_tree c a x0 (dbf src) (np_pointer p) f in
      match scan with
      | Err e => (Err e, f1)
      | Ok _ =>
          match tw_sort ebin_cmp w with
          | Err e => (Err e, f1)
          | Ok w1 =>
              match tw_write (id_bulk (target_cfg c)) w1 (St f1 [] false) with
              | (Err e, s) => (Err e, st_f s)
              | (Ok (id_root, w2), s) =>
                  if w_added w2 =? w_written w2 then (Ok (id_root, seq_root, x), st_f s) else (Err E_CORRUPT, st_f s)
              end
          end
      end
  end.

(** src/db_compact.cc:113-231 with this hook, as [compact_body]; in its last call, without a document, the hook sets the purge sequence number of the
    target (src/compactor.cc:54-58). *)
Definition compact_purge (c : cfg) (a : cargs) (x0 : purge_ctx) (src : db) (f : file) (key : option keyinfo) : res unit * db :=
  if dropped src then (Err E_FILE_CLOSED, Db f header0 false) else
  match open_new f key ((h_version (dbh src) <=? 11) && negb (ca_upgrade a)) true with
  | (Err e, d) => (Err e, d)
  | (Ok _, t) =>
      let h := dbh t in
      let h1 ids seqs locs purge :=
        Header (h_version h) (h_update_seq (dbh src)) ids seqs locs purge (h_purge_ptr (dbh src)) (h_position h) (h_timestamp h) (h_prev h) (h_meta h) in
      let purge0 := if ca_drop a then (h_purge_seq (dbh src) + 1) mod 2^64 else h_purge_seq (dbh src) in
      match purge_docs c a x0 src (dbf t) with
      | (Err e, f1) => (Err e, Db f1 (h1 None None None purge0) false)
      | (Ok (ids, seqs, x), f1) =>
          match copy_locals c src f1 with
          | (Err e, f2) => (Err e, Db f2 (h1 ids seqs None purge0) false)
          | (Ok locs, f2) => commit_ex (Db f2 (h1 ids seqs locs (px_max x)) false) (h_timestamp (dbh src)) 0
          end
      end
  end.

(** src/compactor.cc:76-161 main, after the source has been opened: the hook is used if --purge-before was given. The result is that of
    the compaction (the exit status tells whether it is an error), and the target. *)
Definition couch_compact (c : cfg) (a : cargs) (src : db) (f : file) (key : option keyinfo) : res unit * db :=
  match ca_before a with
  | None => compact c (plain_opts a) src f key
  | Some ts => compact_purge c a (Purge ts (ca_upto a) 0) src f key
  end.
End WithEnv.
