(** Model of the building, the updating and the compaction of the indexes of a view group, src/views/view_group.cc. Allocation, opening and closing files are assumed to
    succeed. The caller's names of files are replaced by the contents of the files. *)
From Verif Require Import Base Codec File Btree BtreeRead Bitmap ViewCodec IndexHeader Reducers Cleanup FileMerger FileSorter ViewFiles.
Local Open Scope N_scope.
Unset Strict Implicit.

(** ** New indexes *)

(** src/views/view_group.cc:731-739, 1639-1647: the request that new_btree_modres (src/btree_modify.cc:94-126) makes. *)
Definition build_request (cmp : bytes -> bytes -> comparison) (red : list (bytes * bytes) -> res bytes) (rered : list bytes -> res bytes) : request :=
  Request cmp (Some red) (Some rered) (VIEW_KV + VIEW_KV / 3) (VIEW_KP + VIEW_KP / 3) true None None None None.
(** src/views/view_group.cc:775-796 build_id_btree, 1691-1715 compact_id_btree. *)
Definition id_build_request : request := build_request ebin_cmp view_id_btree_reduce view_id_btree_rereduce.
(** src/views/view_group.cc:799-838 build_view_btree, 1718-1760 compact_view_btree. *)
Definition view_build_request (collate : bytes -> bytes -> comparison) (rs : list reducer) : request :=
  build_request (view_key_cmp collate) (view_btree_reduce rs) (view_btree_rereduce rs).

(** src/views/view_group.cc:748, 1454, 1493: the error of the sorter is cast to couchstore_error_t; the numbers are those of src/file_merger.h:28-36 and
    src/file_sorter.h:28-40. *)
Definition sort_err (e : ferr) : err :=
  match e with
  | F_OPEN_FILE => E_OPEN_FILE (* -1 *)
  | F_READ => E_CORRUPT (* -2 *)
  | F_WRITE => E_ALLOC (* -3 *)
  | F_BAD_ARG => E_READ (* -4 *)
  | F_ALLOC => E_DOC_NOT_FOUND (* -5 *)
  | F_SORT => E_NO_HEADER (* -6 *)
  | F_MK_TMP_FILE => E_CANCEL (* -12 *)
  | F_MISSING_CALLBACK => E_FILE_CLOSED (* -15 *)
  | F_ASSERT | F_HANG => E_UB
  | F_FUEL => E_FUEL
  end.

(** src/views/view_group.cc:748 the sorter with build_btree_record_callback: the records that it passes to the callback. The parameters are those of ViewFiles.sort_view_file. *)
Definition sorted_rows (key_cmp : bytes -> bytes -> comparison) (sort_tmp : list tmp -> list tmp) (outcome : nat -> job_end) (value : N) (b : bytes) : fres (list vrec) :=
  fbind (sort_view_file key_cmp sort_tmp outcome false b value) (fun x => Good (snd x)).
(** src/views/view_group.cc:1454, 1493 the sorter of the files of operations: what the file contains afterwards. *)
Definition sorted_ops (key_cmp : bytes -> bytes -> comparison) (sort_tmp : list tmp -> list tmp) (outcome : nat -> job_end) (value : N) (b : bytes) : fres bytes :=
  fbind (sort_view_file key_cmp sort_tmp outcome true b value) (fun x => Good (fst x)).

Section WithEnv.
Context {E : Env}.

(** src/views/view_group.cc:679-707 build_btree_record_callback for each record, in the order in which the sorter passes them, and 755 complete_new_btree. *)
Definition build_rows (rq : request) (rows : list (bytes * bytes)) : M (option node_pointer) :=
  let+ m := foldM (fun x m => push_item rq (fst x) (snd x) m) rows new_btree_modres in complete_new_btree rq m.
(** src/views/view_group.cc:710-772 build_btree; [sorted] is what the sorter does (src/views/file_sorter.cc:35-107): an error, or the records that it passes to the callback.
    Simplified: when the sorter fails, nothing has been written to the file (the code may have written nodes for the first records; nothing refers to them). *)
Definition build_btree (rq : request) (sorted : fres (list vrec)) (f : file) : res (option node_pointer) * file :=
  match sorted with
  | Bad e => (Err (sort_err e), f)
  | Good l => let '(r, s) := build_rows rq (map (fun x => (v_key x, v_val x)) l) (St f [] false) in (r, st_f s)
  end.
(** The loop over the views, src/views/view_group.cc:547-573: the reducers and the sorted records of each view. *)
Fixpoint build_views (collate : bytes -> bytes -> comparison) (l : list (list reducer * fres (list vrec))) (f : file) : res (list (option node_pointer)) * file :=
  match l with
  | [] => (Ok [], f)
  | (rs, recs) :: r =>
      match build_btree (view_build_request collate rs) recs f with
      | (Err e, f1) => (Err e, f1)
      | (Ok root, f1) => match build_views collate r f1 with (Err e, f2) => (Err e, f2) | (Ok roots, f2) => (Ok (root :: roots), f2) end
      end
  end.
(** src/views/view_group.cc:494-595 couchstore_build_view_group: the header at [pos] of the file [info]; the records of the index by id [ids] and of the views [kvs] as the sorter
    passes them; the destination [f], whose append position is 0 when it has been opened. The result: the position of the header. *)
Definition build_view_group (collate : bytes -> bytes -> comparison) (reds : list (list reducer)) (info : file) (pos : N) (ids : fres (list vrec)) (kvs : list (fres (list vrec))) (f : file) :
    res N * file :=
  match read_view_group_header info pos with
  | Err e => (Err e, f)
  | Ok h =>
      if negb (lenN reds =? lenN (ih_view_states h)) then (Err E_UB, f) else
      match build_btree id_build_request ids f with
      | (Err e, f1) => (Err e, f1)
      | (Ok id_root, f1) =>
          match build_views collate (combine reds kvs) f1 with
          | (Err e, f2) => (Err e, f2)
          | (Ok roots, f2) => write_view_group_header f2 (with_roots h (ih_cleanup h) id_root roots)
          end
      end
  end.

(** ** Compaction *)

(** src/views/compaction.cc:26-36 view_id_btree_filter, view_btree_filter. *)
Definition view_filter (bm : bitmap) (v : bytes) : res bool := let* p := decode_view_btree_partition v in is_bit_set bm p.
(** src/views/view_group.cc:1562-1603 compact_view_fetchcb; the state: the result of the modification, the state of the target file and stats->inserted. The caller passes statistics
    (src/views/bin/couch_view_group_compactor.cc:140). *)
Definition compact_view_fetchcb (rq : request) (filterbm : option bitmap) (k : bytes) (v : option bytes) (u : mr * st * N) : res unit * (mr * st * N) :=
  let '(m, s, n) := u in
  match v with
  | None => (Err E_READ, u)
  | Some v =>
      match match filterbm with Some bm => view_filter bm v | None => Ok false end with
      | Err e => (Err e, u)
      | Ok true => (Ok tt, u)
      | Ok false => match push_item rq k v m s with
                    | (Ok m', s') => (Ok tt, (m', s', (n + 1) mod 2^64))
                    | (Err e, s') => (Err e, (m, s', n))
                    end
      end
  end.
(** src/views/view_group.cc:1605-1688 compact_btree: [src] is the source, [f] the target, [n] the count so far. *)
Definition compact_btree (rq : request) (filterbm : option bitmap) (src : file) (root : option node_pointer) (n : N) (f : file) : res (option node_pointer * N) * file :=
  match root with
  | None => (Ok (None, n), f)
  | Some p =>
      let '(x, (m, s, n')) := btree_lookup (LReq (r_cmp rq) (compact_view_fetchcb rq filterbm) None false) src (np_pointer p) [[]] true (new_btree_modres, St f [] false, n) in
      match x with
      | Err e => (Err e, st_f s)
      | Ok _ => let '(r, s') := complete_new_btree rq m s in (let* root' := r in Ok (root', n'), st_f s')
      end
  end.
(** The loop over the views, src/views/view_group.cc:1833-1863. *)
Fixpoint compact_views (collate : bytes -> bytes -> comparison) (filterbm : option bitmap) (src : file) (l : list (list reducer * option node_pointer)) (n : N) (f : file) :
    res (list (option node_pointer) * N) * file :=
  match l with
  | [] => (Ok ([], n), f)
  | (rs, root) :: r =>
      match compact_btree (view_build_request collate rs) filterbm src root n f with
      | (Err e, f1) => (Err e, f1)
      | (Ok (root', n1), f1) =>
          match compact_views collate filterbm src r n1 f1 with (Err e, f2) => (Err e, f2) | (Ok (roots, n2), f2) => (Ok (root' :: roots, n2), f2) end
      end
  end.
(** src/views/view_group.cc:1788-1791, 1803, 1820-1865: what couchstore_compact_view_group does with the header that it has decoded: the new header and the count. *)
Definition compact_header (collate : bytes -> bytes -> comparison) (reds : list (list reducer)) (h : index_header) (src f : file) (n : N) : res (index_header * N) * file :=
  let filterbm := if is_equal_bitmap empty_bitmap (ih_cleanup h) then None else Some (ih_cleanup h) in
  if negb (lenN reds =? lenN (ih_view_states h)) then (Err E_UB, f) else
  match compact_btree id_build_request filterbm src (ih_id_state h) n f with
  | (Err e, f1) => (Err e, f1)
  | (Ok (id_root, n1), f1) =>
      match compact_views collate filterbm src (combine reds (ih_view_states h)) n1 f1 with
      | (Err e, f2) => (Err e, f2)
      | (Ok (roots, n2), f2) => (Ok (with_roots h empty_bitmap id_root roots, n2), f2)
      end
  end.
(** src/views/view_group.cc:1763-1886 couchstore_compact_view_group: the new header as bytes and the count; the append position of the target is its end (1818-1819). *)
Definition compact_view_group (collate : bytes -> bytes -> comparison) (reds : list (list reducer)) (hb : bytes) (src f : file) (n : N) : res (bytes * N) * file :=
  match decode_index_header hb with
  | Err e => (Err e, f)
  | Ok h =>
      match compact_header collate reds h src (set_fpos f (size f)) n with
      | (Err e, f1) => (Err e, f1)
      | (Ok (h', n'), f1) => (let* b := encode_index_header h' in Ok (b, n'), f1)
      end
  end.

(** ** Incremental updates *)

(** src/views/view_group.cc:603-660 read_record of a file of operations: nothing at the end of the file (also when it ends within the length, or when the length is 0), or the
    operation, the key, the value and the rest of the file. The numbers of FILE_MERGER_ERROR_FILE_READ and COUCHSTORE_ERROR_CORRUPT are the same. A length of 2^31 or more is a
    negative number for the caller, which need not be an error code: [E_UB]. *)
Definition read_record (b : bytes) : res (option (N * bytes * bytes * bytes)) :=
  if lenN b <? 4 then Ok None else
  let len := unbe (rev (take 4 b)) in
  let b1 := drop 4 b in
  if lenN b1 <? 1 then Err E_READ else
  let b2 := drop 1 b1 in
  if lenN b2 <? 2 then Err E_READ else
  let klen := unbe (take 2 b2) in
  let vlen := (len + 2^32 - 2 - klen - 1 + 2^32) mod 2^32 in
  let b3 := drop 2 b2 in
  if (klen =? 0) || (lenN b3 <? klen) then Err E_CORRUPT else
  let b4 := drop klen b3 in
  if lenN b4 <? vlen then Err E_CORRUPT else
  if len =? 0 then Ok None else
  if 2^31 <=? len then Err E_UB else
  Ok (Some (hd 0 b1, take klen b3, take vlen b4, drop vlen b4)).
(** src/couch_btree.h:82-85 the types of actions; src/views/view_group.cc:1265 setType. Another number is not one of them: [E_UB]. *)
Definition op_type (op : N) : res atype :=
  if op =? 0 then Ok A_FETCH else if op =? 1 then Ok A_REMOVE else if op =? 2 then Ok A_INSERT else if op =? 3 then Ok A_FETCH_INSERT else Err E_UB.
(** src/views/view_group.cc:43, 1193-1194 max_actions: an action takes 24 bytes, a sized_buf 16. *)
Definition MAX_ACTIONS : N := (2 * 1024 * 1024) / (24 + 2 * 16).
(** What the loop of update_btree changes besides the file: the root, the actions (newest first), bufsize, *inserted, *removed. *)
Record upd := Upd { u_root : option node_pointer; u_acts : list action; u_size : N; u_ins : N; u_rem : N }.
(** src/views/view_group.cc:1280-1291 the label flush. *)
Definition flush (rq : request) (last : bool) (batch : N) (u : upd) : M upd :=
  if negb (match u_acts u with [] => true | _ => false end) && (last || (batch <? u_size u) || (lenN (u_acts u) =? MAX_ACTIONS)) then
    let+ root := modify_btree rq (u_root u) (List.rev (u_acts u)) in ret (Upd root [] 0 (u_ins u) (u_rem u))
  else ret u.
(** src/views/view_group.cc:1264-1278: the action for a record. *)
Definition add_action (op : N) (k v : bytes) (u : upd) : res upd :=
  let* t := op_type op in
  Ok (Upd (u_root u) (Action t k v 0 :: u_acts u) (u_size u + lenN k + lenN v + 1)
        (if op =? 2 then (u_ins u + 1) mod 2^64 else u_ins u) (if op =? 1 then (u_rem u + 1) mod 2^64 else u_rem u)).
(** src/views/view_group.cc:1249-1292 the loop. [fuel] is more than the number of records. *)
Fixpoint update_loop (fuel : nat) (rq : request) (batch : N) (b : bytes) (u : upd) : M upd :=
  match fuel with
  | O => fail E_FUEL
  | S k =>
      let+ x := lift (read_record b) in
      match x with
      | None => flush rq true batch u
      | Some (op, key, v, rest) =>
          let+ u1 := lift (add_action op key v u) in
          let+ u2 := flush rq false batch u1 in
          update_loop k rq batch rest u2
      end
  end.
(** src/views/view_group.cc:1168-1310 update_btree: the new root, the counts of inserted and removed rows, and what has been purged by now ([count]: before). [w] tells what a call of
    the purge functions adds to the count. *)
Definition update_btree (rq : request) (w : event -> N) (mask : bitmap) (root : option node_pointer) (batch : N) (b : bytes) (ins rem count : N) (f : file) :
    res (option node_pointer * N * N * N) * file :=
  let '(r, s) := update_loop (S (length b)) rq batch b (Upd root [] 0 ins rem) (St f [] (negb (is_equal_bitmap empty_bitmap mask))) in
  (let* u := r in Ok (u_root u, u_ins u, u_rem u, (count + purged w (List.rev (st_ev s))) mod 2^64), st_f s).
(** The file of operations that the loop reads: sorted first if asked for, src/views/view_group.cc:1453-1470, 1492-1509. [sorter] gives the contents of the sorted file. *)
Definition ops_file (sorter : option (bytes -> fres bytes)) (b : bytes) : res bytes :=
  match sorter with None => Ok b | Some f => match f b with Good b' => Ok b' | Bad e => Err (sort_err e) end end.
(** What couchstore_update_view_group counts: ids_inserted, ids_removed, kvs_inserted, kvs_removed (src/views/view_group.h) and purge_ctx.count. *)
Record ustats := UStats { us_ids_ins : N; us_ids_rem : N; us_kvs_ins : N; us_kvs_rem : N; us_purged : N }.
(** The loop over the views, src/views/view_group.cc:1491-1532. *)
Fixpoint update_views (collate : bytes -> bytes -> comparison) (mask : bitmap) (batch : N) (sorter : option (bytes -> fres bytes)) (l : list (list reducer * option node_pointer * bytes))
    (ins rem count : N) (bm : bitmap) (f : file) : res (list (option node_pointer) * N * N * N * bitmap) * file :=
  match l with
  | [] => (Ok ([], ins, rem, count, bm), f)
  | (rs, root, b) :: r =>
      match ops_file sorter b with
      | Err e => (Err e, f)
      | Ok b' =>
          match update_btree (view_cleanup_request collate rs mask) view_purged mask root batch b' ins rem count f with
          | (Err e, f1) => (Err e, f1)
          | (Ok (root', ins1, rem1, count1), f1) =>
              match view_bitmask root' bm with
              | Err e => (Err e, f1)
              | Ok bm1 =>
                  match update_views collate mask batch sorter r ins1 rem1 count1 bm1 f1 with
                  | (Err e, f2) => (Err e, f2)
                  | (Ok (roots, ins2, rem2, count2, bm2), f2) => (Ok (root' :: roots, ins2, rem2, count2, bm2), f2)
                  end
              end
          end
      end
  end.
(** src/views/view_group.cc:1434-1440, 1453-1537: what couchstore_update_view_group does with the header that it has decoded, for views of the map/reduce type. *)
Definition update_header (collate : bytes -> bytes -> comparison) (reds : list (list reducer)) (batch : N) (ids_sorter kvs_sorter : option (bytes -> fres bytes)) (ids : bytes) (kvs : list bytes)
    (h : index_header) (us : ustats) (f : file) : res (index_header * ustats) * file :=
  if negb (lenN reds =? lenN (ih_view_states h)) then (Err E_UB, f) else
  let mask := ih_cleanup h in
  match ops_file ids_sorter ids with
  | Err e => (Err e, f)
  | Ok ids' =>
      match update_btree (id_cleanup_request mask) id_purged mask (ih_id_state h) batch ids' (us_ids_ins us) (us_ids_rem us) 0 f with
      | (Err e, f1) => (Err e, f1)
      | (Ok (id_root, ins, rem, count), f1) =>
          match update_views collate mask batch kvs_sorter (combine (combine reds (ih_view_states h)) kvs) (us_kvs_ins us) (us_kvs_rem us) count (view_id_bitmask id_root empty_bitmap) f1 with
          | (Err e, f2) => (Err e, f2)
          | (Ok (roots, kins, krem, count', bm), f2) =>
              (Ok (with_roots h (intersect_bitmaps bm mask) id_root roots, UStats ins rem kins krem count'), f2)
          end
      end
  end.
(** src/views/view_group.cc:1395-1559 couchstore_update_view_group: the new header as bytes and the statistics; the append position is the end of the file (1450-1451). *)
Definition update_view_group (collate : bytes -> bytes -> comparison) (reds : list (list reducer)) (batch : N) (ids_sorter kvs_sorter : option (bytes -> fres bytes)) (ids : bytes)
    (kvs : list bytes) (hb : bytes) (us : ustats) (f : file) : res (bytes * ustats) * file :=
  match decode_index_header hb with
  | Err e => (Err e, f)
  | Ok h =>
      match update_header collate reds batch ids_sorter kvs_sorter ids kvs h us (set_fpos f (size f)) with
      | (Err e, f1) => (Err e, f1)
      | (Ok (h', us'), f1) => (let* b := encode_index_header h' in Ok (b, us'), f1)
      end
  end.
End WithEnv.
