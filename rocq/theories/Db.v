(** Model of the document operations: src/couch_save.cc and the reading functions of src/couch_db.cc. *)
From Verif Require Import Base Codec File Header Btree BtreeRead SpecMap.
Local Open Scope N_scope.

(** Node sizes of the handle: db->file.options.kv_nodesize and kp_nodesize (src/internal.h, set in
    src/couch_db.cc:805-817). *)
Record cfg := Cfg { c_kv : N; c_kp : N }.

(** include/libcouchstore/couch_db.h:331-339 COMPRESS_DOC_BODIES, COUCHSTORE_SEQUENCE_AS_IS. *)
Record saveopts := SaveOpts { so_compress : bool; so_as_is : bool }.

(** include/libcouchstore/couch_common.h:48 COUCH_DOC_IS_COMPRESSED. *)
Definition DOC_IS_COMPRESSED : N := 128.
Definition flagged (d : doc_info) : bool := negb (N.land (di_content_meta d) DOC_IS_COMPRESSED =? 0).

(** One element of the arrays docs, infos and userReqs; no body stands for a null doc (or a null docs array). *)
Record submit := Submit { sb_body : option bytes; sb_info : doc_info; sb_req : N }.

(** Not part of the code: changed copies of a DocInfo and of a header. *)
Definition with_seq (d : doc_info) (s : N) : doc_info :=
  DocInfo (di_id d) s (di_rev_seq d) (di_rev_meta d) (di_deleted d) (di_content_meta d) (di_bp d) (di_physical_size d).
Definition with_body (d : doc_info) (deleted : bool) (bp sz : N) : doc_info :=
  DocInfo (di_id d) (di_db_seq d) (di_rev_seq d) (di_rev_meta d) deleted (di_content_meta d) bp sz.
Definition set_seq_num (h : header) (s : N) : header :=
  Header (h_version h) s (h_by_id h) (h_by_seq h) (h_local h) (h_purge_seq h) (h_purge_ptr h) (h_position h) (h_timestamp h)
    (h_prev h) (h_meta h).

(** qsort and std::sort as an insertion sort; elements that compare equal stay in the given order, which the C library does
    not promise. *)
Section Sort.
Variable A : Type.
Variable gt : A -> A -> bool.
Fixpoint ins (x : A) (l : list A) : list A :=
  match l with
  | [] => [x]
  | y :: r => if gt x y then y :: ins x r else x :: l
  end.
Fixpoint isort (l : list A) : list A :=
  match l with
  | [] => []
  | x :: r => ins x (isort r)
  end.
End Sort.

(** Not part of the code: the test "comparison > 0". *)
Definition gtc (c : comparison) : bool := match c with Gt => true | _ => false end.

(** Numbers of the action types, src/couch_btree.h:82-85. *)
Definition tnum (t : atype) : N := match t with A_FETCH => 0 | A_REMOVE => 1 | A_INSERT => 2 | A_FETCH_INSERT => 3 end.

(** src/couch_save.cc:93-120 seq_action_compare: is the first action above the second? *)
Definition seq_action_gt (a b : action) : bool :=
  match seq_cmp (a_key a) (a_key b) with
  | Gt => true
  | Eq => tnum (a_type b) <? tnum (a_type a)
  | Lt => false
  end.

(** src/couch_save.cc:132-168 idfetch_update_cb: its result ... *)
Definition idfetch (a : action) (v : option bytes) : res bool :=
  match v with
  | None => Ok false
  | Some b => if lenN b <? 23 then Err E_CORRUPT else Ok false
  end.
(** ... and the removals it has collected after the given calls (oldest first). *)
Definition removal (e : event) : list action :=
  match e with
  | EvFetch _ (Some v) => match rd_be 6 0 v with Ok s => [Action A_REMOVE (be 6 s) [] 0] | Err _ => [] end
  | _ => []
  end.
Definition removals (l : list event) : list action := flat_map removal l.

(** The request for the id index, src/couch_save.cc:228-245; [cb] tells whether there is a save callback. *)
Definition id_request (c : cfg) (cb : bool) : request :=
  Request ebin_cmp (Some by_id_reduce) (Some by_id_rereduce) (c_kv c) (c_kp c) false (Some idfetch)
    (if cb then Some (fun k v => let* _ := by_id_read_docinfo k v in Ok tt) else None) None None.
(** The request for the sequence index, src/couch_save.cc:269-281. *)
Definition seq_request (c : cfg) : request :=
  Request seq_cmp (Some by_seq_reduce) (Some by_seq_rereduce) (c_kv c) (c_kp c) false None None None None.
(** The request for local documents, src/couch_db.cc:1962-1974 and 2013-2019. *)
Definition local_request (c : cfg) : request :=
  Request ebin_cmp None None (c_kv c) (c_kp c) false None None None None.

Section WithEnv.
Context {E : Env}.

(** src/couch_save.cc:74-85 write_doc and 302-352 add_doc_to_update_list: the body is written; the result is the
    DocInfo to be stored. *)
Definition add_doc (o : saveopts) (f : file) (body : option bytes) (info : doc_info) : res doc_info * file :=
  match body with
  | None => (Ok (with_body info true 0 0), f)
  | Some b =>
      match (if so_compress o && flagged info then db_write_buf_compressed f b else db_write_buf f b) with
      | (Ok (pos, sz), f') => (Ok (with_body info (di_deleted info) pos sz), f')
      | (Err e, f') => (Err e, f')
      end
  end.

(** The loop of src/couch_save.cc:396-423. Result: the DocInfos to be stored with their userReq and the last sequence; also the
    infos as they are left in the caller's memory. *)
Fixpoint add_docs (o : saveopts) (seq : N) (f : file) (l : list submit)
    : res (list (doc_info * N) * N) * file * list doc_info :=
  match l with
  | [] => (Ok ([], seq), f, [])
  | x :: r =>
      let seq' := if so_as_is o then N.max seq (di_db_seq (sb_info x)) else (seq + 1) mod 2^64 in
      let info := if so_as_is o then sb_info x else with_seq (sb_info x) seq' in
      match add_doc o f (sb_body x) info with
      | (Err e, f') => (Err e, f', info :: map sb_info r)
      | (Ok d, f') =>
          let '(res, f'', infos) := add_docs o seq' f' r in
          (match res with Ok (ds, s) => Ok ((d, sb_req x) :: ds, s) | Err e => Err e end, f'', info :: infos)
      end
  end.

(** The actions of src/couch_save.cc:207-224 and 257-266. *)
Definition id_action (x : doc_info * N) : action :=
  Action A_FETCH_INSERT (di_id (fst x)) (assemble_id_index_value (fst x)) (snd x).
Definition id_actions (l : list (doc_info * N)) : list action :=
  map id_action (isort (fun a b => gtc (ebin_cmp (di_id (fst a)) (di_id (fst b)))) l).
Definition seq_action (x : doc_info * N) : action :=
  Action A_INSERT (be 6 (di_db_seq (fst x))) (assemble_seq_index_value (fst x)) 0.
Definition seq_actions (removed : list action) (l : list (doc_info * N)) : list action :=
  isort seq_action_gt (removed ++ map seq_action l).

(** src/couch_save.cc:170-300 update_indexes. Memory allocation is assumed to succeed (for the space in actbuf see C45). Result
    also lists the callback calls of the id index update, oldest first. *)
Definition update_indexes (c : cfg) (cb : bool) (d : db) (l : list (doc_info * N)) : res unit * db * list event :=
  let h := dbh d in
  match modify_btree (id_request c cb) (h_by_id h) (id_actions l) (St (dbf d) [] false) with
  | (Err e, s) => (Err e, Db (st_f s) h (dropped d), rev (st_ev s))
  | (Ok id_root, s) =>
      let ev := rev (st_ev s) in
      match modify_btree (seq_request c) (h_by_seq h) (seq_actions (removals ev) l) (St (st_f s) [] false) with
      | (Err e, s') => (Err e, Db (st_f s') h (dropped d), ev)
      | (Ok seq_root, s') => (Ok tt, Db (st_f s') (set_roots h id_root seq_root (h_local h)) (dropped d), ev)
      end
  end.

(** Outcome of a save: result, handle, infos in the caller's memory, callback calls. *)
Record saved := Saved { sv_res : res unit; sv_db : db; sv_infos : list doc_info; sv_events : list event }.

(** src/couch_save.cc:354-442 couchstore_save_documents_and_callback. *)
Definition save_documents (c : cfg) (o : saveopts) (cb : bool) (l : list submit) (d : db) : saved :=
  if dropped d then Saved (Err E_FILE_CLOSED) d (map sb_info l) [] else
  match add_docs o (h_update_seq (dbh d)) (dbf d) l with
  | (Err e, f', infos) => Saved (Err e) (Db f' (dbh d) (dropped d)) infos []
  | (Ok (ds, seq), f', infos) =>
      match update_indexes c cb (Db f' (dbh d) (dropped d)) ds with
      | (Err e, d', ev) => Saved (Err e) d' infos ev
      | (Ok _, d', ev) => Saved (Ok tt) (Db (dbf d') (set_seq_num (dbh d') seq) (dropped d')) infos ev
      end
  end.

(** ** Reading *)

(** src/couch_db.cc:1280-1300 docinfo_fetch_by_id and docinfo_fetch_by_seq; [read] reads the entry. *)
Definition docinfo_fetch (read : bytes -> bytes -> res doc_info) (k : bytes) (v : option bytes) (u : option doc_info)
    : res unit * option doc_info :=
  match v with
  | None => (Err E_DOC_NOT_FOUND, u)
  | Some b => match read k b with Ok i => (Ok tt, Some i) | Err e => (Err e, u) end
  end.
Definition one_docinfo (x : res unit * option doc_info) : res doc_info :=
  match x with
  | (Err e, _) => Err e
  | (Ok _, None) => Err E_DOC_NOT_FOUND
  | (Ok _, Some i) => Ok i
  end.

(** src/couch_db.cc:1302-1339 couchstore_docinfo_by_id; the caller's pointer is null before the call. *)
Definition docinfo_by_id (d : db) (id : bytes) : res doc_info :=
  if dropped d then Err E_FILE_CLOSED else
  match h_by_id (dbh d) with
  | None => Err E_DOC_NOT_FOUND
  | Some p => one_docinfo (btree_lookup (LReq ebin_cmp (docinfo_fetch by_id_read_docinfo) None false) (dbf d) (np_pointer p) [id] false None)
  end.

(** src/couch_db.cc:1341-1378 couchstore_docinfo_by_sequence: the test is on the id index, a missing sequence index is a null
    dereference. *)
Definition docinfo_by_sequence (d : db) (seq : N) : res doc_info :=
  if dropped d then Err E_FILE_CLOSED else
  match h_by_id (dbh d), h_by_seq (dbh d) with
  | None, _ => Err E_DOC_NOT_FOUND
  | Some _, None => Err E_UB
  | Some _, Some p =>
      one_docinfo (btree_lookup (LReq seq_cmp (docinfo_fetch by_seq_read_docinfo) None false) (dbf d) (np_pointer p) [be 6 seq] false None)
  end.

(** src/couch_db.cc:1239-1278 bp_to_doc and 1380-1405 couchstore_open_doc_with_docinfo; [dec] is DECOMPRESS_DOC_BODIES. *)
Definition open_doc_with_docinfo (d : db) (i : doc_info) (dec : bool) : res bytes :=
  if di_bp i =? 0 then Err E_DOC_NOT_FOUND
  else if dropped d then Err E_FILE_CLOSED
  else if dec && flagged i then pread_compressed (dbf d) (di_bp i) else pread_bin (dbf d) (di_bp i).

(** src/couch_db.cc:1407-1431 couchstore_open_document. *)
Definition open_document (d : db) (id : bytes) (dec : bool) : res bytes :=
  if dropped d then Err E_FILE_CLOSED else
  let* i := docinfo_by_id d id in open_doc_with_docinfo d i dec.

(** include/libcouchstore/couch_db.h:617-635 the options of the enumerations. *)
Record enumopts := EnumOpts { eo_deletes_only : bool; eo_no_deletes : bool; eo_tolerate : bool }.

Section Enum.
Variable U : Type.

(** src/couch_db.cc:1446-1511 lookup_callback; [cb] is the user's callback (a positive result of it counts as success), [read] is the
    reader for the kind of index. *)
Definition lookup_callback (o : enumopts) (read : bytes -> bytes -> res doc_info) (cb : doc_info -> U -> res unit * U)
    (k : bytes) (v : option bytes) (u : U) : res unit * U :=
  match v with
  | None => (Ok tt, u)
  | Some b =>
      let x := match read k b with
               | Err E_CORRUPT => if eo_tolerate o then Ok (DocInfo k 0 0 b false 0 0 0) else Err E_CORRUPT
               | r => r
               end in
      match x with
      | Err e => (Err e, u)
      | Ok i =>
          if eo_deletes_only o && negb (di_deleted i) then (Ok tt, u)
          else if eo_no_deletes o && di_deleted i then (Ok tt, u)
          else cb i u
      end
  end.
Definition enum_request (cmp : bytes -> bytes -> comparison) (o : enumopts) (tol : bool) (read : bytes -> bytes -> res doc_info)
    (cb : doc_info -> U -> res unit * U) : lreq U := LReq cmp (lookup_callback o read cb) None tol.

(** src/couch_db.cc:1513-1556 couchstore_changes_since. *)
Definition changes_since (d : db) (since : N) (o : enumopts) (cb : doc_info -> U -> res unit * U) (u : U) : res unit * U :=
  if dropped d then (Err E_FILE_CLOSED, u) else
  match h_by_seq (dbh d) with
  | None => (Ok tt, u)
  | Some p => btree_lookup (enum_request seq_cmp o (eo_tolerate o) by_seq_read_docinfo cb) (dbf d) (np_pointer p) [be 6 since] true u
  end.

(** src/couch_db.cc:1558-1595 couchstore_all_docs; a null start key is the empty key. *)
Definition all_docs (d : db) (start : bytes) (o : enumopts) (cb : doc_info -> U -> res unit * U) (u : U) : res unit * U :=
  if dropped d then (Err E_FILE_CLOSED, u) else
  match h_by_id (dbh d) with
  | None => (Ok tt, u)
  | Some p => btree_lookup (enum_request ebin_cmp o (eo_tolerate o) by_id_read_docinfo cb) (dbf d) (np_pointer p) [start] true u
  end.

(** src/couch_db.cc:1734-1793 iterate_docinfos; the filter options are not passed on. *)
Definition iterate_docinfos (d : db) (keys : list bytes) (root : option node_pointer) (cmp : bytes -> bytes -> comparison)
    (read : bytes -> bytes -> res doc_info) (ranges tol : bool) (cb : doc_info -> U -> res unit * U) (u : U) : res unit * U :=
  if dropped d then (Err E_FILE_CLOSED, u) else
  match root with
  | None => (Ok tt, u)
  | Some p =>
      match keys with
      | [] => (Err E_INVALID_ARGUMENTS, u)
      | _ :: _ =>
          let ks := if ranges then keys else isort (fun a b => gtc (cmp a b)) keys in
          btree_lookup (enum_request cmp (EnumOpts false false false) tol read cb) (dbf d) (np_pointer p) ks ranges u
      end
  end.
(** src/couch_db.cc:1795-1810 couchstore_docinfos_by_id. *)
Definition docinfos_by_id (d : db) (ids : list bytes) (ranges tol : bool) (cb : doc_info -> U -> res unit * U) (u : U) : res unit * U :=
  iterate_docinfos d ids (h_by_id (dbh d)) ebin_cmp by_id_read_docinfo ranges tol cb u.
(** src/couch_db.cc:1812-1844 couchstore_docinfos_by_sequence. *)
Definition docinfos_by_sequence (d : db) (seqs : list N) (ranges tol : bool) (cb : doc_info -> U -> res unit * U) (u : U) : res unit * U :=
  iterate_docinfos d (map (be 6) seqs) (h_by_seq (dbh d)) seq_cmp by_seq_read_docinfo ranges tol cb u.
End Enum.

(** include/libcouchstore/couch_db.h DbInfo without the file name. *)
Record dbinfo := DbInfo { in_seq : N; in_purge : N; in_docs : N; in_deleted : N; in_space : N; in_size : N; in_pos : N }.

(** src/couch_db.cc:1846-1876 couchstore_db_info. *)
Definition db_info (d : db) : res dbinfo :=
  let h := dbh d in
  let sub r := match r with Some p => np_subtree p | None => 0 end in
  let* x := match h_by_id h with
            | None => Ok (0, 0, 0)
            | Some p =>
                if lenN (np_reduce p) <? 16 then Err E_CORRUPT else
                let* a := rd_be 5 0 (np_reduce p) in
                let* b := rd_be 5 5 (np_reduce p) in
                let* c := rd_be 6 10 (np_reduce p) in
                Ok (a, b, c)
            end in
  let '(nd, dl, sz) := x in
  Ok (DbInfo (h_update_seq h) (h_purge_seq h) nd dl
        ((sz + sub (h_by_id h) + sub (h_by_seq h) + sub (h_local h)) mod 2^64) (fpos (dbf d)) (h_position h)).

(** src/couch_db.cc:2109-2132 couchstore_changes_count. *)
Definition changes_count (d : db) (min_seq max_seq : N) : res N :=
  match h_by_seq (dbh d) with
  | None => Ok 0
  | Some p => eval_seq_reduce seq_cmp (depth_fuel (dbf d)) (dbf d) (be 6 min_seq) (be 6 max_seq) false (np_pointer p) 0
  end.

(** ** Local documents *)

(** include/libcouchstore/couch_common.h struct LocalDoc. *)
Record local_doc := LocalDoc { ld_id : bytes; ld_json : bytes; ld_deleted : bool }.

(** src/couch_db.cc:1878-1907 local_doc_fetch. *)
Definition local_doc_fetch (k : bytes) (v : option bytes) (u : option local_doc) : res unit * option local_doc :=
  match v with
  | None => (Ok tt, None)
  | Some b => (Ok tt, Some (LocalDoc k b false))
  end.

(** src/couch_db.cc:1909-1943 couchstore_open_local_document. *)
Definition open_local_document (d : db) (id : bytes) : res local_doc :=
  if dropped d then Err E_FILE_CLOSED else
  match h_local (dbh d) with
  | None => Err E_DOC_NOT_FOUND
  | Some p =>
      match btree_lookup (LReq ebin_cmp local_doc_fetch None false) (dbf d) (np_pointer p) [id] false None with
      | (Err e, _) => Err e
      | (Ok _, None) => Err E_DOC_NOT_FOUND
      | (Ok _, Some x) => Ok x
      end
  end.

(** src/couch_db.cc:1953-1960 and 2002-2010. *)
Definition local_action (x : local_doc) : action :=
  Action (if ld_deleted x then A_REMOVE else A_INSERT) (ld_id x) (ld_json x) 0.

(** src/couch_db.cc:1976-1983 and 2022-2028, src/db_compact.cc:549-557; [rq]: the request. *)
Definition update_locals (rq : request) (d : db) (acts : list action) : res unit * db :=
  let h := dbh d in
  match modify_btree rq (h_local h) acts (St (dbf d) [] false) with
  | (Err e, s) => (Err e, Db (st_f s) h (dropped d))
  | (Ok r, s) => (Ok tt, Db (st_f s) (set_roots h (h_by_id h) (h_by_seq h) r) (dropped d))
  end.

(** src/couch_db.cc:1945-1984 couchstore_save_local_document. *)
Definition save_local_document (c : cfg) (d : db) (x : local_doc) : res unit * db :=
  if dropped d then (Err E_FILE_CLOSED, d) else update_locals (local_request c) d [local_action x].

(** src/couch_db.cc:1986-2029 saveLocalDocuments. *)
Definition save_local_documents (c : cfg) (d : db) (l : list local_doc) : res unit * db :=
  if dropped d then (Err E_FILE_CLOSED, d) else
  update_locals (local_request c) d (map local_action (isort (fun a b => gtc (ebin_cmp (ld_id a) (ld_id b))) l)).

End WithEnv.
