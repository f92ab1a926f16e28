(** Model of src/db_compact.cc:503-775: replaying the changes made to the source of a compaction in the target. *)
From Verif Require Import Base Codec File Header Btree BtreeRead SpecMap Db.
Local Open Scope N_scope.

Section WithEnv.
Context {E : Env}.

(** src/db_compact.cc:505-519 updateLocalDocumentsCallback. The test of the key (against the action that the callback expects next) never fails:
    the callback is called exactly once for each action, in the order of the actions, with the key of the action. *)
Definition locals_fetch (a : action) (v : option bytes) : res bool :=
  match v with
  | Some b => Ok (match ebin_cmp b (a_data a) with Eq => true | _ => false end)
  | None => Ok false
  end.

(** src/db_compact.cc:539-549. *)
Definition update_request (c : cfg) : request :=
  Request ebin_cmp None None (c_kv c) (c_kp c) false (Some locals_fetch) None None None.

(** src/db_compact.cc:529-533. *)
Definition update_action (x : local_doc) : action := Action A_FETCH_INSERT (ld_id x) (ld_json x) 0.

(** src/db_compact.cc:521-560 updateLocalDocuments. *)
Definition update_local_documents (c : cfg) (d : db) (l : list local_doc) : res unit * db :=
  if dropped d then (Err E_FILE_CLOSED, d) else
  update_locals (update_request c) d (isort (fun a b => gtc (ebin_cmp (a_key a) (a_key b))) (map update_action l)).

(** src/db_compact.cc:562-583 Context: the target, the documents collected so far, and their size. A collected document stands for an element of docs
    and the one of docInfos. *)
Record context := Context { cx_db : db; cx_locals : list local_doc; cx_docs : list submit; cx_size : N }.

(** src/db_compact.cc:624-654 flush. *)
Definition flush (c : cfg) (x : context) : res unit * context :=
  match cx_locals x with
  | _ :: _ =>
      match update_local_documents c (cx_db x) (cx_locals x) with
      | (Ok _, d) => (Ok tt, Context d [] (cx_docs x) 0)
      | (Err e, d) => (Err e, Context d (cx_locals x) (cx_docs x) (cx_size x))
      end
  | [] =>
      match cx_docs x with
      | [] => (Ok tt, x)
      | _ :: _ =>
          let R := save_documents c (SaveOpts false true) false (cx_docs x) (cx_db x) in
          match sv_res R with
          | Ok _ => (Ok tt, Context (sv_db R) [] [] 0)
          | Err e => (Err e, Context (sv_db R) [] (cx_docs x) (cx_size x))
          end
      end
  end.

(** src/db_compact.cc:585-622, both functions spool; [sz]: the size of the document. The 64-bit counter does not overflow here. *)
Definition spooled (c : cfg) (limit : N) (x : context) : res unit * context :=
  if limit <? cx_size x then flush c x else (Ok tt, x).
Definition spool_local (c : cfg) (limit : N) (y : local_doc) (x : context) : res unit * context :=
  spooled c limit (Context (cx_db x) (cx_locals x ++ [y]) (cx_docs x) (cx_size x + (lenN (ld_id y) + lenN (ld_json y)))).
Definition spool_doc (c : cfg) (limit : N) (i : doc_info) (b : option bytes) (x : context) : res unit * context :=
  spooled c limit (Context (cx_db x) (cx_locals x) (cx_docs x ++ [Submit b i 0]) (cx_size x + di_physical_size i)).

(** The pre-copy hook, include/libcouchstore/couch_db.h:1370-1383; it is given the information about a document, or about a local document
    ([true]). It sees the two databases, but does not change them here. *)
Definition precopy_hook : Type := bool -> doc_info -> res unit.

(** src/db_compact.cc:711-721. *)
Definition local_info (y : local_doc) : doc_info := DocInfo (ld_id y) 0 0 [] false 0 0 (lenN (ld_json y)).
(** src/couch_cxx_util.cc:95-127 scanLocalDocsCallback with the function src/db_compact.cc:711-721. *)
Definition replay_local (c : cfg) (limit : N) (hook : precopy_hook) (k : bytes) (v : option bytes) (x : context) : res unit * context :=
  match v with
  | None => (Ok tt, x)
  | Some b =>
      let y := LocalDoc k b false in
      match hook true (local_info y) with
      | Err e => (Err e, x)
      | Ok _ => spool_local c limit y x
      end
  end.
(** src/couch_cxx_util.cc:129-160 scanLocalDocs from the beginning. *)
Definition scan_locals (U : Type) (cb : bytes -> option bytes -> U -> res unit * U) (d : db) (u : U) : res unit * U :=
  if dropped d then (Err E_FILE_CLOSED, u) else
  match h_local (dbh d) with
  | None => (Ok tt, u)
  | Some p => btree_lookup (LReq ebin_cmp cb None false) (dbf d) (np_pointer p) [[]] true u
  end.

(** src/db_compact.cc:667-686 couchstore_changes_callback. *)
Definition replay_doc (c : cfg) (limit : N) (hook : precopy_hook) (src : db) (i : doc_info) (x : context) : res unit * context :=
  match hook false i with
  | Err e => (Err e, x)
  | Ok _ =>
      match open_doc_with_docinfo src i false with
      | Ok b => spool_doc c limit i (Some b) x
      | Err e => if di_deleted i && (match e with E_DOC_NOT_FOUND => true | _ => false end) then spool_doc c limit i None x else (Err e, x)
      end
  end.

(** src/db_compact.cc:499-501 couchstore_set_purge_seq. *)
Definition set_purge_seq (d : db) (n : N) : db :=
  let h := dbh d in
  Db (dbf d) (Header (h_version h) (h_update_seq h) (h_by_id h) (h_by_seq h) (h_local h) n (h_purge_ptr h) (h_position h) (h_timestamp h)
    (h_prev h) (h_meta h)) (dropped d).

(** src/db_compact.cc:709-749, from the scan of the local documents to the last flush and couchstore_set_purge_seq; [src]: the source at the header sought;
    [since]: the last sequence number of the header it had before. The sum is one of 64 bits. An exception counts as the error it reports. *)
Definition replay_changes (c : cfg) (limit : N) (hook : precopy_hook) (src : db) (since : N) (target : db) : res unit * db :=
  match scan_locals (replay_local c limit hook) src (Context target [] [] 0) with
  | (Err e, x) => (Err e, cx_db x)
  | (Ok _, x1) =>
      match flush c x1 with
      | (Err e, x) => (Err e, cx_db x)
      | (Ok _, x2) =>
          match changes_since src ((since + 1) mod 2^64) (EnumOpts false false false) (replay_doc c limit hook src) x2 with
          | (Err e, x) => (Err e, cx_db x)
          | (Ok _, x3) =>
              match flush c x3 with
              | (Err e, x) => (Err e, cx_db x)
              | (Ok _, x4) => (Ok tt, set_purge_seq (cx_db x4) (h_purge_seq (dbh src)))
              end
          end
      end
  end.

(** src/db_compact.cc:688-775 replay; [precommit]: what the precommit hook answers. Result: the error, and the target. *)
Definition replay (c : cfg) (limit : N) (hook : precopy_hook) (precommit : res unit) (source : db) (offset : N) (target : db) : res unit * db :=
  match seek source offset with
  | (Err e, _) => (Err e, target)
  | (Ok _, src) =>
      match replay_changes c limit hook src (h_update_seq (dbh source)) target with
      | (Err e, d) => (Err e, d)
      | (Ok _, d) =>
          match precommit with
          | Err e => (Err e, d)
          | Ok _ => commit_ex d (h_timestamp (dbh src)) 0
          end
      end
  end.
End WithEnv.
