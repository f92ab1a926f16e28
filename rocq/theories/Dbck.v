(** Model of src/dbck.cc: the program couch_dbck, which recovers a damaged database into a new file. *)
From Verif Require Import Base Codec File Header History Btree BtreeRead SpecMap Db Compact Walk.
Local Open Scope N_scope.
Unset Strict Implicit.

(** src/dbck.cc:87-144 recover_file_hook: whatever it finds, it returns 0, that is KEEP_ITEM (include/libcouchstore/couch_db.h:940-974). What it counts is in [count_doc]. *)
Definition dbck_hook (i : doc_info) (b : option bytes) : hook := HKeep.
(** The arguments of couchstore_compact_db_ex, src/dbck.cc:324-333. *)
Definition dbck_options : copts := COpts false false true (Some dbck_hook) (Ok tt) None.

Section WithEnv.
Context {E : Env}.
Variable c : cfg.

(** src/dbck.cc:87-144 recover_file_hook: the counters num_visited_docs and num_corrupted_docs, with the decoding before the call (src/db_compact.cc:298-335). *)
Definition count_doc (src : db) (k : bytes) (v : option bytes) (u : N * N) : res unit * (N * N) :=
  match v with
  | None => (Ok tt, u)
  | Some b =>
      match by_seq_read_docinfo k b with
      | Err e => (Err e, u)
      | Ok i =>
          (Ok tt, (fst u + 1,
                   if di_deleted i then snd u else match open_doc_with_docinfo src i false with Ok _ => snd u | Err _ => snd u + 1 end))
      end
  end.
(** The calls of the hook in the compaction (src/db_compact.cc:391-442). Simplified: they are made in a scan of their own; the hook does not influence the compaction. *)
Definition hook_counts (src : db) : N * N :=
  match h_by_seq (dbh src) with
  | None => (0, 0)
  | Some p => snd (btree_lookup (LReq seq_cmp (count_doc src) None true) (dbf src) (np_pointer p) [be 6 0] true (0, 0))
  end.

(** src/dbck.cc:168-230 rewind_hook. The context is the recovered database and num_docs_recovered; [src] is db_src. The result of couchstore_save_document is not looked at. *)
Definition rewind_hook (src : db) (depth : N) (x : item) (u : db * N) : res unit * (db * N) :=
  match x with
  | INode _ _ => (Ok tt, u)
  | IDoc i =>
      match docinfo_by_id (fst u) (di_id i) with
      | Ok _ => (Ok tt, u)
      | Err _ =>
          match open_doc_with_docinfo src i false with
          | Err _ => (Ok tt, u)
          | Ok b => (Ok tt, (sv_db (save_documents c (SaveOpts false true) false [Submit (Some b) i 0] (fst u)), snd u + 1))
          end
      end
  end.

(** src/dbck.cc:244-271, the loop of rewind_and_get_stale_data; [d] is the handle that is rewound, [u] the recovered database and the number of documents recovered. *)
Fixpoint rewind_loop (fuel : nat) (src d : db) (u : db * N) : db * N :=
  match fuel with
  | O => u
  | S k =>
      match rewind_db_header d with
      | Err _ => u
      | Ok d' => rewind_loop k src d' (snd (walk_id_tree d' [] (EnumOpts false false true) (rewind_hook src) u))
      end
  end.
(** src/dbck.cc:232-281 rewind_and_get_stale_data. The handle opened there is on the same file, at the same header as [src]. Every step goes to a header at a lower position ([rewind_lower]), so there are not more steps than
    this position. *)
Definition rewind_and_get_stale_data (src recovered : db) : db * N :=
  rewind_loop (S (N.to_nat (h_position (dbh src)))) src src (recovered, 0).

(** What the program ends with: the result that the exit code is made of, the counters that are printed (documents referred to, corrupted documents, documents recovered from
    stale headers), whether an error was detected, and the recovered database. *)
Record dbck_end := DbckEnd { dk_res : res unit; dk_visited : N; dk_corrupted : N; dk_stale : N; dk_detected : bool; dk_db : db }.

(** src/dbck.cc:283-404 recover_file, after opening the source twice: both handles are [src]. [pl], [pl2]: behaviour of the writes to the destination before and after it is
    opened again; [stale]: the option --stale; [ts]: the time of the commit. If the destination cannot be opened, couchstore_db_info gets a null pointer (lines 335-342). *)
Definition recover_file (getkey : N -> bytes -> bytes -> res N) (src : db) (pl pl2 : list wstep) (stale : bool) (ts : N) (retries : nat) : res dbck_end :=
  let '(r, t) := compact c dbck_options src (empty_file pl) None in
  match open_existing (image (File.cur (dbf t)) (size (dbf t)) pl2) getkey false false with
  | Err _ => Err E_UB
  | Ok d =>
      let '(visited, corrupted) := hook_counts src in
      let detected := (match r with Ok _ => false | Err _ => true end) || (0 <? corrupted) in
      let '(d1, n) := if detected && stale then rewind_and_get_stale_data src d else (d, 0) in
      let '(x, d2) := if 0 <? n then commit_ex d1 ts retries else (Ok tt, d1) in
      Ok (DbckEnd x visited corrupted n detected d2)
  end.
End WithEnv.
