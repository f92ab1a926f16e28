(** Model of src/dbdump.cc, the program couch_dbdump: listing documents. *)
From Verif Require Import Base Codec File Header Btree BtreeRead SpecMap Db Dbinfo.
Local Open Scope N_scope.

(** What src/dbdump.cc:421-691 prints about one document: its information; whether it is reported as a corrupt node (lines 452-457: then nothing but the raw value follows);
    the outcome of opening its body, if bodies are asked for. How this is formatted, the parts of the metadata, and the snappy and xattr decoding of the body (lines 596-625) are not modelled. *)
Record printed := Printed { pr_info : doc_info; pr_bad : bool; pr_body : option (res bytes) }.

(** src/dbdump.cc: the modes that list documents (DumpBySequence, DumpByID without and with --key). *)
Inductive dump_mode := BySequence | ById | OneKey (k : bytes).

Section WithEnv.
Context {E : Env}.

(** src/dbdump.cc:421-691 foldprint, without --json: it always returns 0. [body] is false with --no-body. *)
Definition foldprint (body : bool) (d : db) (i : doc_info) (u : list printed) : res unit * list printed :=
  if (di_bp i =? 0) && negb (di_deleted i) then (Ok tt, u ++ [Printed i true None])
  else (Ok tt, u ++ [Printed i false (if body then Some (open_doc_with_docinfo d i true) else None)]).

(** src/dbdump.cc:959-993: one pass over the documents of the current header. *)
Definition dump_once (body : bool) (m : dump_mode) (d : db) : res unit * list printed :=
  match m with
  | BySequence => changes_since d 0 (EnumOpts false false true) (foldprint body d) []
  | ById => all_docs d [] (EnumOpts false false true) (foldprint body d) []
  | OneKey k => match docinfo_by_id d k with Ok i => (Ok tt, snd (foldprint body d i [])) | Err e => (Err e, []) end
  end.

(** src/dbdump.cc:945-1058: the loop over next_header; with every pass the position of its header. With --iterate-headers the outcome of a pass is overwritten by that of the seek (lines 1037-1039). *)
Fixpoint dump_loop (fuel : nat) (body : bool) (m : dump_mode) (iterate : bool) (d : db) : res unit * list (N * list printed) :=
  match fuel with
  | O => (Err E_FUEL, [])
  | S n =>
      let '(x, out) := dump_once body m d in
      let here := (h_position (dbh d), out) in
      if iterate then
        match seek_dir d DBackward with
        | (Ok _, d') => let '(y, l) := dump_loop n body m iterate d' in (y, here :: l)
        | (Err E_NO_HEADER, _) => (Ok tt, [here])
        | (Err e, _) => (Err e, [here])
        end
      else (x, [here])
  end.

(** src/dbdump.cc:901-1059 process_vbucket_file on an existing non-empty file; [offset]: --header-offset. *)
Definition dump_file (f : file) (getkey : N -> bytes -> bytes -> res N) (offset : option N) (body : bool) (m : dump_mode) (iterate : bool) : res unit * list (N * list printed) :=
  match open_at f getkey offset with
  | Err e => (Err e, [])
  | Ok d => dump_loop (S (N.to_nat (size f))) body m iterate d
  end.
End WithEnv.
