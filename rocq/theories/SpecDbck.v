(** Specification vocabulary for recovering documents from older versions of a damaged database. *)
From Verif Require Import Base Codec File Header Db SpecDb.
Local Open Scope N_scope.
Unset Strict Implicit.

(** The contents [w] with the revision [r], unless there is a document with its id already. *)
Definition has_id (w : contents) (id : bytes) : bool := existsb (fun x => same (rv_id x) id) (v_docs w).
Definition add_missing (w : contents) (r : revision) : contents :=
  if has_id w (rv_id r) then w else Contents (r :: v_docs w) (v_locals w) (N.max (v_seq w) (rv_seq r)).

Section WithEnv.
Context {E : Env}.
(** The document can be found by its id through the handle, it has a body, and the body can be read. *)
Definition rescued (d : db) (r : revision) : Prop := exists i b, docinfo_by_id d (rv_id r) = Ok i /\ open_doc_with_docinfo d i false = Ok b.
(** The headers that rewinding the handle leads to, until it fails. *)
Inductive older : db -> list header -> Prop :=
| older_end d e : rewind_db_header d = Err e -> older d []
| older_step d d' hs : rewind_db_header d = Ok d' -> older d' hs -> older d (dbh d' :: hs).
End WithEnv.
