(** Specification vocabulary for reading damaged files. *)
From Verif Require Import Base Codec File Header Btree SpecMap Db SpecDb SpecSession.
Local Open Scope N_scope.
Unset Strict Implicit.

Section WithEnv.
Context {E : Env}.
(** The file [g] is [f] with damage that is noticed: reading a chunk gives what it gives in [f], or an error. *)
Definition spoiled (f g : file) : Prop := fpos g = fpos f /\ forall pos, pread_bin g pos = pread_bin f pos \/ exists e, pread_bin g pos = Err e.
(** The document can still be read through the handle [d]: its information is found by its sequence number, and its body, if it has one, is read. *)
Definition readable_doc (d : db) (r : revision) : Prop :=
  exists i, docinfo_by_sequence d (rv_seq r) = Ok i /\ about i r /\ (rv_body r <> None -> exists b, open_doc_with_docinfo d i false = Ok b).

(** Calling [cb] for every element, whatever it returns; whether all calls succeeded. *)
Fixpoint feed_on {U : Type} (cb : doc_info -> U -> res unit * U) (l : list doc_info) (u : U) : bool * U :=
  match l with
  | [] => (true, u)
  | i :: r => let '(y, u1) := cb i u in let '(b, u2) := feed_on cb r u1 in ((match y with Ok _ => b | Err _ => false end), u2)
  end.
(** A tolerant enumeration [run] of the revisions in a range, restricted by options, in a damaged file: it delivers those that are still [there], in ascending order.
    Success means that none in the range is missing and that all calls succeeded; and it is reported then, unless there is nothing in the range. *)
Definition delivers_left (v : contents) (before : revision -> revision -> Prop) (there range sel : revision -> Prop)
    (run : forall U : Type, (doc_info -> U -> res unit * U) -> U -> res unit * U) : Prop :=
  exists rs is, (forall r, In r rs <-> In r (v_docs v) /\ there r /\ range r /\ sel r) /\ StronglySorted before rs /\ Forall2 about is rs /\
    forall U cb (u : U), snd (run U cb u) = snd (feed_on cb is u) /\
      (fst (run U cb u) = Ok tt -> fst (feed_on cb is u) = true /\ forall r, In r (v_docs v) -> range r -> there r) /\
      (fst (feed_on cb is u) = true -> (forall r, In r (v_docs v) -> range r -> there r) -> (exists r, In r (v_docs v) /\ range r) -> fst (run U cb u) = Ok tt).
End WithEnv.
