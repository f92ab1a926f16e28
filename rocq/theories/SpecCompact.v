(** What compaction is to do to the contents of a database. *)
From Verif Require Import Base Codec File SpecMap Db SpecDb Compact.
Local Open Scope N_scope.

(** Which revisions are kept, and the metadata they get. *)
Record policy := Policy { po_keep : revision -> bool; po_meta : revision -> bytes }.
Definition remeta (p : policy) (r : revision) : revision :=
  Rev (rv_id r) (rv_seq r) (rv_rev_seq r) (po_meta p r) (rv_deleted r) (rv_content_meta r) (rv_body r).
Definition compacted (p : policy) (v : contents) : contents :=
  Contents (map (remeta p) (filter (po_keep p) (v_docs v))) (v_locals v) (v_seq v).

(** Everything is kept as it is; everything but the deleted documents. *)
Definition keep_all : policy := Policy (fun _ => true) rv_rev_meta.
Definition keep_live : policy := Policy (fun r => negb (rv_deleted r)) rv_rev_meta.

Section WithEnv.
Context {E : Env}.

(** The flags and hooks decide for the revision [r] as [p] says. Without a filter hook the flag DROP_DELETES decides. A filter hook decides at
    once, or asks for the body of a revision that has one and decides then; it does not depend on the position and the stored size that
    the information has. The rewrite hook is asked for revisions with a body and leaves metadata that fits. *)
Definition verdict (keep : bool) : hook := if keep then HKeep else HDrop.
Record follows (o : copts) (p : policy) (r : revision) : Prop := {
  fo_keep :
    match co_filter o with
    | None => po_keep p r = negb (rv_deleted r && co_drop o)
    | Some g => forall i, about i r ->
        g i None = verdict (po_keep p r) \/
        (g i None = HNeed /\ exists c, rv_body r = Some c /\ forall z, stored_as c z -> g i (Some z) = verdict (po_keep p r))
    end;
  fo_meta : po_keep p r = true ->
    match co_rewrite o, rv_body r with
    | Some g, Some c => forall i z, about i r -> stored_as c z ->
        match g i z with Some m => po_meta p r = m /\ lenN m < 2^27 | None => po_meta p r = rv_rev_meta r end
    | _, _ => po_meta p r = rv_rev_meta r
    end
}.
End WithEnv.
