(** What replaying the changes of a source database in another database is to do to the contents of the latter. *)
From Verif Require Import Base Codec File SpecMap Db SpecDb.
Local Open Scope N_scope.

(** The contents [t] after replaying what the contents [v] of the source have above the sequence number [since]: the newer documents
    replace or join those of [t], and so do all the local documents. *)
Definition newer (since : N) (v : contents) : list revision := filter (fun r => since <? rv_seq r) (v_docs v).
Definition caught_up (since : N) (v t : contents) : contents :=
  Contents
    (newer since v ++ filter (fun r => negb (existsb (fun n => same (rv_id n) (rv_id r)) (newer since v))) (v_docs t))
    (v_locals v ++ filter (fun x => negb (existsb (fun y => same (fst y) (fst x)) (v_locals v))) (v_locals t))
    (fold_left N.max (map rv_seq (newer since v)) (v_seq t)).

(** The same documents, local documents and last sequence number. *)
Definition same_contents (a b : contents) : Prop :=
  (forall r, In r (v_docs a) <-> In r (v_docs b)) /\ (forall x, In x (v_locals a) <-> In x (v_locals b)) /\ v_seq a = v_seq b.

Section WithEnv.
Context {E : Env}.

(** The body can be stored in any file, encrypted or not. *)
Definition storable (r : revision) : Prop :=
  match rv_body r with None => True | Some c => forall z, stored_as c z -> lenN z + mac_size + 8 < 2^28 end.

(** Changes that replaying can follow: documents are saved under new sequence numbers, above all earlier ones, and local documents are not deleted. *)
Inductive grows : contents -> contents -> Prop :=
| gr_refl v : grows v v
| gr_docs v o l w : batch_ok o l v -> (so_as_is o = true -> Forall (fun x => v_seq v < di_db_seq (sb_info x)) l) -> grows (save o l v) w -> grows v w
| gr_locals v l w : Forall (fun x => ld_deleted x = false) l -> grows (save_locals l v) w -> grows v w.
End WithEnv.
