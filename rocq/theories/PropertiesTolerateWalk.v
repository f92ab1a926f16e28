(** Property C70: tolerant walks over the nodes of an index. *)
From Verif Require Import Base SpecOrder Codec CodecFacts File FileFacts ChunkFacts Header HeaderFacts History CrashFacts DataFacts SpecCrash NavFacts ReachNav OpenFacts CommitFacts SpecFile PropertiesCrash
  Btree BtreeRead TreeStore SpecMap MergeFacts ModifyFacts LookupFacts Db SpecDb SortFacts ReduceFacts DbFacts DbSave DbRead TreeWriter Compact SpecCompact CompactFacts
  SpecSession ShowFacts SessionFacts ReadFacts SaveFacts ErrorFacts EnvExample SessionExample PropertiesDb PropertiesSave PropertiesTree PropertiesCompact Walk
  SpecRecover RecoverFacts RecoverCopy RecoverLink PropertiesRecover PropertiesTolerate DbckFacts.
Local Open Scope N_scope.
Unset Strict Implicit.

(** A function for the documents, used in a walk that passes over the nodes. *)
Definition on_docs {U : Type} (f : doc_info -> U -> res unit * U) : walk_fn U := fun _ x u => match x with INode _ _ => (Ok tt, u) | IDoc i => f i u end.

Section WithEnv.
Context {E : Env} (EO : EnvOk E).
Lemma walk_same U (f : doc_info -> U -> res unit * U) d root cmp read start o u p : dropped d = false -> root = Some p -> eo_tolerate o = true ->
  snd (walk_tree d root cmp read start o (on_docs f) u) = snd (btree_lookup (enum_request cmp o true read f) (dbf d) (np_pointer p) [start] true u).
Proof.
  intros Hd -> Ht. unfold walk_tree. rewrite Hd. cbn [on_docs]. set (rq := walk_request _ _ _ _). set (rq0 := enum_request _ _ _ _ _).
  pose proof (@lookup_rel E U rq rq0 eq_refl Ht eq_refl eq_refl (walk_node_callback (on_docs f)) eq_refl) as H.
  rewrite <- (H) with (n := 1).
  - destruct (btree_lookup rq _ _ _ _ _) as [y z]. reflexivity.
  - intros [[sz red]|] u1; cbn [walk_node_callback on_docs]; eexists; reflexivity.
  - intros k vv u1. cbn [rq rq0 walk_request enum_request l_fetch walk_fetch]. unfold walk_fetch.
    assert (Hcb : forall uu, lookup_callback o read (fun i u => on_docs f (fst u1) (IDoc i) u) k vv uu = lookup_callback o read f k vv uu) by reflexivity.
    rewrite Hcb. destruct (lookup_callback _ _ _ _ _ _) as [x z]. split; reflexivity.
Qed.
End WithEnv.

(** Walking in tolerant mode through a damaged file, a function for documents is called for those that are still there, in ascending order, whatever it returns; the order is
    that of ids or that of sequence numbers, and the walk starts at the given key. *)
Theorem C70_walk : forall (E : Env), EnvOk E -> forall key getkey, key_ok key getkey -> forall s h v, sessions key getkey s -> snapshot s h v ->
  forall p, fpos (dbf (ss_db s)) <= p <= size (dbf (ss_db s)) -> forall g, spoiled (dbf (reader s h p)) g ->
  forall o, eo_tolerate o = true ->
  let d := Db g h false in
  (forall start, exists rs is, (forall r, In r rs <-> In r (v_docs v) /\ (exists i, docinfo_by_id d (rv_id r) = Ok i) /\ lex_le start (rv_id r) /\ picked o r) /\
    StronglySorted id_before rs /\ Forall2 about is rs /\ forall U f (u : U), snd (walk_id_tree d start o (on_docs f) u) = snd (feed_on f is u)) /\
  (forall start, start < 2^48 -> exists rs is, (forall r, In r rs <-> In r (v_docs v) /\ (exists i, docinfo_by_sequence d (rv_seq r) = Ok i) /\ start <= rv_seq r /\ picked o r) /\
    StronglySorted seq_before rs /\ Forall2 about is rs /\ forall U f (u : U), snd (walk_seq_tree d start o (on_docs f) u) = snd (feed_on f is u)).
Proof.
  intros E EO key getkey KO s h v H Sn p Hp g Sp o Ht. cbv zeta. split.
  - intros start. destruct (C70_all EO KO H Sn Hp Sp start Ht) as (rs & is & A1 & A2 & A3 & A4). exists rs, is. split; [exact A1|]. split; [exact A2|]. split; [exact A3|]. intros U f u.
    destruct (A4 U f u) as [A5 _]. rewrite <- A5. unfold walk_id_tree, all_docs. cbn [dropped dbh dbf]. destruct (h_by_id h) as [p0|] eqn:Hp0.
    + rewrite (@walk_same E U f (Db g h false) (Some p0) ebin_cmp by_id_read_docinfo start o u p0 eq_refl eq_refl Ht), Ht. reflexivity.
    + reflexivity.
  - intros start Hs. destruct (C70_changes EO KO H Sn Hp Sp Hs Ht) as (rs & is & A1 & A2 & A3 & A4). exists rs, is. split; [exact A1|]. split; [exact A2|]. split; [exact A3|]. intros U f u.
    destruct (A4 U f u) as [A5 _]. rewrite <- A5. unfold walk_seq_tree, changes_since. cbn [dropped dbh dbf]. destruct (h_by_seq h) as [p0|] eqn:Hp0.
    + rewrite (@walk_same E U f (Db g h false) (Some p0) seq_cmp by_seq_read_docinfo (be 6 start) o u p0 eq_refl eq_refl Ht), Ht. reflexivity.
    + reflexivity.
Qed.
Print Assumptions C70_walk.

Example C70_walk_ex : @spoiled env0 (dbf ysrc) (dbf seq_hit) /\ @sessions env0 None gks sy1 /\ @snapshot env0 sy1 (dbh (ss_db sy1)) (ss_now sy1) /\
  (fpos (dbf (ss_db sy1)) <=? size (dbf (ss_db sy1))) = true /\ @docinfo_by_sequence env0 seq_hit 2 = Err E_CHECKSUM /\
  snd (@walk_seq_tree _ env0 seq_hit 0 tolerant (on_docs gather) []) = [[97]; [99]; [100]; [101]] /\ snd (@walk_seq_tree _ env0 seq_hit 4 tolerant (on_docs gather) []) = [[100]; [101]] /\
  @walk_seq_tree _ env0 seq_hit 0 (EnumOpts false false false) (on_docs gather) [] = (Err E_CHECKSUM, [[97]]).
Proof.
  split; [apply spoiled_check; vm_compute; reflexivity|]. split; [exact sy1_session|]. split; [left; split; reflexivity|]. repeat split; vm_compute; reflexivity.
Qed.

(** The result does not tell about the damage: the walks succeed though a document is lost. (The enumeration of the same file reports the error, [C70_ex].) *)
Theorem C70_walk_refuted : exists (E : Env) s g g', EnvOk E /\ sessions None gks s /\ spoiled (dbf (reader s (dbh (ss_db s)) (fpos (dbf (ss_db s))))) g /\ spoiled (dbf (reader s (dbh (ss_db s)) (fpos (dbf (ss_db s))))) g' /\
  docinfo_by_id (ss_db s) [98] <> Err E_CHECKSUM /\
  docinfo_by_id (Db g (dbh (ss_db s)) false) [98] = Err E_CHECKSUM /\ walk_id_tree (Db g (dbh (ss_db s)) false) [] tolerant (on_docs gather) [] = (Ok tt, [[97]; [99]; [100]; [101]]) /\
  docinfo_by_sequence (Db g' (dbh (ss_db s)) false) 2 = Err E_CHECKSUM /\ walk_seq_tree (Db g' (dbh (ss_db s)) false) 0 tolerant (on_docs gather) [] = (Ok tt, [[97]; [99]; [100]; [101]]).
Proof.
  exists env0, sy1, (dbf id_hit), (dbf seq_hit). split; [exact env0_ok|]. split; [exact sy1_session|]. split; [fold ysrc; apply spoiled_check; vm_compute; reflexivity|].
  split; [fold ysrc; apply spoiled_check; vm_compute; reflexivity|]. split; [vm_compute; discriminate|]. repeat split; vm_compute; reflexivity.
Qed.
Print Assumptions C70_walk_refuted.
