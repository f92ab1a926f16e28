(** A handle whose indexes hold given contents shows them to its user. *)
From Coq Require Import Sorting.Permutation.
From Verif Require Import Base SpecOrder Codec CodecFacts File FileFacts ChunkFacts Header Btree BtreeRead SpecMap MergeFacts ModifyFacts LookupFacts
  Db SortFacts ReduceFacts SpecDb DbFacts DbSave DbRead SpecSession History.
Local Open Scope N_scope.
Unset Strict Implicit.

Lemma ss_filter A (P : A -> A -> Prop) b l : StronglySorted P l -> StronglySorted P (filter b l).
Proof.
  induction 1 as [|x l Hs IH Hall]; cbn [filter]; [constructor|]. destruct (b x); [|exact IH]. constructor; [exact IH|].
  apply Forall_forall. intros y Hy. apply filter_In in Hy. rewrite Forall_forall in Hall. now apply Hall.
Qed.
Lemma ss_forall2 A B (R : A -> B -> Prop) (P : A -> A -> Prop) (Q : B -> B -> Prop) l m :
  (forall a a' b b', In a l -> In a' l -> R a b -> R a' b' -> P a a' -> Q b b') -> StronglySorted P l -> Forall2 R l m -> StronglySorted Q m.
Proof.
  intros H Hs. revert m H. induction Hs as [|x l Hs IH Hall]; intros m H F; inversion F; subst; constructor.
  - apply IH; [|assumption]. intros. eapply H; [right; exact H0|right; eassumption|eassumption..].
  - apply Forall_forall. intros y' Hy. assert (He : exists a, In a l /\ R a y').
    { match goal with HF : Forall2 R l ?m |- _ => clear - HF Hy; induction HF as [|a b l m HR HF IH]; [destruct Hy|] end.
      destruct Hy as [->|Hy]; [exists a; split; [now left|exact HR]|]. destruct (IH Hy) as (a' & H1 & H2). exists a'. split; [now right|exact H2]. }
    destruct He as (a & Ha & HR). rewrite Forall_forall in Hall. eapply H; [now left|right; exact Ha|eassumption|exact HR|now apply Hall].
Qed.
Lemma ge_lex a b : ge (ebin_cmp a b) = true <-> lex_le b a.
Proof.
  unfold lex_le. rewrite <- ebin_lex, (ebin_antisym a b). destruct (ebin_cmp a b) eqn:H; cbn.
  - apply ebin_eq in H. subst b. tauto.
  - split; [discriminate|]. intros [->|Hx]; [|discriminate]. now rewrite ebin_refl in H.
  - tauto.
Qed.
Lemma le_lex a b : negb (gtc (ebin_cmp a b)) = true <-> lex_le a b.
Proof.
  unfold lex_le. rewrite <- ebin_lex. destruct (ebin_cmp a b) eqn:H; cbn.
  - apply ebin_eq in H. subst b. tauto.
  - tauto.
  - split; [discriminate|]. intros [->|Hx]; [|discriminate]. now rewrite ebin_refl in H.
Qed.

Section WithEnv.
Context {E : Env} (EO : EnvOk E).

Section Show.
Variable d : db.
Variable v : contents.
Variable ps : list (doc_info * revision).
Hypothesis G : good (dbf d).
Hypothesis Hd : dropped d = false.
Hypothesis S : stored (dbf d) (dbh d) v ps.

Lemma pair_shown i r : In (i, r) ps -> shown d i r.
Proof.
  intros H. pose proof (pair_rep S H) as R. split; [exact (proj1 R)|]. intros dec. exact (open_ok EO G Hd dec R).
Qed.

Lemma pairs_of L : (forall i, In i L -> In i (map fst ps)) -> exists rs, Forall2 (fun i r => In (i, r) ps) L rs.
Proof.
  induction L as [|i L IH]; intros H; [exists []; constructor|]. destruct IH as [rs Hrs]; [intros j Hj; apply H; now right|].
  assert (Hi : In i (map fst ps)) by (apply H; now left). apply in_map_iff in Hi. destruct Hi as ([j r] & He & Hp). cbn [fst] in He. subst j.
  exists (r :: rs). constructor; assumption.
Qed.

Lemma pair_fun i r r' : In (i, r) ps -> In (i, r') ps -> r = r'.
Proof.
  intros H1 H2. assert (He : (i, r) = (i, r')) by (eapply nodup_map_eq; [exact (sd_ids S)|exact H1|exact H2|reflexivity]). congruence.
Qed.

Lemma deliver (sort : list doc_info -> list doc_info) (before : revision -> revision -> Prop) (sel : revision -> Prop) (b : doc_info -> bool) (P : doc_info -> doc_info -> Prop) run :
  (forall l i, In i (sort l) <-> In i l) -> StronglySorted P (sort (map fst ps)) ->
  (forall i i' r r', In (i, r) ps -> In (i', r') ps -> P i i' -> before r r') ->
  (forall i r, In (i, r) ps -> b i = true <-> sel r) ->
  (forall U cb (u : U), run U cb u = feed cb (filter b (sort (map fst ps))) u) ->
  delivers d v before sel run.
Proof.
  intros Hin Hs HP Hb Hrun. set (L := filter b (sort (map fst ps))) in *.
  assert (HL : forall i, In i L <-> In i (map fst ps) /\ b i = true) by (intros i; unfold L; rewrite filter_In, Hin; reflexivity).
  destruct (@pairs_of L) as [rs Hrs]; [intros i Hi; now apply HL|].
  exists rs, L. split; [|split; [|split; [|exact Hrun]]].
  - intros r. split.
    + intros Hr. assert (He : exists i, In i L /\ In (i, r) ps).
      { clear - Hrs Hr. induction Hrs as [|i r' L rs HR F IH]; [destruct Hr|]. destruct Hr as [->|Hr]; [exists i; split; [now left|exact HR]|].
        destruct (IH Hr) as (j & H1 & H2). exists j. split; [now right|exact H2]. }
      destruct He as (i & Hi & Hp). split.
      * rewrite <- (sd_docs S). apply in_map_iff. exists (i, r). auto.
      * apply HL in Hi. now apply (Hb i r Hp).
    + intros [Hr Hsel]. rewrite <- (sd_docs S) in Hr. apply in_map_iff in Hr. destruct Hr as ([i r'] & He & Hp). cbn [snd] in He. subst r'.
      assert (Hi : In i L) by (apply HL; split; [apply in_map_iff; exists (i, r); auto|now apply (Hb i r Hp)]).
      assert (He : exists r', In r' rs /\ In (i, r') ps).
      { clear - Hrs Hi. induction Hrs as [|j r' L rs HR F IH]; [destruct Hi|]. destruct Hi as [->|Hi]; [exists r'; split; [now left|exact HR]|].
        destruct (IH Hi) as (x & H1 & H2). exists x. split; [now right|exact H2]. }
      destruct He as (r' & H1 & H2). now rewrite (pair_fun Hp H2).
  - eapply ss_forall2; [|apply (ss_filter b Hs)|exact Hrs]. intros a a' r r' _ _ H1 H2. now apply HP.
  - eapply Forall2_impl; [|exact Hrs]. intros i r. apply pair_shown.
Qed.

Lemma pair_about i r : In (i, r) ps -> about i r.
Proof. intros H. exact (proj1 (pair_rep S H)). Qed.
Lemma id_strict : StronglySorted (fun a b => ebin_cmp (di_id a) (di_id b) = Lt) (by_id (map fst ps)).
Proof. pose proof (by_id_sorted _ (ids_nodup S)) as H. unfold sorted in H. rewrite <- ss_map in H. exact H. Qed.
Lemma seq_strict : StronglySorted (fun a b => di_db_seq a < di_db_seq b) (by_seq (map fst ps)).
Proof.
  pose proof (by_seq_sorted (sd_ok S) (sd_seqs S)) as H. unfold sorted in H. rewrite <- ss_map in H.
  eapply ss_impl; [|exact H]. intros a b Ha Hb Hc. cbn [seq_entry fst] in Hc. rewrite in_by_seq in Ha, Hb.
  rewrite seq_cmp_be in Hc; [|exact (dok_seq (in_ok S Ha))|exact (dok_seq (in_ok S Hb))]. exact Hc.
Qed.

Lemma chosen_picked o i r : In (i, r) ps -> chosen o i = true <-> picked o r.
Proof.
  intros H. pose proof (ab_deleted (pair_about H)) as He. unfold chosen, picked. rewrite He.
  destruct (eo_deletes_only o), (eo_no_deletes o), (rv_deleted r); cbn; split; try discriminate; intuition congruence.
Qed.

Lemma find_seq n : match find (fun r => rv_seq r =? n) (v_docs v) with
  | Some r => exists i, find (fun i => di_db_seq i =? n) (map fst ps) = Some i /\ In (i, r) ps
  | None => find (fun i => di_db_seq i =? n) (map fst ps) = None
  end.
Proof.
  pose proof (sd_docs S) as H. pose proof (@pair_about) as HA. revert H HA. generalize (v_docs v). clear - ps. induction ps as [|[i r] l IH]; intros docs H HA; cbn [map snd fst] in *; subst docs; cbn [find].
  - reflexivity.
  - assert (He : di_db_seq i = rv_seq r) by (apply ab_seq; apply HA; now left). rewrite He. destruct (rv_seq r =? n).
    + exists i. split; [reflexivity|now left].
    + specialize (IH _ eq_refl (fun j s Hj => HA j s (or_intror Hj))). destruct (find _ (map snd l)) as [r'|].
      * destruct IH as (j & H1 & H2). exists j. split; [exact H1|now right].
      * exact IH.
Qed.

Theorem stored_shows : shows_contents d v.
Proof.
  constructor.
  - exact (sd_seq S).
  - intros id. pose proof (find_pair S id) as H. destruct (find_doc id (v_docs v)) as [r|].
    + destruct H as (i & Ho & Hp). exists i. split; [rewrite (docinfo_by_id_eq EO G Hd S), Ho; reflexivity|]. split; [exact (pair_shown Hp)|].
      intros dec. rewrite (open_document_eq EO G Hd S), Ho. reflexivity.
    + split; [rewrite (docinfo_by_id_eq EO G Hd S), H; reflexivity|]. intros dec. rewrite (open_document_eq EO G Hd S), H. reflexivity.
  - intros n Hn. rewrite (docinfo_by_sequence_eq EO G Hd S Hn). pose proof (find_seq n) as H. destruct (find _ (v_docs v)) as [r|].
    + destruct H as (i & Hf & Hp). exists i. rewrite Hf. split; [reflexivity|exact (pair_shown Hp)].
    + now rewrite H.
  - intros start o Ht. eapply (@deliver by_id); [intros; apply in_by_id|exact id_strict| | |intros U cb u; apply (all_docs_eq EO G Hd S); exact Ht].
    + intros i i' r r' H1 H2 Hlt. unfold id_before. rewrite <- ebin_lex. rewrite <- (ab_id (pair_about H1)), <- (ab_id (pair_about H2)). exact Hlt.
    + intros i r Hp. cbn beta. rewrite andb_true_iff, ge_lex, (chosen_picked o Hp), (ab_id (pair_about Hp)). reflexivity.
  - intros n o Ht Hn. eapply (@deliver by_seq); [intros; apply in_by_seq|exact seq_strict| | |intros U cb u; apply (changes_since_eq EO G Hd S); [exact Ht|exact Hn]].
    + intros i i' r r' H1 H2 Hlt. unfold seq_before. rewrite <- (ab_seq (pair_about H1)), <- (ab_seq (pair_about H2)). exact Hlt.
    + intros i r Hp. cbn beta. rewrite andb_true_iff, N.leb_le, (chosen_picked o Hp), (ab_seq (pair_about Hp)). reflexivity.
  - intros id. exact (open_local_eq EO G Hd S id).
Qed.
End Show.
End WithEnv.
