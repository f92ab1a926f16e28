(** Proofs: the order of JSON values is a total preorder. *)
From Verif Require Import Base Codec Collate SpecJson CollateFacts.
Local Open Scope N_scope.
Unset Strict Implicit.

Section W.
Variable A : Type.
Variable c : A -> A -> comparison.
Lemma words_sym : forall a b, (forall x y, In x a -> In y b -> c y x = CompOpp (c x y)) -> words c b a = CompOpp (words c a b).
Proof.
  induction a as [|x a IH]; intros [|y b] H; cbn [words]; try reflexivity. rewrite (H x y) by (left; reflexivity). rewrite (IH b) by (intros u v Hu Hv; apply H; right; assumption). destruct (c x y); reflexivity.
Qed.
(** Three elements that are ordered in all ways. *)
Definition tri (x y z : A) : Prop :=
  (c y x = CompOpp (c x y) /\ c z y = CompOpp (c y z) /\ c z x = CompOpp (c x z)) /\
  (c x y <> Gt -> c y z <> Gt -> c x z <> Gt) /\ (c y z <> Gt -> c z x <> Gt -> c y x <> Gt) /\ (c z x <> Gt -> c x y <> Gt -> c z y <> Gt) /\
  (c x z <> Gt -> c z y <> Gt -> c x y <> Gt) /\ (c y x <> Gt -> c x z <> Gt -> c y z <> Gt) /\ (c z y <> Gt -> c y x <> Gt -> c z x <> Gt).
Lemma tri_mix x y z : tri x y z -> (c x y = Eq -> c x z = c y z) /\ (c y z = Eq -> c x z = c x y) /\ (c x y = Lt -> c y z = Lt -> c x z = Lt).
Proof.
  intros ((S1 & S2 & S3) & T1 & T2 & T3 & T4 & T5 & T6). rewrite S1, S2, S3 in *. clear S1 S2 S3.
  destruct (c x y), (c y z), (c x z); cbn [CompOpp] in *; split; try split; intros; try congruence; exfalso;
    try (apply T1; congruence); try (apply T2; congruence); try (apply T3; congruence); try (apply T4; congruence); try (apply T5; congruence); try (apply T6; congruence).
Qed.
Lemma words_trans : forall a b z, (forall u v w, In u a -> In v b -> In w z -> tri u v w) -> words c a b <> Gt -> words c b z <> Gt -> words c a z <> Gt.
Proof.
  induction a as [|x a IH]; intros [|y b] [|w z] H H1 H2; cbn [words] in *; try congruence.
  destruct (@tri_mix x y w) as (M1 & M2 & M3); [apply H; left; reflexivity|]. destruct (c x y) eqn:E1; [|destruct (c y w) eqn:E2; [|rewrite (M3 eq_refl eq_refl); discriminate|congruence]|congruence].
  - rewrite (M1 eq_refl). destruct (c y w); [|discriminate|congruence]. apply (IH b z); auto. intros u v t Hu Hv Ht. apply H; right; assumption.
  - rewrite (M2 eq_refl). discriminate.
Qed.
End W.
Lemma pre_tri A (c : A -> A -> comparison) : preorder c -> forall x y z, tri c x y z.
Proof. intros [Sy T] x y z. unfold tri. split; [auto|]. repeat split; apply T. Qed.
Lemma pre_words A (c : A -> A -> comparison) : preorder c -> preorder (words c).
Proof. intros P. split; [intros a b; apply words_sym; intros x y _ _; apply P|]. intros a b z. apply words_trans. intros u v w _ _ _. apply pre_tri, P. Qed.
Lemma pre_N : preorder N.compare.
Proof. split; [intros x y; apply N.compare_antisym|]. intros x y z H1 H2. change (x <= z). change (x <= y) in H1. change (y <= z) in H2. lia. Qed.

Section JO.
Variable D : Type.
Variable d_cmp : D -> D -> comparison.
Variable dval : bytes -> D.
Variable u_cmp : bytes -> bytes -> comparison.
Hypothesis Pd : preorder d_cmp.
Hypothesis Pu : preorder u_cmp.
Variable mode : collate_mode.
Notation ord := (json_order d_cmp dval u_cmp mode).
Notation tord := (text_order u_cmp mode).
Notation rank := (type_rank mode).

Lemma pre_text : preorder tord.
Proof.
  unfold text_order. destruct mode; [|apply (pre_words pre_N)|apply (pre_words pre_N)]. destruct Pu as [Sy T]. split.
  - intros [|x a] [|y b]; try reflexivity. apply Sy.
  - intros [|x a] [|y b] [|w z]; try congruence. apply T.
Qed.
Lemma rank_ne a b : rank a <> rank b -> ord a b = N.compare (rank a) (rank b).
Proof. destruct a, b; intros H; try reflexivity; contradiction H; reflexivity. Qed.
Definition pair_ord (p q : list jchar * json) : comparison := match tord (text_of (fst p)) (text_of (fst q)) with Eq => ord (snd p) (snd q) | r => r end.
Lemma pair_words p q : pair_ord p q = match tord (text_of (fst p)) (text_of (fst q)) with Eq => ord (snd p) (snd q) | r => r end. Proof. reflexivity. Qed.
Lemma json_sym : forall a b, ord b a = CompOpp (ord a b).
Proof.
  induction a as [| | |t|s|l IH|l IH] using json_ind'; intros b.
  all: match goal with |- json_order _ _ _ _ ?b ?a = _ => destruct (N.eq_dec (rank a) (rank b)) as [E|E]; [|rewrite (rank_ne E), (@rank_ne b a) by (intros X; apply E; symmetry; exact X); apply N.compare_antisym] end.
  all: destruct b as [| | |t'|s'|l'|l']; try (exfalso; revert E; clear; destruct mode; cbn [type_rank]; lia).
  1-3: cbn [json_order]; rewrite N.compare_refl; reflexivity.
  - cbn [json_order]. apply Pd.
  - cbn [json_order]. apply pre_text.
  - change (words ord l' l = CompOpp (words ord l l')). rewrite Forall_forall in IH. apply words_sym. intros x y Hx _. apply IH, Hx.
  - change (words pair_ord l' l = CompOpp (words pair_ord l l')). rewrite Forall_forall in IH. apply words_sym. intros x y Hx _. unfold pair_ord. destruct pre_text as [Sy _]. rewrite (Sy (text_of (fst x))).
    destruct (tord (text_of (fst x)) (text_of (fst y))); cbn [CompOpp]; [apply (IH x Hx)|reflexivity|reflexivity].
Qed.
Lemma le_rank a b : ord a b <> Gt -> rank a <= rank b.
Proof. intros H. destruct (N.eq_dec (rank a) (rank b)) as [E|E]; [lia|]. rewrite (rank_ne E) in H. exact H. Qed.
Lemma pair_sym p q : pair_ord q p = CompOpp (pair_ord p q).
Proof. unfold pair_ord. destruct pre_text as [Sy _]. rewrite (Sy (text_of (fst p))). destruct (tord (text_of (fst p)) (text_of (fst q))); cbn [CompOpp]; [apply json_sym|reflexivity|reflexivity]. Qed.
Lemma pair_le p q r : (ord (snd p) (snd q) <> Gt -> ord (snd q) (snd r) <> Gt -> ord (snd p) (snd r) <> Gt) -> pair_ord p q <> Gt -> pair_ord q r <> Gt -> pair_ord p r <> Gt.
Proof.
  intros T. unfold pair_ord. pose proof (pre_tri pre_text (text_of (fst p)) (text_of (fst q)) (text_of (fst r))) as X. destruct (tri_mix X) as (M1 & M2 & M3). intros H1 H2.
  destruct (tord (text_of (fst p)) (text_of (fst q))) eqn:E1; [|destruct (tord (text_of (fst q)) (text_of (fst r))) eqn:E2; [|rewrite (M3 eq_refl eq_refl); discriminate|congruence]|congruence].
  - rewrite (M1 eq_refl). destruct (tord (text_of (fst q)) (text_of (fst r))); [|discriminate|congruence]. apply T; assumption.
  - rewrite (M2 eq_refl). discriminate.
Qed.
Fixpoint jsize (j : json) : nat := match j with JArr l => S (list_sum (map jsize l)) | JObj l => S (list_sum (map (fun kv => jsize (snd kv)) l)) | _ => 1%nat end.
Lemma sum_in A (f : A -> nat) x l : In x l -> (f x <= list_sum (map f l))%nat.
Proof. induction l as [|y l IH]; [intros []|]. intros [-> |H]; unfold list_sum in *; cbn [map fold_right]; [lia|]. specialize (IH H). lia. Qed.
Lemma json_trans : forall n a b z, (jsize a + jsize b + jsize z <= n)%nat -> ord a b <> Gt -> ord b z <> Gt -> ord a z <> Gt.
Proof.
  induction n as [|n IH]; intros a b z Hn H1 H2; [destruct a; cbn [jsize] in Hn; lia|]. pose proof (le_rank H1) as R1. pose proof (le_rank H2) as R2.
  destruct (N.eq_dec (rank a) (rank z)) as [E|E]; [|rewrite (rank_ne E); change (rank a <= rank z); lia]. assert (E1 : rank a = rank b) by lia. clear R1 R2.
  destruct a as [| | |t|s|l|l], b as [| | |t'|s'|l'|l']; try (exfalso; revert E1; clear; destruct mode; cbn [type_rank]; lia).
  all: destruct z as [| | |t''|s''|l''|l'']; try (exfalso; revert E; clear; destruct mode; cbn [type_rank]; lia).
  1-3: exact H1.
  - cbn [json_order] in *. destruct Pd as [_ T]. eapply T; eassumption.
  - cbn [json_order] in *. destruct pre_text as [_ T]. eapply T; eassumption.
  - revert H1 H2. change (ord (JArr ?x) (JArr ?y)) with (words ord x y). apply words_trans. cbn [jsize] in Hn. intros u v w Hu Hv Hw.
    pose proof (sum_in jsize Hu). pose proof (sum_in jsize Hv). pose proof (sum_in jsize Hw). split; [split; [|split]; apply json_sym|]. repeat split; apply IH; lia.
  - revert H1 H2. change (ord (JObj ?x) (JObj ?y)) with (words pair_ord x y). apply words_trans. cbn [jsize] in Hn. intros u v w Hu Hv Hw.
    pose proof (sum_in (fun kv => jsize (snd kv)) Hu). pose proof (sum_in (fun kv => jsize (snd kv)) Hv). pose proof (sum_in (fun kv => jsize (snd kv)) Hw). cbn beta in *.
    split; [split; [|split]; apply pair_sym|]. repeat split; apply pair_le; apply IH; lia.
Qed.
Theorem json_preorder : preorder ord.
Proof. split; [intros a b; apply json_sym|]. intros a b z. apply (@json_trans _ a b z (le_n _)). Qed.
End JO.
