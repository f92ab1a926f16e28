(** Proofs about the merging of files of records. *)
From Coq Require Import Permutation Sorted.
From Verif Require Import Base FileMerger.
Unset Strict Implicit.
Local Open Scope nat_scope.

Section MF.
Variable A : Type.
Variable cmp : A -> A -> comparison.
Hypothesis csym : forall x y, cmp y x = CompOpp (cmp x y).
Hypothesis ctrans : forall x y z, cmp x y <> Gt -> cmp y z <> Gt -> cmp x z <> Gt.
Notation le x y := (cmp x y <> Gt).
Variable wr : A -> bytes.
Variable rd : bytes -> rdres A.
Variable ok : A -> Prop.
Hypothesis rd_nil : rd [] = R_eof.
Hypothesis rd_wr : forall a rest, ok a -> rd (wr a ++ rest) = R_rec a rest.
Definition ser (l : list A) : bytes := concat (map wr l).
Notation vle := (fun x y : A * nat => le (fst x) (fst y)).

Lemma mle_refl x : le x x.
Proof. intros H. pose proof (csym x x) as S. rewrite H in S. discriminate. Qed.
Lemma nlt_le x y : cmp x y <> Lt -> le y x.
Proof. intros H C. apply H. rewrite csym, C. reflexivity. Qed.
Lemma mlt_le x y : cmp x y = Lt -> le x y. Proof. intros ->. discriminate. Qed.
Lemma meq_sym x y : cmp x y = Eq -> cmp y x = Eq. Proof. intros H. rewrite csym, H. reflexivity. Qed.
Lemma le_le_eq x y : le x y -> le y x -> cmp x y = Eq.
Proof. intros H1 H2. rewrite csym in H2. destruct (cmp x y); auto; contradiction. Qed.
Lemma meq_trans x y z : cmp x y = Eq -> cmp y z = Eq -> cmp x z = Eq.
Proof. intros H1 H2. apply le_le_eq; apply (@ctrans _ y); try (rewrite H1 || rewrite H2); try discriminate; rewrite csym; rewrite ?H1, ?H2; discriminate. Qed.

(** ** Inserting *)
Lemma sorted_app_split (v : list (A * nat)) r : StronglySorted vle v -> forall x y, In x (firstn r v) -> In y (skipn r v) -> vle x y.
Proof.
  revert r. induction v as [|z v IH]; intros [|r] S x y Hx Hy; cbn [firstn skipn] in *; try contradiction.
  inversion S as [|? ? Sv Fv]; subst. destruct Hx as [<-|Hx]; [|apply (IH r Sv x y Hx Hy)].
  rewrite Forall_forall in Fv. apply Fv. rewrite <- (firstn_skipn r v). apply in_or_app. auto.
Qed.
Lemma sorted_nth (v : list (A * nat)) : StronglySorted vle v -> forall i j x y, i <= j -> nth_error v i = Some x -> nth_error v j = Some y -> vle x y.
Proof.
  induction 1 as [|z v S IH F]; intros i j x y Hij Hx Hy; [destruct i; discriminate|]. destruct i as [|i], j as [|j]; cbn [nth_error] in *; try lia.
  - injection Hx as <-. injection Hy as <-. apply mle_refl.
  - injection Hx as <-. rewrite Forall_forall in F. apply F. eapply nth_error_In; eauto.
  - apply (IH i j); auto. lia.
Qed.
Lemma search_ok x v : StronglySorted vle v -> forall f l r, r - l < f -> l <= r -> r <= length v ->
  (l = 0 \/ exists y, nth_error v l = Some y /\ cmp (fst x) (fst y) <> Lt) -> (r = length v \/ exists y, nth_error v r = Some y /\ cmp (fst x) (fst y) = Lt) -> (l < r \/ l = 0) ->
  exists l' r', search cmp f x v l r = Good (l', r') /\ l' <= r' /\ r' <= S l' /\ r' <= length v /\
    (l' = 0 \/ exists y, nth_error v l' = Some y /\ cmp (fst x) (fst y) <> Lt) /\ (r' = length v \/ exists y, nth_error v r' = Some y /\ cmp (fst x) (fst y) = Lt) /\ (l' < r' \/ l' = 0).
Proof.
  intros S. induction f as [|f IH]; intros l r Hf Hlr Hr HL HR Hz; [lia|]. cbn [search]. destruct (Nat.ltb_spec 1 (r - l)) as [H|H].
  - assert (Hp : l < (l + r) / 2 < r).
    { pose proof (Nat.div_mod (l + r) 2 ltac:(lia)). pose proof (Nat.mod_upper_bound (l + r) 2 ltac:(lia)). lia. }
    generalize dependent ((l + r) / 2). intros pos Hp. destruct (nth_error v pos) as [y|] eqn:E; [|apply nth_error_None in E; lia].
    destruct (cmp (fst x) (fst y)) eqn:C.
    + apply IH; try lia; [|exact HR]. right. exists y. split; [exact E|]. rewrite C. discriminate.
    + apply IH; try lia; [exact HL|]. right. exists y. auto.
    + apply IH; try lia; [|exact HR]. right. exists y. split; [exact E|]. rewrite C. discriminate.
  - exists l, r. split; [reflexivity|]. split; [lia|]. split; [lia|]. auto.
Qed.
Lemma insert_sorted x v r : StronglySorted vle v -> (forall y, In y (firstn r v) -> vle y x) -> (forall y, In y (skipn r v) -> vle x y) -> StronglySorted vle (firstn r v ++ x :: skipn r v).
Proof.
  revert r. induction v as [|z v IH]; intros r S H1 H2.
  - rewrite firstn_nil, skipn_nil. constructor; constructor.
  - destruct r as [|r]; cbn [firstn skipn app] in *.
    + constructor; [exact S|]. apply Forall_forall. intros y Hy. apply H2, Hy.
    + inversion S as [|? ? Sv Fv]; subst. constructor.
      * apply IH; [exact Sv| |exact H2]. intros y Hy. apply H1. right. exact Hy.
      * rewrite Forall_forall in *. intros y Hy. apply in_app_or in Hy. destruct Hy as [Hy|[<-|Hy]].
        -- apply Fv. rewrite <- (firstn_skipn r v). apply in_or_app. auto.
        -- apply H1. left. reflexivity.
        -- apply Fv. rewrite <- (firstn_skipn r v). apply in_or_app. auto.
Qed.
Lemma add_ok n x v : StronglySorted vle v -> length v < n -> exists v', sorted_vector_add cmp n x v = Good v' /\ StronglySorted vle v' /\ Permutation v' (x :: v).
Proof.
  intros S Hn. unfold sorted_vector_add. destruct (Nat.eqb_spec (length v) n); [lia|].
  destruct (@search_ok x v S (Datatypes.S (length v)) 0 (length v)) as (l & r & E & H1 & H2 & H3 & HL & HR & Hz); auto; try lia. rewrite E. cbn [fbind].
  set (r2 := match (l, r) with (O, Datatypes.S r') => match v with y :: _ => match cmp (fst x) (fst y) with Lt => O | _ => Datatypes.S r' end | [] => Datatypes.S r' end | (_, r0) => r0 end).
  assert (K : (forall y, In y (firstn r2 v) -> vle y x) /\ (forall y, In y (skipn r2 v) -> vle x y)).
  { assert (Hup : forall i y, r <= i -> nth_error v i = Some y -> vle x y).
    { intros i y Hi Hy. destruct HR as [->|(z & Hz' & C)]; [assert (i < length v) by (apply nth_error_Some; congruence); lia|].
      apply (@ctrans _ (fst z)); [rewrite C; discriminate|]. apply (sorted_nth S Hi Hz' Hy). }
    assert (Hs : forall k y, In y (skipn k v) -> exists i, k <= i /\ nth_error v i = Some y).
    { intros k y Hy. apply In_nth_error in Hy. destruct Hy as [q Hq]. exists (k + q). split; [lia|]. revert Hq. clear. revert k. induction v as [|z v' IH]; intros [|k]; cbn [skipn plus nth_error]; auto. destruct q; discriminate. }
    assert (Hf : forall k y, In y (firstn k v) -> exists i, i < k /\ nth_error v i = Some y).
    { intros k y Hy. apply In_nth_error in Hy. destruct Hy as [q Hq]. exists q. revert k q Hq. clear. induction v as [|z v' IH]; intros [|k] [|q] Hq; cbn [firstn nth_error] in *; try discriminate; auto.
      - split; [lia|exact Hq].
      - destruct (IH _ _ Hq). split; [lia|assumption]. }
    assert (G : r2 = r /\ (forall i y, i < r -> nth_error v i = Some y -> vle y x) \/ r2 = 0 /\ (forall i y, nth_error v i = Some y -> vle x y)).
    { destruct HL as [->|(z & Hz' & C)].
      - destruct r as [|r'].
        + left. subst r2. split; [reflexivity|]. intros. lia.
        + assert (r' = 0) by lia. subst r'. subst r2. destruct v as [|w v'].
          * cbn in H3. lia.
          * destruct (cmp (fst x) (fst w)) eqn:C.
            -- left. split; [reflexivity|]. intros [|i] y Hi Hy; [|lia]. injection Hy as <-. apply nlt_le. rewrite C. discriminate.
            -- right. split; [reflexivity|]. intros [|i] y Hy; [injection Hy as <-; rewrite C; discriminate|]. apply (Hup (Datatypes.S i)); auto. lia.
            -- left. split; [reflexivity|]. intros [|i] y Hi Hy; [|lia]. injection Hy as <-. apply nlt_le. rewrite C. discriminate.
      - destruct (Nat.eq_dec l 0) as [->|Hl0].
        + destruct r as [|r']; [left; subst r2; split; [reflexivity|]; intros; lia|]. assert (r' = 0) by lia. subst r'. subst r2. destruct v as [|w v']; [discriminate|]. cbn in Hz'. injection Hz' as <-.
          left. split; [destruct (cmp (fst x) (fst w)); auto; contradiction|]. intros [|i] y Hi Hy; [|lia]. injection Hy as <-. apply nlt_le. exact C.
        + left. split; [subst r2; destruct l; [contradiction|reflexivity]|]. intros i y Hi Hy. apply (@ctrans _ (fst z)); [|apply nlt_le, C]. apply (@sorted_nth v S i l); auto. lia. }
    destruct G as [[-> G]|[-> G]].
    - split; intros y Hy; [apply Hf in Hy|apply Hs in Hy]; destruct Hy as (i & Hi & Hy); eauto.
    - split; intros y Hy; [destruct Hy|]. apply Hs in Hy. destruct Hy as (i & Hi & Hy). eauto. }
  exists (firstn r2 v ++ x :: skipn r2 v). split; [reflexivity|]. destruct K as [K1 K2]. split; [apply insert_sorted; auto|].
  apply Permutation_sym. rewrite <- (firstn_skipn r2 v) at 1. apply Permutation_middle.
Qed.

(** ** The state of the merge *)
Record inv (P : list nat) (F : list (list A)) (files : list (option bytes)) (v : list (A * nat)) : Prop := {
  iv_len : length files = length F;
  iv_in : forall i l, In i P -> nth_error F i = Some l -> nth_error files i = Some (Some (ser l));
  iv_out : forall i l, ~ In i P -> nth_error F i = Some l -> nth_error files i = Some (match l with [] => None | _ :: t => Some (ser t) end);
  iv_v : forall a i, In (a, i) v <-> ~ In i P /\ exists t, nth_error F i = Some (a :: t);
  iv_nd : NoDup (map snd v);
  iv_s : StronglySorted vle v;
  iv_pnd : NoDup P;
  iv_pin : forall i, In i P -> i < length F;
  iv_ok : Forall (Forall ok) F
}.
Lemma nth_set_file i x (files : list (option bytes)) k : i < length files -> nth_error (set_file i x files) k = if Nat.eqb k i then Some x else nth_error files k.
Proof.
  unfold set_file. revert i k. induction files as [|y files IH]; intros i k H; [cbn in H; lia|]. destruct i as [|i].
  - destruct k; reflexivity.
  - destruct k as [|k]; [reflexivity|]. change (nth_error (firstn i files ++ x :: skipn (S i) files) k = if Nat.eqb k i then Some x else nth_error files k). apply IH. cbn in H. lia.
Qed.
Lemma length_set_file i x (files : list (option bytes)) : i < length files -> length (set_file i x files) = length files.
Proof. intros H. unfold set_file. rewrite app_length. cbn [length]. rewrite firstn_length, skipn_length. lia. Qed.
Lemma refill_ok i P F files v : inv (i :: P) F files v -> exists st', refill cmp rd i (files, v) = Good st' /\ inv P F (fst st') (snd st').
Proof.
  intros I. pose proof (iv_pin I (or_introl eq_refl)) as Hi. destruct (nth_error F i) as [l|] eqn:El; [|apply nth_error_None in El; lia].
  assert (Hif : i < length files) by (rewrite (iv_len I); exact Hi).
  assert (Hnd : ~ In i P) by (pose proof (iv_pnd I) as N0; inversion N0; assumption).
  unfold refill. rewrite (iv_in I (or_introl eq_refl) El). destruct l as [|a l].
  - change (ser []) with (@nil N). rewrite rd_nil. eexists. split; [reflexivity|]. cbn [fst snd]. split.
    + rewrite length_set_file by exact Hif. apply I.
    + intros k l Hk Hl. rewrite nth_set_file by exact Hif. destruct (Nat.eqb_spec k i) as [->|]; [contradiction|]. apply (iv_in I); [right; exact Hk|exact Hl].
    + intros k l Hk Hl. rewrite nth_set_file by exact Hif. destruct (Nat.eqb_spec k i) as [->|].
      * rewrite El in Hl. injection Hl as <-. reflexivity.
      * apply (iv_out I); [intros [H|H]; [congruence|contradiction]|exact Hl].
    + intros b k. rewrite (iv_v I). split; intros [H1 (t & H2)]; (split; [|exists t; exact H2]).
      * intros H. apply H1. right. exact H.
      * intros [<-|H]; [rewrite El in H2; discriminate|contradiction].
    + apply I.
    + apply I.
    + pose proof (iv_pnd I) as N0. inversion N0; assumption.
    + intros k Hk. apply (iv_pin I). right. exact Hk.
    + apply I.
  - assert (Hok : Forall ok (a :: l)). { pose proof (iv_ok I) as Fo. rewrite Forall_forall in Fo. apply Fo. eapply nth_error_In; eauto. }
    inversion Hok as [|? ? Ha Hl']; subst. change (ser (a :: l)) with (wr a ++ ser l). rewrite rd_wr by exact Ha.
    assert (Hv : length v < length files).
    { rewrite (iv_len I). assert (Hn : NoDup (i :: map snd v)).
      { constructor; [|apply I]. intros H. apply in_map_iff in H. destruct H as ((b & k) & E & Hb). cbn in E. subst k. apply (iv_v I) in Hb. destruct Hb as [Hb _]. apply Hb. left. reflexivity. }
      assert (Hincl : incl (i :: map snd v) (seq 0 (length F))).
      { intros k [<-|Hk]; apply in_seq; [lia|]. apply in_map_iff in Hk. destruct Hk as ((b & k') & <- & Hb). apply (iv_v I) in Hb. destruct Hb as [_ (t & Ht)]. cbn [snd].
        assert (k' < length F) by (apply nth_error_Some; congruence). lia. }
      pose proof (NoDup_incl_length Hn Hincl) as L. rewrite seq_length in L. cbn [length] in L. rewrite map_length in L. lia. }
    destruct (@add_ok (length files) (a, i) v (iv_s I) Hv) as (v' & -> & Sv & Pv). cbn [fbind]. eexists. split; [reflexivity|]. cbn [fst snd]. split.
    + rewrite length_set_file by exact Hif. apply I.
    + intros k l0 Hk Hl0. rewrite nth_set_file by exact Hif. destruct (Nat.eqb_spec k i) as [->|]; [contradiction|]. apply (iv_in I); [right; exact Hk|exact Hl0].
    + intros k l0 Hk Hl0. rewrite nth_set_file by exact Hif. destruct (Nat.eqb_spec k i) as [->|].
      * rewrite El in Hl0. injection Hl0 as <-. reflexivity.
      * apply (iv_out I); [intros [H|H]; [congruence|contradiction]|exact Hl0].
    + intros b k. split.
      * intros Hb. apply (Permutation_in _ Pv) in Hb. destruct Hb as [Hb|Hb].
        -- injection Hb as <- <-. split; [exact Hnd|]. exists l. exact El.
        -- apply (iv_v I) in Hb. destruct Hb as [H1 H2]. split; [|exact H2]. intros H. apply H1. right. exact H.
      * intros [H1 (t & H2)]. apply (Permutation_in _ (Permutation_sym Pv)). destruct (Nat.eq_dec k i) as [->|Hk].
        -- rewrite El in H2. injection H2 as <- <-. left. reflexivity.
        -- right. apply (iv_v I). split; [|exists t; exact H2]. intros [H|H]; [congruence|contradiction].
    + apply (Permutation_NoDup (Permutation_map snd (Permutation_sym Pv))). cbn [map snd]. constructor; [|apply I].
      intros H. apply in_map_iff in H. destruct H as ((b & k) & E & Hb). cbn in E. subst k. apply (iv_v I) in Hb. destruct Hb as [Hb _]. apply Hb. left. reflexivity.
    + exact Sv.
    + pose proof (iv_pnd I) as N0. inversion N0; assumption.
    + intros k Hk. apply (iv_pin I). right. exact Hk.
    + apply I.
Qed.
Lemma refills_ok P : forall F files v, inv P F files v -> exists st', refills cmp rd P (files, v) = Good st' /\ inv [] F (fst st') (snd st').
Proof.
  induction P as [|i P IH]; intros F files v I.
  - eexists. split; [reflexivity|]. exact I.
  - cbn [refills]. destruct (refill_ok I) as ((fs & v') & -> & I'). cbn [fbind]. apply IH. exact I'.
Qed.

(** ** Taking out *)
Lemma equal_prefix_spec h t : equal_prefix cmp h t <= length t /\ (forall y, In y (firstn (equal_prefix cmp h t) t) -> cmp h (fst y) = Eq) /\
  (forall y r, skipn (equal_prefix cmp h t) t = y :: r -> cmp h (fst y) <> Eq).
Proof.
  induction t as [|y t (IH1 & IH2 & IH3)]; cbn [equal_prefix].
  - split; [lia|]. split; [intros y []|]. intros y r H. discriminate.
  - destruct (cmp h (fst y)) eqn:C.
    + cbn [length firstn skipn]. split; [lia|]. split; [|exact IH3]. intros z [<-|Hz]; auto.
    + cbn [length firstn skipn]. split; [lia|]. split; [intros z []|]. intros z r Hz. injection Hz as <- _. congruence.
    + cbn [length firstn skipn]. split; [lia|]. split; [intros z []|]. intros z r Hz. injection Hz as <- _. congruence.
Qed.
Lemma sorted_skipn (t : list (A * nat)) i : StronglySorted vle t -> StronglySorted vle (skipn i t).
Proof. intros S. revert i. induction S as [|q t S IH F]; intros [|i]; cbn [skipn]; try constructor; auto. Qed.
Lemma winner_first_ok j (l : list (A * nat)) : j < length l -> exists w o, winner_first j l = Good (w :: o) /\ Permutation l (w :: o) /\ nth_error l j = Some w.
Proof.
  intros H. destruct l as [|h r]; [cbn in H; lia|]. unfold winner_first. destruct (nth_error (h :: r) j) as [w|] eqn:E; [|apply nth_error_None in E; lia].
  destruct j as [|j].
  - injection E as <-. exists h, r. auto.
  - exists w, (firstn j r ++ h :: skipn (S j) r). split; [reflexivity|]. split; [|reflexivity]. cbn [nth_error] in E. apply nth_error_split in E. destruct E as (l1 & l2 & -> & <-).
    rewrite firstn_app, Nat.sub_diag, firstn_all, firstn_O, app_nil_r. replace (skipn (S (length l1)) (l1 ++ w :: l2)) with l2 by (clear; induction l1; auto).
    eapply perm_trans; [apply perm_skip; apply Permutation_sym, Permutation_middle|]. eapply perm_trans; [apply perm_swap|]. apply perm_skip. apply Permutation_middle.
Qed.
Variable dedup : option (list (A * nat) -> nat).
Hypothesis dedup_in : forall d l, dedup = Some d -> l <> [] -> d l < length l.
Definition is_group (h : A * nat) (v g : list (A * nat)) : Prop :=
  match dedup with
  | None => g = [h]
  | Some d => Forall (fun y => cmp (fst h) (fst y) = Eq) g /\ (forall y, In y v -> cmp (fst h) (fst y) = Eq -> In y g)
  end.
Lemma pop_ok h t : StronglySorted vle (h :: t) -> exists w o v', sorted_vector_pop cmp dedup (h :: t) = Good (w :: o, v') /\ Permutation (h :: t) ((w :: o) ++ v') /\ StronglySorted vle v' /\
  is_group h (h :: t) (w :: o) /\ (forall d, dedup = Some d -> exists g, Permutation g (w :: o) /\ (length g > 1 -> nth_error g (d g) = Some w)).
Proof.
  intros S. unfold sorted_vector_pop, is_group. pose proof dedup_in as Din. inversion S as [|? ? St Ft]; subst. destruct dedup as [d|] eqn:Ed.
  - destruct (equal_prefix_spec (fst h) t) as (H1 & H2 & H3). set (i := equal_prefix cmp (fst h) t) in *.
    assert (Hg : forall y, In y t -> cmp (fst h) (fst y) = Eq -> In y (firstn i t)).
    { intros y Hy C. rewrite <- (firstn_skipn i t) in Hy. apply in_app_or in Hy. destruct Hy as [Hy|Hy]; [exact Hy|exfalso].
      destruct (skipn i t) as [|z r] eqn:Es; [destruct Hy|]. apply (H3 z r eq_refl).
      assert (Hz : le (fst z) (fst y)).
      { destruct Hy as [->|Hy]; [apply mle_refl|]. assert (Sz : StronglySorted vle (z :: r)).
        { rewrite <- Es. apply sorted_skipn, St. }
        inversion Sz as [|? ? _ Fz]; subst. rewrite Forall_forall in Fz. apply Fz, Hy. }
      apply le_le_eq.
      - rewrite Forall_forall in Ft. apply Ft. rewrite <- (firstn_skipn i t), Es. apply in_or_app. right. left. reflexivity.
      - apply (@ctrans _ (fst y)); [exact Hz|]. rewrite csym, C. discriminate. }
    assert (Sk : StronglySorted vle (skipn i t)).
    { apply sorted_skipn, St. }
    destruct i as [|i'] eqn:Ei.
    + exists h, [], t. split; [reflexivity|]. split; [reflexivity|]. split; [exact St|]. split.
      * split; [constructor; [apply le_le_eq; apply mle_refl|constructor]|]. intros y [<-|Hy] C; [left; reflexivity|]. exfalso. apply (Hg y Hy C).
      * intros d' Hd'. exists [h]. split; [reflexivity|]. cbn. lia.
    + rewrite <- Ei in *. set (records := h :: firstn i t).
      destruct (@winner_first_ok (d records) records) as (w & o & -> & Pw & Nw); [apply (Din d); [reflexivity|unfold records; discriminate]|]. cbn [fbind].
      exists w, o, (skipn i t). split; [reflexivity|]. split.
      { eapply perm_trans; [|apply Permutation_app_tail; exact Pw]. unfold records. cbn [app]. rewrite firstn_skipn. reflexivity. }
      split; [exact Sk|]. split.
      { split.
        - apply Forall_forall. intros y Hy. apply (Permutation_in _ (Permutation_sym Pw)) in Hy. destruct Hy as [<-|Hy]; [apply le_le_eq; apply mle_refl|]. apply H2, Hy.
        - intros y Hy C. apply (Permutation_in _ Pw). destruct Hy as [<-|Hy]; [left; reflexivity|]. right. apply Hg; auto. }
      intros d' Hd'. injection Hd' as <-. exists records. split; [exact Pw|]. intros _. exact Nw.
  - exists h, [], t. split; [reflexivity|]. split; [reflexivity|]. split; [exact St|]. split; [reflexivity|]. intros d' Hd'. discriminate.
Qed.

(** ** What is left of the files *)
Definition pop_at (i : nat) (F : list (list A)) : list (list A) := firstn i F ++ match skipn i F with l :: r => tl l :: r | [] => [] end.
Lemma pop_at_eq F1 a t F2 : pop_at (length F1) (F1 ++ (a :: t) :: F2) = F1 ++ t :: F2.
Proof. unfold pop_at. rewrite firstn_app, Nat.sub_diag, firstn_all, firstn_O, app_nil_r, skipn_app, skipn_all, Nat.sub_diag. reflexivity. Qed.
Lemma pop_at_perm F i a t : nth_error F i = Some (a :: t) -> Permutation (concat F) (a :: concat (pop_at i F)).
Proof.
  intros H. apply nth_error_split in H. destruct H as (F1 & F2 & -> & <-). rewrite pop_at_eq, !concat_app. cbn [concat app]. apply Permutation_sym, Permutation_middle.
Qed.
Lemma pop_at_nth F i a t k : nth_error F i = Some (a :: t) -> nth_error (pop_at i F) k = if Nat.eqb k i then Some t else nth_error F k.
Proof.
  intros H. apply nth_error_split in H. destruct H as (F1 & F2 & -> & <-). rewrite pop_at_eq. destruct (Nat.eqb_spec k (length F1)) as [->|Hk].
  - rewrite nth_error_app2, Nat.sub_diag by lia. reflexivity.
  - destruct (Nat.lt_ge_cases k (length F1)).
    + rewrite !nth_error_app1 by lia. reflexivity.
    + rewrite !nth_error_app2 by lia. destruct (k - length F1) eqn:E; [lia|]. reflexivity.
Qed.
Lemma pop_at_length F i a t : nth_error F i = Some (a :: t) -> length (pop_at i F) = length F.
Proof. intros H. apply nth_error_split in H. destruct H as (F1 & F2 & -> & <-). rewrite pop_at_eq, !app_length. reflexivity. Qed.
Definition pops (g : list (A * nat)) (F : list (list A)) : list (list A) := fold_left (fun F p => pop_at (snd p) F) g F.
Lemma pops_ok : forall g F, NoDup (map snd g) -> (forall a i, In (a, i) g -> exists t, nth_error F i = Some (a :: t)) ->
  length (pops g F) = length F /\ Permutation (concat F) (map fst g ++ concat (pops g F)) /\
  (forall k, ~ In k (map snd g) -> nth_error (pops g F) k = nth_error F k) /\ (forall a i t, In (a, i) g -> nth_error F i = Some (a :: t) -> nth_error (pops g F) i = Some t).
Proof.
  induction g as [|[a i] g IH]; intros F N H.
  - cbn. repeat split; auto. intros a i t [].
  - cbn [map snd] in N. inversion N as [|? ? Ni Ng]; subst. destruct (H a i (or_introl eq_refl)) as (t & Ht). cbn [pops fold_left snd].
    destruct (IH (pop_at i F) Ng) as (L & P & O & I).
    { intros b k Hb. destruct (H b k (or_intror Hb)) as (t' & Ht'). exists t'. rewrite (@pop_at_nth F i a t k Ht). destruct (Nat.eqb_spec k i) as [->|]; [|exact Ht'].
      exfalso. apply Ni. apply in_map_iff. exists (b, i). auto. }
    change (fold_left (fun F0 p => pop_at (snd p) F0) g (pop_at i F)) with (pops g (pop_at i F)). split; [rewrite L; eapply pop_at_length; eauto|]. split.
    { cbn [map fst app]. eapply perm_trans; [apply (@pop_at_perm F i a t Ht)|]. apply perm_skip. exact P. }
    split.
    + intros k Hk. cbn [map snd] in Hk. rewrite O by (intros X; apply Hk; right; exact X). rewrite (@pop_at_nth F i a t k Ht). destruct (Nat.eqb_spec k i) as [->|]; [|reflexivity]. exfalso. apply Hk. left. reflexivity.
    + intros b k t' [Hb|Hb] Hk.
      * injection Hb as <- <-. rewrite O by exact Ni. rewrite (@pop_at_nth F i a t i Ht), Nat.eqb_refl. congruence.
      * apply (I b); [exact Hb|]. rewrite (@pop_at_nth F i a t k Ht). destruct (Nat.eqb_spec k i) as [->|]; [|exact Hk]. exfalso. apply Ni. apply in_map_iff. exists (b, i). auto.
Qed.

(** One round. *)
Lemma round_ok F files h t : inv [] F files (h :: t) -> exists w o v' st', sorted_vector_pop cmp dedup (h :: t) = Good (w :: o, v') /\ refills cmp rd (map snd (w :: o)) (files, v') = Good st' /\
  inv [] (pops (w :: o) F) (fst st') (snd st') /\ NoDup (map snd (w :: o)) /\ (forall a i, In (a, i) (w :: o) -> exists t, nth_error F i = Some (a :: t)) /\
  is_group h (h :: t) (w :: o) /\ (forall d, dedup = Some d -> exists g, Permutation g (w :: o) /\ (length g > 1 -> nth_error g (d g) = Some w)).
Proof.
  intros I. destruct (pop_ok (iv_s I)) as (w & o & v' & E & P & Sv & G & W).
  assert (Hh : forall a i, In (a, i) (w :: o) -> exists t, nth_error F i = Some (a :: t)).
  { intros a i H. assert (X : In (a, i) (h :: t)) by (apply (Permutation_in _ (Permutation_sym P)); apply in_or_app; auto). apply (iv_v I) in X. apply X. }
  assert (Hnd : NoDup (map snd ((w :: o) ++ v'))). { apply (Permutation_NoDup (Permutation_map snd P)). apply I. }
  rewrite map_app in Hnd. assert (Hng : NoDup (map snd (w :: o))). { clear - Hnd. revert Hnd. generalize (map snd (w :: o)) (map snd v'). induction l as [|x l IH]; intros l0 H; [constructor|]. cbn [app] in H. inversion H as [|? ? X Y]; subst. constructor; [intros Z; apply X, in_or_app; auto|eapply IH; eauto]. }
  assert (Hdis : forall i, In i (map snd (w :: o)) -> ~ In i (map snd v')).
  { clear - Hnd. revert Hnd. generalize (map snd (w :: o)) (map snd v'). induction l as [|x l IH]; intros l0 H i [] ; cbn [app] in H; inversion H as [|? ? X Y]; subst.
    - intros Z. apply X, in_or_app. auto.
    - eapply IH; eauto. }
  destruct (pops_ok Hng Hh) as (L & Pp & Oo & Ii).
  assert (I2 : inv (map snd (w :: o)) (pops (w :: o) F) files v').
  { split.
    - rewrite L. apply I.
    - intros i l Hi Hl. apply in_map_iff in Hi. destruct Hi as ((a & i') & Ei & Ha). cbn in Ei. subst i'. destruct (Hh a i Ha) as (t' & Ht'). rewrite (Ii a i t' Ha Ht') in Hl. injection Hl as <-.
      rewrite (iv_out I (fun x : In i [] => x) Ht'). reflexivity.
    - intros i l Hi Hl. rewrite Oo in Hl by exact Hi. apply (iv_out I (fun x : In i [] => x) Hl).
    - intros a i. split.
      + intros Ha. assert (Hi : ~ In i (map snd (w :: o))). { intros X. apply (Hdis i X). apply in_map_iff. exists (a, i). auto. } split; [exact Hi|]. rewrite Oo by exact Hi.
        assert (X : In (a, i) (h :: t)) by (apply (Permutation_in _ (Permutation_sym P)); apply in_or_app; auto). apply (iv_v I) in X. apply X.
      + intros [Hi (t' & Ht')]. rewrite Oo in Ht' by exact Hi. assert (X : In (a, i) (h :: t)). { apply (iv_v I). split; [intros []|]. exists t'. exact Ht'. }
        apply (Permutation_in _ P) in X. apply in_app_or in X. destruct X as [X|X]; [|exact X]. exfalso. apply Hi. apply in_map_iff. exists (a, i). auto.
    - clear - Hnd. revert Hnd. generalize (map snd (w :: o)) (map snd v'). induction l as [|x l IH]; intros l0 H; [exact H|]. apply IH. cbn [app] in H. inversion H; assumption.
    - exact Sv.
    - exact Hng.
    - intros i Hi. rewrite L. apply in_map_iff in Hi. destruct Hi as ((a & i') & Ei & Ha). cbn in Ei. subst i'. destruct (Hh a i Ha) as (t' & Ht'). apply nth_error_Some. congruence.
    - pose proof (iv_ok I) as Fo. rewrite Forall_forall in *. intros l Hl. apply In_nth_error in Hl. destruct Hl as [k Hk]. destruct (in_dec Nat.eq_dec k (map snd (w :: o))) as [Hi|Hi].
      + apply in_map_iff in Hi. destruct Hi as ((a & i') & Ei & Ha). cbn in Ei. subst i'. destruct (Hh a k Ha) as (t' & Ht'). rewrite (Ii a k t' Ha Ht') in Hk. injection Hk as <-.
        apply nth_error_In in Ht'. apply Fo in Ht'. inversion Ht'; assumption.
      + rewrite Oo in Hk by exact Hi. apply Fo. eapply nth_error_In; eauto. }
  destruct (refills_ok I2) as (st' & E2 & I3). exists w, o, v', st'. repeat (split; [assumption|]). exact W.
Qed.
Lemma inv_empty F files : inv [] F files [] -> concat F = [].
Proof.
  intros I. assert (H : forall i l, nth_error F i = Some l -> l = []).
  { intros i [|a l] Hl; [reflexivity|]. exfalso. apply (proj2 (iv_v I a i)). split; [intros []|]. exists l. exact Hl. }
  clear I. induction F as [|l F IH]; [reflexivity|]. cbn [concat]. rewrite (H 0 l eq_refl). cbn [app]. apply IH. intros i l' Hl'. apply (H (S i)). exact Hl'.
Qed.
Lemma inv_min F files h t : inv [] F files (h :: t) -> Forall (StronglySorted (fun x y => le x y)) F -> Forall (fun a => le (fst h) a) (concat F).
Proof.
  intros I Fs. apply Forall_forall. intros a Ha. apply in_concat in Ha. destruct Ha as (l & Hl & Ha). apply In_nth_error in Hl. destruct Hl as [i Hi]. destruct l as [|b l]; [destruct Ha|].
  assert (Hb : In (b, i) (h :: t)). { apply (iv_v I). split; [intros []|]. exists l. exact Hi. }
  assert (L1 : le (fst h) b). { pose proof (iv_s I) as S. inversion S as [|? ? _ Ft]; subst. destruct Hb as [->|Hb]; [apply mle_refl|]. rewrite Forall_forall in Ft. apply (Ft _ Hb). }
  destruct Ha as [<-|Ha]; [exact L1|]. apply (@ctrans _ b); [exact L1|]. rewrite Forall_forall in Fs. assert (Sl : StronglySorted (fun x y => le x y) (b :: l)) by (apply Fs; eapply nth_error_In; eauto).
  inversion Sl as [|? ? _ Fl]; subst. rewrite Forall_forall in Fl. apply Fl, Ha.
Qed.
Lemma pops_forall (Q : list A -> Prop) g F : (forall a l, Q (a :: l) -> Q l) -> NoDup (map snd g) -> (forall a i, In (a, i) g -> exists t, nth_error F i = Some (a :: t)) -> Forall Q F -> Forall Q (pops g F).
Proof.
  intros HQ N H FQ. destruct (pops_ok N H) as (_ & _ & O & I). rewrite Forall_forall in *. intros l Hl. apply In_nth_error in Hl. destruct Hl as [k Hk].
  destruct (in_dec Nat.eq_dec k (map snd g)) as [Hi|Hi].
  - apply in_map_iff in Hi. destruct Hi as ((a & i') & Ei & Ha). cbn in Ei. subst i'. destruct (H a k Ha) as (t' & Ht'). rewrite (I a k t' Ha Ht') in Hk. injection Hk as <-. apply (HQ a), FQ. eapply nth_error_In; eauto.
  - rewrite O in Hk by exact Hi. apply FQ. eapply nth_error_In; eauto.
Qed.

(** ** Without removal of duplicates *)
Lemma loop_plain : dedup = None -> forall f F files v, inv [] F files v -> length (concat F) < f -> Forall (StronglySorted (fun x y => le x y)) F ->
  exists out, merge_loop cmp rd dedup f (files, v) = Good out /\ Permutation out (concat F) /\ StronglySorted (fun x y => le x y) out.
Proof.
  intros Hd. induction f as [|f IH]; intros F files v I Hf Fs; [lia|]. cbn [merge_loop snd fst]. destruct v as [|h t].
  - exists []. split; [reflexivity|]. rewrite (inv_empty I). split; constructor.
  - pose proof (inv_min I Fs) as Hmin. destruct (round_ok I) as (w & o & v' & st' & E1 & E2 & I2 & N & Hh & G & _). rewrite E1. cbn [fbind fst snd]. rewrite E2. cbn [fbind].
    unfold is_group in G. rewrite Hd in G. injection G as -> ->. destruct (pops_ok N Hh) as (L & P & _ & _). cbn [map fst app] in P.
    destruct st' as [fs v2]. destruct (IH (pops [h] F) fs v2 I2) as (out & E3 & P3 & S3).
    { pose proof (Permutation_length P) as X. cbn [length] in X. lia. }
    { apply pops_forall; auto. intros a l S. inversion S; assumption. }
    rewrite E3. cbn [fbind]. eexists. split; [reflexivity|]. split.
    + apply Permutation_sym. eapply perm_trans; [exact P|]. apply perm_skip. apply Permutation_sym. exact P3.
    + constructor; [exact S3|]. rewrite Forall_forall in *. intros y Hy. apply Hmin. apply (Permutation_in _ (Permutation_sym P)). right. apply (Permutation_in _ P3). exact Hy.
Qed.
Lemma inv_init F : Forall (Forall ok) F -> inv (seq 0 (length F)) F (map (fun l => Some (ser l)) F) [].
Proof.
  intros Ho. split.
  - apply map_length.
  - intros i l _ Hl. rewrite nth_error_map, Hl. reflexivity.
  - intros i l Hi Hl. exfalso. apply Hi. apply in_seq. assert (i < length F) by (apply nth_error_Some; congruence). lia.
  - intros a i. split; [intros []|]. intros [Hi (t & Ht)]. exfalso. apply Hi. apply in_seq. assert (i < length F) by (apply nth_error_Some; congruence). lia.
  - constructor.
  - constructor.
  - apply seq_NoDup.
  - intros i Hi. apply in_seq in Hi. lia.
  - exact Ho.
Qed.
Lemma wr_pos a : ok a -> 1 <= length (wr a).
Proof. intros H. destruct (wr a) eqn:E; [|cbn; lia]. pose proof (rd_wr [] H) as X. rewrite E in X. cbn [app] in X. congruence. Qed.
Lemma ser_length l : Forall ok l -> length l <= length (ser l).
Proof. induction 1 as [|a l Ha _ IH]; [reflexivity|]. change (ser (a :: l)) with (wr a ++ ser l). rewrite app_length. pose proof (wr_pos Ha). cbn [length]. lia. Qed.
Lemma sers_length F : Forall (Forall ok) F -> length (concat F) <= length (concat (map ser F)).
Proof. induction 1 as [|l F Hl _ IH]; [reflexivity|]. cbn [map concat]. rewrite !app_length. pose proof (ser_length Hl). lia. Qed.
Lemma merge_start F : F <> [] -> Forall (Forall ok) F -> exists st, merge_files cmp rd dedup (map ser F) = merge_loop cmp rd dedup (S (length (concat (map ser F)))) st /\ inv [] F (fst st) (snd st).
Proof.
  intros Hne Ho. unfold merge_files. destruct (map ser F) as [|b bs] eqn:E; [destruct F; [contradiction|discriminate]|]. rewrite <- E.
  rewrite map_map, map_length. destruct (refills_ok (inv_init Ho)) as (st & -> & I). exists st. cbn [fbind]. split; [reflexivity|exact I].
Qed.
Theorem merge_plain F : dedup = None -> F <> [] -> Forall (Forall ok) F -> Forall (StronglySorted (fun x y => le x y)) F ->
  exists out, merge_files cmp rd dedup (map ser F) = Good out /\ Permutation out (concat F) /\ StronglySorted (fun x y => le x y) out.
Proof.
  intros Hd Hne Ho Fs. destruct (merge_start Hne Ho) as ((fs & v) & -> & I). apply (loop_plain Hd I); [|exact Fs]. pose proof (sers_length Ho). lia.
Qed.

(** ** With removal of duplicates *)
Lemma eq_lt x y z : cmp x y = Eq -> cmp y z = Lt -> cmp x z = Lt.
Proof.
  intros H1 H2. assert (H3 : le x z) by (apply (@ctrans _ y); congruence). destruct (cmp x z) eqn:C; auto; [|contradiction].
  assert (cmp y z = Eq) by (apply (@meq_trans _ x); auto; apply meq_sym; exact H1). congruence.
Qed.
Lemma le_lt x y z : le x y -> cmp y z = Lt -> cmp x z = Lt.
Proof.
  intros H1 H2. assert (H3 : le x z) by (apply (@ctrans _ y); congruence). destruct (cmp x z) eqn:C; auto; [|contradiction].
  exfalso. assert (X : le z y) by (apply (@ctrans _ x); [rewrite csym, C; discriminate|exact H1]). rewrite csym, H2 in X. apply X. reflexivity.
Qed.
Lemma lt_le' x y z : cmp x y = Lt -> le y z -> cmp x z = Lt.
Proof.
  intros H1 H2. assert (H3 : le x z) by (apply (@ctrans _ y); congruence). destruct (cmp x z) eqn:C; auto; [|contradiction].
  exfalso. assert (X : le y x) by (apply (@ctrans _ z); [exact H2|rewrite csym, C; discriminate]). rewrite csym, H1 in X. apply X. reflexivity.
Qed.
Notation slt := (StronglySorted (fun x y : A => cmp x y = Lt)).
Definition newest (F : list (list A)) (b : A) : Prop :=
  exists i l, nth_error F i = Some l /\ In b l /\ forall j l', i < j -> nth_error F j = Some l' -> Forall (fun c => cmp b c <> Eq) l'.
Lemma slt_le (l : list A) : slt l -> StronglySorted (fun x y => le x y) l.
Proof. induction 1 as [|a l S IH F]; constructor; [exact IH|]. eapply Forall_impl; [|exact F]. intros b. apply mlt_le. Qed.
Lemma loop_dedup d : dedup = Some d -> (forall l w, NoDup (map snd l) -> nth_error l (d l) = Some w -> Forall (fun y => snd y <= snd w) l) ->
  forall f F files v, inv [] F files v -> length (concat F) < f -> Forall slt F ->
  exists out, merge_loop cmp rd dedup f (files, v) = Good out /\ slt out /\ Forall (fun a => exists b, In b out /\ cmp a b = Eq) (concat F) /\ Forall (newest F) out.
Proof.
  intros Hd Hmax. induction f as [|f IH]; intros F files v I Hf Fs; [lia|]. cbn [merge_loop snd fst]. destruct v as [|h t].
  - exists []. split; [reflexivity|]. rewrite (inv_empty I). repeat split; constructor.
  - assert (Fle : Forall (StronglySorted (fun x y => le x y)) F) by (eapply Forall_impl; [|exact Fs]; intros l; apply slt_le).
    pose proof (inv_min I Fle) as Hmin. destruct (round_ok I) as (w & o & v' & st' & E1 & E2 & I2 & N & Hh & G & W). rewrite E1. cbn [fbind fst snd]. rewrite E2. cbn [fbind].
    destruct (W d Hd) as (g & Pg & Ng). clear W. unfold is_group in G. rewrite Hd in G. destruct G as [G1 G2]. rewrite Forall_forall in G1.
    destruct (pops_ok N Hh) as (L & P & Oo & Ii).
    assert (Fs' : Forall slt (pops (w :: o) F)) by (apply pops_forall; auto; intros a l S; inversion S; assumption).
    rewrite Forall_forall in Fs, Hmin.
    assert (Hgt : forall c, In c (concat (pops (w :: o) F)) -> cmp (fst h) c = Lt).
    { intros c Hc. apply in_concat in Hc. destruct Hc as (l & Hl & Hc). apply In_nth_error in Hl. destruct Hl as [k Hk].
      destruct (in_dec Nat.eq_dec k (map snd (w :: o))) as [Hi|Hi].
      - apply in_map_iff in Hi. destruct Hi as ((x & i') & Ei & Hx). cbn in Ei. subst i'. destruct (Hh x k Hx) as (t' & Ht'). rewrite (Ii x k t' Hx Ht') in Hk. injection Hk as <-.
        apply (@eq_lt _ x); [apply (G1 _ Hx)|]. apply nth_error_In in Ht'. apply Fs in Ht'. inversion Ht' as [|? ? _ Ft]; subst. rewrite Forall_forall in Ft. apply Ft, Hc.
      - rewrite Oo in Hk by exact Hi. destruct l as [|y l]; [destruct Hc|].
        assert (Hy : In (y, k) (h :: t)) by (apply (iv_v I); split; [intros []|]; exists l; exact Hk).
        assert (Hy2 : cmp (fst h) y = Lt).
        { destruct (cmp (fst h) y) eqn:C; auto.
          - exfalso. apply Hi. apply in_map_iff. exists (y, k). split; [reflexivity|]. apply G2; auto.
          - exfalso. apply (Hmin y); [|exact C]. apply in_concat. exists (y :: l). split; [eapply nth_error_In; eauto|left; reflexivity]. }
        destruct Hc as [<-|Hc]; [exact Hy2|]. apply (@lt_le' _ y); [exact Hy2|]. apply nth_error_In in Hk. apply Fs in Hk. inversion Hk as [|? ? _ Ft]; subst. rewrite Forall_forall in Ft. apply mlt_le, Ft, Hc. }
    destruct st' as [fs v2]. destruct (IH (pops (w :: o) F) fs v2 I2) as (out & E3 & S3 & C3 & N3).
    { pose proof (Permutation_length P) as X. rewrite app_length in X. cbn [map length] in X. lia. }
    { exact Fs'. }
    rewrite E3. cbn [fbind]. eexists. split; [reflexivity|].
    assert (Hout : forall b, In b out -> In b (concat (pops (w :: o) F))).
    { intros b Hb. rewrite Forall_forall in N3. destruct (N3 b Hb) as (i & l & Hl & Hbl & _). apply in_concat. exists l. split; [eapply nth_error_In; eauto|exact Hbl]. }
    assert (Hwh : cmp (fst w) (fst h) = Eq) by (apply meq_sym, (G1 w); left; reflexivity).
    split; [|split].
    + constructor; [exact S3|]. apply Forall_forall. intros b Hb. apply (@eq_lt _ (fst h)); [exact Hwh|]. apply Hgt, Hout, Hb.
    + apply Forall_forall. intros a Ha. apply (Permutation_in _ P) in Ha. apply in_app_or in Ha. destruct Ha as [Ha|Ha].
      * apply in_map_iff in Ha. destruct Ha as (y & <- & Hy). exists (fst w). split; [left; reflexivity|]. apply (@meq_trans _ (fst h)); [|apply meq_sym, Hwh]. apply meq_sym, (G1 _ Hy).
      * rewrite Forall_forall in C3. destruct (C3 a Ha) as (b & Hb & C). exists b. split; [right; exact Hb|exact C].
    + constructor.
      * destruct w as [a i]. destruct (Hh a i (or_introl eq_refl)) as (ta & Hta). exists i, (a :: ta). split; [exact Hta|]. split; [left; reflexivity|]. cbn [fst] in *.
        intros j l' Hij Hl'. apply Forall_forall. intros c Hc C. destruct l' as [|b l']; [destruct Hc|].
        assert (Hb : In (b, j) (h :: t)) by (apply (iv_v I); split; [intros []|]; exists l'; exact Hl').
        assert (Hc' : cmp (fst h) c = Eq) by (apply (@meq_trans _ a); [apply meq_sym, Hwh|exact C]).
        assert (Hlb : le (fst h) b) by (apply Hmin, in_concat; exists (b :: l'); split; [eapply nth_error_In; eauto|left; reflexivity]).
        destruct Hc as [<-|Hc].
        -- assert (Hbg : In (b, j) ((a, i) :: o)) by (apply G2; auto).
           assert (Hbg' : In (b, j) g) by (apply (Permutation_in _ (Permutation_sym Pg)); exact Hbg).
           assert (Hag : In (a, i) g) by (apply (Permutation_in _ (Permutation_sym Pg)); left; reflexivity).
           destruct g as [|g1 [|g2 g]]; [destruct Hag| |].
           ++ destruct Hag as [->|[]]. destruct Hbg' as [X|[]]. injection X as _ X. lia.
           ++ assert (Nw : nth_error (g1 :: g2 :: g) (d (g1 :: g2 :: g)) = Some (a, i)) by (apply Ng; cbn; lia).
              assert (Ndg : NoDup (map snd (g1 :: g2 :: g))) by (apply (Permutation_NoDup (Permutation_map snd (Permutation_sym Pg))); exact N).
              pose proof (Hmax _ _ Ndg Nw) as M. rewrite Forall_forall in M. specialize (M _ Hbg'). cbn [snd] in M. lia.
        -- apply nth_error_In in Hl'. apply Fs in Hl'. inversion Hl' as [|? ? _ Fl]; subst. rewrite Forall_forall in Fl. pose proof (@le_lt _ b c Hlb (Fl _ Hc)) as X. congruence.
      * rewrite Forall_forall in N3. apply Forall_forall. intros b Hb. destruct (N3 b Hb) as (i & l & Hl & Hbl & Hj).
        assert (Hhb : cmp (fst h) b = Lt) by (apply Hgt, Hout, Hb).
        assert (Hback : forall k l0, nth_error (pops (w :: o) F) k = Some l0 -> nth_error F k = Some l0 \/ exists x, cmp (fst h) x = Eq /\ nth_error F k = Some (x :: l0)).
        { intros k l0 Hk. destruct (in_dec Nat.eq_dec k (map snd (w :: o))) as [Hi|Hi].
          - right. apply in_map_iff in Hi. destruct Hi as ((x & i') & Ei & Hx). cbn in Ei. subst i'. destruct (Hh x k Hx) as (t' & Ht'). rewrite (Ii x k t' Hx Ht') in Hk. injection Hk as <-.
            exists x. split; [apply (G1 _ Hx)|exact Ht'].
          - left. rewrite Oo in Hk by exact Hi. exact Hk. }
        assert (Hi : exists l0, nth_error F i = Some l0 /\ In b l0). { destruct (Hback i l Hl) as [X|(x & _ & X)]; eexists; (split; [exact X|]); auto. right. exact Hbl. }
        destruct Hi as (l0 & Hl0 & Hb0). exists i, l0. split; [exact Hl0|]. split; [exact Hb0|]. intros j l' Hij Hl'.
        destruct (nth_error (pops (w :: o) F) j) as [lj|] eqn:Ej.
        -- specialize (Hj j lj Hij Ej). destruct (Hback j lj Ej) as [X|(x & Cx & X)]; rewrite Hl' in X; injection X as ->; [exact Hj|].
           constructor; [|exact Hj]. intros C. pose proof (@meq_trans _ _ _ Cx (meq_sym C)) as Y. congruence.
        -- exfalso. apply nth_error_None in Ej. rewrite L in Ej. assert (j < length F) by (apply nth_error_Some; congruence). lia.
Qed.
Theorem merge_dedup d F : dedup = Some d -> (forall l w, NoDup (map snd l) -> nth_error l (d l) = Some w -> Forall (fun y => snd y <= snd w) l) ->
  F <> [] -> Forall (Forall ok) F -> Forall slt F ->
  exists out, merge_files cmp rd dedup (map ser F) = Good out /\ slt out /\ Forall (fun a => exists b, In b out /\ cmp a b = Eq) (concat F) /\ Forall (newest F) out.
Proof.
  intros Hd Hm Hne Ho Fs. destruct (merge_start Hne Ho) as ((fs & v) & -> & I). apply (loop_dedup Hd Hm I); [|exact Fs]. pose proof (sers_length Ho). lia.
Qed.
End MF.

(** ** The choice of the record *)
Lemma dedup_loop_spec l : forall i m best, m < i -> let r := dedup_loop l i m best in
  (r = m /\ Forall (fun f => f <= best) l) \/ (i <= r /\ exists f, nth_error l (r - i) = Some f /\ best < f /\ Forall (fun x => x <= f) l).
Proof.
  induction l as [|f l IH]; intros i m best Hm; cbn [dedup_loop].
  - left. auto.
  - destruct (Nat.ltb_spec best f) as [H|H].
    + destruct (IH (S i) i f ltac:(lia)) as [[E Fl]|(E & x & Hx & Hb & Fl)].
      * right. rewrite E. split; [lia|]. exists f. rewrite Nat.sub_diag. split; [reflexivity|]. split; [exact H|]. constructor; auto.
      * right. split; [lia|]. exists x. destruct (dedup_loop l (S i) i f - i) eqn:Eq; [lia|]. cbn [nth_error]. split; [rewrite <- Hx; f_equal; lia|]. split; [lia|]. constructor; [lia|exact Fl].
    + destruct (IH (S i) m best ltac:(lia)) as [[E Fl]|(E & x & Hx & Hb & Fl)].
      * left. split; [exact E|]. constructor; auto.
      * right. split; [lia|]. exists x. destruct (dedup_loop l (S i) m best - i) eqn:Eq; [lia|]. cbn [nth_error]. split; [rewrite <- Hx; f_equal; lia|]. split; [lia|]. constructor; [lia|exact Fl].
Qed.
Lemma dedup_view_max A (l : list (A * nat)) w : nth_error l (dedup_view_records_merger l) = Some w -> Forall (fun y => snd y <= snd w) l.
Proof.
  unfold dedup_view_records_merger. destruct l as [|p l]; [discriminate|]. cbn [map]. intros H.
  assert (G : Forall (fun f => f <= snd w) (snd p :: map snd l)).
  { destruct (@dedup_loop_spec (map snd l) 1 0 (snd p) ltac:(lia)) as [[E Fl]|(E & x & Hx & Hb & Fl)].
    - rewrite E in H. injection H as <-. constructor; auto.
    - destruct (dedup_loop (map snd l) 1 0 (snd p)) as [|r] eqn:Er; [lia|]. cbn [nth_error] in H. replace (S r - 1) with r in Hx by lia. rewrite nth_error_map, H in Hx. injection Hx as <-.
      constructor; [lia|exact Fl]. }
  inversion G as [|? ? G1 G2]; subst. constructor; [exact G1|]. rewrite Forall_forall in *. intros y Hy. apply G2, in_map, Hy.
Qed.
Lemma dedup_view_in A (l : list (A * nat)) : l <> [] -> dedup_view_records_merger l < length l.
Proof.
  intros Hl. unfold dedup_view_records_merger. destruct l as [|p l]; [contradiction|]. cbn [map length].
  destruct (@dedup_loop_spec (map snd l) 1 0 (snd p) ltac:(lia)) as [[E Fl]|(E & x & Hx & Hb & Fl)]; [lia|].
  assert (dedup_loop (map snd l) 1 0 (snd p) - 1 < length (map snd l)) by (apply nth_error_Some; congruence). rewrite map_length in *. lia.
Qed.
