(** Facts about the file model: frame conditions, contents after writes, reads. *)
From Verif Require Import Base Codec CodecFacts File.
Local Open Scope N_scope.

(** ** Well-formed file states *)

Record wf (f : file) : Prop := {
  wf_cur : forall i, In (cur f i) (vals f i);
  wf_dsize : dsize f <= size f;
  wf_end : forall i v, size f <= i -> In v (vals f i) -> v = 0;
  wf_clean : lost f = false -> forall i, i mod BLOCK <> 0 -> dirty f i = false ->
             forall v, In v (vals f i) -> v = cur f i;
  wf_ddirty : ddirty f = false -> forall i, i mod BLOCK <> 0 -> dirty f i = false
}.

(** Position [i] is durable, or still to be written by the next sync. *)
Definition settled (f : file) (i : N) : Prop :=
  (dirty f i = true /\ ddirty f = true) \/ (forall v, In v (vals f i) -> v = cur f i).

(** [f'] comes from [f] by writes that only touch positions from [p] on and that put at block starts
    only values allowed by [T]. *)
Record ext (p : N) (T : N -> N -> Prop) (f f' : file) : Prop := {
  ex_cur : forall i, i < p -> cur f' i = cur f i;
  ex_vals : forall i, i < p -> incl (vals f' i) (vals f i);
  ex_bcur : forall q, p <= q -> q mod BLOCK = 0 -> cur f' q = cur f q \/ T q (cur f' q);
  ex_bvals : forall q v, p <= q -> q mod BLOCK = 0 -> In v (vals f' q) -> In v (vals f q) \/ T q v;
  ex_size : size f <= size f';
  ex_dsize : dsize f <= dsize f';
  ex_wf : wf f';
  ex_lost : lost f' = false -> lost f = false;
  ex_big : big f' = false -> big f = false;
  ex_dead : dead f' = false -> dead f = false;
  ex_crcm : crcm f' = crcm f;
  ex_fkey : fkey f' = fkey f;
  ex_settled : forall i, i < p -> lost f' = false -> settled f i -> settled f' i
}.

Lemma ext_refl p T f : wf f -> ext p T f f.
Proof. intros H. constructor; auto using incl_refl; lia. Qed.

Lemma ext_trans p T f1 f2 f3 : ext p T f1 f2 -> ext p T f2 f3 -> ext p T f1 f3.
Proof.
  intros A B. constructor.
  - intros i Hi. rewrite (ex_cur B), (ex_cur A); auto.
  - intros i Hi. eapply incl_tran; [apply (ex_vals B) | apply (ex_vals A)]; auto.
  - intros q Hq Hm. destruct (ex_bcur B Hq Hm) as [->|HT]; auto. apply (ex_bcur A Hq Hm).
  - intros q v Hq Hm Hv. destruct (ex_bvals B v Hq Hm Hv) as [H|HT]; auto. apply (ex_bvals A v Hq Hm H).
  - pose proof (ex_size A); pose proof (ex_size B); lia.
  - pose proof (ex_dsize A); pose proof (ex_dsize B); lia.
  - exact (ex_wf B).
  - intros H. apply (ex_lost A), (ex_lost B), H.
  - intros H. apply (ex_big A), (ex_big B), H.
  - intros H. apply (ex_dead A), (ex_dead B), H.
  - now rewrite (ex_crcm B), (ex_crcm A).
  - now rewrite (ex_fkey B), (ex_fkey A).
  - intros i Hi Hl Hs. apply (ex_settled B Hi Hl). apply (ex_settled A Hi); auto. apply (ex_lost B Hl).
Qed.

Lemma ext_weaken p p' (T T' : N -> N -> Prop) f f' :
  ext p T f f' -> p' <= p -> (forall q v, p <= q -> T q v -> T' q v) -> ext p' T' f f'.
Proof.
  intros A Hp HT. constructor.
  - intros i Hi. apply (ex_cur A). lia.
  - intros i Hi. apply (ex_vals A). lia.
  - intros q Hq Hm. destruct (N.lt_ge_cases q p) as [Hl|Hl].
    + left. apply (ex_cur A). exact Hl.
    + destruct (ex_bcur A Hl Hm); auto.
  - intros q v Hq Hm Hv. destruct (N.lt_ge_cases q p) as [Hl|Hl].
    + left. exact (ex_vals A Hl v Hv).
    + destruct (ex_bvals A v Hl Hm Hv); auto.
  - exact (ex_size A).
  - exact (ex_dsize A).
  - exact (ex_wf A).
  - exact (ex_lost A).
  - exact (ex_big A).
  - exact (ex_dead A).
  - exact (ex_crcm A).
  - exact (ex_fkey A).
  - intros i Hi. apply (ex_settled A). lia.
Qed.

(** ** Elementary effects *)

Lemma inr_spec off len i : inr off len i = true <-> off <= i < off + len.
Proof. unfold inr. rewrite andb_true_iff, N.leb_le, N.ltb_lt. tauto. Qed.
Lemma inr_false off len i : inr off len i = false <-> i < off \/ off + len <= i.
Proof. unfold inr. rewrite andb_false_iff, N.leb_gt, N.ltb_ge. tauto. Qed.

Definition Tbytes (off : N) (b : bytes) : N -> N -> Prop :=
  fun q v => off <= q < off + lenN b /\ v = nth (N.to_nat (q - off)) b 0.

Lemma put_wf f off b : wf f -> wf (put f off b).
Proof.
  intros [H1 H2 H3 H4 H5]. unfold put. destruct (lenN b =? 0) eqn:Eb; [constructor; assumption|].
  apply N.eqb_neq in Eb.
  constructor; cbn.
  - intros i. unfold overlay. destruct (inr off (lenN b) i); [now left|apply H1].
  - lia.
  - intros i v Hi Hv. destruct (inr off (lenN b) i) eqn:Ei.
    + apply inr_spec in Ei. lia.
    + apply (H3 i v); [lia|exact Hv].
  - intros Hl i Hi Hd v Hv. apply orb_false_iff in Hd. destruct Hd as [Ed Hd].
    rewrite Ed in Hv. unfold overlay. rewrite Ed. eapply H4; eauto.
  - intros Hd i Hi. apply orb_false_iff in Hd. destruct Hd as [Hd Hn].
    apply negb_false_iff, andb_true_iff in Hn. destruct Hn as [Hn1 Hn2].
    apply N.eqb_eq in Hn1, Hn2. rewrite H5 by assumption. rewrite orb_false_r.
    apply inr_false. rewrite Hn1.
    destruct (N.eq_dec i off) as [->|]; [congruence|]. lia.
Qed.

Lemma put_ext f off b : wf f -> ext off (Tbytes off b) f (put f off b).
Proof.
  intros H. pose proof (put_wf off b H) as W.
  unfold put in *. destruct (lenN b =? 0) eqn:Eb; [now apply ext_refl|].
  constructor; cbn; auto; try lia.
  - intros i Hi. unfold overlay. destruct (inr off (lenN b) i) eqn:Ei; auto. apply inr_spec in Ei. lia.
  - intros i Hi. destruct (inr off (lenN b) i) eqn:Ei; auto using incl_refl. apply inr_spec in Ei. lia.
  - intros q Hq Hm. unfold overlay. destruct (inr off (lenN b) q) eqn:Ei; auto.
    right. apply inr_spec in Ei. split; auto.
  - intros q v Hq Hm. destruct (inr off (lenN b) q) eqn:Ei; auto.
    intros [<-|Hv]; auto. right. apply inr_spec in Ei. split; auto.
  - intros i Hi Hl. unfold settled, overlay; cbn.
    destruct (inr off (lenN b) i) eqn:Ei; [apply inr_spec in Ei; lia|].
    intros [[Hd Hdd]|Hv]; [left; rewrite Hd, Hdd; auto|auto].
Qed.

Lemma do_sync_wf f : wf f -> wf (do_sync f).
Proof.
  intros [H1 H2 H3 H4 H5]. constructor; cbn.
  - intros i. destruct (dirty f i); [now left|apply H1].
  - lia.
  - intros i v Hi. destruct (dirty f i).
    + intros [<-|[]]. apply (H3 i); auto.
    + now apply H3.
  - intros Hl i Hi _ v. destruct (dirty f i) eqn:Ed.
    + intros [<-|[]]. reflexivity.
    + now apply H4.
  - reflexivity.
Qed.

Lemma do_sync_ext p T f : wf f -> ext p T f (do_sync f).
Proof.
  intros H. pose proof (do_sync_wf H) as W. pose proof (wf_dsize H). constructor; cbn; auto; try lia.
  - intros i Hi v. destruct (dirty f i); auto. intros [<-|[]]. apply (wf_cur H).
  - intros q v Hq Hm. destruct (dirty f q); auto. intros [<-|[]]. left. apply (wf_cur H).
  - intros i Hi Hl. unfold settled; cbn. intros Hs. right. intros v.
    destruct (dirty f i) eqn:Ed; [intros [<-|[]]; reflexivity|]. destruct Hs as [[Hd _]|Hs]; [discriminate|auto].
Qed.

Lemma lose_wf f : wf f -> wf (lose f).
Proof.
  intros [H1 H2 H3 H4 H5]. constructor; cbn; auto.
  intros Hl i Hi _ v Hv. apply orb_false_iff in Hl. destruct Hl as [Hl Hd].
  eapply H4; eauto.
Qed.
Lemma lose_ext p T f : wf f -> ext p T f (lose f).
Proof.
  intros H. pose proof (lose_wf H) as W. constructor; cbn; auto using incl_refl; try lia.
  - intros Hl. apply orb_false_iff in Hl. tauto.
  - intros i Hi Hl. apply orb_false_iff in Hl. destruct Hl as [_ Hl]. unfold settled; cbn. rewrite Hl.
    intros [[_ Hd]|Hs]; [discriminate|auto].
Qed.

Lemma set_plan_ext p T f l : wf f -> ext p T f (set_plan f l).
Proof. intros H. constructor; cbn; auto using incl_refl; try lia. destruct H; constructor; assumption. Qed.
Lemma set_dead_ext p T f : wf f -> ext p T f (set_dead f).
Proof. intros H. constructor; cbn; auto using incl_refl; try lia; try discriminate. destruct H; constructor; assumption. Qed.
Lemma set_fpos_ext p T f q : wf f -> ext p T f (set_fpos f q).
Proof. intros H. constructor; cbn; auto using incl_refl; try lia. destruct H; constructor; assumption. Qed.
Lemma note_big_ext p T f n : wf f -> ext p T f (note_big f n).
Proof.
  intros H. constructor; cbn; auto using incl_refl; try lia; [destruct H; constructor; assumption|].
  intros Hb. apply orb_false_iff in Hb. tauto.
Qed.
Lemma set_crcm_wf f m : wf f -> wf (set_crcm f m).
Proof. intros H. destruct H; constructor; assumption. Qed.
Lemma set_fkey_wf f m : wf f -> wf (set_fkey f m).
Proof. intros H. destruct H; constructor; assumption. Qed.

Lemma next_step_eq f s f1 : next_step f = (s, f1) -> exists l, f1 = set_plan f l.
Proof.
  unfold next_step. destruct (plan f) as [|x p] eqn:Ep; intros H; inv H; eauto.
  exists []. destruct f1; cbn in *; subst; reflexivity.
Qed.

Lemma nth_take_drop A (d : A) n (l : list A) k :
  (k < N.to_nat n)%nat -> nth k (take n l) d = nth k l d.
Proof.
  unfold take. generalize (N.to_nat n) as m. intros m; revert l k.
  induction m as [|m IH]; intros l k Hk; [lia|]. destruct l as [|a l]; [now rewrite firstn_nil|].
  cbn [firstn]. destruct k as [|k]; cbn [nth]; auto. apply IH. lia.
Qed.

Lemma Tbytes_take off n b q v : Tbytes off (take n b) q v -> Tbytes off b q v.
Proof.
  unfold Tbytes. rewrite lenN_take. intros [H1 H2]. split; [lia|].
  subst v. apply nth_take_drop. lia.
Qed.

Lemma pwrite_ext f off b r f' : wf f -> pwrite f off b = (r, f') -> ext off (Tbytes off b) f f'.
Proof.
  intros W. unfold pwrite. destruct (dead f) eqn:Ed; [intros H; inv H; now apply ext_refl|].
  destruct (next_step f) as [s f1] eqn:En. destruct (next_step_eq _ En) as [l ->].
  pose proof (set_plan_ext off (Tbytes off b) l W) as X1.
  destruct s as [s|].
  - set (n := N.min _ _).
    assert (X2 : ext off (Tbytes off b) f (put (set_plan f l) off (take n b))).
    { eapply ext_trans; [exact X1|]. eapply ext_weaken; [apply put_ext, (ex_wf X1)|lia|].
      intros q v _. apply Tbytes_take. }
    assert (X3 : ext off (Tbytes off b) f
              (if w_sync s then do_sync (put (set_plan f l) off (take n b)) else put (set_plan f l) off (take n b))).
    { destruct (w_sync s); auto. eapply ext_trans; [exact X2|apply do_sync_ext, (ex_wf X2)]. }
    destruct (w_die s).
    + intros H; inv H. eapply ext_trans; [exact X3|apply set_dead_ext, (ex_wf X3)].
    + destruct (w_err s); intros H; inv H; [|exact X3].
      destruct (w_lossy s); [|exact X3]. eapply ext_trans; [exact X3|apply lose_ext, (ex_wf X3)].
  - intros H; inv H. eapply ext_trans; [exact X1|apply put_ext, (ex_wf X1)].
Qed.

Lemma fsync_ext p T f r f' : wf f -> fsync f = (r, f') -> ext p T f f'.
Proof.
  intros W. unfold fsync. destruct (dead f) eqn:Ed; [intros H; inv H; now apply ext_refl|].
  destruct (next_step f) as [s f1] eqn:En. destruct (next_step_eq _ En) as [l ->].
  pose proof (set_plan_ext p T l W) as X1.
  destruct s as [s|].
  - destruct (w_die s); [|destruct (w_err s)]; intros H; inv H.
    + destruct (w_sync s).
      * eapply ext_trans; [|apply set_dead_ext]; [|apply do_sync_wf, (ex_wf X1)].
        eapply ext_trans; [exact X1|apply do_sync_ext, (ex_wf X1)].
      * eapply ext_trans; [exact X1|apply set_dead_ext, (ex_wf X1)].
    + destruct (w_lossy s); [|exact X1]. eapply ext_trans; [exact X1|apply lose_ext, (ex_wf X1)].
    + eapply ext_trans; [exact X1|apply do_sync_ext, (ex_wf X1)].
  - intros H; inv H. eapply ext_trans; [exact X1|apply do_sync_ext, (ex_wf X1)].
Qed.

(** ** Successful writes *)

Lemma pwrite_ok f off b n f' : b <> [] -> pwrite f off b = (Ok n, f') ->
  1 <= n <= lenN b /\ (forall i, cur f' i = overlay (cur f) off (take n b) i) /\
  size f' = N.max (size f) (off + n) /\ fpos f' = fpos f.
Proof.
  intros Hb. assert (Hl : 1 <= lenN b) by (destruct b; [congruence|rewrite lenN_cons; lia]).
  unfold pwrite. destruct (dead f); [discriminate|].
  destruct (next_step f) as [s f1] eqn:En. destruct (next_step_eq _ En) as [l ->].
  destruct s as [s|].
  - destruct (w_die s); [discriminate|]. destruct (w_err s); [discriminate|]. cbn [orb].
    set (m := N.min _ _). intros H; inv H.
    assert (Hm : 1 <= m <= lenN b) by lia. split; [exact Hm|].
    assert (Ht : lenN (take m b) = m) by (rewrite lenN_take; lia).
    assert (Ep : put (set_plan f l) off (take m b) =
      File (overlay (cur f) off (take m b)) (N.max (size f) (off + m))
       (fun i => if inr off m i then nth (N.to_nat (i - off)) (take m b) 0 :: vals f i else vals f i)
       (fun i => inr off m i || dirty f i)
       (dsize f) (ddirty f || negb ((m =? 1) && (off mod BLOCK =? 0)))
       (lost f) (big f) (dead f) l (fpos f) (crcm f) (fkey f)).
    { unfold put. rewrite Ht. destruct (N.eqb_spec m 0); [lia|reflexivity]. }
    rewrite Ep. destruct (w_sync s); cbn; auto.
  - intros H; inv H. split; [lia|]. rewrite take_all by lia.
    unfold put. destruct (N.eqb_spec (lenN b) 0); [lia|]. cbn. auto.
Qed.

Lemma overlay_split g off n b i :
  n <= lenN b ->
  overlay (overlay g off (take n b)) (off + n) (drop n b) i = overlay g off b i.
Proof.
  intros Hn. unfold overlay. rewrite lenN_take, lenN_drop.
  replace (N.min n (lenN b)) with n by lia.
  destruct (inr (off + n) (lenN b - n) i) eqn:E1.
  - apply inr_spec in E1. rewrite (proj2 (inr_spec off (lenN b) i)) by lia.
    unfold drop. rewrite <- (firstn_skipn (N.to_nat n) b) at 2.
    rewrite app_nth2 by (rewrite firstn_length; unfold lenN in *; lia).
    f_equal. rewrite firstn_length. unfold lenN in *. lia.
  - apply inr_false in E1. destruct (inr off n i) eqn:E2.
    + apply inr_spec in E2. rewrite (proj2 (inr_spec off (lenN b) i)) by lia.
      apply nth_take_drop. lia.
    + apply inr_false in E2. rewrite (proj2 (inr_false off (lenN b) i)) by lia. reflexivity.
Qed.

Lemma write_entire_ext fuel : forall f off b r f', wf f ->
  write_entire fuel f off b = (r, f') -> ext off (Tbytes off b) f f'.
Proof.
  induction fuel as [|fuel IH]; intros f off b r f' W; cbn [write_entire].
  - destruct b; intros H; inv H; now apply ext_refl.
  - destruct b as [|x b]; [intros H; inv H; now apply ext_refl|].
    set (bb := x :: b) in *.
    destruct (pwrite f off bb) as [[n|e] f1] eqn:Ew; [|intros H; inv H; eapply pwrite_ext; eassumption].
    intros H. pose proof (pwrite_ext _ _ W Ew) as X.
    eapply ext_trans; [exact X|]. eapply ext_weaken; [eapply IH; [exact (ex_wf X)|exact H]|lia|].
    intros q v Hq [Hr ->]. apply pwrite_ok in Ew; [|discriminate].
    rewrite lenN_drop in Hr. split; [lia|].
    unfold drop. rewrite <- (firstn_skipn (N.to_nat n) bb) at 2.
    rewrite app_nth2; rewrite firstn_length; unfold lenN in *; [f_equal|]; lia.
Qed.

Lemma write_entire_ok fuel : forall f off b f',
  write_entire fuel f off b = (Ok tt, f') ->
  (forall i, cur f' i = overlay (cur f) off b i) /\
  size f' = (if lenN b =? 0 then size f else N.max (size f) (off + lenN b)) /\ fpos f' = fpos f.
Proof.
  induction fuel as [|fuel IH]; intros f off b f'; cbn [write_entire].
  - destruct b; intros H; inv H. repeat split. intros i. unfold overlay.
    destruct (inr off (lenN []) i) eqn:E; auto. apply inr_spec in E. rewrite lenN_nil in E. lia.
  - destruct b as [|x b].
    + intros H; inv H. repeat split. intros i. unfold overlay.
      destruct (inr off (lenN []) i) eqn:E; auto. apply inr_spec in E. rewrite lenN_nil in E. lia.
    + set (bb := x :: b) in *. destruct (pwrite f off bb) as [[n|e] f1] eqn:Ew; [|discriminate].
      intros H. apply pwrite_ok in Ew; [|discriminate]. destruct Ew as (Hn & Hc & Hs & Hp).
      apply IH in H. destruct H as (Hc2 & Hs2 & Hp2). split; [|split].
      * intros i. rewrite Hc2. rewrite <- (@overlay_split (cur f) off n bb i) by lia.
        unfold overlay at 1 2. now rewrite Hc.
      * rewrite Hs2, Hs, lenN_drop. assert (lenN bb <> 0) by (unfold bb; rewrite lenN_cons; lia).
        destruct (N.eqb_spec (lenN bb) 0); [lia|].
        destruct (N.eqb_spec (lenN bb - n) 0); lia.
      * congruence.
Qed.

Lemma write_all_ext f off b r f' : wf f -> write_all f off b = (r, f') -> ext off (Tbytes off b) f f'.
Proof. apply write_entire_ext. Qed.
Lemma write_all_ok f off b f' : b <> [] -> write_all f off b = (Ok tt, f') ->
  (forall i, cur f' i = overlay (cur f) off b i) /\ size f' = N.max (size f) (off + lenN b) /\
  fpos f' = fpos f.
Proof.
  intros Hb H. apply write_entire_ok in H. destruct H as (H1 & H2 & H3). repeat split; auto.
  destruct (N.eqb_spec (lenN b) 0) as [E|E]; [|exact H2]. apply lenN_0 in E. congruence.
Qed.

(** With no failures ahead writes succeed. *)
Lemma pwrite_succeeds f off b : plan f = [] -> dead f = false ->
  exists f', pwrite f off b = (Ok (lenN b), f') /\ plan f' = [] /\ dead f' = false.
Proof.
  intros Hp Hd. unfold pwrite, next_step. rewrite Hd, Hp. eexists. split; [reflexivity|].
  unfold put. destruct (lenN b =? 0); cbn; auto.
Qed.
Lemma write_all_succeeds f off b : plan f = [] -> dead f = false ->
  exists f', write_all f off b = (Ok tt, f') /\ plan f' = [] /\ dead f' = false.
Proof.
  intros Hp Hd. unfold write_all. destruct b as [|x b]; [cbn; eauto|].
  cbn [write_entire length].
  destruct (@pwrite_succeeds f off (x :: b) Hp Hd) as (f' & -> & Hp' & Hd').
  rewrite drop_all by lia. exists f'. auto.
Qed.

(** ** Logical contents behind block prefixes *)

Lemma BLOCK_val : BLOCK = 4096. Proof. reflexivity. Qed.

Lemma skip_ge p : p <= skip_prefix p <= p + 1.
Proof. unfold skip_prefix. destruct (p mod BLOCK =? 0); lia. Qed.
Lemma skip_nb p : skip_prefix p mod BLOCK <> 0.
Proof.
  unfold skip_prefix. destruct (N.eqb_spec (p mod BLOCK) 0); [|assumption].
  rewrite BLOCK_val in *. lia.
Qed.
Lemma skip_id p : p mod BLOCK <> 0 -> skip_prefix p = p.
Proof. intros H. unfold skip_prefix. now destruct (N.eqb_spec (p mod BLOCK) 0). Qed.
Lemma skip_skip p : skip_prefix (skip_prefix p) = skip_prefix p.
Proof. apply skip_id, skip_nb. Qed.

(** Position after [n] logical bytes from [pos]. *)
Fixpoint adv (pos : N) (n : nat) : N :=
  match n with O => pos | S n' => adv (skip_prefix pos + 1) n' end.

(** The logical bytes from [pos] on are [b]. *)
Fixpoint body_at (g : N -> N) (pos : N) (b : bytes) : Prop :=
  match b with
  | [] => True
  | x :: b' => g (skip_prefix pos) = x /\ body_at g (skip_prefix pos + 1) b'
  end.

Lemma adv_ge pos n : pos + N.of_nat n <= adv pos n.
Proof.
  revert pos; induction n as [|n IH]; intros pos; cbn [adv]; [lia|].
  specialize (IH (skip_prefix pos + 1)). pose proof (skip_ge pos). lia.
Qed.
Lemma adv_add pos n m : adv pos (n + m) = adv (adv pos n) m.
Proof. revert pos; induction n as [|n IH]; intros pos; cbn [adv plus]; auto. Qed.
Lemma adv_mono pos n m : (n <= m)%nat -> adv pos n <= adv pos m.
Proof.
  intros H. replace m with (n + (m - n))%nat by lia. rewrite adv_add.
  pose proof (adv_ge (adv pos n) (m - n)). lia.
Qed.
Lemma adv_skip pos n : (n <> 0)%nat -> adv (skip_prefix pos) n = adv pos n.
Proof. destruct n; [congruence|]. intros _. cbn [adv]. now rewrite skip_skip. Qed.
Lemma body_at_skip g pos b : body_at g (skip_prefix pos) b <-> body_at g pos b.
Proof. destruct b; cbn [body_at]; [tauto|]. now rewrite skip_skip. Qed.

Lemma body_at_app g pos a b :
  body_at g pos (a ++ b) <-> body_at g pos a /\ body_at g (adv pos (length a)) b.
Proof.
  revert pos; induction a as [|x a IH]; intros pos; cbn [app body_at adv length]; [tauto|].
  rewrite IH. tauto.
Qed.

Lemma body_at_ext g g' pos b :
  (forall i, pos <= i < adv pos (length b) -> i mod BLOCK <> 0 -> g' i = g i) ->
  body_at g pos b -> body_at g' pos b.
Proof.
  revert pos; induction b as [|x b IH]; intros pos H; cbn [body_at]; auto.
  intros [H1 H2]. pose proof (skip_ge pos). pose proof (adv_ge (skip_prefix pos + 1) (length b)).
  cbn [length adv] in H. split.
  - rewrite H; auto; [lia|apply skip_nb].
  - apply IH; auto. intros i Hi. apply H. lia.
Qed.

Lemma body_at_unique g pos a b : length a = length b -> body_at g pos a -> body_at g pos b -> a = b.
Proof.
  revert pos b; induction a as [|x a IH]; intros pos [|y b] Hl; try discriminate; auto.
  cbn [body_at]. intros [H1 H2] [H3 H4]. f_equal; [congruence|]. eapply IH; eauto.
Qed.

(** Within a block, logical and raw bytes coincide. *)
Lemma adv_in_block pos n : pos mod BLOCK <> 0 -> pos mod BLOCK + N.of_nat n <= BLOCK ->
  adv pos n = pos + N.of_nat n.
Proof.
  revert pos; induction n as [|n IH]; intros pos Hp Hn; cbn [adv]; [lia|].
  rewrite skip_id by assumption. destruct n as [|n].
  - cbn [adv]. lia.
  - assert (E : (pos + 1) mod BLOCK = pos mod BLOCK + 1) by (rewrite BLOCK_val in *; lia).
    rewrite IH; lia.
Qed.

Lemma body_at_in_block g pos b : pos mod BLOCK <> 0 -> pos mod BLOCK + lenN b <= BLOCK ->
  (forall k, k < lenN b -> g (pos + k) = nth (N.to_nat k) b 0) -> body_at g pos b.
Proof.
  revert pos; induction b as [|x b IH]; intros pos Hp Hn Hg; cbn [body_at]; auto.
  rewrite lenN_cons in *. rewrite skip_id by assumption. split.
  - specialize (Hg 0). rewrite N.add_0_r in Hg. apply Hg. lia.
  - destruct b as [|y b]; [exact I|].
    rewrite lenN_cons in *.
    assert (E : (pos + 1) mod BLOCK = pos mod BLOCK + 1) by (rewrite BLOCK_val in *; lia).
    apply IH.
    + lia.
    + rewrite ?lenN_cons. lia.
    + intros k Hk. rewrite ?lenN_cons in Hk. specialize (Hg (k + 1)).
      replace (pos + 1 + k) with (pos + (k + 1)) by lia. rewrite Hg by lia.
      replace (N.to_nat (k + 1)) with (S (N.to_nat k)) by lia. reflexivity.
Qed.

(** ** raw_write *)

Definition Tval (t : N) : N -> N -> Prop := fun _ v => v = t.

Lemma raw_write_loop_ext fuel : forall t f wp b r f', wf f ->
  raw_write_loop fuel t f wp b = (r, f') -> ext wp (Tval t) f f'.
Proof.
  induction fuel as [|fuel IH]; intros t f wp b r f' W; cbn [raw_write_loop].
  - destruct b; intros H; inv H; now apply ext_refl.
  - destruct b as [|x b]; [intros H; inv H; now apply ext_refl|].
    set (bb := x :: b) in *.
    destruct (N.eqb_spec (wp mod BLOCK) 0) as [E0|E0].
    + destruct (write_all f wp [t]) as [[u|e] f1] eqn:Ew; pose proof (write_all_ext _ _ W Ew) as X;
      (assert (X' : ext wp (Tval t) f f1)
        by (eapply ext_weaken; [exact X|lia|];
            intros q v _ [Hr ->]; rewrite lenN_cons, lenN_nil in Hr;
            replace (q - wp) with 0 by lia; reflexivity)).
      * intros H. eapply ext_trans; [exact X'|]. eapply ext_weaken; [eapply IH; [exact (ex_wf X)|exact H]|lia|auto].
      * intros H; inv H. exact X'.
    + set (n := N.min _ _).
      assert (Hn : wp mod BLOCK + n <= BLOCK) by (unfold n; rewrite BLOCK_val in *; lia).
      destruct (write_all f wp (take n bb)) as [[u|e] f1] eqn:Ew; pose proof (write_all_ext _ _ W Ew) as X;
      (assert (X' : ext wp (Tval t) f f1)
        by (constructor; [apply (ex_cur X)|apply (ex_vals X)|
              intros q Hq Hm; destruct (ex_bcur X Hq Hm) as [?|[Hr _]]; [auto|];
                rewrite lenN_take in Hr; exfalso; rewrite BLOCK_val in *; lia|
              intros q v Hq Hm Hv; destruct (ex_bvals X v Hq Hm Hv) as [?|[Hr _]]; [auto|];
                rewrite lenN_take in Hr; exfalso; rewrite BLOCK_val in *; lia|
              apply (ex_size X)|apply (ex_dsize X)|apply (ex_wf X)|apply (ex_lost X)|apply (ex_big X)|apply (ex_dead X)|apply (ex_crcm X)|apply (ex_fkey X)|apply (ex_settled X)])).
      * intros H. eapply ext_trans; [exact X'|]. eapply ext_weaken; [eapply IH; [exact (ex_wf X)|exact H]|lia|auto].
      * intros H; inv H. exact X'.
Qed.

Lemma raw_write_ext t f wp b r f' : wf f -> raw_write t f wp b = (r, f') -> ext wp (Tval t) f f'.
Proof. apply raw_write_loop_ext. Qed.

Lemma raw_write_loop_ok fuel : forall t f wp b e f', wf f ->
  raw_write_loop fuel t f wp b = (Ok e, f') ->
  e = adv wp (length b) /\ body_at (cur f') wp b /\
  (b <> [] -> e <= size f') /\ fpos f' = fpos f /\
  (forall q, wp <= q < e -> q mod BLOCK = 0 -> cur f' q = t) /\
  (forall i, e <= i -> cur f' i = cur f i) /\ size f' <= N.max (size f) e.
Proof.
  induction fuel as [|fuel IH]; intros t f wp b e f' W; cbn [raw_write_loop].
  - destruct b; intros H; inv H. cbn. repeat split; auto; try congruence; lia.
  - destruct b as [|x b]; [intros H; inv H; cbn; repeat split; auto; try congruence; lia|].
    set (bb := x :: b) in *.
    destruct (N.eqb_spec (wp mod BLOCK) 0) as [E0|E0].
    + destruct (write_all f wp [t]) as [[u|e0] f1] eqn:Ew; [|discriminate]. destruct u.
      intros H. pose proof (write_all_ext _ _ W Ew) as X.
      apply write_all_ok in Ew; [|discriminate]. destruct Ew as (Hc & Hs & Hp).
      pose proof (raw_write_loop_ext _ _ _ _ (ex_wf X) H) as X2.
      apply IH in H; [|exact (ex_wf X)]. destruct H as (He & Hb & Hz & Hq & Hbl & Hout & Hsz).
      assert (Es : skip_prefix wp = wp + 1) by (unfold skip_prefix; now rewrite E0).
      assert (Ead : adv (wp + 1) (length bb) = adv wp (length bb)).
      { rewrite <- Es. apply adv_skip. discriminate. }
      pose proof (adv_ge (wp + 1) (length bb)) as Hge.
      refine (conj _ (conj _ (conj _ (conj _ (conj _ (conj _ _)))))).
      * congruence.
      * apply body_at_skip. rewrite Es. exact Hb.
      * intros _. apply Hz. discriminate.
      * congruence.
      * intros q Hq1 Hq2. destruct (N.eq_dec q wp) as [->|Hne].
        { rewrite (ex_cur X2) by lia. rewrite Hc. unfold overlay.
          rewrite (proj2 (inr_spec wp (lenN [t]) wp)) by (rewrite lenN_cons, lenN_nil; lia).
          rewrite N.sub_diag. reflexivity. }
        apply Hbl; auto. lia.
      * intros i Hi. rewrite Hout by assumption. rewrite Hc. unfold overlay.
        rewrite (proj2 (inr_false wp (lenN [t]) i)); auto. rewrite lenN_cons, lenN_nil. lia.
      * rewrite Hs, lenN_cons, lenN_nil in Hsz. lia.
    + set (n := N.min (BLOCK - wp mod BLOCK) (lenN bb)).
      assert (Hlen : 1 <= lenN bb) by (unfold bb; rewrite lenN_cons; lia).
      assert (Hn : wp mod BLOCK + n <= BLOCK /\ 1 <= n <= lenN bb) by (unfold n; rewrite BLOCK_val in *; lia).
      assert (Ht : lenN (take n bb) = n) by (rewrite lenN_take; lia).
      destruct (write_all f wp (take n bb)) as [[u|e0] f1] eqn:Ew; [|discriminate]. destruct u.
      intros H. pose proof (write_all_ext _ _ W Ew) as X.
      apply write_all_ok in Ew; [|intros Hnil; rewrite Hnil, lenN_nil in Ht; lia].
      rewrite Ht in Ew. destruct Ew as (Hc & Hs & Hp).
      pose proof (raw_write_loop_ext _ _ _ _ (ex_wf X) H) as X2.
      apply IH in H; [|exact (ex_wf X)]. destruct H as (He & Hb & Hz & Hq & Hbl & Hout & Hsz).
      assert (Ea : adv wp (length (take n bb)) = wp + n).
      { rewrite adv_in_block; auto; unfold lenN in Ht; [lia|]. lia. }
      assert (El : length bb = (length (take n bb) + length (drop n bb))%nat).
      { rewrite <- app_length, take_drop. reflexivity. }
      assert (Ead : adv wp (length bb) = adv (wp + n) (length (drop n bb))).
      { rewrite El, adv_add, Ea. reflexivity. }
      pose proof (adv_ge (wp + n) (length (drop n bb))) as Hge.
      refine (conj _ (conj _ (conj _ (conj _ (conj _ (conj _ _)))))).
      * congruence.
      * rewrite <- (take_drop n bb). apply body_at_app. rewrite Ea. split; [|exact Hb].
        apply body_at_in_block; [assumption|lia|]. rewrite Ht. intros k Hk.
        rewrite (ex_cur X2) by lia. rewrite Hc. unfold overlay.
        rewrite Ht. rewrite (proj2 (inr_spec wp n (wp + k))) by lia.
        f_equal. lia.
      * intros _. destruct (N.eq_dec n (lenN bb)) as [En|En].
        { assert (Edr : drop n bb = []) by (apply drop_all; lia).
          rewrite Edr in He. cbn in He. pose proof (ex_size X2). rewrite Hs in *. lia. }
        { apply Hz. intros Hnil. assert (Hd : lenN (drop n bb) = 0) by now rewrite Hnil.
          rewrite lenN_drop in Hd. lia. }
      * congruence.
      * intros q Hq1 Hq2. destruct (N.lt_ge_cases q (wp + n)) as [Hlt|Hge2].
        { exfalso. rewrite BLOCK_val in *. lia. }
        apply Hbl; auto. lia.
      * intros i Hi. rewrite Hout by assumption. rewrite Hc. unfold overlay. rewrite Ht.
        rewrite (proj2 (inr_false wp n i)); auto. lia.
      * rewrite Hs in Hsz. lia.
Qed.

Lemma raw_write_ok t f wp b e f' : wf f ->
  raw_write t f wp b = (Ok e, f') ->
  e = adv wp (length b) /\ body_at (cur f') wp b /\
  (b <> [] -> e <= size f') /\ fpos f' = fpos f /\
  (forall q, wp <= q < e -> q mod BLOCK = 0 -> cur f' q = t) /\
  (forall i, e <= i -> cur f' i = cur f i) /\ size f' <= N.max (size f) e.
Proof. apply raw_write_loop_ok. Qed.

Lemma raw_write_loop_succeeds t fuel : forall f wp b, plan f = [] -> dead f = false ->
  (2 * length b + (if (wp mod BLOCK =? 0)%N then 1 else 0) <= fuel)%nat ->
  exists e f', raw_write_loop fuel t f wp b = (Ok e, f') /\ plan f' = [] /\ dead f' = false.
Proof.
  induction fuel as [|fuel IH]; intros f wp b Hp Hd Hf; cbn [raw_write_loop].
  - destruct b; cbn [length] in Hf; [eauto|lia].
  - destruct b as [|x b]; [eauto|]. set (bb := x :: b) in *.
    destruct (N.eqb_spec (wp mod BLOCK) 0) as [E0|E0].
    + destruct (@write_all_succeeds f wp [t] Hp Hd) as (f1 & -> & Hp1 & Hd1).
      apply IH; auto. destruct (N.eqb_spec ((wp + 1) mod BLOCK) 0); [rewrite BLOCK_val in *; lia|]. lia.
    + set (n := N.min (BLOCK - wp mod BLOCK) (lenN bb)).
      assert (Hlen : 1 <= lenN bb) by (unfold bb; rewrite lenN_cons; lia).
      assert (Hn : 1 <= n <= lenN bb) by (unfold n; rewrite BLOCK_val in *; lia).
      destruct (@write_all_succeeds f wp (take n bb) Hp Hd) as (f1 & -> & Hp1 & Hd1).
      apply IH; auto. assert (lenN (drop n bb) = lenN bb - n) by apply lenN_drop.
      unfold lenN in *. destruct ((wp + n) mod BLOCK =? 0); lia.
Qed.
Lemma raw_write_succeeds t f wp b : plan f = [] -> dead f = false ->
  exists e f', raw_write t f wp b = (Ok e, f') /\ plan f' = [] /\ dead f' = false.
Proof. intros. apply raw_write_loop_succeeds; auto. destruct (wp mod BLOCK =? 0); lia. Qed.

(** ** Reads *)

(** Byte-by-byte reader. *)
Fixpoint rd1 (g : N -> N) (sz pos : N) (n : nat) : res bytes :=
  match n with
  | O => Ok []
  | S n' =>
      if skip_prefix pos <? sz
      then let* r := rd1 g sz (skip_prefix pos + 1) n' in Ok (g (skip_prefix pos) :: r)
      else Err E_READ
  end.

Lemma rdn_length g off n : length (rdn g off n) = n.
Proof. revert off; induction n as [|n IH]; intros off; cbn; auto. Qed.
Lemma rdn_nth g off n k : (k < n)%nat -> nth k (rdn g off n) 0 = g (off + N.of_nat k).
Proof.
  revert off k; induction n as [|n IH]; intros off k Hk; [lia|].
  cbn [rdn]. destruct k as [|k]; cbn [nth]; [f_equal; lia|]. rewrite IH by lia. f_equal. lia.
Qed.

Lemma rd1_app g sz pos n m :
  rd1 g sz pos (n + m) =
  let* a := rd1 g sz pos n in let* b := rd1 g sz (adv pos n) m in Ok (a ++ b).
Proof.
  revert pos; induction n as [|n IH]; intros pos; cbn [plus rd1 adv].
  - destruct (rd1 g sz pos m); reflexivity.
  - destruct (skip_prefix pos <? sz); [|reflexivity].
    rewrite IH. destruct (rd1 g sz (skip_prefix pos + 1) n); cbn [bind]; auto.
    destruct (rd1 g sz (adv (skip_prefix pos + 1) n) m); reflexivity.
Qed.

Lemma rd1_skip g sz pos n : rd1 g sz (skip_prefix pos) n = rd1 g sz pos n.
Proof. destruct n; cbn [rd1]; auto. now rewrite skip_skip. Qed.

Lemma rd1_in_block g sz pos n : pos mod BLOCK <> 0 -> pos mod BLOCK + N.of_nat n <= BLOCK ->
  pos + N.of_nat n <= sz -> rd1 g sz pos n = Ok (rdn g pos n).
Proof.
  revert pos; induction n as [|n IH]; intros pos Hp Hn Hs; cbn [rd1 rdn]; auto.
  rewrite skip_id by assumption. destruct (N.ltb_spec pos sz); [|lia].
  destruct n as [|n]; [reflexivity|].
  assert (E : (pos + 1) mod BLOCK = pos mod BLOCK + 1) by (rewrite BLOCK_val in *; lia).
  rewrite IH by lia. reflexivity.
Qed.

Lemma read_skip_loop_eq fuel : forall f pos len acc, pos mod BLOCK <> 0 -> (N.to_nat len < fuel)%nat ->
  read_skip_loop fuel f pos len acc =
  let* b := rd1 (cur f) (size f) pos (N.to_nat len) in
  Ok (acc ++ b, if len =? 0 then pos else skip_prefix (adv pos (N.to_nat len))).
Proof.
  induction fuel as [|fuel IH]; intros f pos len acc Hp Hf; [lia|]. cbn [read_skip_loop].
  destruct (N.eqb_spec len 0) as [->|Hl].
  - change (N.to_nat 0) with 0%nat. cbn [rd1 bind]. now rewrite app_nil_r.
  - set (n := N.min (BLOCK - pos mod BLOCK) len).
    assert (Hn : 1 <= n <= len /\ pos mod BLOCK + n <= BLOCK) by (unfold n; rewrite BLOCK_val in *; lia).
    unfold pread. set (k := N.min n (size f - pos)).
    assert (Lk : lenN (rdn (cur f) pos (N.to_nat k)) = k) by (unfold lenN; rewrite rdn_length; lia).
    rewrite Lk. destruct (N.eqb_spec k 0) as [Ek|Ek].
    + assert (Hsz : size f <= pos) by (unfold k in Ek; lia).
      replace (N.to_nat len) with (S (N.to_nat len - 1)) by lia. cbn [rd1].
      rewrite skip_id by assumption. destruct (N.ltb_spec pos (size f)); [lia|]. reflexivity.
    + assert (Hk : 1 <= k <= n /\ pos + k <= size f) by (unfold k in *; lia).
      rewrite IH by (try apply skip_nb; lia).
      replace (N.to_nat len) with (N.to_nat k + N.to_nat (len - k))%nat by lia.
      rewrite rd1_app. rewrite (@rd1_in_block (cur f) (size f) pos (N.to_nat k)) by (try assumption; lia). cbn [bind].
      rewrite (@adv_in_block pos (N.to_nat k)) by (try assumption; lia). rewrite !Nnat.N2Nat.id, rd1_skip.
      destruct (rd1 (cur f) (size f) (pos + k) (N.to_nat (len - k))) as [b|e]; cbn [bind]; auto.
      rewrite <- app_assoc. do 2 f_equal.
      destruct (N.eqb_spec (len - k) 0) as [Ez|Ez].
      * rewrite adv_add, Ez. change (N.to_nat 0) with 0%nat. cbn [adv]. now rewrite (@adv_in_block pos (N.to_nat k)), Nnat.N2Nat.id by (try assumption; lia).
      * rewrite adv_add. f_equal. rewrite (@adv_in_block pos (N.to_nat k)) by (try assumption; lia).
        rewrite Nnat.N2Nat.id. rewrite adv_skip by lia. reflexivity.
Qed.

Lemma read_skip_eq f pos len :
  read_skip f pos len =
  let* b := rd1 (cur f) (size f) pos (N.to_nat len) in
  Ok (b, if len =? 0 then skip_prefix pos else skip_prefix (adv pos (N.to_nat len))).
Proof.
  unfold read_skip. rewrite read_skip_loop_eq by (try apply skip_nb; lia). rewrite rd1_skip.
  destruct (rd1 (cur f) (size f) pos (N.to_nat len)); cbn [bind app]; auto.
  destruct (N.eqb_spec len 0); auto. rewrite adv_skip by lia. reflexivity.
Qed.

(** The bytes actually looked at. *)
Lemma rd1_body g sz pos b : body_at g pos b -> adv pos (length b) <= sz ->
  rd1 g sz pos (length b) = Ok b.
Proof.
  revert pos; induction b as [|x b IH]; intros pos; cbn [body_at length rd1 adv]; auto.
  intros [H1 H2] Hs. pose proof (adv_ge (skip_prefix pos + 1) (length b)).
  destruct (N.ltb_spec (skip_prefix pos) sz); [|lia].
  rewrite IH by assumption. cbn [bind]. now rewrite H1.
Qed.

Lemma rd1_inv g sz pos n b : rd1 g sz pos n = Ok b -> length b = n /\ body_at g pos b /\ (n <> 0%nat -> adv pos n <= sz).
Proof.
  revert pos b; induction n as [|n IH]; intros pos b; cbn [rd1 adv].
  - intros H; inv H. cbn. repeat split; auto. congruence.
  - destruct (N.ltb_spec (skip_prefix pos) sz) as [Hlt|]; [|discriminate].
    intros H. bind_inv H. inv H. apply IH in E. destruct E as (E1 & E2 & E3).
    cbn [length body_at]. repeat split; auto.
    intros _. destruct n; [cbn [adv]; lia|]. apply E3. discriminate.
Qed.

Lemma rd1_err g sz pos n e : rd1 g sz pos n = Err e -> e = E_READ.
Proof.
  revert pos; induction n as [|n IH]; intros pos; cbn [rd1]; [discriminate|].
  destruct (skip_prefix pos <? sz); [|intros H; now inv H].
  destruct (rd1 g sz (skip_prefix pos + 1) n) eqn:E; cbn [bind]; [discriminate|].
  intros H; inv H. eapply IH; eassumption.
Qed.

Lemma read_skip_body f pos (b : bytes) : body_at (cur f) pos b -> adv pos (length b) <= size f ->
  exists p', read_skip f pos (lenN b) = Ok (b, p') /\ skip_prefix p' = skip_prefix (adv pos (length b)).
Proof.
  intros H Hs. rewrite read_skip_eq. unfold lenN. rewrite Nnat.Nat2N.id.
  rewrite rd1_body by assumption. cbn [bind]. eexists. split; [reflexivity|].
  destruct (N.eqb_spec (N.of_nat (length b)) 0) as [E|E].
  - assert (length b = 0)%nat as -> by lia. cbn [adv]. apply skip_skip.
  - apply skip_skip.
Qed.

Lemma read_skip_cong f pos pos' len : skip_prefix pos = skip_prefix pos' ->
  read_skip f pos len = read_skip f pos' len.
Proof.
  intros H. unfold read_skip. now rewrite H.
Qed.

(** ** The append position is only changed by the chunk and header writers *)

Lemma put_fpos f off b : fpos (put f off b) = fpos f.
Proof. unfold put. destruct (lenN b =? 0); reflexivity. Qed.
Lemma pwrite_fpos f off b r f' : pwrite f off b = (r, f') -> fpos f' = fpos f.
Proof.
  unfold pwrite. destruct (dead f); [intros H; now inv H|].
  destruct (next_step f) as [s f1] eqn:En. destruct (next_step_eq _ En) as [l ->].
  destruct s as [s|].
  - set (n := N.min _ _). destruct (w_die s); [|destruct (w_err s)]; intros H; inv H;
      try destruct (w_lossy s); destruct (w_sync s); cbn; now rewrite put_fpos.
  - intros H; inv H. now rewrite put_fpos.
Qed.
Lemma fsync_fpos f r f' : fsync f = (r, f') -> fpos f' = fpos f.
Proof.
  unfold fsync. destruct (dead f); [intros H; now inv H|].
  destruct (next_step f) as [s f1] eqn:En. destruct (next_step_eq _ En) as [l ->].
  destruct s as [s|].
  - destruct (w_die s); [|destruct (w_err s)]; intros H; inv H;
      try destruct (w_sync s); try destruct (w_lossy s); reflexivity.
  - intros H; inv H. reflexivity.
Qed.
Lemma write_entire_fpos fuel : forall f off b r f', write_entire fuel f off b = (r, f') -> fpos f' = fpos f.
Proof.
  induction fuel as [|fuel IH]; intros f off b r f'; cbn [write_entire]; destruct b; intros H; try (now inv H).
  destruct (pwrite f off (n :: b)) as [[m|e] f1] eqn:Ew; apply pwrite_fpos in Ew; [|now inv H].
  apply IH in H. congruence.
Qed.
Lemma raw_write_loop_fpos fuel : forall t f wp b r f',
  raw_write_loop fuel t f wp b = (r, f') -> fpos f' = fpos f.
Proof.
  induction fuel as [|fuel IH]; intros t f wp b r f'; cbn [raw_write_loop]; destruct b; intros H; try (now inv H).
  destruct (wp mod BLOCK =? 0).
  - destruct (write_all f wp [t]) as [[m|e] f1] eqn:Ew; apply write_entire_fpos in Ew; [|now inv H].
    apply IH in H. congruence.
  - destruct (write_all f wp _) as [[m|e] f1] eqn:Ew; apply write_entire_fpos in Ew; [|now inv H].
    apply IH in H. congruence.
Qed.
Lemma raw_write_fpos t f wp b r f' : raw_write t f wp b = (r, f') -> fpos f' = fpos f.
Proof. apply raw_write_loop_fpos. Qed.


(** ** Positions outside of a write *)

Definition same_at (i : N) (f f' : file) : Prop := cur f' i = cur f i /\ incl (vals f' i) (vals f i).
Lemma same_at_refl i f : same_at i f f.
Proof. split; auto using incl_refl. Qed.
Lemma same_at_trans i f1 f2 f3 : same_at i f1 f2 -> same_at i f2 f3 -> same_at i f1 f3.
Proof. intros [A B] [C D]. split; [congruence|]. eapply incl_tran; eassumption. Qed.

Lemma put_frame f off b i : inr off (lenN b) i = false -> same_at i f (put f off b).
Proof.
  intros H. unfold put. destruct (lenN b =? 0); [apply same_at_refl|]. split; cbn.
  - unfold overlay. now rewrite H.
  - rewrite H. apply incl_refl.
Qed.
Lemma do_sync_frame f i : wf f -> same_at i f (do_sync f).
Proof.
  intros W. split; [reflexivity|]. cbn. destruct (dirty f i); [|apply incl_refl].
  intros v [<-|[]]. apply wf_cur, W.
Qed.
Lemma inr_take off n (b : bytes) i : inr off (lenN b) i = false -> inr off (lenN (take n b)) i = false.
Proof. rewrite !inr_false, lenN_take. lia. Qed.

Lemma pwrite_frame f off b r f' i : wf f -> pwrite f off b = (r, f') -> inr off (lenN b) i = false ->
  same_at i f f'.
Proof.
  intros W. unfold pwrite. destruct (dead f); [intros H _; inv H; apply same_at_refl|].
  destruct (next_step f) as [s f1] eqn:En. destruct (next_step_eq _ En) as [l ->].
  assert (W1 : wf (set_plan f l)) by apply (ex_wf (set_plan_ext 0 (fun _ _ => True) l W)).
  assert (S1 : same_at i f (set_plan f l)) by (split; [reflexivity|apply incl_refl]).
  destruct s as [s|].
  - set (n := N.min _ _). intros H Hi.
    assert (S2 : same_at i f (put (set_plan f l) off (take n b))).
    { eapply same_at_trans; [exact S1|]. apply put_frame. now apply inr_take. }
    assert (W2 : wf (put (set_plan f l) off (take n b))) by now apply put_wf.
    assert (S3 : same_at i f (if w_sync s then do_sync (put (set_plan f l) off (take n b)) else put (set_plan f l) off (take n b))).
    { destruct (w_sync s); auto. eapply same_at_trans; [exact S2|]. now apply do_sync_frame. }
    destruct (w_die s); [|destruct (w_err s)]; inv H; auto.
    destruct (w_lossy s); auto.
  - intros H Hi; inv H. eapply same_at_trans; [exact S1|]. now apply put_frame.
Qed.

(** A successful write of one byte leaves the byte dirty or durable. *)
Lemma pwrite1_ok f off t n f' : pwrite f off [t] = (Ok n, f') ->
  cur f' off = t /\ (dirty f' off = true \/ vals f' off = [t]).
Proof.
  unfold pwrite. destruct (dead f); [discriminate|].
  destruct (next_step f) as [s f1] eqn:En. destruct (next_step_eq _ En) as [l ->].
  assert (Ein : inr off 1 off = true) by (apply inr_spec; lia).
  assert (P : cur (put (set_plan f l) off [t]) off = t /\ dirty (put (set_plan f l) off [t]) off = true).
  { unfold put. rewrite lenN_cons, lenN_nil. change (1 + 0 =? 0) with false. cbn [cur dirty].
    unfold overlay. rewrite lenN_cons, lenN_nil. change (1 + 0) with 1. rewrite Ein, N.sub_diag. auto. }
  destruct P as [P1 P2].
  destruct s as [s|].
  - destruct (w_die s); [discriminate|]. destruct (w_err s); [discriminate|]. cbn [orb].
    intros H; inv H.
    assert (Et : take (N.min (lenN [t]) (N.max 1 (w_len s))) [t] = [t]).
    { apply take_all. rewrite lenN_cons, lenN_nil. lia. }
    rewrite ?Et. destruct (w_sync s); [|auto]. cbn [do_sync cur vals dirty]. rewrite P2. split; [exact P1|].
    right. now rewrite P1.
  - intros H; inv H. auto.
Qed.

(** Bytes written by a successful multi-byte write are settled. *)
Definition fresh (f : file) (i : N) : Prop := dirty f i = true \/ (forall v, In v (vals f i) -> v = cur f i).

Lemma put_fresh f off b i : fresh f i -> fresh (put f off b) i.
Proof.
  unfold fresh, put. destruct (lenN b =? 0); auto. cbn. unfold overlay.
  destruct (inr off (lenN b) i) eqn:Ei; cbn; auto.
Qed.
Lemma put_fresh_in f off b i : inr off (lenN b) i = true -> dirty (put f off b) i = true.
Proof.
  intros H. unfold put. destruct (N.eqb_spec (lenN b) 0) as [e|e]; cbn; [|now rewrite H].
  apply inr_spec in H. lia.
Qed.

Arguments pwrite_ok {f off b n f'} _ _.
Lemma pwrite_fresh f off b n f' i : b <> [] -> pwrite f off b = (Ok n, f') -> i = off \/ fresh f i ->
  fresh f' i /\ ((off mod BLOCK <> 0 \/ 2 <= n) -> settled f' i).
Proof.
  intros Hb H Hi. pose proof (pwrite_ok Hb H) as (Hn & _).
  revert H. unfold pwrite. destruct (dead f); [discriminate|].
  destruct (next_step f) as [s f1] eqn:En. destruct (next_step_eq _ En) as [l ->].
  assert (Base : forall b', lenN b' = n ->
    fresh (put (set_plan f l) off b') i /\
    ((off mod BLOCK <> 0 \/ 2 <= n) -> ddirty (put (set_plan f l) off b') = true)).
  { intros b' Lb. split.
    - destruct Hi as [->|Hi]; [left; apply put_fresh_in, inr_spec; lia|]. apply put_fresh, Hi.
    - intros Hc. unfold put. rewrite Lb. destruct (N.eqb_spec n 0); [lia|]. cbn.
      destruct Hc as [Hc|Hc].
      + destruct (N.eqb_spec (off mod BLOCK) 0); [lia|]. rewrite andb_false_r. apply orb_true_r.
      + destruct (N.eqb_spec n 1); [lia|]. apply orb_true_r. }
  assert (Fin : forall (b' : bytes) (sy : bool), lenN b' = n ->
    let g := put (set_plan f l) off b' in
    let g' := if sy then do_sync g else g in
    fresh g' i /\ ((off mod BLOCK <> 0 \/ 2 <= n) -> settled g' i)).
  { intros b' sy Lb g g'. destruct (Base b' Lb) as [B1 B2]. destruct sy; subst g'.
    - assert (V : forall v, In v (vals (do_sync g) i) -> v = cur (do_sync g) i).
      { cbn. destruct B1 as [B1|B1]; fold g in B1.
        - rewrite B1. intros v [<-|[]]. reflexivity.
        - destruct (dirty g i); [intros v [<-|[]]; reflexivity|exact B1]. }
      split; [now right|]. intros _. now right.
    - split; [exact B1|]. intros Hc. destruct B1 as [B1|B1]; [left; split; [exact B1|apply B2, Hc]|now right]. }
  destruct s as [s|].
  - destruct (w_die s); [discriminate|]. destruct (w_err s); [discriminate|]. cbn [orb].
    intros H; injection H as Hnn Hff. subst f'.
    apply Fin. rewrite lenN_take. lia.
  - intros H; injection H as Hnn Hff. subst f'. apply (Fin b false). exact Hnn.
Qed.

Arguments pwrite_fresh {f off b n f'} i _ _ _.
Lemma write_entire_fresh fuel : forall f off b f' i, wf f -> i < off -> settled f i ->
  write_entire fuel f off b = (Ok tt, f') -> lost f' = false -> settled f' i.
Proof.
  intros f off b f' i W Hi Hs H Hl. exact (ex_settled (write_entire_ext _ _ _ W H) Hi Hl Hs).
Qed.

Lemma write_entire_S n f off x b : write_entire (S n) f off (x :: b) =
  match pwrite f off (x :: b) with
  | (Err e, f') => (Err e, f')
  | (Ok k, f') => write_entire n f' (off + k) (drop k (x :: b))
  end.
Proof. reflexivity. Qed.

Lemma write_all_settled f off b f' : wf f -> 2 <= lenN b -> write_all f off b = (Ok tt, f') -> lost f' = false ->
  settled f' off.
Proof.
  intros W Hb. unfold write_all. destruct b as [|x b]; [rewrite lenN_nil in Hb; lia|].
  cbn [length]. rewrite write_entire_S. set (bb := x :: b) in *.
  destruct (pwrite f off bb) as [[n|e] f1] eqn:Ew; [|discriminate].
  assert (Hne : bb <> []) by discriminate.
  pose proof (pwrite_ok Hne Ew) as (Hn & _).
  destruct (pwrite_fresh off Hne Ew (or_introl eq_refl)) as [F1 S1].
  pose proof (pwrite_ext _ _ W Ew) as X1.
  intros H Hl. destruct (N.lt_ge_cases n 2) as [Hlt|Hge].
  - assert (n = 1) by lia. subst n. revert H. unfold bb. change (drop 1 (x :: b)) with b.
    destruct b as [|y b]; [exfalso; unfold bb in Hb; rewrite lenN_cons, lenN_nil in Hb; lia|].
    cbn [length]. rewrite write_entire_S. set (b2 := y :: b).
    destruct (pwrite f1 (off + 1) b2) as [[n2|e] f2] eqn:Ew2; [|discriminate].
    assert (Hne2 : b2 <> []) by discriminate.
    destruct (pwrite_fresh off Hne2 Ew2 (or_intror F1)) as [F2 S2].
    destruct (pwrite_ok Hne2 Ew2) as (Hn2 & _).
    pose proof (pwrite_ext _ _ (ex_wf X1) Ew2) as X2.
    intros H. destruct (N.eq_dec (off mod BLOCK) 0) as [E0|E0].
    + eapply write_entire_fresh; [exact (ex_wf X2)| |apply S2|exact H|exact Hl]; [lia|left; rewrite BLOCK_val in *; lia].
    + eapply write_entire_fresh; [exact (ex_wf X2)| | |exact H|exact Hl]; [lia|].
      apply (ex_settled X2); [lia| |apply S1; now left].
      apply (ex_lost (write_entire_ext _ _ _ (ex_wf X2) H) Hl).
  - eapply write_entire_fresh; [exact (ex_wf X1)| |apply S1|exact H|exact Hl]; [lia|now right].
Qed.

Lemma fsync_ok f f' : fsync f = (Ok tt, f') -> exists l, f' = do_sync (set_plan f l).
Proof.
  unfold fsync. destruct (dead f); [discriminate|].
  destruct (next_step f) as [s f1] eqn:En. destruct (next_step_eq _ En) as [l ->].
  destruct s as [s|]; [|intros H; inv H; eauto].
  destruct (w_die s); [discriminate|]. destruct (w_err s); [discriminate|]. intros H; inv H. eauto.
Qed.

Lemma fsync_settled f f' i : fsync f = (Ok tt, f') -> settled f i -> forall v, In v (vals f' i) -> v = cur f' i.
Proof.
  intros H. destruct (fsync_ok _ H) as [l ->]. cbn. intros Hs v.
  destruct (dirty f i) eqn:Ed; [intros [<-|[]]; reflexivity|].
  destruct Hs as [[Hd _]|Hs]; [congruence|]. apply Hs.
Qed.

Lemma fsync_frame f r f' i : wf f -> fsync f = (r, f') -> same_at i f f'.
Proof.
  intros W. unfold fsync. destruct (dead f); [intros H; inv H; apply same_at_refl|].
  destruct (next_step f) as [s f1] eqn:En. destruct (next_step_eq _ En) as [l ->].
  assert (W1 : wf (set_plan f l)) by apply (ex_wf (set_plan_ext 0 (fun _ _ => True) l W)).
  assert (S1 : same_at i f (set_plan f l)) by (split; [reflexivity|apply incl_refl]).
  assert (S2 : same_at i f (do_sync (set_plan f l))).
  { eapply same_at_trans; [exact S1|]. now apply do_sync_frame. }
  destruct s as [s|]; [|intros H; inv H; exact S2].
  destruct (w_die s); [destruct (w_sync s)|destruct (w_err s); [destruct (w_lossy s)|]]; intros H; inv H;
    first [exact S2 | exact S1].
Qed.

(** Everything below [e] (apart from block-type bytes) is on the medium. *)
Definition stable (f : file) (e : N) : Prop :=
  e <= dsize f /\ forall i, i < e -> i mod BLOCK <> 0 -> forall v, In v (vals f i) -> v = cur f i.

Lemma fsync_stable f f' : wf f -> fsync f = (Ok tt, f') -> lost f' = false -> stable f' (size f').
Proof.
  intros W H Hl. destruct (fsync_ok _ H) as [l ->]. split; [cbn; lia|].
  intros i _ Hm v. cbn in *. destruct (dirty f i) eqn:Ed; [intros [<-|[]]; reflexivity|].
  apply (wf_clean W Hl); assumption.
Qed.

Lemma stable_same f f' e : stable f e -> dsize f <= dsize f' ->
  (forall i, i < e -> i mod BLOCK <> 0 -> same_at i f f') -> stable f' e.
Proof.
  intros [A B] Hd Hs. split; [lia|]. intros i Hi Hm v Hv. destruct (Hs i Hi Hm) as [S1 S2].
  rewrite S1. apply B; auto.
Qed.

Arguments raw_write_ext {t f wp b r f'} _ _.
Arguments raw_write_ok {t f wp b e f'} _ _.
Arguments raw_write_fpos {t f wp b r f'} _.
Arguments write_all_ext {f off b r f'} _ _.
Arguments write_all_ok {f off b f'} _ _.
Arguments pwrite_ext {f off b r f'} _ _.
Arguments pwrite_ok {f off b n f'} _ _.
Arguments pwrite_fpos {f off b r f'} _.
Arguments fsync_ext p T {f r f'} _ _.
Arguments fsync_fpos {f r f'} _.
Arguments write_entire_fpos {fuel f off b r f'} _.
Arguments pwrite_frame {f off b r f'} i _ _ _.
Arguments fsync_frame {f r f'} i _ _.
Arguments fsync_stable {f f'} _ _ _.
Arguments pwrite1_ok {f off t n f'} _.
Arguments write_all_settled {f off b f'} _ _ _ _.
Arguments fsync_settled {f f'} i _ _ _ _.
