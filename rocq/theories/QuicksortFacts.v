(** Proofs about the quicksort. *)
From Coq Require Import Permutation Sorted FinFun.
From Verif Require Import Base FileMerger Quicksort.
Unset Strict Implicit.
Local Open Scope nat_scope.

Section QF.
Variable A : Type.
Variable cmp : A -> A -> comparison.
Hypothesis csym : forall x y, cmp y x = CompOpp (cmp x y).
Hypothesis ctrans : forall x y z, cmp x y <> Gt -> cmp y z <> Gt -> cmp x z <> Gt.
Notation le x y := (cmp x y <> Gt).

Lemma cle_refl x : le x x.
Proof. intros H. pose proof (csym x x) as S. rewrite H in S. discriminate. Qed.
Lemma gt_le x y : cmp x y = Gt -> le y x.
Proof. intros H. rewrite csym, H. discriminate. Qed.
Lemma lt_le x y : cmp x y = Lt -> le x y. Proof. intros ->. discriminate. Qed.
Lemma eq_le x y : cmp x y = Eq -> le x y. Proof. intros ->. discriminate. Qed.
Lemma eq_le' x y : cmp x y = Eq -> le y x. Proof. intros H. rewrite csym, H. discriminate. Qed.

Lemma nth_set (a : list A) : forall i x k, nth_error (set_at a i x) k = if Nat.eqb k i then (if Nat.ltb i (length a) then Some x else None) else nth_error a k.
Proof.
  induction a as [|y a IH]; intros i x k.
  - cbn [set_at length]. destruct (Nat.eqb k i); destruct k, i; reflexivity.
  - destruct i as [|i]; cbn [set_at].
    + destruct k; reflexivity.
    + destruct k as [|k]; [reflexivity|]. cbn [nth_error length]. rewrite IH. reflexivity.
Qed.
Lemma length_set (a : list A) : forall i x, length (set_at a i x) = length a.
Proof. induction a as [|y a IH]; intros [|i] x; cbn [set_at length]; congruence. Qed.
Lemma get_some (a : list A) i : i < length a -> exists x, nth_error a i = Some x.
Proof. intros H. destruct (nth_error a i) eqn:E; eauto. apply nth_error_None in E. lia. Qed.

(** [same lo hi a a']: the elements of the range have been rearranged, the others are where they were. *)
Definition same (lo hi : nat) (a a' : list A) : Prop :=
  length a' = length a /\ Permutation a a' /\ forall k, k < lo \/ hi <= k -> nth_error a' k = nth_error a k.
Lemma same_refl lo hi a : same lo hi a a.
Proof. repeat split; auto. Qed.
Lemma same_trans lo hi a b c : same lo hi a b -> same lo hi b c -> same lo hi a c.
Proof. intros (L1 & P1 & N1) (L2 & P2 & N2). split; [congruence|]. split; [eapply perm_trans; eauto|]. intros k Hk. rewrite N2, N1; auto. Qed.
Lemma same_wider lo hi lo' hi' a b : lo' <= lo -> hi <= hi' -> same lo hi a b -> same lo' hi' a b.
Proof. intros H1 H2 (L & P & Nn). repeat split; auto. intros k Hk. apply Nn. lia. Qed.

Lemma ext_nth (a b : list A) : length a = length b -> (forall k, k < length a -> nth_error a k = nth_error b k) -> a = b.
Proof.
  revert b. induction a as [|x a IH]; intros [|y b] L H; try discriminate; [reflexivity|].
  pose proof (H 0 ltac:(cbn; lia)) as H0. cbn in H0. injection H0 as ->. f_equal. apply IH; [cbn in L; lia|]. intros k Hk. apply (H (S k)). cbn. lia.
Qed.
Lemma nth_firstn (a : list A) n k : nth_error (firstn n a) k = if Nat.ltb k n then nth_error a k else None.
Proof.
  revert n k. induction a as [|x a IH]; intros n k.
  - rewrite firstn_nil. destruct (Nat.ltb k n); destruct k; reflexivity.
  - destruct n as [|n]; [cbn [firstn]; destruct k; reflexivity|]. destruct k as [|k]; [reflexivity|]. cbn [firstn nth_error]. rewrite IH. reflexivity.
Qed.
Lemma nth_skipn (a : list A) n k : nth_error (skipn n a) k = nth_error a (n + k).
Proof. revert n. induction a as [|x a IH]; intros [|n]; cbn [skipn plus]; try reflexivity; [destruct k; reflexivity|]. apply IH. Qed.

Lemma same_seg lo hi a b : same lo hi a b -> lo <= hi -> hi <= length a ->
  exists p m m' s, a = p ++ m ++ s /\ b = p ++ m' ++ s /\ length p = lo /\ length m = hi - lo /\ length m' = hi - lo /\ Permutation m m'.
Proof.
  intros (L & P & Nn) H1 H2.
  assert (Hp : firstn lo b = firstn lo a).
  { apply ext_nth; [rewrite !firstn_length; lia|]. intros k Hk. rewrite firstn_length in Hk. rewrite !nth_firstn. destruct (Nat.ltb_spec k lo); [|lia]. apply Nn. lia. }
  assert (Hs : skipn hi b = skipn hi a).
  { apply ext_nth; [rewrite !skipn_length; lia|]. intros k Hk. rewrite !nth_skipn. apply Nn. lia. }
  assert (Hsplit : forall c : list A, hi <= length c -> c = firstn lo c ++ firstn (hi - lo) (skipn lo c) ++ skipn hi c).
  { intros c Hc. rewrite <- (firstn_skipn lo c) at 1. f_equal. rewrite <- (firstn_skipn (hi - lo) (skipn lo c)) at 1. f_equal. apply ext_nth; [rewrite !skipn_length; lia|]. intros k _. rewrite !nth_skipn. f_equal. lia. }
  exists (firstn lo a), (firstn (hi - lo) (skipn lo a)), (firstn (hi - lo) (skipn lo b)), (skipn hi a).
  split; [apply Hsplit; lia|]. split; [rewrite <- Hp, <- Hs; apply Hsplit; lia|].
  split; [rewrite firstn_length; lia|]. split; [rewrite firstn_length, skipn_length; lia|]. split; [rewrite firstn_length, skipn_length; lia|].
  rewrite (Hsplit a), (Hsplit b), Hp, Hs in P by lia. apply Permutation_app_inv_l in P. apply Permutation_app_inv_r in P. exact P.
Qed.

Definition rng (P : A -> Prop) (lo hi : nat) (a : list A) : Prop := forall k x, lo <= k -> k < hi -> nth_error a k = Some x -> P x.
Lemma rng_same P lo hi a b : same lo hi a b -> hi <= length a -> rng P lo hi a -> rng P lo hi b.
Proof.
  intros S H R k x H1 H2 Hx. destruct (same_seg S) as (p & m & m' & s & -> & -> & Lp & Lm & Lm' & Pm); [lia|exact H|].
  rewrite nth_error_app2 in Hx by lia. rewrite nth_error_app1 in Hx by lia. apply nth_error_In in Hx.
  apply (Permutation_in _ (Permutation_sym Pm)) in Hx. apply In_nth_error in Hx. destruct Hx as [q Hq].
  assert (q < length m) by (apply nth_error_Some; congruence).
  apply (R (lo + q)); [lia|lia|]. rewrite nth_error_app2 by lia. rewrite nth_error_app1 by lia. replace (lo + q - length p) with q by lia. exact Hq.
Qed.
Lemma rng_out P lo hi i j a b : same lo hi a b -> j <= lo \/ hi <= i -> rng P i j a -> rng P i j b.
Proof. intros (_ & _ & Nn) H R k x H1 H2 Hx. apply (R k x H1 H2). rewrite <- Nn; [exact Hx|lia]. Qed.

Definition srt (lo hi : nat) (a : list A) : Prop :=
  forall i j x y, lo <= i -> i < j -> j < hi -> nth_error a i = Some x -> nth_error a j = Some y -> le x y.
Lemma srt_out lo hi i j a b : same lo hi a b -> j <= lo \/ hi <= i -> srt i j a -> srt i j b.
Proof. intros (_ & _ & Nn) H R k l x y H1 H2 H3 Hx Hy. apply (R k l x y H1 H2 H3); rewrite <- Nn; auto; lia. Qed.

(** ** Exchanging *)
Lemma swap_ok (a : list A) i j : i < length a -> j < length a ->
  exists a', swap a i j = Good a' /\ length a' = length a /\ Permutation a a' /\
    forall k, nth_error a' k = if Nat.eqb k i then nth_error a j else if Nat.eqb k j then nth_error a i else nth_error a k.
Proof.
  intros Hi Hj. destruct (get_some Hi) as [x Hx]. destruct (get_some Hj) as [y Hy]. unfold swap. rewrite Hx, Hy. eexists. split; [reflexivity|].
  rewrite !length_set. split; [reflexivity|].
  assert (Hn : forall k, nth_error (set_at (set_at a i y) j x) k = if Nat.eqb k i then nth_error a j else if Nat.eqb k j then nth_error a i else nth_error a k).
  { intros k. rewrite !nth_set, !length_set. destruct (Nat.ltb_spec i (length a)); [|lia]. destruct (Nat.ltb_spec j (length a)); [|lia].
    destruct (Nat.eqb_spec k j); destruct (Nat.eqb_spec k i); subst; congruence. }
  split; [|intros k; rewrite Hn, <- Hx, <- Hy; reflexivity].
  apply Permutation_nth_error. split; [now rewrite !length_set|].
  exists (fun k => if Nat.eqb k i then j else if Nat.eqb k j then i else k). split.
  - intros k l. destruct (Nat.eqb_spec k i), (Nat.eqb_spec l i), (Nat.eqb_spec k j), (Nat.eqb_spec l j); intros; lia.
  - intros k. rewrite Hn. destruct (Nat.eqb_spec k i), (Nat.eqb_spec k j); congruence.
Qed.
Lemma swap_same lo hi (a : list A) i j : lo <= i -> i < hi -> lo <= j -> j < hi -> hi <= length a ->
  exists a', swap a i j = Good a' /\ same lo hi a a' /\
    forall k, nth_error a' k = if Nat.eqb k i then nth_error a j else if Nat.eqb k j then nth_error a i else nth_error a k.
Proof.
  intros H1 H2 H3 H4 H5. destruct (@swap_ok a i j) as (a' & E & L & P & Nn); [lia|lia|]. exists a'. split; [exact E|]. split; [|exact Nn].
  split; [exact L|]. split; [exact P|]. intros k Hk. rewrite Nn. destruct (Nat.eqb_spec k i); [lia|]. destruct (Nat.eqb_spec k j); [lia|]. reflexivity.
Qed.

Lemma vecswap_ok lo hi : forall n (a : list A) i j, lo <= i -> i + n <= j -> j + n <= hi -> hi <= length a ->
  exists a', vecswap a i j n = Good a' /\ same lo hi a a' /\
    forall k, nth_error a' k = if Nat.leb i k && Nat.ltb k (i + n) then nth_error a (k - i + j) else if Nat.leb j k && Nat.ltb k (j + n) then nth_error a (k - j + i) else nth_error a k.
Proof.
  induction n as [|n IH]; intros a i j H1 H2 H3 H4.
  - exists a. split; [reflexivity|]. split; [apply same_refl|]. intros k. destruct (Nat.leb_spec i k), (Nat.ltb_spec k (i + 0)), (Nat.leb_spec j k), (Nat.ltb_spec k (j + 0)); try lia; reflexivity.
  - cbn [vecswap]. destruct (@swap_same lo hi a i j) as (a1 & E & Sx & Nn); try lia. rewrite E. cbn [fbind].
    destruct (IH a1 (S i) (S j)) as (a2 & E2 & S2 & N2); try lia; [destruct Sx as [-> _]; lia|]. exists a2. split; [exact E2|]. split; [eapply same_trans; eauto|].
    intros k. rewrite N2.
    destruct (Nat.leb_spec (S i) k), (Nat.ltb_spec k (S i + n)), (Nat.leb_spec (S j) k), (Nat.ltb_spec k (S j + n)), (Nat.leb_spec i k), (Nat.ltb_spec k (i + S n)), (Nat.leb_spec j k), (Nat.ltb_spec k (j + S n));
      cbn [andb]; try lia; rewrite Nn; try (destruct (Nat.eqb_spec k i); [|lia]); try (destruct (Nat.eqb_spec k j); [|lia]);
      repeat match goal with |- context [Nat.eqb ?u ?v] => destruct (Nat.eqb_spec u v); try lia end; try reflexivity; f_equal; lia.
Qed.

Lemma cmpat_ok a i j : i < length a -> j < length a -> exists x y, nth_error a i = Some x /\ nth_error a j = Some y /\ cmpat cmp a i j = Good (cmp x y).
Proof. intros Hi Hj. destruct (get_some Hi) as [x Hx]. destruct (get_some Hj) as [y Hy]. exists x, y. unfold cmpat. rewrite Hx, Hy. auto. Qed.
Lemma med3_ok a x y z : x < length a -> y < length a -> z < length a -> exists m, med3 cmp a x y z = Good m /\ (m = x \/ m = y \/ m = z).
Proof.
  intros Hx Hy Hz. unfold med3. destruct (cmpat_ok Hx Hy) as (u & v & _ & _ & ->). destruct (cmpat_ok Hy Hz) as (u' & v' & _ & _ & ->). destruct (cmpat_ok Hx Hz) as (u'' & v'' & _ & _ & ->).
  cbn [fbind]. eexists. split; [reflexivity|]. destruct (cmp u v), (cmp u' v'), (cmp u'' v''); auto.
Qed.
Lemma pivot_ok a lo n : 7 <= n -> lo + n <= length a -> exists m, pivot cmp a lo n = Good m /\ lo <= m < lo + n.
Proof.
  intros H7 H. unfold pivot. cbv zeta.
  assert (Hh : n / 2 < n /\ 3 <= n / 2). { split; [apply Nat.div_lt; lia|]. apply Nat.div_le_lower_bound; lia. }
  assert (H8 : 8 * (n / 8) <= n) by apply Nat.mul_div_le, Nat.neq_succ_0.
  assert (H2 : n < 2 * (n / 2) + 2 /\ 2 * (n / 2) <= n). { pose proof (Nat.div_mod n 2 ltac:(lia)). pose proof (Nat.mod_upper_bound n 2 ltac:(lia)). lia. }
  generalize dependent (n / 2). generalize dependent (n / 8). intros d H8 h Hh H2.
  destruct (Nat.ltb_spec 7 n); [|exists (lo + h); split; [reflexivity|lia]].
  destruct (Nat.ltb_spec 40 n).
  - destruct (@med3_ok a lo (lo + d) (lo + 2 * d)) as (m1 & -> & D1); try lia. cbn [fbind].
    destruct (@med3_ok a (lo + h - d) (lo + h) (lo + h + d)) as (m2 & -> & D2); try lia. cbn [fbind].
    destruct (@med3_ok a (lo + (n - 1) - 2 * d) (lo + (n - 1) - d) (lo + (n - 1))) as (m3 & -> & D3); try lia. cbn [fbind].
    destruct (@med3_ok a m1 m2 m3) as (m & -> & D); try lia. exists m. split; [reflexivity|]. lia.
  - destruct (@med3_ok a lo (lo + h) (lo + (n - 1))) as (m & -> & D); try lia. exists m. split; [reflexivity|]. lia.
Qed.

(** ** Insertion sort *)
Lemma sift_ok lo pm : forall p a, lo <= p -> p <= pm -> pm < length a ->
  (forall i j x y, lo <= i -> i < j -> j < S pm -> i <> p -> j <> p -> nth_error a i = Some x -> nth_error a j = Some y -> le x y) ->
  (forall j x y, p < j -> j < S pm -> nth_error a p = Some x -> nth_error a j = Some y -> le x y) ->
  exists a', sift cmp p lo a = Good a' /\ same lo (S pm) a a' /\ srt lo (S pm) a'.
Proof.
  induction p as [|p IH]; intros a Hlo Hpm Hlen I1 I2.
  - exists a. split; [reflexivity|]. split; [apply same_refl|]. intros i j x y Hi Hij Hj Hx Hy. destruct (Nat.eq_dec i 0) as [->|Hn].
    + apply (I2 j); auto.
    + apply (I1 i j); auto. lia.
  - cbn [sift]. destruct (Nat.ltb_spec lo (S p)) as [Hl|Hl].
    + destruct (@cmpat_ok a p (S p)) as (u & v & Hu & Hv & ->); [lia|lia|]. cbn [fbind]. destruct (cmp u v) eqn:C.
      1,2: (exists a; split; [reflexivity|]; split; [apply same_refl|]; intros i j x y Hi Hij Hj Hx Hy;
        destruct (Nat.eq_dec i (S p)) as [->|Hn]; [apply (I2 j); auto|];
        destruct (Nat.eq_dec j (S p)) as [->|Hn']; [|apply (I1 i j); auto];
        rewrite Hv in Hy; injection Hy as <-; destruct (Nat.eq_dec i p) as [->|Hn''];
        [rewrite Hu in Hx; injection Hx as <-; rewrite C; discriminate|];
        apply (@ctrans x u v); [apply (I1 i p); auto; lia|rewrite C; discriminate]).
      destruct (@swap_same lo (S pm) a (S p) p) as (a1 & E & Sm & Nn); try lia. rewrite E. cbn [fbind].
      destruct (IH a1) as (a2 & E2 & S2 & R2); try lia.
      * destruct Sm as [-> _]. lia.
      * intros i j x y Hi Hij Hj Hip Hjp Hx Hy. rewrite Nn in Hx, Hy.
        destruct (Nat.eqb_spec i (S p)) as [->|Hn1].
        { destruct (Nat.eqb_spec j (S p)); [lia|]. destruct (Nat.eqb_spec j p); [lia|]. apply (I1 p j); auto; lia. }
        destruct (Nat.eqb_spec i p); [lia|]. destruct (Nat.eqb_spec j (S p)) as [->|Hn2].
        { apply (I1 i p); auto; lia. }
        destruct (Nat.eqb_spec j p); [lia|]. apply (I1 i j); auto.
      * intros j x y Hj Hj2 Hx Hy. rewrite Nn in Hx, Hy. destruct (Nat.eqb_spec p (S p)); [lia|]. rewrite Nat.eqb_refl in Hx. rewrite Hv in Hx. injection Hx as <-.
        destruct (Nat.eqb_spec j (S p)) as [->|Hn1]; [rewrite Hu in Hy; injection Hy as <-; apply gt_le, C|]. destruct (Nat.eqb_spec j p); [lia|]. apply (I2 j); auto. lia.
      * exists a2. split; [exact E2|]. split; [eapply same_trans; eauto|exact R2].
    + exists a. split; [reflexivity|]. split; [apply same_refl|]. intros i j x y Hi Hij Hj Hx Hy. destruct (Nat.eq_dec i (S p)) as [->|Hn]; [apply (I2 j); auto|]. apply (I1 i j); auto. lia.
Qed.
Lemma insertion_ok lo : forall k pm a, lo <= pm -> pm + k <= length a -> srt lo pm a ->
  exists a', insertion cmp k pm lo a = Good a' /\ same lo (pm + k) a a' /\ srt lo (pm + k) a'.
Proof.
  induction k as [|k IH]; intros pm a H1 H2 R.
  - exists a. rewrite Nat.add_0_r. split; [reflexivity|]. split; [apply same_refl|exact R].
  - cbn [insertion]. destruct (@sift_ok lo pm pm a) as (a1 & E & S1 & R1); try lia.
    + intros i j x y Hi Hij Hj Hip Hjp Hx Hy. apply (R i j); auto. lia.
    + rewrite E. cbn [fbind]. destruct (IH (S pm) a1) as (a2 & E2 & S2 & R2); [lia|destruct S1 as [-> _]; lia|exact R1|].
      exists a2. split; [exact E2|]. replace (pm + S k) with (S pm + k) by lia. split; [|exact R2]. eapply same_trans; [|exact S2]. eapply same_wider; [| |exact S1]; lia.
Qed.

(** ** Partition *)
Record pinv (lo hi : nat) (v : A) (a0 : list A) (p : part A) : Prop := {
  pi_same : same lo hi a0 (q_a p);
  pi_ord : lo < q_pa p /\ q_pa p <= q_pb p /\ q_pb p <= q_pc p /\ q_pc p <= q_pd p /\ q_pd p <= hi;
  pi_piv : nth_error (q_a p) lo = Some v;
  pi_eq1 : rng (fun x => cmp x v = Eq) lo (q_pa p) (q_a p);
  pi_lt : rng (fun x => cmp x v = Lt) (q_pa p) (q_pb p) (q_a p);
  pi_gt : rng (fun x => cmp x v = Gt) (q_pc p) (q_pd p) (q_a p);
  pi_eq2 : rng (fun x => cmp x v = Eq) (q_pd p) hi (q_a p)
}.
Ltac rr H := intros k x K1 K2 K3; apply (H k x); auto; lia.
Lemma scan_up_ok lo hi v a0 : forall f p, q_pc p - q_pb p < f -> hi <= length a0 -> pinv lo hi v a0 p ->
  exists p', scan_up cmp f lo p = Good p' /\ pinv lo hi v a0 p' /\ q_pc p' - q_pb p' <= q_pc p - q_pb p /\
    (q_pb p' < q_pc p' -> forall x, nth_error (q_a p') (q_pb p') = Some x -> cmp x v = Gt).
Proof.
  induction f as [|f IH]; intros p Hf Hh I; [lia|]. destruct p as [a pa pb pc pd]. cbn [q_a q_pa q_pb q_pc q_pd] in *. cbn [scan_up q_a q_pa q_pb q_pc q_pd].
  destruct I as [Sm O Pv E1 Lt1 Gt1 E2]. cbn [q_a q_pa q_pb q_pc q_pd] in *. assert (La : length a = length a0) by apply Sm.
  destruct (Nat.ltb_spec pb pc) as [H|H].
  - destruct (@cmpat_ok a pb lo) as (u & w & Hu & Hw & ->); [lia|lia|]. cbn [fbind]. rewrite Pv in Hw. injection Hw as <-. destruct (cmp u v) eqn:C.
    + destruct (@swap_same lo hi a pa pb) as (a1 & E & S1 & Nn); try lia. rewrite E. cbn [fbind].
      destruct (IH (Part a1 (S pa) (S pb) pc pd)) as (p' & Ep & Ip & Dp & Fp); cbn [q_a q_pa q_pb q_pc q_pd] in *.
      * lia.
      * exact Hh.
      * split; cbn [q_a q_pa q_pb q_pc q_pd].
        { eapply same_trans; eauto. }
        { lia. }
        { rewrite Nn. destruct (Nat.eqb_spec lo pa); [lia|]. destruct (Nat.eqb_spec lo pb); [lia|]. exact Pv. }
        { intros k x K1 K2 K3. rewrite Nn in K3. destruct (Nat.eqb_spec k pa) as [->|]; [rewrite Hu in K3; injection K3 as <-; exact C|]. destruct (Nat.eqb_spec k pb); [lia|].
          apply (E1 k); auto; lia. }
        { intros k x K1 K2 K3. rewrite Nn in K3. destruct (Nat.eqb_spec k pa); [lia|]. destruct (Nat.eqb_spec k pb) as [->|]; [apply (Lt1 pa); auto; lia|]. apply (Lt1 k); auto; lia. }
        { intros k x K1 K2 K3. rewrite Nn in K3. destruct (Nat.eqb_spec k pa); [lia|]. destruct (Nat.eqb_spec k pb); [lia|]. apply (Gt1 k); auto. }
        { intros k x K1 K2 K3. rewrite Nn in K3. destruct (Nat.eqb_spec k pa); [lia|]. destruct (Nat.eqb_spec k pb); [lia|]. apply (E2 k); auto. }
      * exists p'. split; [exact Ep|]. split; [exact Ip|]. split; [lia|exact Fp].
    + destruct (IH (Part a pa (S pb) pc pd)) as (p' & Ep & Ip & Dp & Fp); cbn [q_a q_pa q_pb q_pc q_pd] in *.
      * lia.
      * exact Hh.
      * split; cbn [q_a q_pa q_pb q_pc q_pd]; auto; [lia|]. intros k x K1 K2 K3. destruct (Nat.eq_dec k pb) as [->|]; [rewrite Hu in K3; injection K3 as <-; exact C|]. apply (Lt1 k); auto; lia.
      * exists p'. split; [exact Ep|]. split; [exact Ip|]. split; [lia|exact Fp].
    + exists (Part a pa pb pc pd). split; [reflexivity|]. split; [split; cbn [q_a q_pa q_pb q_pc q_pd]; auto|]. cbn [q_a q_pa q_pb q_pc q_pd]. split; [lia|]. intros _ x Hx. rewrite Hu in Hx. injection Hx as <-. exact C.
  - exists (Part a pa pb pc pd). split; [reflexivity|]. split; [split; cbn [q_a q_pa q_pb q_pc q_pd]; auto|]. cbn [q_a q_pa q_pb q_pc q_pd]. split; [lia|]. intros. lia.
Qed.
Lemma scan_down_ok lo hi v a0 : forall f p, q_pc p - q_pb p < f -> hi <= length a0 -> pinv lo hi v a0 p ->
  (q_pb p < q_pc p -> forall x, nth_error (q_a p) (q_pb p) = Some x -> cmp x v = Gt) ->
  exists p', scan_down cmp f lo p = Good p' /\ pinv lo hi v a0 p' /\ q_pc p' - q_pb p' <= q_pc p - q_pb p /\
    (q_pb p' < q_pc p' -> S (q_pb p') < q_pc p' /\ (forall x, nth_error (q_a p') (q_pb p') = Some x -> cmp x v = Gt) /\ forall x, nth_error (q_a p') (q_pc p' - 1) = Some x -> cmp x v = Lt).
Proof.
  induction f as [|f IH]; intros p Hf Hh I F; [lia|]. destruct p as [a pa pb pc pd]. cbn [q_a q_pa q_pb q_pc q_pd] in *. cbn [scan_down q_a q_pa q_pb q_pc q_pd].
  destruct I as [Sm O Pv E1 Lt1 Gt1 E2]. cbn [q_a q_pa q_pb q_pc q_pd] in *. assert (La : length a = length a0) by apply Sm.
  destruct (Nat.ltb_spec pb pc) as [H|H].
  - destruct (@cmpat_ok a (pc - 1) lo) as (u & w & Hu & Hw & ->); [lia|lia|]. cbn [fbind]. rewrite Pv in Hw. injection Hw as <-. destruct (cmp u v) eqn:C.
    + destruct (@swap_same lo hi a (pc - 1) (pd - 1)) as (a1 & E & S1 & Nn); try lia. rewrite E. cbn [fbind].
      destruct (IH (Part a1 pa pb (pc - 1) (pd - 1))) as (p' & Ep & Ip & Dp & Fp); cbn [q_a q_pa q_pb q_pc q_pd] in *.
      * lia.
      * exact Hh.
      * split; cbn [q_a q_pa q_pb q_pc q_pd].
        { eapply same_trans; eauto. }
        { lia. }
        { rewrite Nn. destruct (Nat.eqb_spec lo (pc - 1)); [lia|]. destruct (Nat.eqb_spec lo (pd - 1)); [lia|]. exact Pv. }
        { intros k x K1 K2 K3. rewrite Nn in K3. destruct (Nat.eqb_spec k (pc - 1)); [lia|]. destruct (Nat.eqb_spec k (pd - 1)); [lia|]. apply (E1 k); auto. }
        { intros k x K1 K2 K3. rewrite Nn in K3. destruct (Nat.eqb_spec k (pc - 1)); [lia|]. destruct (Nat.eqb_spec k (pd - 1)); [lia|]. apply (Lt1 k); auto. }
        { intros k x K1 K2 K3. rewrite Nn in K3. destruct (Nat.eqb_spec k (pc - 1)) as [->|]; [apply (Gt1 (pd - 1)); auto; lia|]. destruct (Nat.eqb_spec k (pd - 1)); [lia|]. apply (Gt1 k); auto; lia. }
        { intros k x K1 K2 K3. rewrite Nn in K3. destruct (Nat.eqb_spec k (pd - 1)) as [->|].
          - destruct (Nat.eqb_spec (pd - 1) (pc - 1)) as [e|]; [rewrite e in K3|]; rewrite Hu in K3; injection K3 as <-; exact C.
          - destruct (Nat.eqb_spec k (pc - 1)); [lia|]. apply (E2 k); auto; lia. }
      * intros Hlt x Hx. rewrite Nn in Hx. destruct (Nat.eqb_spec pb (pc - 1)); [lia|]. destruct (Nat.eqb_spec pb (pd - 1)); [lia|]. apply F; auto.
      * exists p'. split; [exact Ep|]. split; [exact Ip|]. split; [lia|exact Fp].
    + exists (Part a pa pb pc pd). split; [reflexivity|]. split; [split; cbn [q_a q_pa q_pb q_pc q_pd]; auto|]. cbn [q_a q_pa q_pb q_pc q_pd]. split; [lia|]. intros _. split.
      * destruct (Nat.eq_dec pb (pc - 1)) as [e|]; [|lia]. exfalso. rewrite <- e in Hu. specialize (F H _ Hu). congruence.
      * split; [auto|]. intros x Hx. rewrite Hu in Hx. injection Hx as <-. exact C.
    + destruct (IH (Part a pa pb (pc - 1) pd)) as (p' & Ep & Ip & Dp & Fp); cbn [q_a q_pa q_pb q_pc q_pd] in *.
      * lia.
      * exact Hh.
      * split; cbn [q_a q_pa q_pb q_pc q_pd]; auto; [lia|]. intros k x K1 K2 K3. destruct (Nat.eq_dec k (pc - 1)) as [->|]; [rewrite Hu in K3; injection K3 as <-; exact C|]. apply (Gt1 k); auto; lia.
      * intros Hlt x Hx. apply F; auto.
      * exists p'. split; [exact Ep|]. split; [exact Ip|]. split; [lia|exact Fp].
  - exists (Part a pa pb pc pd). split; [reflexivity|]. split; [split; cbn [q_a q_pa q_pb q_pc q_pd]; auto|]. cbn [q_a q_pa q_pb q_pc q_pd]. split; [lia|]. intros. lia.
Qed.
Lemma partition_ok lo hi v a0 : forall f p, q_pc p - q_pb p < f -> hi <= length a0 -> pinv lo hi v a0 p ->
  exists p', partition cmp f lo p = Good p' /\ pinv lo hi v a0 p' /\ q_pb p' = q_pc p'.
Proof.
  induction f as [|f IH]; intros p Hf Hh I; [lia|]. cbn [partition].
  destruct (@scan_up_ok lo hi v a0 (S f) p Hf Hh I) as (p1 & -> & I1 & D1 & F1). cbn [fbind].
  destruct (@scan_down_ok lo hi v a0 (S f) p1 ltac:(lia) Hh I1 F1) as (p2 & -> & I2 & D2 & F2). cbn [fbind].
  destruct p2 as [a pa pb pc pd]. cbn [q_a q_pa q_pb q_pc q_pd] in *. destruct I2 as [Sm O Pv E1 Lt1 Gt1 E2]. cbn [q_a q_pa q_pb q_pc q_pd] in *. assert (La : length a = length a0) by apply Sm.
  destruct (Nat.ltb_spec pb pc) as [H|H].
  - destruct (F2 H) as (Hs & Fg & Fl). destruct (@swap_same lo hi a pb (pc - 1)) as (a1 & E & S1 & Nn); try lia. rewrite E. cbn [fbind].
    apply IH; cbn [q_a q_pa q_pb q_pc q_pd]; [lia|exact Hh|]. split; cbn [q_a q_pa q_pb q_pc q_pd].
    + eapply same_trans; eauto.
    + lia.
    + rewrite Nn. destruct (Nat.eqb_spec lo (pc - 1)); [lia|]. destruct (Nat.eqb_spec lo pb); [lia|]. exact Pv.
    + intros k x K1 K2 K3. rewrite Nn in K3. destruct (Nat.eqb_spec k (pc - 1)); [lia|]. destruct (Nat.eqb_spec k pb); [lia|]. apply (E1 k); auto.
    + intros k x K1 K2 K3. rewrite Nn in K3. destruct (Nat.eqb_spec k pb) as [->|]; [apply Fl; exact K3|]. destruct (Nat.eqb_spec k (pc - 1)); [lia|]. apply (Lt1 k); auto; lia.
    + intros k x K1 K2 K3. rewrite Nn in K3. destruct (Nat.eqb_spec k pb); [lia|]. destruct (Nat.eqb_spec k (pc - 1)) as [->|]; [apply Fg; exact K3|]. apply (Gt1 k); auto; lia.
    + intros k x K1 K2 K3. rewrite Nn in K3. destruct (Nat.eqb_spec k pb); [lia|]. destruct (Nat.eqb_spec k (pc - 1)); [lia|]. apply (E2 k); auto.
  - exists (Part a pa pb pc pd). split; [reflexivity|]. split; [split; cbn [q_a q_pa q_pb q_pc q_pd]; auto|]. cbn [q_pb q_pc]. lia.
Qed.

(** ** The whole sort *)
Lemma three lo m1 m2 hi v a : srt lo m1 a -> srt m2 hi a -> rng (fun x => cmp x v = Lt) lo m1 a -> rng (fun x => cmp x v = Eq) m1 m2 a -> rng (fun x => cmp x v = Gt) m2 hi a -> srt lo hi a.
Proof.
  intros S1 S2 R1 R2 R3 i j x y Hi Hij Hj Hx Hy.
  assert (Lx : i < m2 -> le x v). { intros H. destruct (Nat.lt_ge_cases i m1) as [H1|H1]; [apply lt_le, (R1 i); auto|apply eq_le, (R2 i); auto]. }
  assert (Ly : m1 <= j -> le v y). { intros H. destruct (Nat.lt_ge_cases j m2) as [H1|H1]; [apply eq_le', (R2 j); auto|apply gt_le, (R3 j); auto]. }
  destruct (Nat.lt_ge_cases j m1) as [H1|H1]; [apply (S1 i j); auto|]. destruct (Nat.lt_ge_cases i m2) as [H2|H2]; [apply (@ctrans x v y); auto|]. apply (S2 i j); auto.
Qed.
Lemma qsort_ok : forall f a lo n, n < f -> lo + n <= length a ->
  exists a', qsort_fallback cmp f a lo n = Good a' /\ same lo (lo + n) a a' /\ srt lo (lo + n) a'.
Proof.
  induction f as [|f IH]; intros a lo n Hf Hl; [lia|]. cbn [qsort_fallback]. destruct (Nat.ltb_spec n 7) as [H7|H7].
  - destruct n as [|n].
    + exists a. split; [reflexivity|]. split; [apply same_refl|]. intros i j x y. lia.
    + destruct (@insertion_ok lo n (S lo) a) as (a' & E & S1 & R1); [lia|lia|intros i j x y; lia|]. exists a'. replace (S n - 1) with n by lia. split; [exact E|]. replace (lo + S n) with (S lo + n) by lia. auto.
  - destruct (pivot_ok H7 Hl) as (pm & -> & Hpm). cbn [fbind].
    destruct (@swap_same lo (lo + n) a lo pm) as (a1 & -> & S1 & N1); try lia. cbn [fbind].
    assert (L1 : length a1 = length a) by apply S1.
    destruct (@get_some a1 lo) as [v Hv]; [lia|].
    destruct (@partition_ok lo (lo + n) v a (S n) (Part a1 (S lo) (S lo) (lo + n) (lo + n))) as (p & -> & I & Epc); cbn [q_a q_pa q_pb q_pc q_pd]; [lia|exact Hl| |].
    { split; cbn [q_a q_pa q_pb q_pc q_pd]; [exact S1|lia|exact Hv| | | |].
      - intros k x K1 K2 K3. replace k with lo in K3 by lia. rewrite Hv in K3. injection K3 as <-. pose proof (csym v v) as Sv. destruct (cmp v v); [reflexivity|discriminate|discriminate].
      - intros k x; lia.
      - intros k x; lia.
      - intros k x; lia. }
    cbn [fbind]. destruct p as [b pa pb pc pd]. destruct I as [Sm O Pv E1 Lt1 Gt1 E2]. cbn [q_a q_pa q_pb q_pc q_pd] in *. subst pc. assert (Lb : length b = length a) by apply Sm.
    set (r1 := Nat.min (pa - lo) (pb - pa)). destruct (@vecswap_ok lo pb r1 b lo (pb - r1)) as (a2 & -> & S2 & N2); try lia. cbn [fbind]. assert (La2 : length a2 = length b) by apply S2.
    set (r2 := Nat.min (pd - pb) (lo + n - pd)). destruct (@vecswap_ok pb (lo + n) r2 a2 pb (lo + n - r2)) as (a3 & -> & S3 & N3); try lia. cbn [fbind]. assert (La3 : length a3 = length a2) by apply S3.
    set (m1 := lo + (pb - pa)). set (m2 := lo + n - (pd - pb)).
    assert (Sab : same lo (lo + n) a a3). { eapply same_trans; [exact Sm|]. eapply same_trans; [eapply same_wider; [| |exact S2]; lia|]. eapply same_wider; [| |exact S3]; lia. }
    assert (R1 : rng (fun x => cmp x v = Lt) lo m1 a3).
    { intros k x K1 K2 K3. destruct S3 as (_ & _ & O3). rewrite O3 in K3 by lia. rewrite N2 in K3.
      destruct (Nat.leb_spec lo k), (Nat.ltb_spec k (lo + r1)), (Nat.leb_spec (pb - r1) k), (Nat.ltb_spec k (pb - r1 + r1)); cbn [andb] in K3; try lia.
      - apply (Lt1 (k - lo + (pb - r1))); auto; lia.
      - apply (Lt1 k); auto; lia. }
    assert (R2 : rng (fun x => cmp x v = Eq) m1 m2 a3).
    { intros k x K1 K2 K3. destruct (Nat.lt_ge_cases k pb) as [Hk|Hk].
      - destruct S3 as (_ & _ & O3). rewrite O3 in K3 by lia. rewrite N2 in K3.
        destruct (Nat.leb_spec lo k), (Nat.ltb_spec k (lo + r1)), (Nat.leb_spec (pb - r1) k), (Nat.ltb_spec k (pb - r1 + r1)); cbn [andb] in K3; try lia.
        + apply (E1 (k - (pb - r1) + lo)); auto; lia.
        + apply (E1 k); auto; lia.
      - rewrite N3 in K3. assert (O2 : forall q, pb <= q -> nth_error a2 q = nth_error b q) by (intros q Hq; destruct S2 as (_ & _ & O2); apply O2; lia).
        destruct (Nat.leb_spec pb k), (Nat.ltb_spec k (pb + r2)), (Nat.leb_spec (lo + n - r2) k), (Nat.ltb_spec k (lo + n - r2 + r2)); cbn [andb] in K3; try lia; rewrite O2 in K3 by lia;
          first [apply (E2 (k - pb + (lo + n - r2))); auto; lia | apply (E2 k); auto; lia]. }
    assert (R3 : rng (fun x => cmp x v = Gt) m2 (lo + n) a3).
    { intros k x K1 K2 K3. rewrite N3 in K3. assert (O2 : forall q, pb <= q -> nth_error a2 q = nth_error b q) by (intros q Hq; destruct S2 as (_ & _ & O2); apply O2; lia).
      destruct (Nat.leb_spec pb k), (Nat.ltb_spec k (pb + r2)), (Nat.leb_spec (lo + n - r2) k), (Nat.ltb_spec k (lo + n - r2 + r2)); cbn [andb] in K3; try lia; rewrite O2 in K3 by lia;
        first [apply (Gt1 (k - (lo + n - r2) + pb)); auto; lia | apply (Gt1 k); auto; lia]. }
    assert (H4 : exists a4, (if Nat.ltb 1 (pb - pa) then qsort_fallback cmp f a3 lo (pb - pa) else Good a3) = Good a4 /\ same lo m1 a3 a4 /\ srt lo m1 a4).
    { destruct (Nat.ltb_spec 1 (pb - pa)).
      - apply IH; lia.
      - exists a3. split; [reflexivity|]. split; [apply same_refl|]. intros i j x y. lia. }
    destruct H4 as (a4 & -> & S4 & Q4). cbn [fbind]. assert (La4 : length a4 = length a3) by apply S4.
    assert (H5 : exists a5, (if Nat.ltb 1 (pd - pb) then qsort_fallback cmp f a4 m2 (pd - pb) else Good a4) = Good a5 /\ same m2 (lo + n) a4 a5 /\ srt m2 (lo + n) a5).
    { destruct (Nat.ltb_spec 1 (pd - pb)).
      - replace (lo + n) with (m2 + (pd - pb)) by lia. apply IH; lia.
      - exists a4. split; [reflexivity|]. split; [apply same_refl|]. intros i j x y. lia. }
    destruct H5 as (a5 & E5 & S5 & Q5). exists a5. split; [exact E5|]. split.
    + eapply same_trans; [exact Sab|]. eapply same_trans; [eapply same_wider; [| |exact S4]; lia|]. eapply same_wider; [| |exact S5]; lia.
    + apply (@three lo m1 m2 (lo + n) v).
      * eapply srt_out; [exact S5|lia|exact Q4].
      * exact Q5.
      * eapply rng_out; [exact S5|lia|]. eapply rng_same; [exact S4|unfold m1; lia|exact R1].
      * eapply rng_out; [exact S5|lia|]. eapply rng_out; [exact S4|lia|exact R2].
      * eapply rng_same; [exact S5|lia|]. eapply rng_out; [exact S4|lia|exact R3].
Qed.

Lemma srt_sorted : forall a, srt 0 (length a) a -> StronglySorted (fun x y => le x y) a.
Proof.
  induction a as [|x a IH]; intros H; constructor.
  - apply IH. intros i j u v H1 H2 H3 Hu Hv. apply (H (S i) (S j)); auto; cbn; lia.
  - apply Forall_forall. intros y Hy. apply In_nth_error in Hy. destruct Hy as [k Hk]. apply (H 0 (S k)); auto; try lia. assert (k < length a) by (apply nth_error_Some; congruence). cbn. lia.
Qed.
Lemma quicksort_ok a : exists a', quicksort cmp a = Good a' /\ Permutation a a' /\ StronglySorted (fun x y => le x y) a'.
Proof.
  destruct (@qsort_ok (S (length a)) a 0 (length a)) as (a' & E & S1 & R); [lia|lia|]. exists a'. split; [exact E|]. split; [apply S1|]. apply srt_sorted. destruct S1 as [-> _]. exact R.
Qed.
End QF.
