(** Proofs about the legacy checksum. *)
From Verif Require Import Base Crc SpecCrc.
Local Open Scope N_scope.
Unset Strict Implicit.

Definition K : N := 0xEDB88320.
Definition PL : N := 0x04C11DB7.
(** One bit, reflected register. *)
Definition step0 (c : N) : N := N.lxor (N.shiftr c 1) (if N.testbit c 0 then K else 0).
Definition step (c : N) (b : bool) : N := step0 (N.lxor c (N.b2n b)).
(** One bit, ordinary register. *)
Definition nstep (r : N) (b : bool) : N := N.lxor ((2 * r) mod 2^32) (if xorb (N.testbit r 31) b then PL else 0).

Fixpoint iter0 (n : nat) (c : N) : N := match n with O => c | S m => iter0 m (step0 c) end.

Lemma step0_lin a b : step0 (N.lxor a b) = N.lxor (step0 a) (step0 b).
Proof.
  unfold step0. rewrite N.shiftr_lxor, N.lxor_spec.
  apply N.bits_inj. intros i. rewrite !N.lxor_spec.
  destruct (N.testbit a 0), (N.testbit b 0); cbn [xorb]; rewrite ?N.bits_0;
  destruct (N.testbit (N.shiftr a 1) i), (N.testbit (N.shiftr b 1) i), (N.testbit K i); reflexivity.
Qed.
Lemma step0_double y : step0 (2 * y) = y.
Proof. unfold step0. rewrite N.testbit_even_0, N.lxor_0_r, N.shiftr_div_pow2. change (2^1) with 2. rewrite N.mul_comm. apply N.div_mul. lia. Qed.
Lemma iter0_lin n : forall a b, iter0 n (N.lxor a b) = N.lxor (iter0 n a) (iter0 n b).
Proof. induction n as [|n IH]; intros a b; cbn [iter0]; [reflexivity|]. rewrite step0_lin. apply IH. Qed.
Lemma iter0_shift n : forall y, iter0 n (N.shiftl y (N.of_nat n)) = y.
Proof.
  induction n as [|n IH]; intros y; cbn [iter0]; [apply N.shiftl_0_r|].
  replace (N.shiftl y (N.of_nat (S n))) with (2 * N.shiftl y (N.of_nat n)).
  - rewrite step0_double. apply IH.
  - rewrite !N.shiftl_mul_pow2, Nat2N.inj_succ, N.pow_succ_r'. lia.
Qed.

(** Bits of [v], lowest first. *)
Fixpoint feed (n : nat) (v c : N) : N := match n with O => c | S m => feed m (v / 2) (step c (N.odd v)) end.
Lemma split_odd v : N.lxor (N.b2n (N.odd v)) (2 * (v / 2)) = v.
Proof.
  apply N.bits_inj. intros i. rewrite N.lxor_spec. destruct (N.eq_dec i 0) as [->|Hi].
  - rewrite N.testbit_even_0, N.b2n_bit0, xorb_false_r, N.bit0_odd. reflexivity.
  - replace i with (N.succ (N.pred i)) by lia. rewrite N.testbit_even_succ by lia. change (v / 2) with (v / 2^1). rewrite <- N.shiftr_div_pow2, N.shiftr_spec by lia.
    replace (N.testbit (N.b2n (N.odd v)) (N.succ (N.pred i))) with false; [rewrite xorb_false_l; f_equal; lia|].
    symmetry. destruct (N.odd v); cbn [N.b2n]; [|apply N.bits_0]. apply N.bits_above_log2. change (N.log2 1) with 0. lia.
Qed.
Lemma feed_iter n : forall v c, v < 2^(N.of_nat n) -> feed n v c = iter0 n (N.lxor c v).
Proof.
  induction n as [|n IH]; intros v c Hv; cbn [feed iter0].
  - change (2^N.of_nat 0) with 1 in Hv. replace v with 0 by lia. symmetry. apply N.lxor_0_r.
  - rewrite IH.
    + f_equal. unfold step. rewrite <- (step0_double (v / 2)) at 1. rewrite <- step0_lin, N.lxor_assoc, split_odd. reflexivity.
    + apply N.div_lt_upper_bound; [lia|]. now rewrite Nat2N.inj_succ, N.pow_succ_r' in Hv.
Qed.

Lemma tab_check : forallb (fun i => nth i crc32tab 0 =? iter0 8 (N.of_nat i)) (seq 0 256) = true.
Proof. vm_compute. reflexivity. Qed.
Lemma tab_ok x : x < 256 -> nth (N.to_nat x) crc32tab 0 = iter0 8 x.
Proof.
  intros H. pose proof tab_check as T. rewrite forallb_forall in T. specialize (T (N.to_nat x)). rewrite in_seq in T.
  rewrite N2Nat.id in T. apply N.eqb_eq, T. lia.
Qed.
Lemma crc_byte_feed c b : b < 256 -> crc_byte c b = feed 8 b c.
Proof.
  intros Hb. rewrite feed_iter by exact Hb. unfold crc_byte. set (x := N.lxor c b).
  replace (N.shiftr c 8) with (N.shiftr x 8).
  2:{ unfold x. rewrite N.shiftr_lxor. rewrite (N.shiftr_div_pow2 b), N.div_small by exact Hb. apply N.lxor_0_r. }
  change 0xff with (N.ones 8). rewrite tab_ok.
  2:{ rewrite N.land_ones. apply N.mod_upper_bound. discriminate. }
  replace (iter0 8 x) with (iter0 8 (N.lxor (N.shiftl (N.shiftr x 8) 8) (N.land x (N.ones 8)))).
  - rewrite iter0_lin. change 8%N with (N.of_nat 8) at 4. now rewrite iter0_shift.
  - f_equal. apply N.bits_inj. intros i. rewrite N.lxor_spec, N.land_spec. destruct (N.lt_ge_cases i 8) as [Hi|Hi].
    + rewrite N.shiftl_spec_low, N.ones_spec_low by lia. now rewrite andb_true_r, xorb_false_l.
    + rewrite N.shiftl_spec_high', N.shiftr_spec, N.ones_spec_high by lia. rewrite andb_false_r, xorb_false_r. f_equal. lia.
Qed.
Lemma feed_bits c b : feed 8 b c = fold_left step (byte_bits b) c.
Proof.
  assert (H : forall n v c, feed n v c = fold_left step (map (fun i => N.testbit v (N.of_nat i)) (seq 0 n)) c).
  { clear. induction n as [|n IH]; intros v c; [reflexivity|]. cbn [feed seq map fold_left]. rewrite IH, <- seq_shift, map_map.
    change (N.of_nat 0) with 0. rewrite N.bit0_odd. f_equal. apply map_ext. intros i. change (v / 2) with (v / 2^1). rewrite <- N.shiftr_div_pow2, N.shiftr_spec by lia. f_equal. lia. }
  rewrite H. reflexivity.
Qed.
Lemma raw_bits msg : forall c, Forall (fun b => b < 256) msg -> fold_left crc_byte msg c = fold_left step (bits msg) c.
Proof.
  induction msg as [|b msg IH]; intros c H; [reflexivity|]. inversion H as [|? ? Hb Hm]; subst. cbn [fold_left bits flat_map].
  rewrite crc_byte_feed, feed_bits by exact Hb. fold (bits msg). rewrite fold_left_app. apply IH, Hm.
Qed.

(** ** Reflected and ordinary register *)

Lemma bits_lt n x : (forall i, n <= i -> N.testbit x i = false) -> x < 2^n.
Proof.
  intros H. replace x with (x mod 2^n); [apply N.mod_upper_bound, N.pow_nonzero; discriminate|].
  apply N.bits_inj. intros i. destruct (N.lt_ge_cases i n); [now rewrite N.mod_pow2_bits_low|]. rewrite N.mod_pow2_bits_high by assumption. symmetry. auto.
Qed.
Lemma lt_bits n x i : x < 2^n -> n <= i -> N.testbit x i = false.
Proof. intros H Hi. rewrite <- (N.mod_small x (2^n)) by exact H. apply N.mod_pow2_bits_high, Hi. Qed.
Lemma lxor_lt n a b : a < 2^n -> b < 2^n -> N.lxor a b < 2^n.
Proof. intros Ha Hb. apply bits_lt. intros i Hi. rewrite N.lxor_spec, (lt_bits Ha Hi), (lt_bits Hb Hi). reflexivity. Qed.

Lemma K_check : forallb (fun i => Bool.eqb (N.testbit K (N.of_nat i)) (N.testbit PL (31 - N.of_nat i))) (seq 0 32) = true.
Proof. vm_compute. reflexivity. Qed.
Lemma K_PL i : i < 32 -> N.testbit K i = N.testbit PL (31 - i).
Proof.
  intros H. pose proof K_check as T. rewrite forallb_forall in T. specialize (T (N.to_nat i)). rewrite in_seq, N2Nat.id in T. apply Bool.eqb_prop, T. lia.
Qed.
Lemma nstep_lt r b : nstep r b < 2^32.
Proof. unfold nstep. apply lxor_lt; [apply N.mod_upper_bound; discriminate|]. destruct (xorb _ _); reflexivity. Qed.
Lemma step_reflected r c b : r < 2^32 -> reflected r c -> reflected (nstep r b) (step c b).
Proof.
  intros Hr [Hc H].
  assert (Hl : N.lxor c (N.b2n b) < 2^32) by (apply lxor_lt; [exact Hc|destruct b; reflexivity]).
  assert (H0 : N.testbit (N.lxor c (N.b2n b)) 0 = xorb (N.testbit r 31) b) by (rewrite N.lxor_spec, N.b2n_bit0, (H 0) by lia; reflexivity).
  split.
  - unfold step, step0. apply lxor_lt; [|destruct (N.testbit _ 0); reflexivity].
    apply bits_lt. intros i Hi. rewrite N.shiftr_spec by lia. apply (lt_bits Hl). lia.
  - intros i Hi. unfold step, step0, nstep. rewrite H0, !N.lxor_spec, N.shiftr_spec by lia.
    assert (Hx : N.testbit (if xorb (N.testbit r 31) b then K else 0) i = N.testbit (if xorb (N.testbit r 31) b then PL else 0) (31 - i)).
    { destruct (xorb _ _); [apply K_PL, Hi|now rewrite !N.bits_0]. }
    rewrite Hx. f_equal. rewrite N.lxor_spec, N.mod_pow2_bits_low by lia.
    assert (Hb : N.testbit (N.b2n b) (i + 1) = false) by (destruct b; cbn [N.b2n]; [apply N.bits_above_log2; change (N.log2 1) with 0; lia|apply N.bits_0]).
    rewrite Hb, xorb_false_r. destruct (N.eq_dec i 31) as [->|Hn].
    + change (31 + 1) with 32. rewrite (lt_bits Hc) by lia. symmetry. apply N.testbit_even_0.
    + rewrite H by lia. replace (31 - i) with (N.succ (31 - (i + 1))) by lia. rewrite N.testbit_even_succ by lia. reflexivity.
Qed.
Lemma steps_reflected l : forall r c, r < 2^32 -> reflected r c -> fold_left nstep l r < 2^32 /\ reflected (fold_left nstep l r) (fold_left step l c).
Proof.
  induction l as [|b l IH]; intros r c Hr H; cbn [fold_left]; [auto|]. apply IH; [apply nstep_lt|apply step_reflected; assumption].
Qed.

(** ** Division *)

Lemma ppos_double p b : N.double (ppos p b) = ppos p~0 b.
Proof. reflexivity. Qed.
Lemma pmul_double q b : pmul (2 * q) b = 2 * pmul q b.
Proof. destruct q as [|p]; [reflexivity|]. change (pmul (2 * N.pos p) b) with (N.double (ppos p b)). apply N.double_spec. Qed.
Lemma pmul_double1 q b : pmul (2 * q + 1) b = N.lxor b (2 * pmul q b).
Proof.
  destruct q as [|p]; [symmetry; apply N.lxor_0_r|]. change (pmul (2 * N.pos p + 1) b) with (N.lxor b (N.double (ppos p b))). now rewrite N.double_spec.
Qed.
Lemma lxor_double a b : 2 * N.lxor a b = N.lxor (2 * a) (2 * b).
Proof. replace (2 * N.lxor a b) with (N.shiftl (N.lxor a b) 1) by (rewrite N.shiftl_mul_pow2; lia).
  rewrite N.shiftl_lxor. rewrite !N.shiftl_mul_pow2. change (2^1) with 2. now rewrite !(N.mul_comm _ 2). Qed.
Lemma poly_app l b : poly (l ++ [b]) = 2 * poly l + N.b2n b.
Proof. unfold poly. now rewrite fold_left_app. Qed.
Lemma add_bit a b : 2 * a + N.b2n b = N.lxor (2 * a) (N.b2n b).
Proof.
  rewrite N.add_nocarry_lxor; [reflexivity|]. apply N.bits_inj. intros i. rewrite N.land_spec, N.bits_0. destruct (N.eq_dec i 0) as [->|Hi].
  - now rewrite N.testbit_even_0.
  - replace (N.testbit (N.b2n b) i) with false; [apply andb_false_r|]. symmetry. destruct b; cbn [N.b2n]; [|apply N.bits_0]. apply N.bits_above_log2. change (N.log2 1) with 0. lia.
Qed.
Lemma lxor_mul_pow2 a b n : N.lxor a b * 2^n = N.lxor (a * 2^n) (b * 2^n).
Proof. rewrite <- !N.shiftl_mul_pow2. apply N.shiftl_lxor. Qed.

(** What goes out of the ordinary register at the top is a term of the quotient. *)
Lemma nstep_div r b : r < 2^32 -> N.lxor (2 * r) (N.b2n b * 2^32) = N.lxor (nstep r b) (if xorb (N.testbit r 31) b then crc_poly else 0).
Proof.
  intros Hr. apply N.bits_inj. intros i. unfold nstep. rewrite !N.lxor_spec.
  assert (Hp : forall i, N.testbit crc_poly i = xorb (N.testbit PL i) (N.testbit (2^32) i)) by (intros j; rewrite <- N.lxor_spec; reflexivity).
  assert (Hb : N.testbit (N.b2n b * 2^32) i = (b && (i =? 32))%bool).
  { destruct b; cbn [N.b2n andb]; [|rewrite N.mul_0_l; apply N.bits_0]. rewrite N.mul_1_l. destruct (N.eqb_spec i 32) as [->|Hn]; [reflexivity|]. apply N.pow2_bits_false. lia. }
  assert (H2 : N.testbit (2^32) i = (i =? 32)%bool).
  { destruct (N.eqb_spec i 32) as [->|Hn]; [reflexivity|]. apply N.pow2_bits_false. lia. }
  assert (Hd : N.testbit (2 * r) i = xorb (N.testbit ((2 * r) mod 2^32) i) (N.testbit r 31 && (i =? 32))%bool).
  { destruct (N.lt_ge_cases i 32) as [Hi|Hi].
    - rewrite N.mod_pow2_bits_low by exact Hi. destruct (N.eqb_spec i 32); [lia|]. now rewrite andb_false_r, xorb_false_r.
    - rewrite N.mod_pow2_bits_high by exact Hi. rewrite xorb_false_l. replace i with (N.succ (i - 1)) at 1 by lia. rewrite N.testbit_even_succ by lia.
      destruct (N.eqb_spec i 32) as [->|Hn]; [now rewrite andb_true_r|]. rewrite andb_false_r. apply (lt_bits Hr). lia. }
  rewrite Hb, Hd. clear Hb Hd. destruct (xorb (N.testbit r 31) b) eqn:Ht.
  - rewrite Hp, H2. destruct (N.testbit r 31), b; try discriminate Ht; destruct (N.testbit ((2 * r) mod 2^32) i), (N.testbit PL i), (i =? 32); reflexivity.
  - rewrite N.bits_0. destruct (N.testbit r 31), b; try discriminate Ht; destruct (N.testbit ((2 * r) mod 2^32) i), (i =? 32); reflexivity.
Qed.

Lemma divides l : forall n0, exists q,
  N.lxor (poly l * 2^32) (n0 * 2^(N.of_nat (length l))) = N.lxor (pmul q crc_poly) (fold_left nstep l n0) \/ ~ n0 < 2^32.
Proof.
  induction l as [|b l IH] using rev_ind; intros n0.
  - exists 0. left. cbn [poly fold_left length pmul]. change (2^N.of_nat 0) with 1. rewrite N.mul_1_r. reflexivity.
  - destruct (N.lt_ge_cases n0 (2^32)) as [Hn|Hn]; [|exists 0; right; lia]. destruct (IH n0) as (q & [Hq|Hq]); [|exists 0; right; exact Hq].
    rewrite fold_left_app. cbn [fold_left]. set (r := fold_left nstep l n0) in *.
    assert (Hr : r < 2^32). { unfold r. clear - Hn. destruct l as [|b l] using rev_ind; [exact Hn|]. rewrite fold_left_app. apply nstep_lt. }
    exists (2 * q + N.b2n (xorb (N.testbit r 31) b)). left.
    rewrite poly_app, add_bit, lxor_mul_pow2, app_length. cbn [length]. rewrite Nat.add_1_r, Nat2N.inj_succ, N.pow_succ_r'.
    replace (2 * poly l * 2^32) with (2 * (poly l * 2^32)) by lia. replace (n0 * (2 * 2^N.of_nat (length l))) with (2 * (n0 * 2^N.of_nat (length l))) by lia.
    set (A := poly l * 2^32) in *. set (B := n0 * 2^N.of_nat (length l)) in *.
    replace (N.lxor (N.lxor (2 * A) (N.b2n b * 2^32)) (2 * B)) with (N.lxor (2 * N.lxor A B) (N.b2n b * 2^32)).
    2:{ rewrite lxor_double, !N.lxor_assoc. f_equal. apply N.lxor_comm. }
    rewrite Hq, lxor_double, N.lxor_assoc, (nstep_div b Hr). clear Hq. set (s := nstep r b). clearbody s A B.
    destruct (xorb (N.testbit r 31) b); cbn [N.b2n].
    + rewrite pmul_double1. rewrite (N.lxor_comm s), <- N.lxor_assoc. f_equal. apply N.lxor_comm.
    + rewrite N.add_0_r, pmul_double, N.lxor_0_r. reflexivity.
Qed.

Lemma bits_length msg : N.of_nat (length (bits msg)) = 8 * lenN msg.
Proof.
  unfold bits, lenN. induction msg as [|b msg IH]; [reflexivity|]. cbn [flat_map length]. rewrite app_length. cbn [byte_bits map length]. lia.
Qed.
Lemma reflected_ones r c : r < 2^32 -> reflected r c -> reflected (N.lxor r 0xFFFFFFFF) (N.lxor c 0xFFFFFFFF).
Proof.
  intros Hr [Hc H]. split; [apply lxor_lt; [exact Hc|reflexivity]|]. intros i Hi. rewrite !N.lxor_spec, H by exact Hi. f_equal.
  change 0xFFFFFFFF with (N.ones 32). rewrite !N.ones_spec_low by lia. reflexivity.
Qed.
Lemma hash_is_crc msg : Forall (fun b => b < 256) msg -> is_crc32 msg (hash_crc32 msg).
Proof.
  intros H. unfold hash_crc32, hash_crc32_raw. rewrite raw_bits by exact H.
  assert (H0 : reflected 0xFFFFFFFF 0xFFFFFFFF).
  { split; [reflexivity|]. intros i Hi. change 0xFFFFFFFF with (N.ones 32). rewrite !N.ones_spec_low by lia. reflexivity. }
  destruct (@steps_reflected (bits msg) 0xFFFFFFFF 0xFFFFFFFF eq_refl H0) as [R1 R2].
  destruct (divides (bits msg) 0xFFFFFFFF) as (q & [Hq|Hq]); [|exfalso; apply Hq; reflexivity]. rewrite bits_length in Hq.
  exists q, (fold_left nstep (bits msg) 0xFFFFFFFF). split; [exact R1|]. split; [exact Hq|]. apply reflected_ones; assumption.
Qed.

(** ** The remainder is unique *)

(** ** The remainder is unique *)

Lemma half_add a b : (2 * a + N.b2n b) / 2 = a.
Proof. destruct b; cbn [N.b2n]; lia. Qed.
Lemma bin_split a : a = 2 * (a / 2) + N.b2n (N.odd a).
Proof. pose proof (N.div2_odd a) as H. rewrite N.div2_div in H. exact H. Qed.
Lemma lxor_bin a b x y : N.lxor (2 * a + N.b2n x) (2 * b + N.b2n y) = 2 * N.lxor a b + N.b2n (xorb x y).
Proof.
  rewrite !add_bit, lxor_double. apply N.bits_inj. intros i. rewrite !N.lxor_spec.
  destruct x, y; cbn [N.b2n xorb]; rewrite ?N.bits_0; destruct (N.testbit (2 * a) i), (N.testbit (2 * b) i), (N.testbit 1 i); reflexivity.
Qed.
Lemma pmul_bin a x p : pmul (2 * a + N.b2n x) p = N.lxor (if x then p else 0) (2 * pmul a p).
Proof. destruct x; cbn [N.b2n]; [apply pmul_double1|]. now rewrite N.add_0_r, pmul_double, N.lxor_0_l. Qed.
Lemma pmul_lxor p : forall n a b, a < 2^(N.of_nat n) -> b < 2^(N.of_nat n) -> pmul (N.lxor a b) p = N.lxor (pmul a p) (pmul b p).
Proof.
  induction n as [|n IH]; intros a b Ha Hb.
  - change (2^N.of_nat 0) with 1 in *. replace a with 0 by lia. replace b with 0 by lia. reflexivity.
  - rewrite Nat2N.inj_succ, N.pow_succ_r' in Ha, Hb. rewrite (bin_split a), (bin_split b), lxor_bin, !pmul_bin, IH by (apply N.div_lt_upper_bound; lia).
    rewrite lxor_double. apply N.bits_inj. intros i. rewrite !N.lxor_spec.
    destruct (N.odd a), (N.odd b); cbn [xorb]; rewrite ?N.bits_0; destruct (N.testbit p i), (N.testbit (2 * pmul (a / 2) p) i), (N.testbit (2 * pmul (b / 2) p) i); reflexivity.
Qed.
Lemma ppos_large p : 2^32 <= ppos p crc_poly.
Proof.
  induction p as [p IH|p IH|]; cbn [ppos].
  - destruct (N.le_gt_cases (2^32) (N.lxor crc_poly (N.double (ppos p crc_poly)))) as [H|H]; [exact H|exfalso].
    rewrite N.double_spec in H. set (x := ppos p crc_poly) in *. assert (Hx : x < 2^32); [|lia].
    apply bits_lt. intros i Hi. rewrite <- (N.testbit_even_succ x i) by lia.
    pose proof (lt_bits H (i := N.succ i) ltac:(lia)) as Hb. rewrite N.lxor_spec in Hb.
    rewrite (@lt_bits 33 crc_poly (N.succ i) eq_refl ltac:(lia)) in Hb. now rewrite xorb_false_l in Hb.
  - rewrite N.double_spec. lia.
  - discriminate.
Qed.
Lemma rem_unique q q' r r' : r < 2^32 -> r' < 2^32 -> N.lxor (pmul q crc_poly) r = N.lxor (pmul q' crc_poly) r' -> r = r'.
Proof.
  intros Hr Hr' H.
  assert (Hq : pmul (N.lxor q q') crc_poly = N.lxor r r').
  { rewrite (@pmul_lxor crc_poly (N.to_nat (N.size (N.max q q')))).
    - apply (f_equal (fun z => N.lxor z (N.lxor r (pmul q' crc_poly)))) in H. 
      apply N.bits_inj. intros i. apply (f_equal (fun z => N.testbit z i)) in H. rewrite !N.lxor_spec in *.
      destruct (N.testbit (pmul q crc_poly) i), (N.testbit (pmul q' crc_poly) i), (N.testbit r i), (N.testbit r' i); cbn in *; congruence.
    - rewrite N2Nat.id. pose proof (N.size_gt (N.max q q')). lia.
    - rewrite N2Nat.id. pose proof (N.size_gt (N.max q q')). lia. }
  pose proof (lxor_lt Hr Hr') as Hl. rewrite <- Hq in Hl. destruct (N.lxor q q') as [|p] eqn:E.
  - cbn [pmul] in Hq. symmetry in Hq. now apply N.lxor_eq in Hq.
  - cbn [pmul] in Hl. pose proof (@ppos_large p). lia.
Qed.
Lemma crc_unique msg c c' : is_crc32 msg c -> is_crc32 msg c' -> c = c'.
Proof.
  intros (q & r & Hr & Hq & Hc & Hb) (q' & r' & Hr' & Hq' & Hc' & Hb'). rewrite Hq in Hq'. apply rem_unique in Hq'; try assumption. subst r'.
  apply N.bits_inj. intros i. destruct (N.lt_ge_cases i 32) as [Hi|Hi]; [now rewrite Hb, Hb'|]. now rewrite (lt_bits Hc Hi), (lt_bits Hc' Hi).
Qed.
