(** The order of the keys of spatial views: interleaving the bits of the coordinates. *)
From Verif Require Import Base Codec CodecFacts Bitmap SpecUtil UtilFacts SpecMap MergeFacts Spatial SpecSpatial.
Local Open Scope N_scope.
Unset Strict Implicit.

Lemma number_unbe l : number l = unbe l.
Proof.
  induction l as [|b l IH] using rev_ind; [reflexivity|]. rewrite unbe_app. unfold number in *. rewrite fold_left_app. cbn [fold_left]. rewrite IH. change (lenN [b]) with 1. change (256^1) with 256.
  change (unbe [b]) with (0 * 256 + b). lia.
Qed.
Lemma unbe_bit l p : is_bytes l -> p < 8 * lenN l -> N.testbit (unbe l) p = N.testbit (nth (length l - 1 - N.to_nat (p / 8)) l 0) (p mod 8).
Proof. intros H Hp. rewrite <- number_unbe. now apply number_bit. Qed.
Lemma unbe_high l p : is_bytes l -> 8 * lenN l <= p -> N.testbit (unbe l) p = false.
Proof.
  intros H Hp. pose proof (unbe_bound H) as Hb. change 256 with (2^8) in Hb. rewrite <- N.pow_mul_r in Hb. destruct (N.eq_dec (unbe l) 0) as [->|Hz]; [apply N.bits_0|].
  apply N.bits_above_log2. apply N.log2_lt_pow2; [lia|]. eapply N.lt_le_trans; [exact Hb|]. apply N.pow_le_mono_r; [discriminate|exact Hp].
Qed.

(** ** Setting a bit *)

Lemma pow8 k : k < 8 -> 2 ^ k < 256.
Proof. intros H. change 256 with (2^8). now apply N.pow_lt_mono_r. Qed.
Lemma lor_byte a k : a < 256 -> k < 8 -> N.lor a (N.shiftl 1 k) < 256.
Proof.
  intros Ha Hk. rewrite N.shiftl_1_l. destruct (N.eq_dec (N.lor a (2^k)) 0) as [->|Hz]; [reflexivity|]. change 256 with (2^8). apply N.log2_lt_pow2; [lia|]. rewrite N.log2_lor.
  apply N.max_lub_lt; [|rewrite N.log2_pow2 by lia; exact Hk]. destruct (N.eq_dec a 0) as [->|Hna]; [reflexivity|]. apply N.log2_lt_pow2; [lia|exact Ha].
Qed.
Lemma set_bit_ok bm size bit : is_bytes bm -> lenN bm = size -> bit < 8 * size ->
  exists bm', set_bit_sized bm size bit = Ok bm' /\ is_bytes bm' /\ lenN bm' = size /\ forall p, N.testbit (unbe bm') p = N.testbit (unbe bm) p || (p =? bit).
Proof.
  intros Hb Hl Hbit. assert (Hd : bit / 8 < size) by (apply N.div_lt_upper_bound; lia). unfold set_bit_sized. destruct (N.leb_spec size (bit / 8)) as [|_]; [lia|].
  destruct (N.leb_spec (lenN bm) (size - 1 - bit / 8)) as [|_]; [lia|]. set (i := N.to_nat (size - 1 - bit / 8)). assert (Hm : bit mod 8 < 8) by (apply N.mod_lt; discriminate).
  assert (Hlen : length bm = N.to_nat size) by (unfold lenN in Hl; lia). assert (Hi : (i < length bm)%nat) by (unfold i; lia).
  assert (Hb' : is_bytes (Bitmap.upd i (N.lor (nth i bm 0) (N.shiftl 1 (bit mod 8))) bm)) by (apply upd_bytes; [exact Hb|]; apply lor_byte; [now apply nth_byte|exact Hm]).
  eexists. split; [reflexivity|]. split; [exact Hb'|]. split; [unfold lenN; rewrite upd_length; exact Hl|]. intros p.
  destruct (N.lt_ge_cases p (8 * size)) as [Hp|Hp].
  - rewrite unbe_bit by (try exact Hb'; unfold lenN; rewrite upd_length; fold (lenN bm); lia). rewrite upd_length, upd_nth by exact Hi. rewrite (unbe_bit Hb) by lia.
    assert (Hpd : p / 8 < size) by (apply N.div_lt_upper_bound; lia).
    destruct (Nat.eqb_spec (length bm - 1 - N.to_nat (p / 8)) i) as [He|He].
    + assert (Hq : p / 8 = bit / 8) by (unfold i in He; lia). rewrite He. rewrite N.lor_spec. f_equal. rewrite N.shiftl_1_l, N.pow2_bits_eqb.
      destruct (N.eqb_spec p bit) as [->|Hne]; [apply N.eqb_refl|]. apply N.eqb_neq. intros Hx. apply Hne. rewrite (N.div_mod p 8), (N.div_mod bit 8) by discriminate. now rewrite Hq, Hx.
    + assert (Hne : p <> bit) by (intros ->; apply He; unfold i; lia). apply N.eqb_neq in Hne. now rewrite Hne, orb_false_r.
  - rewrite (unbe_high Hb') by (unfold lenN; rewrite upd_length; fold (lenN bm); lia). rewrite (unbe_high Hb) by lia. assert (Hne : p <> bit) by lia. apply N.eqb_neq in Hne. now rewrite Hne.
Qed.

(** ** The loops *)

Section Loops.
Variable numbers : list N.
Notation num := (lenN numbers).
Definition placed (i : N) (js : list nat) (p : N) : bool := existsb (fun j => N.testbit (nth (N.to_nat (num - 1 - N.of_nat j)) numbers 0) i && (p =? i * num + N.of_nat j)) js.
Lemma bits_ok i size js : forall bm, is_bytes bm -> lenN bm = size -> (i + 1) * num <= 8 * size -> (forall j, In j js -> N.of_nat j < num) ->
  exists bm', interleave_bits numbers num size i js bm = Ok bm' /\ is_bytes bm' /\ lenN bm' = size /\ forall p, N.testbit (unbe bm') p = N.testbit (unbe bm) p || placed i js p.
Proof.
  induction js as [|j js IH]; intros bm Hb Hl Hi Hj; cbn [interleave_bits].
  - exists bm. split; [reflexivity|]. split; [exact Hb|]. split; [exact Hl|]. intros p. cbn. now rewrite orb_false_r.
  - assert (Hj0 : N.of_nat j < num) by (apply Hj; now left). assert (Hjs : forall x, In x js -> N.of_nat x < num) by (intros x Hx; apply Hj; now right).
    unfold placed. cbn [existsb]. fold (placed i js). destruct (N.testbit (nth (N.to_nat (num - 1 - N.of_nat j)) numbers 0) i); cbn [bind andb].
    + destruct (@set_bit_ok bm size (i * num + N.of_nat j) Hb Hl) as (b1 & -> & B1 & B2 & B3); [lia|]. cbn [bind]. destruct (IH b1 B1 B2 Hi Hjs) as (b2 & H1 & H2 & H3 & H4). exists b2.
      split; [exact H1|]. split; [exact H2|]. split; [exact H3|]. intros p. rewrite H4, B3. unfold placed. now rewrite orb_assoc.
    + destruct (IH bm Hb Hl Hi Hjs) as (b2 & H1 & H2 & H3 & H4). exists b2. split; [exact H1|]. split; [exact H2|]. split; [exact H3|]. intros p. rewrite H4. reflexivity.
Qed.
Lemma loop_ok is : num < 2048 -> forall bm, is_bytes bm -> lenN bm = 4 * num -> (forall i, In i is -> (i < 32)%nat) -> 0 < num ->
  exists bm', interleave_loop numbers num (32 * num) is bm = Ok bm' /\ is_bytes bm' /\ lenN bm' = 4 * num /\
    forall p, N.testbit (unbe bm') p = N.testbit (unbe bm) p || existsb (fun i => placed (N.of_nat i) (seq 0 (N.to_nat num)) p) is.
Proof.
  intros Hn. induction is as [|i is IH]; intros bm Hb Hl Hi Hz; cbn [interleave_loop].
  - exists bm. split; [reflexivity|]. split; [exact Hb|]. split; [exact Hl|]. intros p. cbn. now rewrite orb_false_r.
  - assert (Hi0 : (i < 32)%nat) by (apply Hi; now left). assert (Hm : N.of_nat i * num <= 31 * num) by (apply N.mul_le_mono_r; lia).
    destruct (N.ltb_spec (N.of_nat i * num) (32 * num)) as [_|Hx]; [|lia]. replace (32 * num / 8) with (4 * num) by (apply N.div_unique with (r := 0); lia).
    destruct (@bits_ok (N.of_nat i) (4 * num) (seq 0 (N.to_nat num)) bm Hb Hl) as (b1 & -> & B1 & B2 & B3); [lia|intros j Hj; apply in_seq in Hj; lia|]. cbn [bind].
    destruct (IH b1 B1 B2 ltac:(intros x Hx; apply Hi; now right) Hz) as (b2 & H1 & H2 & H3 & H4). exists b2. split; [exact H1|]. split; [exact H2|]. split; [exact H3|]. intros p. cbn [existsb].
    rewrite H4, B3. now rewrite orb_assoc.
Qed.
End Loops.

Lemma unbe_zeros k : unbe (repeat 0 k) = 0.
Proof. rewrite <- number_unbe. unfold number. induction k as [|k IH]; [reflexivity|]. cbn [repeat fold_left]. exact IH. Qed.
Lemma interleave_ok l : lenN l < 2048 -> exists b, interleave_uint32s l = Ok b /\ is_bytes b /\ lenN b = 4 * lenN l /\ interleaved l (unbe b).
Proof.
  intros Hn. unfold interleave_uint32s. destruct (N.leb_spec 16384 (lenN l)) as [|_]; [lia|]. change (2^16) with 65536. rewrite N.mod_small by lia. replace (4 * lenN l * 8) with (32 * lenN l) by lia.
  replace (32 * lenN l / 8) with (4 * lenN l) by (apply N.div_unique with (r := 0); lia).
  set (z := repeat 0 (N.to_nat (4 * lenN l))). assert (Hz : is_bytes z) by (apply Forall_forall; intros x Hx; apply repeat_spec in Hx; subst x; reflexivity).
  assert (Hlz : lenN z = 4 * lenN l) by (unfold z, lenN; rewrite repeat_length; lia).
  destruct l as [|n0 l0].
  - exists []. split; [vm_compute; reflexivity|]. split; [constructor|]. split; [reflexivity|]. split; [reflexivity|]. intros i j _ Hj. change (lenN (@nil N)) with 0 in Hj. lia.
  - set (l := n0 :: l0) in *. assert (Hpos : 0 < lenN l) by (unfold l; rewrite lenN_cons; lia).
    destruct (@loop_ok l (seq 0 32) Hn z Hz Hlz) as (b & H1 & H2 & H3 & H4); [intros i Hi; apply in_seq in Hi; lia|exact Hpos|].
    exists b. split; [exact H1|]. split; [exact H2|]. split; [exact H3|]. split.
    + pose proof (unbe_bound H2) as Hb. change 256 with (2^8) in Hb. rewrite <- N.pow_mul_r, H3 in Hb. replace (8 * (4 * lenN l)) with (32 * lenN l) in Hb by lia. exact Hb.
    + intros i j Hi Hj. rewrite H4. unfold z. rewrite unbe_zeros, N.bits_0. cbn [orb].
      assert (Hd : forall i' j', j' < lenN l -> i * lenN l + (lenN l - 1 - j) = i' * lenN l + j' -> i' = i /\ j' = lenN l - 1 - j).
      { intros i' j' Hj' He. assert (Hs : lenN l - 1 - j < lenN l) by lia. split.
        - rewrite (N.div_unique (i * lenN l + (lenN l - 1 - j)) (lenN l) i (lenN l - 1 - j)) by lia. apply N.div_unique with (r := j'); [exact Hj'|lia].
        - rewrite (N.mod_unique (i * lenN l + (lenN l - 1 - j)) (lenN l) i (lenN l - 1 - j)) by lia. apply N.mod_unique with (q := i'); [exact Hj'|lia]. }
      destruct (N.testbit (nth (N.to_nat j) l 0) i) eqn:Hb.
      * apply existsb_exists. exists (N.to_nat i). split; [apply in_seq; lia|]. apply existsb_exists. exists (N.to_nat (lenN l - 1 - j)). split; [apply in_seq; lia|].
        rewrite !N2Nat.id. replace (lenN l - 1 - (lenN l - 1 - j)) with j by lia. rewrite Hb. cbn [andb]. apply N.eqb_refl.
      * apply not_true_iff_false. intros Hx. apply existsb_exists in Hx. destruct Hx as (i' & Hi' & Hx). apply existsb_exists in Hx. destruct Hx as (j' & Hj' & Hx). apply andb_true_iff in Hx. destruct Hx as [X1 X2].
        apply N.eqb_eq in X2. apply in_seq in Hi', Hj'. destruct (Hd (N.of_nat i') (N.of_nat j')) as [D1 D2]; [lia|exact X2|]. rewrite D1, D2 in X1. replace (lenN l - 1 - (lenN l - 1 - j)) with j in X1 by lia. congruence.
Qed.

(** ** The order of the interleaved numbers *)

Lemma bit_lt a b n : N.testbit a n = false -> N.testbit b n = true -> (forall m, n < m -> N.testbit a m = N.testbit b m) -> a < b.
Proof.
  intros Ha Hb Hm. assert (Hs : N.shiftr a (N.succ n) = N.shiftr b (N.succ n)).
  { apply N.bits_inj. intros m. rewrite !N.shiftr_spec'. apply Hm. lia. }
  rewrite !N.shiftr_div_pow2 in Hs. assert (Hp : 2 ^ n <> 0) by (apply N.pow_nonzero; discriminate).
  assert (Hd : forall x, x / 2^n = 2 * (x / 2 ^ N.succ n) + N.b2n (N.testbit x n)).
  { intros x. rewrite N.testbit_spec'. rewrite N.pow_succ_r'. rewrite (N.mul_comm 2 (2^n)). rewrite <- N.div_div by (try exact Hp; discriminate). apply N.div_mod. discriminate. }
  pose proof (Hd a) as Da. pose proof (Hd b) as Db. rewrite Ha in Da. rewrite Hb in Db. cbn [N.b2n] in *. rewrite Hs in Da.
  destruct (N.lt_ge_cases a b) as [|Hge]; [assumption|]. assert (Hle : b / 2^n <= a / 2^n) by (apply N.div_le_mono; assumption). lia.
Qed.
Lemma highest a b : a <> b -> exists n, N.testbit a n = negb (N.testbit b n) /\ forall m, n < m -> N.testbit a m = N.testbit b m.
Proof.
  intros H. exists (N.log2 (N.lxor a b)). assert (Hx : N.lxor a b <> 0) by (intros Hx; apply H; now apply N.lxor_eq). split.
  - pose proof (N.bit_log2 _ Hx) as Hb. rewrite N.lxor_spec in Hb. destruct (N.testbit a (N.log2 (N.lxor a b))), (N.testbit b (N.log2 (N.lxor a b))); cbn in *; congruence.
  - intros m Hm. pose proof (N.bits_above_log2 _ _ Hm) as Hb. rewrite N.lxor_spec in Hb. destruct (N.testbit a m), (N.testbit b m); cbn in *; congruence.
Qed.
Lemma interleaved_bit l z n : interleaved l z -> N.testbit z n = true -> exists i j, i < 32 /\ j < lenN l /\ n = i * lenN l + (lenN l - 1 - j).
Proof.
  intros [Hz _] Hb. assert (Hn : n < 32 * lenN l).
  { destruct (N.lt_ge_cases n (32 * lenN l)) as [|Hge]; [assumption|]. exfalso. destruct (N.eq_dec z 0) as [->|Hnz]; [now rewrite N.bits_0 in Hb|].
    rewrite N.bits_above_log2 in Hb; [discriminate|]. apply N.log2_lt_pow2; [lia|]. eapply N.lt_le_trans; [exact Hz|]. apply N.pow_le_mono_r; [discriminate|exact Hge]. }
  assert (Hp : lenN l <> 0) by (intros Hx; rewrite Hx in Hn; lia). exists (n / lenN l), (lenN l - 1 - n mod lenN l). pose proof (N.mod_lt n _ Hp). split; [apply N.div_lt_upper_bound; lia|].
  split; [lia|]. replace (lenN l - 1 - (lenN l - 1 - n mod lenN l)) with (n mod lenN l) by lia. rewrite N.mul_comm. now apply N.div_mod.
Qed.
Lemma interleaved_eq l z z' : interleaved l z -> interleaved l z' -> z = z'.
Proof.
  intros H H'. apply N.bits_inj. intros n. destruct (N.testbit z n) eqn:H1, (N.testbit z' n) eqn:H2; try reflexivity.
  - destruct (interleaved_bit H H1) as (i & j & Hi & Hj & ->). rewrite (proj2 H i j Hi Hj) in H1. rewrite (proj2 H' i j Hi Hj) in H2. congruence.
  - destruct (interleaved_bit H' H2) as (i & j & Hi & Hj & ->). rewrite (proj2 H i j Hi Hj) in H1. rewrite (proj2 H' i j Hi Hj) in H2. congruence.
Qed.
Lemma small_bits x n : x < 2^32 -> 32 <= n -> N.testbit x n = false.
Proof.
  intros H Hn. destruct (N.eq_dec x 0) as [->|Hz]; [apply N.bits_0|]. apply N.bits_above_log2. apply N.log2_lt_pow2; [lia|]. eapply N.lt_le_trans; [exact H|]. apply N.pow_le_mono_r; [discriminate|exact Hn].
Qed.
Lemma uint32_nth l j : uint32s l -> nth j l 0 < 2^32.
Proof. intros H. destruct (nth_in_or_default j l 0) as [Hi| ->]; [|reflexivity]. unfold uint32s in H. rewrite Forall_forall in H. exact (H _ Hi). Qed.
Lemma interleaved_inj l l' z : uint32s l -> uint32s l' -> lenN l = lenN l' -> interleaved l z -> interleaved l' z -> l = l'.
Proof.
  intros U U' Hl H H'. apply nth_ext with (d := 0) (d' := 0); [unfold lenN in Hl; lia|]. intros j Hj. apply N.bits_inj. intros i. destruct (N.lt_ge_cases i 32) as [Hi|Hi].
  - assert (Hj' : N.of_nat j < lenN l) by (unfold lenN; lia). pose proof (proj2 H i (N.of_nat j) Hi Hj') as A. pose proof (proj2 H' i (N.of_nat j) Hi ltac:(rewrite <- Hl; exact Hj')) as B. rewrite <- Hl in B. rewrite Nat2N.id in A, B. congruence.
  - rewrite (small_bits (uint32_nth j U) Hi), (small_bits (uint32_nth j U') Hi). reflexivity.
Qed.
Lemma interleaved_mono l l' z z' : uint32s l -> uint32s l' -> Forall2 N.le l l' -> interleaved l z -> interleaved l' z' -> z <= z'.
Proof.
  intros U U' F H H'. assert (Hl : lenN l = lenN l') by (unfold lenN; f_equal; clear - F; induction F; cbn; congruence).
  destruct (N.le_gt_cases z z') as [|Hgt]; [assumption|]. exfalso. assert (Hne : z <> z') by lia. destruct (highest Hne) as (n & Hn & Hm).
  assert (Hz : N.testbit z n = true).
  { destruct (N.testbit z n) eqn:Hx; [reflexivity|]. destruct (N.testbit z' n) eqn:Hy; [|discriminate]. pose proof (bit_lt Hx Hy Hm). lia. }
  rewrite Hz in Hn. destruct (N.testbit z' n) eqn:Hy; [discriminate|]. destruct (interleaved_bit H Hz) as (i & j & Hi & Hj & ->).
  pose proof (proj2 H i j Hi Hj) as A. pose proof (proj2 H' i j Hi ltac:(rewrite <- Hl; exact Hj)) as B. rewrite <- Hl in B. rewrite Hz in A. rewrite Hy in B.
  assert (Hlt : nth (N.to_nat j) l' 0 < nth (N.to_nat j) l 0).
  { apply (@bit_lt _ _ i); [now symmetry|now symmetry|]. intros i' Hi'. destruct (N.lt_ge_cases i' 32) as [Hs|Hs].
    - rewrite <- (proj2 H i' j Hs Hj). pose proof (proj2 H' i' j Hs ltac:(rewrite <- Hl; exact Hj)) as X. rewrite <- Hl in X. rewrite <- X. symmetry. apply Hm. apply N.add_lt_le_mono; [|lia]. apply N.mul_lt_mono_pos_r; lia.
    - now rewrite (small_bits (uint32_nth _ U) Hs), (small_bits (uint32_nth _ U') Hs). }
  assert (Hle : forall k, nth k l 0 <= nth k l' 0).
  { clear - F. induction F as [|x y l l' Hxy F IH]; intros k; [destruct k; cbn; lia|]. destruct k as [|k]; cbn [nth]; [exact Hxy|apply IH]. }
  specialize (Hle (N.to_nat j)). lia.
Qed.

(** The comparison of the merger: by length, then byte by byte. *)
Lemma merger_ord : ord spatial_merger_key_cmp.
Proof.
  pose proof ord_ebin as OE. constructor.
  - intros a. unfold spatial_merger_key_cmp. rewrite N.eqb_refl. apply (o_refl OE).
  - intros a b. unfold spatial_merger_key_cmp. rewrite (N.eqb_sym (lenN b)). destruct (N.eqb_spec (lenN a) (lenN b)); [apply (o_anti OE)|]. apply N.compare_antisym.
  - intros a b c. unfold spatial_merger_key_cmp. destruct (N.eqb_spec (lenN a) (lenN b)) as [H1|H1], (N.eqb_spec (lenN b) (lenN c)) as [H2|H2].
    + destruct (N.eqb_spec (lenN a) (lenN c)); [|lia]. apply (o_lt OE).
    + destruct (N.eqb_spec (lenN a) (lenN c)); [lia|]. rewrite H1. auto.
    + destruct (N.eqb_spec (lenN a) (lenN c)); [lia|]. rewrite H2. auto.
    + rewrite !N.compare_lt_iff. intros X Y. destruct (N.eqb_spec (lenN a) (lenN c)); [lia|]. apply N.compare_lt_iff. lia.
  - intros a b c. unfold spatial_merger_key_cmp. destruct (N.eqb_spec (lenN a) (lenN b)) as [H1|H1].
    + intros He. apply ebin_eq in He. subst b. reflexivity.
    + intros He. apply N.compare_eq_iff in He. congruence.
Qed.
