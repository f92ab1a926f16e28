(** Facts about the reduce values of view indexes. *)
From Coq Require Import String.
Close Scope string_scope.
From Verif Require Import Base Codec CodecFacts File FileFacts Btree SpecMap SpecFile TreeStore LookupFacts BtreeRead ModifyFacts SpecSession SaveFacts ReadFacts DbRead PurgeFacts Bitmap SpecUtil UtilFacts ViewCodec SpecView ViewFacts Reducers IndexHeader Cleanup ViewGroup
  SpecCleanup CleanupFacts GroupFacts ViewGroupFacts BuiltinReducers SpecReduce.
Local Open Scope N_scope.
Unset Strict Implicit.

(** ** Decimal numbers *)

Lemma pow10_S k : 10 ^ N.of_nat (S k) = 10 * 10 ^ N.of_nat k.
Proof. rewrite Nat2N.inj_succ, N.pow_succ_r'. reflexivity. Qed.
Lemma div10_lt k n : n < 10 ^ N.of_nat (S k) -> n / 10 < 10 ^ N.of_nat k.
Proof. rewrite pow10_S. intros H. apply N.div_lt_upper_bound; [discriminate|exact H]. Qed.
Lemma dec_fuel k : forall j n, n < 10 ^ N.of_nat k -> n < 10 ^ N.of_nat j -> (0 < k)%nat -> (0 < j)%nat -> dec k n = dec j n.
Proof.
  induction k as [|k IH]; intros j n Hk Hj H0 H1; [lia|]. destruct j as [|j]; [lia|]. cbn [dec]. destruct (N.ltb_spec n 10) as [|Hn]; [reflexivity|]. f_equal.
  apply div10_lt in Hk, Hj. assert (Hd : 1 <= n / 10) by (apply N.div_le_lower_bound; lia).
  apply IH; [exact Hk|exact Hj| |]; [destruct k|destruct j]; try lia; change (10 ^ N.of_nat 0) with 1 in *; lia.
Qed.
Lemma size_pow n : n < 2 ^ N.of_nat (S (N.size_nat n)).
Proof.
  destruct n as [|q]; [reflexivity|]. cbn [N.size_nat]. assert (H : N.pos q < 2 ^ N.of_nat (Pos.size_nat q)).
  { induction q as [q IH|q IH|]; [| |reflexivity]; cbn [Pos.size_nat]; rewrite Nat2N.inj_succ, N.pow_succ_r'; lia. }
  rewrite Nat2N.inj_succ, N.pow_succ_r'. lia.
Qed.
Lemma decimal_fuel k n : n < 10 ^ N.of_nat k -> (0 < k)%nat -> decimal n = dec k n.
Proof.
  intros H H0. unfold decimal. apply dec_fuel; [|exact H|lia|exact H0]. apply N.lt_le_trans with (2 ^ N.of_nat (S (N.size_nat n))); [apply size_pow|]. apply N.pow_le_mono_l. lia.
Qed.
Lemma digits_dec k : forall n acc, n < 10 ^ N.of_nat k -> (0 < k)%nat -> digits k n acc = dec k n ++ acc.
Proof.
  induction k as [|k IH]; intros n acc H H0; [lia|]. cbn [digits dec]. destruct (N.ltb_spec n 10) as [Hn|Hn].
  - rewrite N.div_small, N.mod_small by exact Hn. reflexivity.
  - assert (Hd : 1 <= n / 10) by (apply N.div_le_lower_bound; lia). destruct (N.eqb_spec (n / 10) 0) as [|_]; [lia|]. apply div10_lt in H.
    rewrite IH; [now rewrite <- app_assoc|exact H|]. destruct k; [change (10 ^ N.of_nat 0) with 1 in *; lia|lia].
Qed.
Lemma print_decimal n : n < 2^64 -> print_u64 n = decimal n.
Proof.
  intros H. unfold print_u64. assert (H1 : n < 10 ^ N.of_nat 20) by (change (10 ^ N.of_nat 20) with 100000000000000000000; change (2^64) with 18446744073709551616 in H; lia).
  rewrite digits_dec, app_nil_r by (exact H1 || lia). symmetry. apply decimal_fuel; [exact H1|lia].
Qed.
Definition digit (c : N) : Prop := 48 <= c <= 57.
Lemma dec_digits k : forall n, Forall digit (dec k n).
Proof.
  induction k as [|k IH]; intros n; cbn [dec]; [constructor|]. unfold digit in *. destruct (N.ltb_spec n 10); [constructor; [lia|constructor]|]. apply Forall_app. split; [apply IH|].
  pose proof (N.mod_lt n 10 ltac:(lia)). constructor; [lia|constructor].
Qed.
Lemma dec_S k n : exists c r, dec (S k) n = c :: r.
Proof. cbn [dec]. destruct (n <? 10); [eauto|]. destruct (dec k (n / 10)); cbn [app]; eauto. Qed.
Lemma decimal_cons n : exists c r, decimal n = c :: r /\ digit c /\ Forall digit r.
Proof. destruct (dec_S (N.size_nat n) n) as (c & r & H). exists c, r. unfold decimal. pose proof (dec_digits (S (N.size_nat n)) n) as F. rewrite H in *. inversion F; subst. auto. Qed.
Lemma read_dec k : forall n l b, n < 10 ^ N.of_nat k -> (0 < k)%nat -> read_digits (dec k n ++ l) b 0 = read_digits l true n.
Proof.
  induction k as [|k IH]; intros n l b H H0; [lia|]. cbn [dec]. destruct (N.ltb_spec n 10) as [Hn|Hn].
  - cbn [app read_digits]. destruct (N.leb_spec 48 (48 + n)); [|lia]. destruct (N.leb_spec (48 + n) 57); [|lia]. cbn [andb]. f_equal. lia.
  - rewrite <- app_assoc. assert (Hd : 1 <= n / 10) by (apply N.div_le_lower_bound; lia). apply div10_lt in H. rewrite IH; [|exact H|destruct k; [change (10 ^ N.of_nat 0) with 1 in *; lia|lia]].
    pose proof (N.mod_lt n 10 ltac:(lia)). pose proof (N.div_mod n 10 ltac:(lia)). cbn [app read_digits]. destruct (N.leb_spec 48 (48 + n mod 10)); [|lia]. destruct (N.leb_spec (48 + n mod 10) 57); [|lia]. cbn [andb]. f_equal. lia.
Qed.
Lemma strtoull_decimal n l : n < 2^64 -> stops l -> strtoull (decimal n ++ l) = Some (n, l).
Proof.
  intros H Hl.
  assert (R : read_digits (decimal n ++ l) false 0 = Some (n, l)).
  { unfold decimal. rewrite (read_dec (k := S (N.size_nat n))); [|apply N.lt_le_trans with (1 := size_pow n); apply N.pow_le_mono_l; lia|lia]. destruct Hl as [->|[r [->| ->]]]; reflexivity. }
  destruct (decimal_cons n) as (c & r & E & [H1 H2] & _). rewrite E in *. cbn [app] in *. unfold strtoull. cbn [skip_space].
  assert (Hs : (c =? 32) || (9 <=? c) && (c <=? 13) = false) by (destruct (N.eqb_spec c 32); [lia|]; destruct (N.leb_spec c 13); [lia|]; now rewrite andb_false_r).
  rewrite Hs.
  assert (Hc : c = 48 \/ c = 49 \/ c = 50 \/ c = 51 \/ c = 52 \/ c = 53 \/ c = 54 \/ c = 55 \/ c = 56 \/ c = 57) by lia.
  assert (Hq : (2^64 <=? n) = false) by now apply N.leb_gt. clear Hs H1 H2.
  decompose [or] Hc; subst c; cbv beta iota zeta; rewrite R, Hq; reflexivity.
Qed.
Lemma dec_len k : forall n, lenN (dec k n) <= N.of_nat k.
Proof.
  induction k as [|k IH]; intros n; cbn [dec]; [apply N.le_refl|]. destruct (n <? 10); [unfold lenN; cbn [length]; lia|]. rewrite lenN_app. specialize (IH (n / 10)). unfold lenN at 2. cbn [length]. lia.
Qed.
Lemma digits_c_string l r : Forall digit l -> c_string (l ++ r) = l ++ c_string r.
Proof. induction 1 as [|c l [H1 H2] _ IH]; [reflexivity|]. cbn [app c_string]. destruct (N.eqb_spec c 0); [lia|]. now rewrite IH. Qed.
Lemma decimal_c_string n r : c_string (decimal n ++ r) = decimal n ++ c_string r.
Proof. apply digits_c_string, dec_digits. Qed.
Lemma integer_c_string z r : c_string (integer z ++ r) = integer z ++ c_string r.
Proof. unfold integer. destruct (z <? 0)%Z; cbn [app c_string]; [change (45 =? 0) with false; cbn iota; f_equal|]; apply decimal_c_string. Qed.
Lemma decimal_len n : n < 10^20 -> 1 <= lenN (decimal n) <= 20.
Proof.
  intros H. split; [destruct (decimal_cons n) as (c & r & -> & _); rewrite lenN_cons; lia|]. rewrite (decimal_fuel (k := 20)); [apply (dec_len (k := 20))|exact H|lia].
Qed.

(** ** "_count" *)

Lemma json_decimal n : n < 2^64 -> json_to_uint64 (decimal n) = Some n.
Proof.
  intros H. assert (H1 : n < 10^20) by (change (10^20) with 100000000000000000000; change (2^64) with 18446744073709551616 in H; lia). pose proof (decimal_len H1) as [L1 L2].
  unfold json_to_uint64. destruct (N.ltb_spec (lenN (decimal n)) 1); [lia|]. destruct (N.ltb_spec 31 (lenN (decimal n))); [lia|]. cbn [orb].
  pose proof (decimal_c_string n []) as Hc. rewrite app_nil_r in Hc. cbn [c_string] in Hc. rewrite Hc. rewrite strtoull_decimal; [reflexivity|exact H|now left].
Qed.
Lemma sum_counts_decimal ns : forall a, Forall (fun n => n < 2^64) ns -> a < 2^64 -> sum_counts (map decimal ns) a = Ok ((a + fold_right N.add 0 ns) mod 2^64).
Proof.
  induction ns as [|n ns IH]; intros a F Ha; cbn [map sum_counts fold_right]; [rewrite N.add_0_r, N.mod_small by exact Ha; reflexivity|]. inversion F; subst. rewrite json_decimal by assumption.
  rewrite IH; [|assumption|apply N.mod_lt; discriminate]. rewrite N.add_mod_idemp_l by discriminate. do 2 f_equal. lia.
Qed.

(** Results of a reduce function, by induction over the pieces. *)
Lemma reduces_ind2 (r : reducer) (P : list kv -> bytes -> Prop) :
  (forall kvs b, kvs <> [] -> r (Some (keys_of kvs)) (values_of kvs) = Ok b -> P kvs b) ->
  (forall kss bs b, kss <> [] -> Forall2 (reduces r) kss bs -> Forall2 P kss bs -> r None bs = Ok b -> P (concat kss) b) ->
  forall kvs b, reduces r kvs b -> P kvs b.
Proof.
  intros H1 H2. fix IH 3. intros kvs b [kvs0 b0 Hn Hr|kss bs b0 Hn Hf Hr]; [exact (H1 _ _ Hn Hr)|].
  refine (H2 _ _ _ Hn Hf _ Hr). clear Hn Hr H1 H2. induction Hf as [|ks c kss bs Hc _ IHf]; constructor; [exact (IH _ _ Hc)|exact IHf].
Qed.
Lemma values_app a b : values_of (a ++ b) = values_of a ++ values_of b.
Proof. unfold values_of. now rewrite flat_map_app, map_app. Qed.
Lemma values_concat kss : values_of (concat kss) = concat (map values_of kss).
Proof. induction kss as [|ks kss IH]; [reflexivity|]. cbn [concat map]. now rewrite values_app, IH. Qed.
Lemma count_reduces kvs b : reduces builtin_count_reducer kvs b -> b = decimal (lenN (values_of kvs) mod 2^64).
Proof.
  apply (@reduces_ind2 builtin_count_reducer (fun kvs b => b = decimal (lenN (values_of kvs) mod 2^64))); clear kvs b.
  - intros kvs b _ H. cbn [builtin_count_reducer] in H. rewrite print_decimal in H by (apply N.mod_lt; discriminate). congruence.
  - intros kss bs b _ _ F H. cbn [builtin_count_reducer] in H. set (ns := map (fun ks => lenN (values_of ks) mod 2^64) kss).
    assert (E : bs = map decimal ns). { unfold ns. clear H. induction F as [|ks c kss bs Hc _ IH]; [reflexivity|]. cbn [map]. now rewrite IH, Hc. }
    rewrite E, sum_counts_decimal in H; [|apply Forall_map, Forall_forall; intros; apply N.mod_lt; discriminate|reflexivity]. cbn [bind] in H. rewrite print_decimal in H by (apply N.mod_lt; discriminate).
    assert (Hb : b = decimal ((0 + fold_right N.add 0 ns) mod 2^64)) by congruence. rewrite Hb. f_equal. rewrite N.add_0_l, values_concat. unfold ns. clear.
    induction kss as [|ks kss IH]; [reflexivity|]. cbn [map concat fold_right]. rewrite lenN_app, N.add_mod_idemp_l by discriminate. rewrite N.add_mod, IH, <- N.add_mod by discriminate. reflexivity.
Qed.

(** ** "_sum" *)

Lemma zsum_app a b : zsum (a ++ b) = (zsum a + zsum b)%Z.
Proof. unfold zsum. induction a as [|x a IH]; cbn [app fold_right]; [reflexivity|]. lia. Qed.
Lemma magnitude_app a b : magnitude (a ++ b) = (magnitude a + magnitude b)%Z.
Proof. unfold magnitude. now rewrite map_app, zsum_app. Qed.
Lemma magnitude_cons z l : magnitude (z :: l) = (Z.abs z + magnitude l)%Z.
Proof. reflexivity. Qed.
Lemma magnitude_pos l : (0 <= magnitude l)%Z.
Proof. induction l as [|z l IH]; [reflexivity|]. rewrite magnitude_cons. lia. Qed.
Lemma sum_magnitude l : (Z.abs (zsum l) <= magnitude l)%Z.
Proof. induction l as [|z l IH]; [reflexivity|]. rewrite magnitude_cons. change (zsum (z :: l)) with (z + zsum l)%Z. lia. Qed.
Lemma squares_app a b : squares (a ++ b) = (squares a + squares b)%Z.
Proof. unfold squares. now rewrite map_app, zsum_app. Qed.
Lemma squares_cons z l : squares (z :: l) = (z * z + squares l)%Z.
Proof. reflexivity. Qed.
Lemma square_abs z : (Z.abs z <= z * z)%Z.
Proof. destruct (Z.abs_spec z) as [[H E]|[H E]]; rewrite E; destruct (Z.eq_dec z 0) as [->|]; try reflexivity; try lia.
  - replace z with (z * 1)%Z at 1 by lia. apply Z.mul_le_mono_nonneg_l; lia.
  - replace (z * z)%Z with ((- z) * (- z))%Z by lia. replace (- z)%Z with ((- z) * 1)%Z at 1 by lia. apply Z.mul_le_mono_nonneg_l; lia.
Qed.
Lemma magnitude_squares l : (magnitude l <= squares l)%Z.
Proof. induction l as [|z l IH]; [reflexivity|]. rewrite magnitude_cons, squares_cons. pose proof (@square_abs z). lia. Qed.
(** The numbers of the pieces. *)
Lemma split_numbers kss : forall zs, values_of (concat kss) = map integer zs -> exists zss, zs = concat zss /\ Forall2 (fun ks l => values_of ks = map integer l) kss zss.
Proof.
  induction kss as [|ks kss IH]; intros zs H.
  - destruct zs; [|discriminate H]. exists []. split; [reflexivity|constructor].
  - cbn [concat] in H. rewrite values_app in H. symmetry in H. apply map_eq_app in H. destruct H as (a & b & -> & Ha & Hb). destruct (IH b) as (zss & -> & F); [now symmetry|].
    exists (a :: zss). split; [reflexivity|]. constructor; [now symmetry|exact F].
Qed.

Section Doubles.
Context {D : Double}.
Variable d : Z -> dbl.
Hypothesis DO : DoubleOk d.

Lemma integer_len a : (Z.abs a < 10^15)%Z -> 1 <= lenN (integer a) <= 31.
Proof.
  intros H. assert (Hn : Z.abs_N a < 10^20). { change (10^20) with 100000000000000000000. change (10^15)%Z with 1000000000000000%Z in H. lia. }
  pose proof (decimal_len Hn). unfold integer. destruct (a <? 0)%Z; [rewrite lenN_cons|]; lia.
Qed.
Lemma json_integer a : (Z.abs a < 10^15)%Z -> json_to_double (integer a) = Some (d a).
Proof.
  intros H. pose proof (integer_len H) as [L1 L2]. unfold json_to_double. destruct (N.ltb_spec (lenN (integer a)) 1); [lia|]. destruct (N.ltb_spec 31 (lenN (integer a))); [lia|]. cbn [orb].
  pose proof (integer_c_string a []) as Hc. rewrite app_nil_r in Hc. cbn [c_string] in Hc. rewrite Hc. rewrite (dok_strtod DO); [reflexivity| |now left]. change (10^15)%Z with 1000000000000000%Z in H. change (2^53)%Z with 9007199254740992%Z. lia.
Qed.
Lemma sum_integers zs : forall a, (Z.abs a + magnitude zs < 10^15)%Z -> sum_values (map integer zs) (d a) = Ok (d (a + zsum zs)%Z).
Proof.
  induction zs as [|z zs IH]; intros a H; cbn [map sum_values]; [unfold zsum; cbn [fold_right]; now rewrite Z.add_0_r|]. rewrite magnitude_cons in H. pose proof (@magnitude_pos zs). rewrite json_integer by lia.
  rewrite (dok_add DO); change (2^53)%Z with 9007199254740992%Z; change (10^15)%Z with 1000000000000000%Z in *; try lia. rewrite IH by lia. change (zsum (z :: zs)) with (z + zsum zs)%Z. now rewrite Z.add_assoc.
Qed.
Lemma sum_of_integers keys zs : (magnitude zs < 10^15)%Z -> builtin_sum_reducer keys (map integer zs) = Ok (integer (zsum zs)).
Proof.
  intros H. unfold builtin_sum_reducer. rewrite (dok_zero DO), sum_integers by (cbn [Z.abs]; lia). cbn [bind]. rewrite Z.add_0_l, (dok_print15 DO); [reflexivity|]. pose proof (@sum_magnitude zs). lia.
Qed.
Lemma sum_reduces kvs b : reduces builtin_sum_reducer kvs b -> forall zs, values_of kvs = map integer zs -> (magnitude zs < 10^15)%Z -> b = integer (zsum zs).
Proof.
  apply (@reduces_ind2 builtin_sum_reducer (fun kvs b => forall zs, values_of kvs = map integer zs -> (magnitude zs < 10^15)%Z -> b = integer (zsum zs))); clear kvs b.
  - intros kvs b _ H zs E Hm. rewrite E, sum_of_integers in H by exact Hm. congruence.
  - intros kss bs b _ _ F H zs E Hm. destruct (split_numbers E) as (zss & -> & G). clear E.
    assert (X : bs = map integer (map zsum zss) /\ zsum (map zsum zss) = zsum (concat zss) /\ (magnitude (map zsum zss) <= magnitude (concat zss))%Z).
    { clear H. revert zss G Hm. induction F as [|ks c kss bs Hc _ IH]; intros zss G Hm; inversion G as [|? l ? zss' G1 G2]; subst; [repeat split; reflexivity|]. cbn [concat map] in *.
      rewrite magnitude_app in Hm. pose proof (@magnitude_pos l). pose proof (@magnitude_pos (concat zss')). destruct (IH _ G2) as (-> & I2 & I3); [lia|]. split; [|split].
      - f_equal. apply Hc; [exact G1|lia].
      - change (zsum (zsum l :: map zsum zss')) with (zsum l + zsum (map zsum zss'))%Z. rewrite zsum_app. lia.
      - rewrite magnitude_cons, magnitude_app. pose proof (@sum_magnitude l). lia. }
    destruct X as (-> & X2 & X3). rewrite sum_of_integers in H by lia. congruence.
Qed.

(** ** "_stats" *)

Definition st (z : Z) (l : list Z) : stats := Stats (lenN (z :: l)) (d (zsum (z :: l))) (d (zmin z l)) (d (zmax z l)) (d (squares (z :: l))).
Lemma zmin_app z a b : zmin z (a ++ b) = zmin (zmin z b) a.
Proof. unfold zmin. now rewrite fold_right_app. Qed.
Lemma zmax_app z a b : zmax z (a ++ b) = zmax (zmax z b) a.
Proof. unfold zmax. now rewrite fold_right_app. Qed.
Lemma zmin_min z x l : zmin (Z.min x z) l = Z.min x (zmin z l).
Proof. unfold zmin. induction l as [|y l IH]; cbn [fold_right]; [reflexivity|]. rewrite IH. lia. Qed.
Lemma zmax_max z x l : zmax (Z.max x z) l = Z.max x (zmax z l).
Proof. unfold zmax. induction l as [|y l IH]; cbn [fold_right]; [reflexivity|]. rewrite IH. lia. Qed.
Lemma zmin_join z l z' l' : zmin z (l ++ z' :: l') = Z.min (zmin z l) (zmin z' l').
Proof.
  rewrite zmin_app. replace (zmin z (z' :: l')) with (Z.min (zmin z' l') z).
  - rewrite zmin_min. lia.
  - unfold zmin. cbn [fold_right]. clear. induction l' as [|y l' IH]; cbn [fold_right]; lia.
Qed.
Lemma zmax_join z l z' l' : zmax z (l ++ z' :: l') = Z.max (zmax z l) (zmax z' l').
Proof.
  rewrite zmax_app. replace (zmax z (z' :: l')) with (Z.max (zmax z' l') z).
  - rewrite zmax_max. lia.
  - unfold zmax. cbn [fold_right]. clear. induction l' as [|y l' IH]; cbn [fold_right]; lia.
Qed.
Lemma zmin_bound z l : (Z.abs (zmin z l) <= magnitude (z :: l))%Z.
Proof. rewrite magnitude_cons. unfold zmin. induction l as [|y l IH]; cbn [fold_right]; [change (magnitude []) with 0%Z; lia|]. rewrite magnitude_cons. pose proof (@magnitude_pos l). lia. Qed.
Lemma zmax_bound z l : (Z.abs (zmax z l) <= magnitude (z :: l))%Z.
Proof. rewrite magnitude_cons. unfold zmax. induction l as [|y l IH]; cbn [fold_right]; [change (magnitude []) with 0%Z; lia|]. rewrite magnitude_cons. pose proof (@magnitude_pos l). lia. Qed.
Lemma zmin_zmax z l : (zmin z l <= zmax z l)%Z.
Proof. unfold zmin, zmax. induction l as [|y l IH]; cbn [fold_right]; lia. Qed.
Lemma st_join z l z' l' : (squares ((z :: l) ++ z' :: l') < 10^6)%Z -> lenN ((z :: l) ++ z' :: l') < 2^64 -> stats_join (st z l) (st z' l') = st z (l ++ z' :: l').
Proof.
  intros H Hl. rewrite squares_app in H. pose proof (@magnitude_squares (z :: l)) as M1. pose proof (@magnitude_squares (z' :: l')) as M2. pose proof (@magnitude_pos (z :: l)). pose proof (@magnitude_pos (z' :: l')).
  pose proof (@sum_magnitude (z :: l)). pose proof (@sum_magnitude (z' :: l')). pose proof (@zmin_bound z l). pose proof (@zmin_bound z' l'). pose proof (@zmax_bound z l). pose proof (@zmax_bound z' l').
  change (10^6)%Z with 1000000%Z in H. unfold stats_join, st. cbn [s_count s_sum s_min s_max s_sumsqr]. 
  assert (Hz : (lenN (z :: l) =? 0) = false) by (rewrite lenN_cons; apply N.eqb_neq; lia). rewrite Hz, !orb_false_r.
  change (z :: l ++ z' :: l') with ((z :: l) ++ z' :: l'). rewrite lenN_app in *. rewrite zsum_app, squares_app, zmin_join, zmax_join. rewrite (N.mod_small _ _ Hl).
  rewrite !(dok_add DO), !(dok_lt DO) by (change (2^53)%Z with 9007199254740992%Z; lia). f_equal.
  - destruct (Z.ltb_spec (zmin z' l') (zmin z l)); f_equal; lia.
  - destruct (Z.ltb_spec (zmax z l) (zmax z' l')); f_equal; lia.
Qed.
Lemma st_first z l : (squares (z :: l) < 10^6)%Z -> lenN (z :: l) < 2^64 -> stats_join no_stats (st z l) = st z l.
Proof.
  intros H Hl. pose proof (@magnitude_squares (z :: l)) as M1. pose proof (@magnitude_pos (z :: l)). pose proof (@sum_magnitude (z :: l)). change (10^6)%Z with 1000000%Z in H.
  unfold stats_join, st, no_stats. cbn [s_count s_sum s_min s_max s_sumsqr]. rewrite N.eqb_refl, !orb_true_r, N.add_0_l, (N.mod_small _ _ Hl).
  rewrite (dok_zero DO), !(dok_add DO) by (change (2^53)%Z with 9007199254740992%Z; lia). reflexivity.
Qed.
Lemma st_one z : (squares [z] < 10^6)%Z -> stats_add no_stats (d z) = st z [].
Proof.
  intros H. rewrite squares_cons in H. change (squares []) with 0%Z in H. pose proof (@square_abs z). unfold stats_add, st, no_stats. cbn [s_count s_sum s_min s_max s_sumsqr]. rewrite N.eqb_refl. change (10^6)%Z with 1000000%Z in H.
  change (zsum [z]) with (z + 0)%Z. rewrite squares_cons. change (squares []) with 0%Z. rewrite !Z.add_0_r. change (zmin z []) with z. change (zmax z []) with z.
  rewrite (dok_zero DO), (dok_sqr DO), !(dok_add DO) by (change (2^53)%Z with 9007199254740992%Z; lia). rewrite !Z.add_0_l. reflexivity.
Qed.
Lemma st_add z l n : (squares ((z :: l) ++ [n]) < 10^6)%Z -> lenN ((z :: l) ++ [n]) < 2^64 -> stats_add (st z l) (d n) = st z (l ++ [n]).
Proof.
  intros H Hl. rewrite <- (st_join H Hl). rewrite squares_app in H. pose proof (@magnitude_squares (z :: l)) as M1. pose proof (@magnitude_pos (z :: l)). pose proof (@square_abs n). rewrite (squares_cons n) in H. change (squares []) with 0%Z in H.
  pose proof (@zmin_bound z l). pose proof (@zmax_bound z l). pose proof (@zmin_zmax z l). change (10^6)%Z with 1000000%Z in H.
  assert (Hz : (lenN (z :: l) =? 0) = false) by (rewrite lenN_cons; apply N.eqb_neq; lia).
  unfold stats_add, stats_join, st. cbn [s_count s_sum s_min s_max s_sumsqr]. rewrite Hz, !orb_false_r. change (zsum [n]) with (n + 0)%Z. rewrite (squares_cons n). change (squares []) with 0%Z. rewrite !Z.add_0_r. change (zmin n []) with n. change (zmax n []) with n.
  rewrite (dok_sqr DO), !(dok_lt DO) by (change (2^53)%Z with 9007199254740992%Z; lia). change (lenN [n]) with 1.
  destruct (Z.ltb_spec (zmax z l) n); destruct (Z.ltb_spec n (zmin z l)); reflexivity || lia.
Qed.
Lemma stats_integers l : forall z l0, (squares ((z :: l0) ++ l) < 10^6)%Z -> lenN ((z :: l0) ++ l) < 2^64 -> stats_values false (map integer l) (st z l0) = Ok (st z (l0 ++ l)).
Proof.
  induction l as [|n l IH]; intros z l0 H Hl; cbn [map stats_values]; [now rewrite app_nil_r|].
  replace ((z :: l0) ++ n :: l) with (((z :: l0) ++ [n]) ++ l) in * by now rewrite <- app_assoc. rewrite squares_app in H. rewrite lenN_app in Hl.
  assert (P : forall l, (0 <= squares l)%Z). { clear. intros l. pose proof (@magnitude_squares l). pose proof (@magnitude_pos l). lia. }
  pose proof (P l). rewrite json_integer.
  - rewrite st_add by lia. rewrite IH.
    + now rewrite <- app_assoc.
    + change (z :: l0 ++ [n]) with ((z :: l0) ++ [n]). rewrite squares_app. exact H.
    + change (z :: l0 ++ [n]) with ((z :: l0) ++ [n]). rewrite lenN_app. exact Hl.
  - rewrite squares_app, (squares_cons n) in H. change (squares []) with 0%Z in H. pose proof (P (z :: l0)). pose proof (@square_abs n). change (10^6)%Z with 1000000%Z in H. change (10^15)%Z with 1000000000000000%Z. lia.
Qed.
Lemma print_st z l : (squares (z :: l) < 10^6)%Z -> lenN (z :: l) < 2^64 -> print_stats (st z l) = stats_json z l.
Proof.
  intros H Hl. pose proof (@magnitude_squares (z :: l)) as M1. pose proof (@magnitude_pos (z :: l)). pose proof (@sum_magnitude (z :: l)). pose proof (@zmin_bound z l). pose proof (@zmax_bound z l).
  unfold print_stats, st. cbn [s_count s_sum s_min s_max s_sumsqr]. rewrite print_decimal by exact Hl. rewrite !(dok_print6 DO) by lia.
  unfold stats_json. generalize (integer (zsum (z :: l))) (decimal (lenN (z :: l))) (integer (zmin z l)) (integer (zmax z l)) (integer (squares (z :: l))). intros a b c e g.
  unfold quoted. rewrite <- !app_assoc. reflexivity.
Qed.
Lemma literal_app t l : literal t (t ++ l) = Some l.
Proof. induction t as [|x t IH]; [reflexivity|]. cbn [app literal]. now rewrite N.eqb_refl. Qed.
Lemma scan_st z l : (squares (z :: l) < 10^6)%Z -> lenN (z :: l) < 2^64 -> scan_stats (c_string (stats_json z l)) = Some (st z l).
Proof.
  intros H Hl. pose proof (@magnitude_squares (z :: l)) as M1. pose proof (@magnitude_pos (z :: l)). pose proof (@sum_magnitude (z :: l)). pose proof (@zmin_bound z l). pose proof (@zmax_bound z l).
  change (10^6)%Z with 1000000%Z in H. rewrite <- print_st by (exact Hl || (change (10^6)%Z with 1000000%Z; lia)). unfold print_stats, st. cbn [s_count s_sum s_min s_max s_sumsqr]. rewrite print_decimal by exact Hl.
  rewrite !(dok_print6 DO) by (change (10^6)%Z with 1000000%Z; lia).
  assert (L : forall t r, forallb (fun c => negb (c =? 0)) t = true -> c_string (t ++ r) = t ++ c_string r).
  { clear. induction t as [|c t IH]; intros r Ht; [reflexivity|]. cbn [forallb] in Ht. apply andb_prop in Ht. destruct Ht as [H1 H2]. cbn [app c_string]. destruct (c =? 0); [discriminate H1|]. now rewrite IH. }
  rewrite (L t_sum), integer_c_string, (L t_count), decimal_c_string, (L t_min), integer_c_string, (L t_max), integer_c_string, (L t_sumsqr), integer_c_string by reflexivity.
  change (c_string t_end) with t_end. unfold scan_stats.
  rewrite literal_app. cbn [obind]. rewrite (dok_scan DO); [|change (2^53)%Z with 9007199254740992%Z; lia|right; eexists; left; reflexivity]. cbn [obind].
  rewrite literal_app. cbn [obind]. rewrite strtoull_decimal; [|exact Hl|right; eexists; left; reflexivity]. cbn [obind].
  rewrite literal_app. cbn [obind]. rewrite (dok_scan DO); [|change (2^53)%Z with 9007199254740992%Z; lia|right; eexists; left; reflexivity]. cbn [obind].
  rewrite literal_app. cbn [obind]. rewrite (dok_scan DO); [|change (2^53)%Z with 9007199254740992%Z; lia|right; eexists; left; reflexivity]. cbn [obind].
  rewrite literal_app. cbn [obind]. rewrite (dok_scan DO); [|change (2^53)%Z with 9007199254740992%Z; lia|right; eexists; right; reflexivity]. cbn [obind]. reflexivity.
Qed.
Lemma stats_again zls : forall z l0, let all := (z :: l0) ++ concat (map (fun x => fst x :: snd x) zls) in (squares all < 10^6)%Z -> lenN all < 2^64 ->
  stats_values true (map (fun x => stats_json (fst x) (snd x)) zls) (st z l0) = Ok (st z (l0 ++ concat (map (fun x => fst x :: snd x) zls))).
Proof.
  induction zls as [|[z' l'] zls IH]; intros z l0 all H Hl; cbn [map stats_values concat] in *; [now rewrite app_nil_r|]. cbn [fst snd] in *.
  assert (P : forall l, (0 <= squares l)%Z). { clear. intros l. pose proof (@magnitude_squares l). pose proof (@magnitude_pos l). lia. }
  set (rest := concat (map (fun x : Z * list Z => fst x :: snd x) zls)) in *. subst all. rewrite app_assoc in H, Hl. assert (H1 := H). assert (Hl1 := Hl). rewrite squares_app in H1. rewrite lenN_app in Hl1. pose proof (P rest).
  assert (H2 := H1). rewrite squares_app in H2. assert (Hl2 := Hl1). rewrite lenN_app in Hl2. pose proof (P (z :: l0)).
  rewrite scan_st by lia. rewrite st_join by lia. rewrite IH; fold rest.
  - now rewrite <- app_assoc.
  - exact H.
  - exact Hl.
Qed.
Lemma stats_reduces kvs b : reduces builtin_stats_reducer kvs b -> forall zs, Forall (fun x => emitted x <> []) kvs -> values_of kvs = map integer zs -> (squares zs < 10^6)%Z -> lenN zs < 2^64 ->
  exists z l, zs = z :: l /\ b = stats_json z l.
Proof.
  assert (NE : forall kvs zs, kvs <> [] -> Forall (fun x => emitted x <> []) kvs -> values_of kvs = map integer zs -> zs <> []).
  { clear. intros [|x kvs] zs Hn F E; [congruence|]. inversion F as [|? ? F1 F2]; subst. unfold values_of in E. cbn [flat_map] in E. rewrite map_app in E. intros ->. destruct (emitted x); [congruence|discriminate E]. }
  assert (RN : forall kvs b, reduces builtin_stats_reducer kvs b -> kvs <> []).
  { clear. apply (@reduces_ind2 builtin_stats_reducer (fun kvs _ => kvs <> [])); [auto|]. intros kss bs b Hn _ F _. destruct F as [|ks c kss bs Hk _]; [congruence|]. cbn [concat]. destruct ks; [congruence|discriminate]. }
  apply (@reduces_ind2 builtin_stats_reducer (fun kvs b => forall zs, Forall (fun x => emitted x <> []) kvs -> values_of kvs = map integer zs -> (squares zs < 10^6)%Z -> lenN zs < 2^64 -> exists z l, zs = z :: l /\ b = stats_json z l)); clear kvs b.
  - intros kvs b Hn H zs He E Hs Hl. pose proof (NE _ _ Hn He E) as Hz. destruct zs as [|z l]; [congruence|]. exists z, l. split; [reflexivity|]. rewrite E in H. unfold builtin_stats_reducer in H. cbn [map stats_values] in H.
    assert (P : forall l, (0 <= squares l)%Z). { clear. intros l. pose proof (@magnitude_squares l). pose proof (@magnitude_pos l). lia. }
    assert (Hz1 : (squares [z] < 10^6)%Z). { rewrite squares_cons in *. change (squares []) with 0%Z. pose proof (P l). lia. }
    rewrite json_integer in H. 2:{ rewrite squares_cons in Hz1. change (squares []) with 0%Z in Hz1. pose proof (@square_abs z). change (10^6)%Z with 1000000%Z in Hz1. change (10^15)%Z with 1000000000000000%Z. lia. }
    rewrite st_one in H by exact Hz1. rewrite stats_integers in H by assumption. cbn [bind app] in H. rewrite print_st in H by assumption. congruence.
  - intros kss bs b Hn Hr F H zs He E Hs Hl. destruct (split_numbers E) as (zss & -> & G). clear E.
    assert (X : exists zls, zss = map (fun x => fst x :: snd x) zls /\ bs = map (fun x => stats_json (fst x) (snd x)) zls).
    { clear H Hn. revert zss G He Hs Hl. induction F as [|ks c kss bs Hc _ IH]; intros zss G He Hs Hl; inversion G as [|? l ? zss' G1 G2]; subst; [exists []; split; reflexivity|]. cbn [concat] in *. inversion Hr; subst.
      rewrite squares_app in Hs. rewrite lenN_app in Hl. apply Forall_app in He. destruct He as [He1 He2].
      assert (P : forall l, (0 <= squares l)%Z). { clear. intros l. pose proof (@magnitude_squares l). pose proof (@magnitude_pos l). lia. } pose proof (P l). pose proof (P (concat zss')).
      destruct (IH ltac:(assumption) _ G2 He2) as (zls & -> & ->); [lia|lia|]. destruct (Hc l He1 G1) as (z & l1 & -> & ->); [lia|lia|]. exists ((z, l1) :: zls). split; reflexivity. }
    destruct X as (zls & -> & ->). destruct zls as [|[z l] zls].
    { exfalso. inversion G; subst. congruence. }
    cbn [map concat fst snd] in *. exists z, (l ++ concat (map (fun x => fst x :: snd x) zls)). split; [reflexivity|]. unfold builtin_stats_reducer in H. cbn [stats_values] in H. cbn [fst snd] in H.
    assert (P : forall l, (0 <= squares l)%Z). { clear. intros l. pose proof (@magnitude_squares l). pose proof (@magnitude_pos l). lia. }
    assert (Hs1 := Hs). rewrite squares_app in Hs1. assert (Hl1 := Hl). rewrite lenN_app in Hl1. pose proof (P (concat (map (fun x => fst x :: snd x) zls))).
    rewrite scan_st in H by lia. rewrite st_first in H by lia. rewrite stats_again in H by assumption. cbn [bind] in H. rewrite print_st in H by assumption. congruence.
Qed.

(** "_sum" and "_stats" accept numbers only. *)
Lemma json_number b : json_to_double b <> None -> number_text b.
Proof.
  unfold json_to_double, number_text. destruct (N.ltb_spec (lenN b) 1); cbn [orb]; [congruence|]. destruct (N.ltb_spec 31 (lenN b)); [congruence|].
  destruct (d_strtod (c_string b)) as [[x [|y r]]|]; try congruence. intros _. split; [lia|eauto].
Qed.
End Doubles.

(** ** The reduction of a view *)

Definition reduced (rs : list reducer) (kvs : list kv) (b : bytes) : Prop :=
  exists c bm vals, decode_view_btree_reduction b = Ok (ViewReduction c bm vals) /\ Forall2 (fun r v => reduces r kvs v) rs vals /\ Forall (fun x => lenN (emitted x) = num_values x) kvs.
Lemma encode_decode c bm vals b : lenN bm = 128 -> lenN vals < 2^8 -> encode_view_btree_reduction (ViewReduction c bm vals) = Ok b ->
  decode_view_btree_reduction b = Ok (ViewReduction (c mod 2^40) bm vals).
Proof.
  intros Hb Hv H. assert (E : encode_view_btree_reduction (ViewReduction (c mod 2^40) bm vals) = Ok b).
  { rewrite <- H. unfold encode_view_btree_reduction. cbn [vr_count vr_bitmap vr_values]. now rewrite (be_mod 5 c : be 5 (c mod 2^40) = be 5 c). }
  assert (F : view_reduction_fits (ViewReduction (c mod 2^40) bm vals)) by (split; [apply N.mod_lt; discriminate|split; assumption]).
  assert (S : reduction_size (ViewReduction (c mod 2^40) bm vals) <= MAX_REDUCTION).
  { apply N.le_ngt. intros Q. apply reduction_refused in Q. congruence. }
  destruct (reduction_decode F S) as (b' & E' & _ & Hd). assert (b' = b) by congruence. now subst b'.
Qed.
Lemma run_all rs keys vs : forall out, run_reducers rs keys vs = Ok out -> Forall2 (fun r v => r keys vs = Ok v) rs out.
Proof.
  induction rs as [|r rs IH]; intros out H; cbn [run_reducers] in H; [assert (out = []) by congruence; subst; constructor|]. destruct (r keys vs) as [b|] eqn:Hr; [|discriminate H]. cbn [bind] in H.
  destruct (run_reducers rs keys vs) as [bs|]; [|discriminate H]. cbn [bind] in H. assert (out = b :: bs) by congruence. subst. constructor; auto.
Qed.
Lemma emitted_rows kvs : forall vs ks, Forall2 (fun x v => decode_view_btree_value (snd x) = Ok v) kvs vs -> Forall2 (fun x k => decode_view_btree_json_key (fst x) = Ok k) kvs ks ->
  flat_map (fun x : bytes * view_value => repeat (fst x) (length (vv_values (snd x)))) (combine ks vs) = keys_of kvs /\ flat_map vv_values vs = values_of kvs.
Proof.
  induction kvs as [|x kvs IH]; intros vs ks Hv Hk; inversion Hv as [|? v ? vs' V1 V2]; inversion Hk as [|? k ? ks' K1 K2]; subst; [split; reflexivity|]. destruct (IH _ _ V2 K2) as [I1 I2].
  unfold keys_of, values_of in *. cbn [combine flat_map fst snd]. rewrite I1, I2, !map_app. unfold emitted at 2 5. rewrite K1, V1, !map_map. cbn [fst snd]. rewrite map_id. split; [|reflexivity]. f_equal.
  clear. induction (vv_values v) as [|y l IH]; [reflexivity|]. cbn [length repeat map]. now rewrite IH.
Qed.
Lemma reduced_leaf rs kvs b : lenN rs < 2^8 -> kvs <> [] -> view_btree_reduce rs kvs = Ok b -> reduced rs kvs b.
Proof.
  intros Hn Hk. unfold view_btree_reduce. destruct (map_res (fun kv : kv => decode_view_btree_value (snd kv)) kvs) as [vs|] eqn:Hv; [|discriminate]. cbn [bind].
  destruct (set_bits empty_bitmap (map vv_partition vs)) as [bm|] eqn:Hb; [|discriminate]. cbn [bind]. destruct (map_res (fun kv : kv => decode_view_btree_json_key (fst kv)) kvs) as [ks|] eqn:Hj; [|discriminate]. cbn [bind].
  apply map_res_ok in Hv, Hj. destruct (emitted_rows Hv Hj) as [E1 E2]. rewrite E1, E2. destruct (run_reducers rs _ _) as [out|] eqn:Hr; [|discriminate]. cbn [bind]. apply run_all in Hr. intros H.
  assert (Hlen : lenN out = lenN rs) by (unfold lenN; f_equal; symmetry; exact (F2_length Hr)).
  apply encode_decode in H; [|destruct (set_bits_ok empty_ok Hb) as [[Hl _] _]; unfold lenN; now rewrite Hl|now rewrite Hlen].
  do 3 eexists. split; [exact H|]. split; [eapply Forall2_impl; [|exact Hr]; intros r v Q; now apply reduce_once|].
  clear - Hv Hj. revert ks Hj. induction Hv as [|x v kvs vs V1 _ IH]; intros ks Hj; inversion Hj as [|? k ? ks' K1 K2]; subst; constructor; [|exact (IH _ K2)]. unfold emitted, num_values. now rewrite K1, V1, lenN_map.
Qed.
Lemma rerun_all rs ds : forall i out, rerun_reducers rs i ds = Ok out -> forall j r, nth_error rs j = Some r -> exists v, nth_error out j = Some v /\ r None (map (fun d => nth (i + j) (vr_values d) []) ds) = Ok v.
Proof.
  induction rs as [|r0 rs IH]; intros i out H j r Hj; [destruct j; discriminate Hj|]. cbn [rerun_reducers] in H. destruct (r0 None (map (fun d => nth i (vr_values d) []) ds)) as [b|] eqn:Hr; [|discriminate H]. cbn [bind] in H.
  destruct (rerun_reducers rs (S i) ds) as [bs|] eqn:Ht; [|discriminate H]. cbn [bind] in H. assert (out = b :: bs) by congruence. subst. destruct j as [|j]; cbn [nth_error] in *.
  - assert (r0 = r) by congruence. subst. exists b. split; [reflexivity|]. now rewrite Nat.add_0_r.
  - destruct (IH _ _ Ht _ _ Hj) as (v & V1 & V2). exists v. split; [exact V1|]. now replace (i + S j)%nat with (S i + j)%nat by lia.
Qed.
Lemma rerun_len rs ds : forall i out, rerun_reducers rs i ds = Ok out -> length out = length rs.
Proof.
  induction rs as [|r0 rs IH]; intros i out H; cbn [rerun_reducers] in H; [assert (out = []) by congruence; now subst|]. destruct (r0 None _) as [b|]; [|discriminate H]. cbn [bind] in H.
  destruct (rerun_reducers rs (S i) ds) as [bs|] eqn:Ht; [|discriminate H]. cbn [bind] in H. assert (out = b :: bs) by congruence. subst. cbn [length]. now rewrite (IH _ _ Ht).
Qed.
Lemma F2_nth A B (P : A -> B -> Prop) l : forall l', length l = length l' -> (forall j a, nth_error l j = Some a -> exists b, nth_error l' j = Some b /\ P a b) -> Forall2 P l l'.
Proof.
  induction l as [|a l IH]; intros [|b l'] Hl H; try discriminate Hl; constructor.
  - destruct (H 0%nat a eq_refl) as (b' & E & Hp). cbn in E. congruence.
  - apply IH; [now injection Hl|]. intros j x Hj. exact (H (S j) x Hj).
Qed.
Lemma nth_F2_some A B (P : A -> B -> Prop) l l' : Forall2 P l l' -> forall j a, nth_error l j = Some a -> exists b, nth_error l' j = Some b /\ P a b.
Proof. induction 1 as [|x y l l' Hx _ IH]; intros [|j] a Hj; cbn [nth_error] in *; try discriminate Hj; [exists y; split; [reflexivity|]; congruence|exact (IH j a Hj)]. Qed.
Lemma reduced_inner rs kss bs b : lenN rs < 2^8 -> kss <> [] -> Forall2 (reduced rs) kss bs -> view_btree_rereduce rs bs = Ok b -> reduced rs (concat kss) b.
Proof.
  intros Hn Hk F. unfold view_btree_rereduce. destruct (map_res decode_view_btree_reduction bs) as [ds|] eqn:Hd; [|discriminate]. cbn [bind]. destruct (negb _); [discriminate|].
  destruct (rerun_reducers rs 0 ds) as [out|] eqn:Hr; [|discriminate]. cbn [bind]. intros H. apply map_res_ok in Hd.
  assert (G : Forall2 (fun ks d => lenN (vr_bitmap d) = 128 /\ Forall2 (fun r v => reduces r ks v) rs (vr_values d)) kss ds).
  { clear Hr H Hk. revert ds Hd. induction F as [|ks c kss bs Hc _ IH]; intros ds Hd; inversion Hd as [|? d ? ds' D1 D2]; subst; constructor; [|auto]. destruct Hc as (n & bm & vals & E & R & _). rewrite E in D1.
    assert (d = ViewReduction n bm vals) by congruence. subst d. cbn [vr_bitmap vr_values]. split; [|exact R]. unfold decode_view_btree_reduction in E. destruct (read_count_bitmap c) as [[[n1 bm1] t]|] eqn:Hc; [|discriminate E].
    assert (bm1 = bm).
    { destruct (all_of_rest skip_reduce t) as [us|]; [|discriminate E]. destruct (lenN us mod 2^8 =? 0); [congruence|]. destruct (lenN us <? 2^8); [|discriminate E]. destruct (all_of_rest read_reduce t); [congruence|discriminate E]. }
    subst bm1. clear - Hc. unfold read_count_bitmap, next_int, cur_bind, next in Hc. destruct (5 <=? lenN c); [|discriminate Hc]. cbn [cur_ret] in Hc. destruct (N.leb_spec 128 (lenN (drop 5 c))) as [Hl|]; [|discriminate Hc].
    unfold cur_ret in Hc. assert (Hbm : bm = take 128 (drop 5 c)) by congruence. rewrite Hbm. rewrite lenN_take. lia. }
  apply encode_decode in H.
  - do 3 eexists. split; [exact H|]. split; [|clear - F; induction F as [|ks c kss bs (? & ? & ? & _ & _ & Hx) _ IH]; cbn [concat]; [constructor|apply Forall_app; auto]]. apply F2_nth; [now rewrite (rerun_len Hr)|]. intros j r Hj. destruct (rerun_all Hr Hj) as (v & V1 & V2). exists v. split; [exact V1|].
    refine (@reduce_again r kss _ v Hk _ V2). cbn [Nat.add]. clear - G Hj. induction G as [|ks d kss ds [_ Hx] _ IH]; cbn [map]; constructor; [|exact IH].
    destruct (nth_F2_some Hx Hj) as (v & E & R). now rewrite (nth_error_nth _ _ _ E).
  - assert (L : forall bm0, lenN bm0 = 128 -> lenN (fold_left (fun a d => union_bitmaps a (vr_bitmap d)) ds bm0) = 128).
    { clear - G. induction G as [|ks d kss ds [Hx _] _ IH]; intros bm0 H0; [exact H0|]. cbn [fold_left]. apply IH. unfold union_bitmaps. clear - Hx H0. unfold lenN in *.
      assert (Z : length (zip N.lor bm0 (vr_bitmap d)) = length bm0); [|now rewrite Z]. assert (E : length bm0 = length (vr_bitmap d)) by lia. clear - E. revert E. generalize (vr_bitmap d). induction bm0 as [|x l IH]; intros [|y r] E; try discriminate E; [reflexivity|].
      cbn [zip length]. f_equal. apply IH. now injection E. }
    apply L. reflexivity.
  - unfold lenN in *. rewrite (rerun_len Hr). exact Hn.
Qed.

Section Tree.
Context {E : Env} (EO : EnvOk E).
Variable collate : bytes -> bytes -> comparison.
Hypothesis OC : ord collate.
Variable rs : list reducer.
Hypothesis Hrs : lenN rs < 2^8.

Lemma tree_reduced R mask f d : forall p kvs, tree (view_cleanup_request collate rs mask) view_record (redR R) f d p kvs -> reduced rs kvs (np_reduce p).
Proof.
  induction d as [|d IH]; intros p kvs (_ & _ & _ & H).
  - destruct H as (Hn & _ & _ & H & _). cbn [leaf_red view_cleanup_request r_reduce] in H. now apply reduced_leaf.
  - destruct H as (cs & ks & sz & Hn & Hc & -> & _ & H & _). cbn [inner_red view_cleanup_request r_rereduce] in H. eapply reduced_inner; [exact Hrs| | |exact H].
    + destruct Hc; congruence.
    + clear - Hc IH. induction Hc as [|c k cs ks H _ IHc]; cbn [map]; constructor; auto.
Qed.
Lemma made_reduced f p : made (view_cleanup_request collate rs) view_record f (Some p) -> fits_file f ->
  exists kvs z c bm vals, index f (Some p) kvs z /\ sorted (view_key_cmp collate) kvs /\ Forall view_record kvs /\ decode_view_btree_reduction (np_reduce p) = Ok (ViewReduction c bm vals) /\
    (sum_of num_values kvs < 2^40 -> c = sum_of num_values kvs) /\ bitmap_ok bm /\ (forall q, q < 1024 -> bit_of bm q = existsb (fun x => part x =? q) kvs) /\
    Forall2 (fun r v => reduces r kvs v) rs vals /\ lenN (values_of kvs) = sum_of num_values kvs.
Proof.
  intros M F. pose proof (@view_kind collate rs MAX_REDUCTION OC eq_refl (view_max rs)) as [K1 K2 K3 K4 K5 K6 K7 K8 K9 K10 K11 K12].
  destruct (@made_tree E EO (view_key_cmp collate) K1 (view_btree_reduce rs) (view_btree_rereduce rs) num_values view_record MAX_REDUCTION view_btree_purge_kv view_btree_purge_kp view_purged K2 K3 K4 K5 K6 K7 K8 K9 K10 f (Some p) M) as [G T].
  destruct (T F) as (kvs & Tr & S).
  assert (H1 : forall x, view_record x -> kv_ok x) by (intros x Hx; apply (K6 x Hx)). assert (H2 : forall r, redR MAX_REDUCTION r -> lenN r < 2^16) by (unfold redR; intros; lia).
  destruct (@rtree_index E EO (rqm (view_key_cmp collate) (view_btree_reduce rs) (view_btree_rereduce rs) view_btree_purge_kv view_btree_purge_kp empty_bitmap) view_record (redR MAX_REDUCTION) f (Some p) kvs H1 H2 G Tr) as (z & Hz & _).
  destruct Tr as (d & p' & Ht & _ & Hp & _). destruct (tree_reduced Ht) as (c & bm & vals & E1 & E2 & E3).
  pose proof (@tree_exact E (view_key_cmp collate) (view_btree_reduce rs) (view_btree_rereduce rs) num_values view_record MAX_REDUCTION view_btree_purge_kv view_btree_purge_kp K3 K4 empty_bitmap f d p' kvs Ht) as (c' & bm' & rest & X1 & X2 & X3 & X4 & X5).
  rewrite Hp in *. exists kvs, z, c, bm, vals. split; [exact Hz|]. split; [exact S|]. split; [exact (tree_kvP Ht)|]. split; [exact E1|].
  assert (Hcb : c = c' /\ bm = bm').
  { rewrite X1 in E1. unfold decode_view_btree_reduction in E1. rewrite (head_dec rest X4 X2) in E1. destruct (all_of_rest skip_reduce rest) as [us|]; [|discriminate E1]. destruct (lenN us mod 2^8 =? 0); [split; congruence|]. destruct (lenN us <? 2^8); [|discriminate E1]. destruct (all_of_rest read_reduce rest); [split; congruence|discriminate E1]. }
  destruct Hcb as [-> ->]. repeat (split; [assumption|]). clear - E3. unfold values_of. rewrite lenN_map. induction E3 as [|x kvs Hx _ IH]; [reflexivity|]. cbn [flat_map]. now rewrite lenN_app, sum_of_cons, Hx, IH.
Qed.
End Tree.

(** ** Numbers only; names *)

Lemma reduces_numbers {D : Double} r kvs b : r = builtin_sum_reducer \/ r = builtin_stats_reducer -> reduces r kvs b -> Forall number_text (values_of kvs).
Proof.
  intros Hr. assert (S : forall vs a s, sum_values vs a = Ok s -> Forall number_text vs).
  { induction vs as [|v vs IH]; intros a s H; [constructor|]. cbn [sum_values] in H. destruct (json_to_double v) eqn:E; [|discriminate H]. constructor; [apply json_number; congruence|eauto]. }
  assert (T : forall vs a s, stats_values false vs a = Ok s -> Forall number_text vs).
  { induction vs as [|v vs IH]; intros a s H; [constructor|]. cbn [stats_values] in H. destruct (json_to_double v) eqn:E; [|discriminate H]. constructor; [apply json_number; congruence|eauto]. }
  apply (@reduces_ind2 r (fun kvs _ => Forall number_text (values_of kvs))).
  - clear kvs b. intros kvs b _ H. destruct Hr as [-> | ->].
    + unfold builtin_sum_reducer in H. destruct (sum_values (values_of kvs) d_zero) eqn:Es; [|discriminate H]. eauto.
    + unfold builtin_stats_reducer in H. destruct (stats_values false (values_of kvs) no_stats) eqn:Es; [|discriminate H]. eauto.
  - clear. intros kss bs b _ _ F _. rewrite values_concat. induction F; cbn [map concat]; [constructor|]. apply Forall_app. auto.
Qed.
Lemma names_picked {D : Double} js fns rs : make_view_reducer_ctx js fns = Some rs ->
  Forall2 (fun fn r => (fn = text "_count" -> r = builtin_count_reducer) /\ (fn = text "_sum" -> r = builtin_sum_reducer) /\ (fn = text "_stats" -> r = builtin_stats_reducer) /\
    (~ In fn [text "_count"; text "_sum"; text "_stats"] -> js fn = Some r)) fns rs.
Proof.
  revert rs. induction fns as [|fn fns IH]; intros rs H; cbn [make_view_reducer_ctx] in H; [assert (rs = []) by congruence; subst; constructor|].
  destruct (pick_reducer js fn) as [r|] eqn:Hp; [|discriminate H]. cbn [obind] in H. destruct (make_view_reducer_ctx js fns) as [rs'|]; [|discriminate H]. cbn [obind] in H. assert (rs = r :: rs') by congruence. subst rs. constructor; [|apply IH; reflexivity].
  unfold pick_reducer in Hp. change [95; 99; 111; 117; 110; 116] with (text "_count") in Hp. change [95; 115; 117; 109] with (text "_sum") in Hp. change [95; 115; 116; 97; 116; 115] with (text "_stats") in Hp.
  assert (N1 : text "_count" <> text "_sum") by discriminate. assert (N2 : text "_count" <> text "_stats") by discriminate. assert (N3 : text "_sum" <> text "_stats") by discriminate.
  destruct (list_eq_dec N.eq_dec fn (text "_count")) as [->|A1]; [repeat split; try congruence; intros Q; exfalso; apply Q; left; reflexivity|].
  destruct (list_eq_dec N.eq_dec fn (text "_sum")) as [->|A2]; [repeat split; try congruence; intros Q; exfalso; apply Q; right; left; reflexivity|].
  destruct (list_eq_dec N.eq_dec fn (text "_stats")) as [->|A3]; [repeat split; try congruence; intros Q; exfalso; apply Q; right; right; left; reflexivity|].
  repeat split; congruence.
Qed.
