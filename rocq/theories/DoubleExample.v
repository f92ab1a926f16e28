(** An arithmetic that satisfies what is assumed of the type double: the integers, with the notations that "%.<p>g" prints for them and strtod reads. Only for examples: fractions are
    cut off and large results are not rounded. *)
From Verif Require Import Base Codec CodecFacts ViewCodec Reducers BuiltinReducers SpecReduce ReduceValueFacts.
Local Open Scope N_scope.
Unset Strict Implicit.

(** Trailing zeros. *)
Definition strip (l : bytes) : bytes := List.rev ((fix go l := match l with 48 :: r => go r | _ => l end) (List.rev l)).
(** "%.<p>g" for an integer with more than [p] digits. *)
Definition scientific (p : N) (n : N) : bytes :=
  let e := lenN (decimal n) - 1 in
  let q := 10 ^ (e + 1 - p) in
  let m := n / q in
  let m := if q <? 2 * (n mod q) then m + 1 else if q =? 2 * (n mod q) then m + m mod 2 else m in
  let e := if m =? 10 ^ p then e + 1 else e in
  match decimal m with
  | c :: r => c :: match strip r with [] => [] | r => 46 :: r end ++ [101; 43] ++ (if e <? 10 then 48 :: decimal e else decimal e)
  | [] => []
  end.
Definition z_print (p : N) (z : Z) : bytes :=
  if (Z.abs z <? 10 ^ Z.of_N p)%Z then integer z else (if (z <? 0)%Z then [45] else []) ++ scientific p (Z.abs_N z).
(** strtod: sign, digits, fraction, exponent. *)
Definition z_read (l : bytes) : option (Z * bytes) :=
  let l := skip_space l in
  let '(neg, l) := match l with 45 :: r => (true, r) | 43 :: r => (false, r) | _ => (false, l) end in
  match read_digits l false 0 with
  | Some (n, r) =>
      let '(n, k, r) := match r with 46 :: r' => match read_digits r' true n with Some (n', r'') => (n', lenN r' - lenN r'', r'') | None => (n, 0, r) end | _ => (n, 0, r) end in
      let '(e, r) := match r with 101 :: 43 :: r' => match read_digits r' false 0 with Some (e, r'') => (e, r'') | None => (0, r) end | _ => (0, r) end in
      let z := Z.of_N (n * 10 ^ e / 10 ^ k) in
      Some (if neg then (- z)%Z else z, r)
  | None => None
  end.
Definition zdouble : Double := {| dbl := Z; d_zero := 0%Z; d_add := Z.add; d_mul := Z.mul; d_lt := Z.ltb; d_strtod := z_read; d_scan := z_read; d_print := z_print |}.

Lemma z_read_integer a l : stops l -> z_read (integer a ++ l) = Some (a, l).
Proof.
  intros Hl. assert (R : forall b, read_digits (decimal (Z.abs_N a) ++ l) b 0 = Some (Z.abs_N a, l)).
  { intros b. unfold decimal. rewrite (read_dec (k := S (N.size_nat (Z.abs_N a)))); [|apply N.lt_le_trans with (1 := @size_pow (Z.abs_N a)); apply N.pow_le_mono_l; lia|lia]. destruct Hl as [->|[r [->| ->]]]; reflexivity. }
  assert (V : Z.of_N (Z.abs_N a * 10 ^ 0 / 10 ^ 0) = Z.abs a) by (rewrite N.pow_0_r, N.mul_1_r, N.div_1_r; lia).
  assert (T : forall n, match l with 46 :: r' => match read_digits r' true n with Some (n', r'') => (n', lenN r' - lenN r'', r'') | None => (n, 0, l) end | _ => (n, 0, l) end = (n, 0, l)) by (intros; destruct Hl as [->|[r [->| ->]]]; reflexivity).
  assert (X : match l with 101 :: 43 :: r' => match read_digits r' false 0 with Some (e, r'') => (e, r'') | None => (0, l) end | _ => (0, l) end = (0, l)) by (destruct Hl as [->|[r [->| ->]]]; reflexivity).
  unfold integer. destruct (Z.ltb_spec a 0) as [Ha|Ha].
  - unfold z_read. cbn [app skip_space]. change ((45 =? 32) || (9 <=? 45) && (45 <=? 13)) with false. cbv iota. rewrite R. rewrite T, X, V. do 2 f_equal. lia.
  - destruct (decimal_cons (Z.abs_N a)) as (c & r & E & [H1 H2] & _). specialize (R false). rewrite E in *. cbn [app] in *. unfold z_read. cbn [skip_space].
    assert (Hs : (c =? 32) || (9 <=? c) && (c <=? 13) = false) by (destruct (N.eqb_spec c 32); [lia|]; destruct (N.leb_spec c 13); [lia|]; now rewrite andb_false_r).
    rewrite Hs. assert (Hc : c = 48 \/ c = 49 \/ c = 50 \/ c = 51 \/ c = 52 \/ c = 53 \/ c = 54 \/ c = 55 \/ c = 56 \/ c = 57) by lia. clear Hs H1 H2 E.
    assert (Ea : Z.abs a = a) by lia. decompose [or] Hc; subst c; cbv beta iota; rewrite R, T, X, V, Ea; reflexivity.
Qed.
Lemma zdouble_ok : @DoubleOk zdouble (fun z => z).
Proof.
  constructor; cbn [zdouble dbl d_zero d_add d_mul d_lt d_strtod d_scan d_print]; try reflexivity.
  - intros a l _. apply z_read_integer.
  - intros a l _. apply z_read_integer.
  - intros a H. unfold z_print. destruct (Z.ltb_spec (Z.abs a) (10 ^ Z.of_N 6)); [reflexivity|]. change (Z.of_N 6) with 6%Z in *. lia.
  - intros a H. unfold z_print. destruct (Z.ltb_spec (Z.abs a) (10 ^ Z.of_N 15)); [reflexivity|]. change (Z.of_N 15) with 15%Z in *. lia.
Qed.
