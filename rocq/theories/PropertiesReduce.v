(** Property C63. *)
From Coq Require Import String.
Close Scope string_scope.
From Verif Require Import Base Codec CodecFacts File Btree TreeStore SpecFile SpecMap SpecSession Bitmap SpecUtil UtilFacts MergeFacts ViewCodec SpecView Reducers IndexHeader Cleanup ViewGroup SpecCleanup
  EnvExample CleanupFacts CleanupExample PropertiesGroup SpecGroup BuiltinReducers SpecReduce ReduceValueFacts DoubleExample.
Local Open Scope N_scope.
Unset Strict Implicit.

(** ** C63: the reduce values of a view are results for exactly its rows *)

(** However a view has been built up - updates, cleanups, builds, compactions -, the reduction in its root has the exact number of emitted values and the exact set of partitions, and for
    each reduce function of the view a result of that function for exactly the entries of the view. *)
Theorem C63_reduction : forall {E : Env} collate rs f p, EnvOk E -> ord collate -> lenN rs < 2^8 -> made (view_cleanup_request collate rs) view_record f (Some p) -> fits_file f ->
  exists kvs c bm vals, SpecGroup.holds f (Some p) kvs /\ sorted (view_key_cmp collate) kvs /\ Forall view_record kvs /\ decode_view_btree_reduction (np_reduce p) = Ok (ViewReduction c bm vals) /\
    (lenN (values_of kvs) < 2^40 -> c = lenN (values_of kvs)) /\ (forall q, q < 1024 -> (N.testbit (number bm) q = true <-> exists x, In x kvs /\ part x = q)) /\
    Forall2 (fun r v => reduces r kvs v) rs vals.
Proof.
  intros E collate rs f p EO OC Hrs M F. destruct (made_reduced EO OC Hrs M F) as (kvs & z & c & bm & vals & H1 & H2 & H3 & H4 & H5 & H6 & H7 & H8 & H9). exists kvs, c, bm, vals.
  split; [exists z; exact H1|]. split; [exact H2|]. split; [exact H3|]. split; [exact H4|]. split; [rewrite H9; exact H5|split; [|exact H8]].
  intros q Hq. rewrite mask_bit by assumption. rewrite H7 by exact Hq. rewrite existsb_exists. split; intros (x & Hx & Hp); exists x; (split; [exact Hx|now apply N.eqb_eq]).
Qed.
Print Assumptions C63_reduction.
(** The function "_count" gives the number of values, however it is applied to pieces. *)
Theorem C63_count : forall kvs b, reduces builtin_count_reducer kvs b -> b = decimal (lenN (values_of kvs) mod 2^64).
Proof. exact count_reduces. Qed.
Print Assumptions C63_count.
(** "_sum" gives the exact sum of integers, as long as the magnitudes add up to less than 10^15. *)
Theorem C63_sum_partial : forall {D : Double} (d : Z -> dbl) kvs b zs, DoubleOk d -> reduces builtin_sum_reducer kvs b -> values_of kvs = map integer zs -> (magnitude zs < 10^15)%Z ->
  b = integer (zsum zs).
Proof. intros D d kvs b zs DO H. revert zs. exact (sum_reduces DO H). Qed.
Print Assumptions C63_sum_partial.
(** "_stats" gives the exact sum, number, smallest, largest and sum of squares of integers, as long as the squares add up to less than 10^6 and every entry has values. *)
Theorem C63_stats_partial : forall {D : Double} (d : Z -> dbl) kvs b zs, DoubleOk d -> reduces builtin_stats_reducer kvs b -> Forall (fun x => emitted x <> []) kvs ->
  values_of kvs = map integer zs -> (squares zs < 10^6)%Z -> lenN zs < 2^64 -> exists z l, zs = z :: l /\ b = stats_json z l.
Proof. intros D d kvs b zs DO H. revert zs. exact (stats_reduces DO H). Qed.
Print Assumptions C63_stats_partial.
(** If one of the emitted values is not a number, "_sum" and "_stats" have no result: the index cannot be written. *)
Theorem C63_numbers : forall {D : Double} r kvs b, r = builtin_sum_reducer \/ r = builtin_stats_reducer -> reduces r kvs b -> Forall number_text (values_of kvs).
Proof. exact (@reduces_numbers). Qed.
Print Assumptions C63_numbers.
(** The names of the functions. *)
Theorem C63_names : forall {D : Double} js fns rs, make_view_reducer_ctx js fns = Some rs ->
  Forall2 (fun fn r => (fn = text "_count" -> r = builtin_count_reducer) /\ (fn = text "_sum" -> r = builtin_sum_reducer) /\ (fn = text "_stats" -> r = builtin_stats_reducer) /\
    (~ In fn [text "_count"; text "_sum"; text "_stats"] -> js fn = Some r)) fns rs.
Proof. exact (@names_picked). Qed.
Print Assumptions C63_names.

(** ** Examples *)

(** Twelve entries with long keys and two values each, in three leaves; entry i emits i and -3 and belongs to partition i mod 2. *)
Definition r_fns : list reducer := [builtin_count_reducer; @builtin_sum_reducer zdouble; @builtin_stats_reducer zdouble].
Definition r_row (i : N) : bytes * bytes := (v_key (i :: 1 :: repeat 65 1500) i, encode_view_btree_value (ViewValue (i mod 2) [decimal i; text "-3"])).
Definition r_rows : list (bytes * bytes) := map r_row [1; 2; 3; 4; 5; 6; 7; 8; 9; 10; 11; 12].
Definition r_acts : list action := map (fun x => Action A_INSERT (fst x) (snd x) 0) r_rows.
Definition r_built := @modify_btree env1 (view_cleanup_request ebin_cmp r_fns empty_bitmap) None r_acts (St f0 [] false).
Definition r_root : option node_pointer := the_root (fst r_built).
Lemma r_built_ok : fst r_built = Ok r_root.
Proof. unfold r_root. assert (H : okb (fst r_built) = true) by (vm_compute; reflexivity). destruct (fst r_built); [reflexivity|discriminate H]. Qed.
Lemma r_eq : @modify_btree env1 (view_cleanup_request ebin_cmp r_fns empty_bitmap) None r_acts (St f0 [] false) = r_built.
Proof. unfold r_built. reflexivity. Qed.
Definition view_recordb (p : N) (vs : list bytes) (k : bytes) : bool :=
  (2 <=? lenN k) && (lenN k <? 2^12) && (lenN (encode_view_btree_value (ViewValue p vs)) <? 2^28) && (p <? 1024) && (lenN vs <? 2^16) && forallb (fun x => lenN x <? 2^24) vs.
Lemma view_recordb_ok p vs k : view_recordb p vs k = true -> view_record (k, encode_view_btree_value (ViewValue p vs)).
Proof.
  unfold view_recordb. rewrite !andb_true_iff, !N.ltb_lt, N.leb_le. intros (((((H1 & H2) & H3) & H4) & H5) & H6). split; [split; assumption|]. split; [exact H3|]. exists (ViewValue p vs).
  split; [exact H4|]. split; [|reflexivity]. split; [cbn [vv_partition]; change (2^16) with 65536; lia|]. split; [exact H5|]. cbn [vv_values]. apply Forall_forall. intros x Hx. apply N.ltb_lt. exact (proj1 (forallb_forall _ _) H6 x Hx).
Qed.
Lemma r_made : @made env1 (view_cleanup_request ebin_cmp r_fns) view_record (st_f (snd r_built)) r_root.
Proof.
  apply (made_from (acts := r_acts)); [exact r_eq|exact r_built_ok|vm_compute; reflexivity|].
  apply Forall_forall. intros a Ha _. unfold r_acts in Ha. apply in_map_iff in Ha. destruct Ha as (x & <- & Hx). unfold r_rows in Hx. apply in_map_iff in Hx. destruct Hx as (i & <- & Hi).
  cbn [a_key a_data]. unfold r_row. cbn [fst snd]. apply view_recordb_ok.
  assert (B : forallb (fun i => view_recordb (i mod 2) [decimal i; text "-3"] (v_key (i :: 1 :: repeat 65 1500) i)) [1; 2; 3; 4; 5; 6; 7; 8; 9; 10; 11; 12] = true) by (vm_compute; reflexivity).
  exact (proj1 (forallb_forall _ _) B i Hi).
Qed.
Definition reduction_text (root : option node_pointer) : list bytes :=
  match root with Some p => match decode_view_btree_reduction (np_reduce p) with Ok (ViewReduction _ _ l) => l | Err _ => [] end | None => [] end.
Lemma root_some (root : option node_pointer) : match root with Some _ => true | None => false end = true -> exists p, root = Some p.
Proof. destruct root; [eauto|discriminate]. Qed.
(** The results in the root: 24 values with the sum 42. *)
Example C63_ex : exists p, @made env1 (view_cleanup_request ebin_cmp r_fns) view_record (st_f (snd r_built)) (Some p) /\ fits_file (st_f (snd r_built)) /\
  reduction_text (Some p) = [text "24"; text "42"; stats_json 1 (-3 :: flat_map (fun i => [i; -3]) [2; 3; 4; 5; 6; 7; 8; 9; 10; 11; 12])%Z].
Proof.
  destruct (@root_some r_root) as [p Hp]; [vm_compute; reflexivity|]. exists p. rewrite <- Hp. split; [exact r_made|]. split; [apply fitsb_ok; vm_compute; reflexivity|vm_compute; reflexivity].
Qed.

Example C63_text : decimal 0 = text "0" /\ decimal 18446744073709551615 = text "18446744073709551615" /\ integer (-1234567890) = text "-1234567890".
Proof. repeat split; vm_compute; reflexivity. Qed.

(** ** What does not hold *)

Lemma two_pieces (r : reducer) x y a b c : r (Some (keys_of [x])) (values_of [x]) = Ok a -> r (Some (keys_of [y])) (values_of [y]) = Ok b -> r None [a; b] = Ok c -> reduces r [x; y] c.
Proof.
  intros Ha Hb Hc. change [x; y] with (concat [[x]; [y]]). apply reduce_again with (bs := [a; b]); [discriminate| |exact Hc].
  constructor; [apply reduce_once; [discriminate|exact Ha]|]. constructor; [apply reduce_once; [discriminate|exact Hb]|constructor].
Qed.
Definition r_entry (i : N) (vs : list bytes) : bytes * bytes := (v_key [49] i, encode_view_btree_value (ViewValue 0 vs)).
(** "_stats" prints six digits only: already the sum of one number with seven digits is wrong, and applying it again to results adds up the errors: what it gives for the same entries
    depends on the pieces, here 2469133 and the sum of 1234567 and 1234566. *)
Theorem C63_digits_refuted : exists (D : Double) (d : Z -> dbl) kvs z l b b', DoubleOk d /\ values_of kvs = map integer (z :: l) /\ reduces builtin_stats_reducer kvs b /\ reduces builtin_stats_reducer kvs b' /\
  b <> stats_json z l /\ b' <> stats_json z l /\ b <> b'.
Proof.
  pose (x := r_entry 1 [integer 1234567]). pose (y := r_entry 2 [integer 1234566]).
  exists zdouble, (fun z => z), [x; y], 1234567%Z, [1234566]%Z.
  pose (one := fun x => match @builtin_stats_reducer zdouble (Some (keys_of [x])) (values_of [x]) with Ok b => b | Err _ => [] end).
  exists (match @builtin_stats_reducer zdouble (Some (keys_of [x; y])) (values_of [x; y]) with Ok b => b | Err _ => [] end), (match @builtin_stats_reducer zdouble None [one x; one y] with Ok b => b | Err _ => [] end).
  split; [exact zdouble_ok|]. split; [vm_compute; reflexivity|]. split; [apply reduce_once; [discriminate|vm_compute; reflexivity]|]. split.
  - apply two_pieces with (a := one x) (b := one y); vm_compute; reflexivity.
  - repeat split; vm_compute; discriminate.
Qed.
(** "_sum" prints fifteen digits: a number with sixteen digits is not exact although a double can hold it. *)
Theorem C63_sum_refuted : exists (D : Double) (d : Z -> dbl) kvs z b, DoubleOk d /\ values_of kvs = [integer z] /\ (z < 2^53)%Z /\ reduces builtin_sum_reducer kvs b /\ b <> integer z /\ b = text "1e+15".
Proof.
  exists zdouble, (fun z => z), [r_entry 1 [integer 1000000000000001]], 1000000000000001%Z, (text "1e+15").
  split; [exact zdouble_ok|]. split; [vm_compute; reflexivity|]. split; [reflexivity|]. split; [apply reduce_once; [discriminate|vm_compute; reflexivity]|]. split; [vm_compute; discriminate|reflexivity].
Qed.
(** A number whose text is longer than 31 bytes is taken for something that is not a number, whatever strtod says. *)
Theorem C63_long_refuted : exists v, v = text "0.100000000000000000000000000000" /\ forall D : Double, builtin_sum_reducer (Some [[49]]) [v] = Err E_REDUCER_FAILURE /\ builtin_stats_reducer (Some [[49]]) [v] = Err E_REDUCER_FAILURE.
Proof. eexists. split; [reflexivity|]. intros D. split; reflexivity. Qed.
(** A piece without values counts as a zero for the smallest and the largest number. *)
Theorem C63_empty_refuted : exists (D : Double) (d : Z -> dbl) kvs b, DoubleOk d /\ values_of kvs = [integer 5] /\ reduces builtin_stats_reducer kvs b /\
  stats_json 5 [] <> b /\ b = text "{" ++ quoted "sum" ++ text "5," ++ quoted "count" ++ text "1," ++ quoted "min" ++ text "0," ++ quoted "max" ++ text "5," ++ quoted "sumsqr" ++ text "25}".
Proof.
  pose (x := r_entry 1 [integer 5]). pose (y := r_entry 2 []).
  pose (one := fun x => match @builtin_stats_reducer zdouble (Some (keys_of [x])) (values_of [x]) with Ok b => b | Err _ => [] end).
  exists zdouble, (fun z => z), [x; y]. eexists. split; [exact zdouble_ok|]. split; [vm_compute; reflexivity|]. split; [|split; [|reflexivity]].
  - apply two_pieces with (a := one x) (b := one y); vm_compute; reflexivity.
  - vm_compute. discriminate.
Qed.
Print Assumptions C63_digits_refuted.
Print Assumptions C63_sum_refuted.
Print Assumptions C63_long_refuted.
Print Assumptions C63_empty_refuted.
