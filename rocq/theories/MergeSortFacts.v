(** Proofs about the external merge sort. *)
From Verif Require Import Base SortFacts Db MergeSort.
From Coq Require Import Sorting.Sorted.
Local Open Scope N_scope.
Unset Strict Implicit.

Section MS.
Variable A : Type.
Variable less : A -> A -> bool.
Hypothesis asym : forall a b, less a b = true -> less b a = false.
Hypothesis ntrans : forall a b c, less b a = false -> less c b = false -> less c a = false.
Notation srt := (StronglySorted (fun a b => less b a = false)).
Notation o := (fun x : option A => match x with Some y => [y] | None => [] end).

(** Merging two lists. *)
Fixpoint mrg (x : list A) : list A -> list A :=
  match x with
  | [] => fun y => y
  | a :: x' => fix go (y : list A) := match y with [] => x | b :: y' => if less b a then b :: go y' else a :: mrg x' y end
  end.
Lemma mrg_nil x : mrg x [] = x.
Proof. destruct x; reflexivity. Qed.
Lemma mrg_cons a x b y : mrg (a :: x) (b :: y) = if less b a then b :: mrg (a :: x) y else a :: mrg x (b :: y).
Proof. reflexivity. Qed.
Lemma mrg_perm : forall x y, Permutation (x ++ y) (mrg x y).
Proof.
  induction x as [|a x IH]; [intros; apply Permutation_refl|]. induction y as [|b y IHy]; [rewrite mrg_nil, app_nil_r; apply Permutation_refl|].
  rewrite mrg_cons. destruct (less b a).
  - eapply perm_trans; [apply Permutation_sym, Permutation_middle|]. constructor. exact IHy.
  - cbn [app]. constructor. apply IH.
Qed.
Lemma mrg_length x y : length (mrg x y) = (length x + length y)%nat.
Proof. rewrite <- (Permutation_length (mrg_perm x y)). apply app_length. Qed.
Lemma mrg_in x y z : In z (mrg x y) -> In z x \/ In z y.
Proof. intros H. apply in_app_or. eapply Permutation_in; [apply Permutation_sym, mrg_perm|exact H]. Qed.
Lemma mrg_sorted : forall x y, srt x -> srt y -> srt (mrg x y).
Proof.
  induction x as [|a x IH]; intros y Hx Hy; [exact Hy|]. induction y as [|b y IHy]; [rewrite mrg_nil; exact Hx|].
  rewrite mrg_cons. inversion Hx as [|? ? Sx Fx]; subst. inversion Hy as [|? ? Sy Fy]; subst. rewrite Forall_forall in Fx, Fy. destruct (less b a) eqn:L.
  - constructor; [apply IHy, Sy|]. rewrite Forall_forall. intros z Hz. apply mrg_in in Hz. apply asym in L. destruct Hz as [[<-|Hz]|Hz]; auto. apply (@ntrans b a z L), Fx, Hz.
  - constructor; [apply IH; assumption|]. rewrite Forall_forall. intros z Hz. apply mrg_in in Hz. destruct Hz as [Hz|[<-|Hz]]; auto. apply (@ntrans a b z L), Fy, Hz.
Qed.

Lemma append_app i a b t : append i b (append i a t) = append i (a ++ b) t :> tapes A.
Proof. destruct t, i; cbn; now rewrite app_assoc. Qed.
Lemma append_nil i t : append i [] t = t :> tapes A.
Proof. destruct t, i; cbn; now rewrite app_nil_r. Qed.

Lemma pop_spec X l R : exists l' X', pop (lenN X) l (X ++ R) = (lenN X', l', X' ++ R) /\ o l' ++ X' = o l ++ X /\ (l' = None -> X' = []).
Proof.
  unfold pop. destruct l as [x|].
  - exists (Some x), X. split; [reflexivity|]. split; [reflexivity|discriminate].
  - destruct X as [|x X].
    + exists None, (@nil A). cbn [app]. change (lenN (@nil A)) with 0. split; [reflexivity|]. split; auto.
    + exists (Some x), X. unfold lenN. cbn [length app]. destruct (N.eqb_spec (N.of_nat (S (length X))) 0); [lia|]. replace (N.of_nat (S (length X)) - 1) with (N.of_nat (length X)) by lia.
      split; [reflexivity|]. split; [reflexivity|discriminate].
Qed.

Lemma merge_block bs n : forall X Y R0 R1 l r k i d, n = (length (o l ++ X) + length (o r ++ Y))%nat ->
  merge_elems less n bs (Pass (X ++ R0) (Y ++ R1) l r (lenN X) (lenN Y) (N.of_nat n + k) i d)
  = Ok (Pass R0 R1 None None 0 0 k i (append i (mrg (o l ++ X) (o r ++ Y)) d)).
Proof.
  induction n as [|n IH]; intros X Y R0 R1 l r k i d Hn.
  - destruct l, r, X, Y; cbn in Hn; try lia. cbn [merge_elems app mrg]. rewrite append_nil. reflexivity.
  - cbn [merge_elems]. unfold merge_step, reload. cbn [ps_rem]. destruct (N.eqb_spec (N.of_nat (S n) + k) 0); [lia|]. cbn [ps_s0 ps_s1 ps_left ps_right ps_b0 ps_b1 ps_rem ps_idx ps_dst].
    destruct (pop_spec X l R0) as (l' & X' & E1 & E2 & E3). rewrite E1. destruct (pop_spec Y r R1) as (r' & Y' & F1 & F2 & F3). rewrite F1. rewrite <- E2, <- F2 in *. clear E1 E2 F1 F2.
    replace (N.of_nat (S n) + k - 1) with (N.of_nat n + k) by lia.
    destruct l' as [x|], r' as [y|]; cbn [app] in *.
    + rewrite mrg_cons. destruct (less y x) eqn:L; cbn [bind].
      * rewrite IH by (cbn [length app] in *; lia). rewrite append_app. reflexivity.
      * rewrite IH by (cbn [length app] in *; lia). rewrite append_app. reflexivity.
    + rewrite (F3 eq_refl) in *. cbn [bind]. rewrite IH by (cbn [length app] in *; lia). rewrite append_app. cbn [app]. rewrite !mrg_nil. reflexivity.
    + rewrite (E3 eq_refl) in *. cbn [bind]. rewrite IH by (cbn [length app] in *; lia). rewrite append_app. cbn [app mrg]. reflexivity.
    + rewrite (E3 eq_refl), (F3 eq_refl) in Hn. cbn in Hn. lia.
Qed.

(** Blocks are written alternately to the two tapes. *)
Fixpoint alt (bl : list (list A)) : tapes A := match bl with [] => ([], []) | b :: r => (b ++ snd (alt r), fst (alt r)) end.
Definition put_blocks (i : bool) (bl : list (list A)) (t : tapes A) : tapes A :=
  let a := alt bl in if i then (fst t ++ snd a, snd t ++ fst a) else (fst t ++ fst a, snd t ++ snd a).
Lemma put_cons i b bl t : put_blocks i (b :: bl) t = put_blocks (negb i) bl (append i b t).
Proof. destruct t, i; cbn; now rewrite app_assoc. Qed.
Lemma put_nil i t : put_blocks i [] t = t.
Proof. destruct t, i; unfold put_blocks; cbn [alt fst snd]; now rewrite !app_nil_r. Qed.
Fixpoint pairs (bl : list (list A)) : list (list A * list A) :=
  match bl with [] => [] | [b] => [(b, [])] | a :: b :: r => (a, b) :: pairs r end.
Lemma alt_pairs : forall bl, alt bl = (concat (map fst (pairs bl)), concat (map snd (pairs bl))).
Proof.
  assert (H : forall n bl, (length bl <= n)%nat -> alt bl = (concat (map fst (pairs bl)), concat (map snd (pairs bl)))).
  { induction n as [|n IH]; intros [|a [|b bl]] L; cbn [length] in L; try lia; try reflexivity. cbn [alt pairs map concat fst snd].
    rewrite IH by lia. reflexivity. }
  intros bl. apply (H (length bl)). lia.
Qed.

(** All blocks have [h] elements, except that the last one may have fewer (but at least one). *)
Fixpoint shape (h : N) (bl : list (list A)) : Prop :=
  match bl with
  | [] => True
  | [b] => 0 < lenN b <= h
  | b :: r => lenN b = h /\ shape h r
  end.
Lemma shape_cons h b b' r : shape h (b :: b' :: r) <-> lenN b = h /\ shape h (b' :: r).
Proof. reflexivity. Qed.
Lemma lenN_app_ (x y : list A) : lenN (x ++ y) = lenN x + lenN y.
Proof. unfold lenN. rewrite app_length. lia. Qed.
Lemma lenN_nil_ : lenN (@nil A) = 0. Proof. reflexivity. Qed.

Lemma pairs_merged h : forall bl, 0 < h -> shape h bl -> shape (2 * h) (map (fun p => mrg (fst p) (snd p)) (pairs bl)).
Proof.
  intros bl Hh. assert (H : forall n bl, (length bl <= n)%nat -> shape h bl -> shape (2 * h) (map (fun p => mrg (fst p) (snd p)) (pairs bl))).
  { induction n as [|n IH]; intros [|a [|b l]] L S; cbn [length] in L; try lia; try exact Logic.I.
    - cbn [pairs map fst snd]. rewrite mrg_nil. cbn [shape] in *. lia.
    - cbn [pairs map fst snd]. destruct l as [|c l].
      + cbn [shape pairs map] in *. destruct S as [S1 S2]. unfold lenN in *. rewrite mrg_length. lia.
      + destruct S as [S1 S2]. rewrite shape_cons in S2. destruct S2 as [S2 S3]. specialize (IH (c :: l) ltac:(cbn in *; lia) S3).
        assert (Hne : exists x y, map (fun p => mrg (fst p) (snd p)) (pairs (c :: l)) = x :: y) by (destruct l; cbn; eauto).
        destruct Hne as (x & y & Hxy). rewrite Hxy in *. apply shape_cons. split; [|exact IH]. unfold lenN in *. rewrite mrg_length. lia. }
  apply (H (length bl)). lia.
Qed.

(** Whole pass over the pairs of blocks. *)
Lemma merge_pairs h : 0 < h -> forall bl i d, bl <> [] -> shape h bl ->
  exists i' k, merge_elems less (length (concat bl)) (2 * h) (Pass (fst (alt bl)) (snd (alt bl)) None None 0 0 0 i d)
    = Ok (Pass [] [] None None 0 0 k i' (put_blocks (negb i) (map (fun p => mrg (fst p) (snd p)) (pairs bl)) d))
    /\ (length (pairs bl) = 1%nat -> i' = negb i).
Proof.
  intros Hh bl. assert (H : forall n bl, (length bl <= n)%nat -> forall i d, bl <> [] -> shape h bl ->
    exists i' k, merge_elems less (length (concat bl)) (2 * h) (Pass (fst (alt bl)) (snd (alt bl)) None None 0 0 0 i d)
      = Ok (Pass [] [] None None 0 0 k i' (put_blocks (negb i) (map (fun p => mrg (fst p) (snd p)) (pairs bl)) d))
      /\ (length (pairs bl) = 1%nat -> i' = negb i)).
  2:{ intros i d. apply (H (length bl)). lia. }
  assert (Start : forall X Y R0 R1 i d m, N.min (lenN (X ++ R0)) h = lenN X -> N.min (lenN (Y ++ R1)) h = lenN Y -> (0 < length X)%nat ->
    merge_elems less (length X + length Y + m) (2 * h) (Pass (X ++ R0) (Y ++ R1) None None 0 0 0 i d)
    = merge_elems less m (2 * h) (Pass R0 R1 None None 0 0 (2 * h - lenN X - lenN Y) (negb i) (append (negb i) (mrg X Y) d))).
  { intros X Y R0 R1 i d m HX HY HL.
    assert (Hr : merge_elems less (length X + length Y + m) (2 * h) (Pass (X ++ R0) (Y ++ R1) None None 0 0 0 i d)
               = merge_elems less (length X + length Y + m) (2 * h) (Pass (X ++ R0) (Y ++ R1) None None (lenN X) (lenN Y) (2 * h) (negb i) d)).
    { destruct (length X + length Y + m)%nat as [|q] eqn:Q; [lia|]. cbn [merge_elems].
      assert (Hl : reload (2 * h) (Pass (X ++ R0) (Y ++ R1) None None 0 0 0 i d) = reload (2 * h) (Pass (X ++ R0) (Y ++ R1) None None (lenN X) (lenN Y) (2 * h) (negb i) d)).
      { unfold reload. cbn [ps_rem ps_s0 ps_s1 ps_left ps_right ps_idx ps_dst]. change (0 =? 0) with true. cbv iota. replace (2 * h / 2) with h by lia. rewrite HX, HY. destruct (N.eqb_spec (2 * h) 0); [lia|]. reflexivity. }
      unfold merge_step. rewrite Hl. reflexivity. }
    rewrite Hr. clear Hr. assert (Split : forall a b p, merge_elems less (a + b) (2 * h) p = match merge_elems less a (2 * h) p with Ok p' => merge_elems less b (2 * h) p' | Err e => Err e end).
    { induction a as [|a IH]; intros b p; [reflexivity|]. cbn [Nat.add merge_elems]. destruct (merge_step less (2 * h) p); cbn [bind]; [apply IH|reflexivity]. }
    rewrite Split.
    assert (L1 : lenN X <= h) by lia. assert (L2 : lenN Y <= h) by lia.
    replace (2 * h) with (N.of_nat (length X + length Y) + (2 * h - lenN X - lenN Y)) at 2 by (unfold lenN in *; lia).
    rewrite (@merge_block (2 * h) (length X + length Y) X Y R0 R1 None None) by reflexivity. reflexivity. }
  induction n as [|n IH]; intros [|a [|b l]] L i d Hne S; cbn [length] in L; try lia; try congruence.
  - cbn [alt fst snd pairs map concat app]. rewrite app_nil_r. cbn [shape] in S. specialize (Start a [] [] [] i d 0%nat). rewrite !app_nil_r, Nat.add_0_r in Start. cbn [app length] in Start. rewrite Nat.add_0_r in Start.
    rewrite Start; [| | |]; [|lia|change (lenN (@nil A)) with 0; lia|unfold lenN in S; lia]. cbn [merge_elems]. do 2 eexists. split; [|reflexivity]. f_equal. f_equal. rewrite put_cons, !mrg_nil, put_nil. reflexivity.
  - destruct S as [S1 S2]. cbn [alt fst snd pairs map concat length]. set (R := alt l).
    destruct l as [|c l].
    + cbn [shape] in S2. subst R. cbn [alt fst snd concat pairs map app length]. rewrite !app_nil_r. rewrite app_length.
      specialize (Start a b [] [] i d 0%nat). rewrite !app_nil_r, Nat.add_0_r in Start. rewrite Start; [|lia|lia|unfold lenN in *; lia].
      cbn [merge_elems]. do 2 eexists. split; [|reflexivity]. f_equal. f_equal. rewrite put_cons, put_nil. reflexivity.
    + rewrite shape_cons in S2. destruct S2 as [S2 S3]. rewrite !app_length. rewrite Nat.add_assoc. rewrite Start; [|rewrite lenN_app_; lia|rewrite lenN_app_; lia|unfold lenN in *; lia].
      replace (2 * h - lenN a - lenN b) with 0 by lia. destruct (IH (c :: l) ltac:(cbn in *; lia) (negb i) (append (negb i) (mrg a b) d) ltac:(discriminate) S3) as (i' & k & H1 & H2).
      exists i', k. subst R. rewrite H1. split; [|destruct l; cbn; intros; lia]. rewrite put_cons. reflexivity.
Qed.

Lemma pairs_perm : forall bl, Permutation (concat bl) (concat (map (fun p => mrg (fst p) (snd p)) (pairs bl))).
Proof.
  assert (H : forall n bl, (length bl <= n)%nat -> Permutation (concat bl) (concat (map (fun p => mrg (fst p) (snd p)) (pairs bl)))).
  { induction n as [|n IH]; intros [|a [|b l]] L; cbn [length] in L; try lia; cbn [pairs map concat fst snd]; try apply Permutation_refl.
    - rewrite mrg_nil. apply Permutation_refl.
    - rewrite app_assoc. apply Permutation_app; [apply mrg_perm|apply IH; lia]. }
  intros bl. apply (H (length bl)). lia.
Qed.
Lemma pairs_sorted : forall bl, Forall srt bl -> Forall srt (map (fun p => mrg (fst p) (snd p)) (pairs bl)).
Proof.
  assert (H : forall n bl, (length bl <= n)%nat -> Forall srt bl -> Forall srt (map (fun p => mrg (fst p) (snd p)) (pairs bl))).
  { induction n as [|n IH]; intros [|a [|b l]] L F; cbn [length] in L; try lia; cbn [pairs map fst snd]; [constructor|constructor| |].
    - rewrite mrg_nil. exact F.
    - inversion F as [|? ? F1 F2]; subst. inversion F2 as [|? ? F3 F4]; subst. constructor; [apply mrg_sorted; assumption|apply IH; [lia|assumption]]. }
  intros bl. apply (H (length bl)). lia.
Qed.
Lemma shape_len h : forall bl, shape h bl -> lenN (concat bl) <= h * N.of_nat (length bl) /\ (bl <> [] -> h * (N.of_nat (length bl) - 1) < lenN (concat bl)).
Proof.
  induction bl as [|b [|c l] IH]; intros S.
  - split; [apply N.le_0_l|congruence].
  - cbn [concat length] in *. rewrite app_nil_r. cbn [shape] in S. split; [|intros _]; lia.
  - destruct S as [S1 S2]. destruct (IH S2) as [I1 I2]. specialize (I2 ltac:(discriminate)). change (concat (b :: c :: l)) with (b ++ concat (c :: l)). rewrite lenN_app_. cbn [length] in *. split; [|intros _]; nia.
Qed.

(** The passes. *)
Lemma passes_ok fuel : forall h bl, 0 < h -> shape h bl -> Forall srt bl -> h < lenN (concat bl) -> lenN (concat bl) < 2^63 -> lenN (concat bl) <= h * 2^(N.of_nat fuel) ->
  exists r, passes less fuel h (lenN (concat bl)) (alt bl) = Ok r /\ Permutation (concat bl) r /\ srt r.
Proof.
  induction fuel as [|fuel IH]; intros h bl Hh S F Hc Hb Hf; [change (2^(N.of_nat 0)) with 1 in Hf; lia|]. cbn [passes].
  rewrite N.mod_small by (change (2^64) with (2 * 2^63); lia). rewrite (N.mul_comm h 2). assert (Hne : bl <> []) by (intros ->; change (lenN (concat [])) with 0 in Hc; lia).
  destruct (@merge_pairs h Hh bl true ([], []) Hne S) as (i' & k & H1 & H2). unfold lenN at 1. rewrite Nat2N.id, H1. cbn [bind negb]. cbn [ps_dst ps_idx].
  set (bl' := map (fun p => mrg (fst p) (snd p)) (pairs bl)). assert (P : Permutation (concat bl) (concat bl')) by apply pairs_perm.
  assert (S' : shape (2 * h) bl') by (apply pairs_merged; assumption). assert (F' : Forall srt bl') by (apply pairs_sorted, F).
  assert (Hl : lenN (concat bl) = lenN (concat bl')) by (unfold lenN; rewrite (Permutation_length P); reflexivity).
  assert (Ht : put_blocks false bl' ([], []) = alt bl') by (unfold put_blocks; cbn [fst snd app]; destruct (alt bl'); reflexivity). rewrite Ht.
  destruct (N.ltb_spec (2 * h) (lenN (concat bl))) as [Hlt|Hge].
  - rewrite Hl in *. destruct (IH (2 * h) bl') as (r & R1 & R2 & R3); auto; [lia|rewrite Nat2N.inj_succ, N.pow_succ_r' in Hf; lia|].
    exists r. split; [exact R1|]. split; [eapply perm_trans; eassumption|exact R3].
  - assert (Hne' : bl' <> []) by (intros Hz; rewrite Hz in Hl; change (lenN (concat [])) with 0 in Hl; lia).
    destruct (@shape_len (2 * h) bl' S') as [_ L2]. specialize (L2 Hne').
    assert (L1 : length bl' = 1%nat). { destruct bl' as [|x [|y l]]; [congruence|reflexivity|]. exfalso. rewrite Hl in Hge. cbn [length] in L2. nia. }
    assert (Lp : length (pairs bl) = 1%nat) by (unfold bl' in L1; rewrite map_length in L1; exact L1). rewrite (H2 Lp). cbn [negb].
    destruct bl' as [|x [|y l]]; try discriminate. cbn [alt fst snd concat] in *. rewrite app_nil_r in *. exists x. split; [reflexivity|]. split; [exact P|]. inversion F'; assumption.
Qed.

(** The runs. *)
Lemma fill_spec bs : 0 < bs -> forall source n acc, n < bs ->
  exists (a r : list A), fill bs n acc source = (List.rev a ++ acc, r) /\ source = a ++ r /\ n + lenN a <= bs /\ (r <> [] -> n + lenN a = bs).
Proof.
  intros Hb. induction source as [|x s IH]; intros n acc Hn; cbn [fill].
  - exists (@nil A), (@nil A). cbn [List.rev app]. change (lenN (@nil A)) with 0. split; [reflexivity|]. split; [reflexivity|]. split; [lia|congruence].
  - destruct (N.eqb_spec (n + 1) bs) as [He|He].
    + exists [x], s. cbn [List.rev app]. change (lenN [x]) with 1. split; [reflexivity|]. split; [reflexivity|]. split; [lia|auto].
    + destruct (IH (n + 1) (x :: acc) ltac:(lia)) as (a & r & E1 & E2 & E3 & E4). exists (x :: a), r. rewrite E1, E2. cbn [List.rev]. rewrite <- app_assoc.
      assert (L : lenN (x :: a) = 1 + lenN a) by (unfold lenN; cbn [length]; lia). rewrite L. split; [reflexivity|]. split; [reflexivity|]. split; [lia|intros H; specialize (E4 H); lia].
Qed.
Lemma runs_ok bs : 0 < bs -> forall fuel source i count t, (length source < fuel)%nat ->
  exists bl, runs less fuel bs source i count t = Ok (count + lenN source, put_blocks i bl t) /\ shape bs bl /\ Forall srt bl /\ Permutation source (concat bl).
Proof.
  intros Hb. induction fuel as [|fuel IH]; intros source i count t L; [lia|]. cbn [runs].
  destruct (@fill_spec bs Hb source 0 [] Hb) as (a & r & E1 & E2 & E3 & E4). rewrite E1, app_nil_r. destruct a as [|x a].
  - cbn [List.rev]. cbn [app] in E2. destruct r as [|y r]; [|exfalso; specialize (E4 ltac:(discriminate)); change (lenN (@nil A)) with 0 in E4; lia]. subst source. exists []. split; [|split; [exact Logic.I|split; constructor]].
    rewrite put_nil. change (lenN (@nil A)) with 0. rewrite N.add_0_r. reflexivity.
  - destruct (List.rev (x :: a)) as [|y l] eqn:Er; [apply (f_equal (@length A)) in Er; rewrite rev_length in Er; discriminate|]. rewrite <- Er in *. clear Er.
    destruct (IH r (negb i) (count + lenN (List.rev (x :: a))) (append i (isort (fun x y => less y x) (List.rev (x :: a))) t)) as (bl & R1 & R2 & R3 & R4); [subst source; rewrite app_length in L; cbn [length] in L; lia|].
    set (b := isort (fun x y => less y x) (List.rev (x :: a))) in *.
    assert (Pb : Permutation (x :: a) b). { eapply perm_trans; [apply Permutation_rev|apply isort_perm]. }
    assert (Lb : lenN b = lenN (x :: a)) by (unfold lenN; rewrite (Permutation_length Pb); reflexivity).
    exists (b :: bl). rewrite R1. split; [|split; [|split]].
    + f_equal. f_equal; [|symmetry; apply put_cons]. subst source. rewrite lenN_app_. unfold lenN. rewrite rev_length. lia.
    + destruct bl as [|c bl].
      * cbn [shape]. rewrite Lb. split; [unfold lenN; cbn; lia|]. lia.
      * apply shape_cons. split; [|exact R2]. rewrite Lb. assert (Hr : r <> []).
        { intros ->. apply Permutation_nil in R4. apply (f_equal (@length A)) in R4. cbn [concat] in R4. rewrite app_length in R4. destruct c; [|discriminate]. destruct bl; cbn [shape] in R2; change (lenN (@nil A)) with 0 in R2; lia. }
        specialize (E4 Hr). lia.
    + constructor; [|exact R3]. apply isort_sorted; [intros p q; apply asym|intros p q z H1 H2; apply (@ntrans p q z H1 H2)].
    + subst source. cbn [concat]. apply Permutation_app; [exact Pb|exact R4].
Qed.

Theorem merge_sort_ok bs l : 0 < bs -> lenN l < 2^63 -> exists r, merge_sort less bs l = Ok r /\ Permutation l r /\ srt r.
Proof.
  intros Hb Hl. unfold merge_sort. destruct (@runs_ok bs Hb (S (length l)) l false 0 ([], []) ltac:(lia)) as (bl & R1 & R2 & R3 & R4). rewrite R1. cbn [bind]. rewrite N.add_0_l.
  assert (Ht : put_blocks false bl ([], []) = alt bl) by (unfold put_blocks; cbn [fst snd app]; destruct (alt bl); reflexivity). rewrite Ht.
  assert (Hn : lenN l = lenN (concat bl)) by (unfold lenN; rewrite (Permutation_length R4); reflexivity).
  destruct (N.leb_spec (lenN l) bs) as [Hle|Hgt].
  - destruct bl as [|b [|c bl]].
    + exists []. split; [reflexivity|]. split; [exact R4|constructor].
    + cbn [alt fst snd concat] in *. rewrite app_nil_r in *. exists b. split; [reflexivity|]. split; [exact R4|]. inversion R3; assumption.
    + exfalso. destruct (@shape_len bs _ R2) as [_ L2]. specialize (L2 ltac:(discriminate)). cbn [length] in L2. rewrite Hn in Hle. nia.
  - rewrite Hn in *. destruct (@passes_ok 65 bs bl Hb R2 R3 Hgt Hl) as (r & P1 & P2 & P3); [change (2^N.of_nat 65) with 36893488147419103232; change (2^63) with 9223372036854775808 in Hl; lia|].
    exists r. split; [exact P1|]. split; [eapply perm_trans; eassumption|exact P3].
Qed.
End MS.
