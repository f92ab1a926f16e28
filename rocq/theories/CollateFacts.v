(** Proofs about the order of JSON texts. *)
From Coq Require Import ZArith.
From Verif Require Import Base Codec Collate SpecJson.
Local Open Scope N_scope.
Unset Strict Implicit.

Lemma json_ind' (P : json -> Prop) : P JNull -> P JFalse -> P JTrue -> (forall t, P (JNum t)) -> (forall s, P (JStr s)) ->
  (forall l, Forall P l -> P (JArr l)) -> (forall l, Forall (fun kv => P (snd kv)) l -> P (JObj l)) -> forall j, P j.
Proof.
  intros H1 H2 H3 H4 H5 H6 H7. fix IH 1. intros [| | |t|s|l|l].
  - exact H1.
  - exact H2.
  - exact H3.
  - apply H4.
  - apply H5.
  - apply H6. induction l as [|x l IHl]; constructor; [apply IH|exact IHl].
  - apply H7. induction l as [|x l IHl]; constructor; [apply IH|exact IHl].
Qed.

(** ** Characters *)
Lemma hex_digit c : hex c -> digit_to_int c = hex_value c.
Proof.
  unfold hex, digit, digit_to_int, hex_value. intros H.
  destruct (N.leb_spec 48 c), (N.leb_spec c 57), (N.leb_spec 97 c), (N.leb_spec c 102), (N.leb_spec 65 c), (N.leb_spec c 70); cbn [andb]; lia.
Qed.
Definition simple_char (x : jchar) : Prop := match x with Plain _ => True | Esc c => c <> 102 | Uni _ _ _ _ => char_of x < 128 end.
Lemma escape_ok x r : valid_char x -> simple_char x -> match x with Plain _ => True | _ => convert_json_escape (tl (show_char x) ++ r) = Ok (char_of x, r) end.
Proof.
  destruct x as [c|c|a b c d]; intros V Sx; [exact I| |].
  - cbn [show_char tl app]. cbn [valid_char In] in V. cbn [simple_char] in Sx. destruct V as [<-|[<-|[<-|[<-|[<-|[<-|[<-|[<-|[]]]]]]]]]; try reflexivity. contradiction.
  - cbn [show_char tl app]. destruct V as (Va & Vb & Vc & Vd). cbn [simple_char] in Sx. unfold convert_json_escape. rewrite N.eqb_refl.
    rewrite (hex_digit Va), (hex_digit Vb), (hex_digit Vc), (hex_digit Vd). change (2^12) with 4096. change (2^8) with 256. change (2^4) with 16.
    unfold char_of in *. rewrite N.mod_small by lia. reflexivity.
Qed.
Lemma plain_not x : valid_char x -> match x with Plain c => c =? 34 = false /\ c =? 92 = false | _ => True end.
Proof. destruct x; intros V; auto. destruct V as (_ & V1 & V2). split; apply N.eqb_neq; assumption. Qed.
Definition body (s : list jchar) : bytes := concat (map show_char s).
Lemma show_str_eq s r : show_str s ++ r = 34 :: body s ++ 34 :: r.
Proof. unfold show_str, body. cbn [app]. rewrite <- app_assoc. reflexivity. Qed.
Lemma esc_code c : In c [34; 92; 47; 98; 102; 110; 114; 116] -> c <> 117.
Proof. cbn [In]. lia. Qed.
Lemma scan_ok s : Forall valid_char s -> forall r, exists e, scan_string (body s ++ 34 :: r) = Ok (lenN (body s), e, r) /\ e + lenN s = lenN (body s) /\ (e = 0 -> body s = text_of s).
Proof.
  induction 1 as [|x s V _ IH]; intros r.
  - exists 0. split; [reflexivity|]. split; reflexivity.
  - destruct (IH r) as (e & E & Le & Ht). unfold body in *. cbn [map concat]. rewrite <- app_assoc. rewrite lenN_app. destruct x as [c|c|a b c d]; cbn [show_char app].
    + destruct (plain_not V) as [N1 N2]. exists e. cbn [scan_string]. rewrite N1, N2, E. cbn [bind]. change (lenN [c]) with 1. split; [f_equal; f_equal; f_equal; lia|]. rewrite lenN_cons. split; [lia|].
      intros He. specialize (Ht He). cbn [text_of map char_of]. rewrite Ht. reflexivity.
    + exists (e + 1). cbn [scan_string]. change (92 =? 34) with false. change (92 =? 92) with true. destruct (N.eqb_spec c 117) as [->|_]; [exfalso; eapply esc_code; [exact V|reflexivity]|].
      rewrite E. cbn [bind]. change (lenN [92; c]) with 2. rewrite lenN_cons. split; [f_equal; f_equal; f_equal; lia|]. split; [lia|]. intros X. lia.
    + exists (e + 5). cbn [scan_string]. change (92 =? 34) with false. change (92 =? 92) with true. change (117 =? 117) with true. rewrite E. cbn [bind]. change (lenN [92; 117; a; b; c; d]) with 6. rewrite lenN_cons.
      split; [f_equal; f_equal; f_equal; lia|]. split; [lia|]. intros X. lia.
Qed.
Lemma convert_ok s : Forall valid_char s -> simple s -> forall r f, (length s < f)%nat -> convert_string f (body s ++ 34 :: r) = Ok (text_of s).
Proof.
  induction 1 as [|x s V _ IH]; intros Sm r f Hf; (destruct f as [|f]; [cbn [length] in Hf; lia|]); cbn [convert_string].
  - reflexivity.
  - inversion Sm as [|? ? Sx Ss]; subst. unfold body in *. cbn [map concat]. rewrite <- app_assoc. pose proof (@escape_ok x (concat (map show_char s) ++ 34 :: r) V Sx) as Ex. cbn [length] in Hf.
    destruct x as [c|c|a b c d]; cbn [show_char app tl] in *.
    + destruct (plain_not V) as [N1 N2]. rewrite N1, N2. cbn [bind fst snd]. rewrite IH by (auto; lia). reflexivity.
    + change (92 =? 34) with false. change (92 =? 92) with true. cbv iota. rewrite Ex. cbn [bind fst snd]. rewrite IH by (auto; lia). reflexivity.
    + change (92 =? 34) with false. change (92 =? 92) with true. cbv iota. rewrite Ex. cbn [bind fst snd]. rewrite IH by (auto; lia). reflexivity.
Qed.
Lemma body_length s : (length s <= length (body s))%nat.
Proof. induction s as [|x s IH]; [cbn; lia|]. unfold body in *. cbn [map concat]. rewrite app_length. destruct x; cbn [show_char length]; lia. Qed.
Lemma create_ok s r : Forall valid_char s -> simple s -> create_string_from_json (body s ++ 34 :: r) = Ok (text_of s, r).
Proof.
  intros V Sm. unfold create_string_from_json. destruct (scan_ok V r) as (e & -> & Le & Ht). cbn [bind]. destruct (N.ltb_spec 0 e) as [H|H].
  - rewrite convert_ok; auto; [|rewrite app_length; pose proof (body_length s); cbn [length]; lia]. cbn [bind]. assert (X : lenN (text_of s) = lenN s) by (unfold text_of, lenN; rewrite map_length; reflexivity).
    destruct (N.eqb_spec (lenN (text_of s)) (lenN (body s) - e)); [reflexivity|lia].
  - rewrite take_app_exact by reflexivity. rewrite Ht by lia. reflexivity.
Qed.
Lemma ascii_ok s1 : Forall valid_char s1 -> simple s1 -> ascii s1 -> forall s2, Forall valid_char s2 -> simple s2 -> ascii s2 -> forall r1 r2 f, (length s1 < f)%nat ->
  exists n1 n2, compare_strings_ascii f (body s1 ++ 34 :: r1) (body s2 ++ 34 :: r2) = Ok (words N.compare (text_of s1) (text_of s2), n1, n2) /\
    (words N.compare (text_of s1) (text_of s2) = Eq -> n1 = r1 /\ n2 = r2).
Proof.
  assert (Hd : forall x r, valid_char x -> simple_char x -> char_of x < 128 -> exists c t, show_char x ++ r = c :: t /\ c =? 34 = false /\ (if c =? 92 then convert_json_escape t else Ok (c, t)) = Ok (char_of x, r)).
  { intros x r V Sx _. pose proof (@escape_ok x r V Sx) as Ex. destruct x as [c|c|a b c d]; cbn [show_char app tl] in *.
    - destruct (plain_not V) as [N1 N2]. exists c, r. rewrite N1, N2. auto.
    - exists 92, (c :: r). auto.
    - exists 92, (117 :: a :: b :: c :: d :: r). auto. }
  induction 1 as [|x s1 V1 Vs1 IH]; intros S1 A1 s2 V2 S2 A2 r1 r2 f Hf; (destruct f as [|f]; [cbn [length] in Hf; lia|]).
  - inversion V2 as [|y s2' Vy Vs2]; subst.
    + exists r1, r2. split; [reflexivity|auto].
    + inversion S2; inversion A2; subst. unfold body. cbn [map concat]. rewrite <- app_assoc. destruct (@Hd y (concat (map show_char s2') ++ 34 :: r2)) as (c & t & -> & N1 & _); auto.
      cbn [app compare_strings_ascii]. rewrite N1. eexists _, _. split; [reflexivity|]. cbn [text_of map words]. discriminate.
  - inversion S1 as [|? ? Sx Ss1]; subst. inversion A1 as [|? ? Ax As1]; subst. unfold body. cbn [map concat]. rewrite <- app_assoc.
    destruct (@Hd x (concat (map show_char s1) ++ 34 :: r1)) as (c & t & -> & N1 & E1); auto. inversion V2 as [|y s2' Vy Vs2]; subst.
    + cbn [app map concat compare_strings_ascii]. rewrite N1. eexists _, _. split; [reflexivity|]. cbn [text_of map words]. discriminate.
    + inversion S2 as [|? ? Sy Ss2]; subst. inversion A2 as [|? ? Ay As2]; subst. cbn [map concat]. rewrite <- app_assoc.
      destruct (@Hd y (concat (map show_char s2') ++ 34 :: r2)) as (c' & t' & -> & N2 & E2); auto. cbn [compare_strings_ascii]. rewrite N1, N2, E1, E2. cbn [bind fst snd].
      assert (Ez : Z.compare (schar (char_of x)) (schar (char_of y)) = N.compare (char_of x) (char_of y)).
      { unfold schar. destruct (N.ltb_spec (char_of x) 128); [|lia]. destruct (N.ltb_spec (char_of y) 128); [|lia]. apply N2Z.inj_compare. }
      rewrite Ez. cbn [text_of map words]. destruct (N.compare (char_of x) (char_of y)) eqn:Ec.
      * cbn [length] in Hf. apply (IH Ss1 As1 s2' Vs2 Ss2 As2 r1 r2 f). lia.
      * eexists _, _. split; [reflexivity|discriminate].
      * eexists _, _. split; [reflexivity|discriminate].
Qed.

Section CF.
Variable D : Type.
Variable d_cmp : D -> D -> comparison.
Variable strtod : bytes -> D * bytes.
Variable u_cmp : bytes -> bytes -> comparison.
Variable dval : bytes -> D.
Hypothesis num_ok : forall t r, number_text t -> ends_number r -> strtod (t ++ r) = (dval t, r).
Variable mode : collate_mode.

Notation loop := (collate_loop d_cmp strtod u_cmp mode).
Notation ord := (json_order d_cmp dval u_cmp mode).
Notation tord := (text_order u_cmp mode).
Definition okstr (s : list jchar) : Prop := Forall valid_char s /\ simple s /\ (mode <> M_unicode -> ascii s).
Inductive good : json -> Prop :=
| good_null : good JNull
| good_false : good JFalse
| good_true : good JTrue
| good_num t : number_text t -> good (JNum t)
| good_str s : okstr s -> good (JStr s)
| good_arr l : Forall good l -> good (JArr l)
| good_obj l : Forall (fun kv => okstr (fst kv) /\ good (snd kv)) l -> good (JObj l).
Definition L (n : nat) (s1 s2 : bytes) (d : nat) (c : comparison) : Prop := forall f, (n <= f)%nat -> loop f s1 s2 d = Ok c.
Definition K (n : nat) (s1 s2 : bytes) (d : nat) (c : comparison) : Prop := match d with O => c = Eq | S _ => L n s1 s2 d c end.
Lemma next_ok n s1 s2 d c k : K n s1 s2 d c -> (n <= k)%nat -> match d with O => Ok Eq | S _ => loop k s1 s2 d end = Ok c.
Proof. unfold K, L. destruct d; intros H Hk; [rewrite H; reflexivity|apply H, Hk]. Qed.
Lemma L_le n m s1 s2 d c : L n s1 s2 d c -> (n <= m)%nat -> L m s1 s2 d c.
Proof. intros H Hm f Hf. apply H. lia. Qed.
Definition then_ (x c : comparison) : comparison := match x with Eq => c | _ => x end.

(** ** One token *)
Lemma differ c1 c2 r1 r2 d n : (1 <= n)%nat -> type_order (value_type_of c1) <> type_order (value_type_of c2) ->
  L n (c1 :: r1) (c2 :: r2) d (match mode with M_raw => Z.compare (raw_order (value_type_of c1)) (raw_order (value_type_of c2)) | _ => Z.compare (type_order (value_type_of c1)) (type_order (value_type_of c2)) end).
Proof.
  intros Hn Ht f Hf. destruct f as [|f]; [lia|]. cbn [collate_loop]. destruct (Z.compare (type_order (value_type_of c1)) (type_order (value_type_of c2))) eqn:E.
  - apply Z.compare_eq in E. contradiction.
  - destruct mode; reflexivity.
  - destruct mode; reflexivity.
Qed.
Lemma t_string s1 s2 r1 r2 d n c : okstr s1 -> okstr s2 -> (tord (text_of s1) (text_of s2) = Eq -> K n r1 r2 d c) ->
  L (S n) (show_str s1 ++ r1) (show_str s2 ++ r2) d (then_ (tord (text_of s1) (text_of s2)) c).
Proof.
  intros (V1 & S1 & A1) (V2 & S2 & A2) H f Hf. destruct f as [|f]; [lia|]. rewrite !show_str_eq. cbn [collate_loop]. change (value_type_of 34) with kString. cbn [type_order]. rewrite Z.compare_refl.
  assert (E : exists n1 n2, match mode with M_unicode => compare_strings_unicode u_cmp (body s1 ++ 34 :: r1) (body s2 ++ 34 :: r2)
     | _ => compare_strings_ascii (S (length (body s1 ++ 34 :: r1))) (body s1 ++ 34 :: r1) (body s2 ++ 34 :: r2) end = Ok (tord (text_of s1) (text_of s2), n1, n2) /\ (tord (text_of s1) (text_of s2) = Eq -> n1 = r1 /\ n2 = r2)).
  { assert (Ha : (length s1 < S (length (body s1 ++ 34%N :: r1)))%nat) by (rewrite app_length; pose proof (body_length s1); lia).
    destruct mode; cbn [text_order].
    - unfold compare_strings_unicode. rewrite (create_ok r1 V1 S1), (create_ok r2 V2 S2). cbn [bind fst snd]. exists r1, r2. split; [reflexivity|auto].
    - apply ascii_ok; auto; [apply A1|apply A2]; discriminate.
    - apply ascii_ok; auto; [apply A1|apply A2]; discriminate. }
  destruct E as (n1 & n2 & -> & En). cbn [bind]. destruct (tord (text_of s1) (text_of s2)) eqn:Ec; cbn [then_]; [|reflexivity|reflexivity].
  destruct (En eq_refl) as [-> ->]. apply (next_ok (H eq_refl)). lia.
Qed.
Lemma t_single x r1 r2 d d' n c : (x = 91 \/ x = 123) /\ d' = S d \/ (x = 93 \/ x = 125) /\ d = S d' \/ (x = 44 \/ x = 58) /\ d' = d -> K n r1 r2 d' c -> L (S n) (x :: r1) (x :: r2) d c.
Proof.
  intros Hx H f Hf. destruct f as [|f]; [lia|]. cbn [collate_loop]. rewrite Z.compare_refl. assert (Hn : (n <= f)%nat) by lia. pose proof (next_ok H Hn) as X.
  destruct Hx as [[[-> | ->] ->]|[[[-> | ->] ->]|[[-> | ->] ->]]]; exact X.
Qed.

(** ** Values *)
Definition vt (j : json) : vtype := match j with JNull => kNull | JFalse => kFalse | JTrue => kTrue | JNum _ => kNumber | JStr _ => kString | JArr _ => kArray | JObj _ => kObject end.
Lemma digit_type c : digit c -> value_type_of c = kNumber.
Proof.
  unfold digit, value_type_of. intros H. destruct (N.eqb_spec c 110); [lia|]. destruct (N.eqb_spec c 102); [lia|]. destruct (N.eqb_spec c 116); [lia|].
  destruct (N.leb_spec 48 c); [|lia]. destruct (N.leb_spec c 57); [reflexivity|lia].
Qed.
Lemma number_head t : number_text t -> exists c l, t = c :: l /\ value_type_of c = kNumber.
Proof.
  intros (m & i & fr & e & -> & Hm & Hi & _). destruct Hm as [-> | ->]; [|eexists _, _; split; [reflexivity|reflexivity]].
  destruct Hi as [-> |(x & l & -> & Hd & _)]; [eexists _, _; split; [reflexivity|reflexivity]|]. eexists _, _. split; [reflexivity|]. apply digit_type, Hd.
Qed.
Lemma show_head j : good j -> exists c l, show j = c :: l /\ value_type_of c = vt j.
Proof. destruct 1; try (eexists _, _; split; reflexivity). destruct (number_head H) as (c & l & -> & E). exists c, l. auto. Qed.
Lemma vt_rank a b : vt a <> vt b -> (match mode with M_raw => Z.compare (raw_order (vt a)) (raw_order (vt b)) | _ => Z.compare (type_order (vt a)) (type_order (vt b)) end) = ord a b /\ ord a b <> Eq.
Proof. destruct a, b, mode; intros H; try (split; [reflexivity|discriminate]); contradiction H; reflexivity. Qed.

Definition step_ {A} (sh : A -> bytes) (c : A -> A -> comparison) (d : nat) (x y : A) : Prop :=
  forall r1 r2 n k, ends_number r1 -> ends_number r2 -> (c x y = Eq -> K n r1 r2 d k) -> L (n + length (sh x)) (sh x ++ r1) (sh y ++ r2) d (then_ (c x y) k).
Section Elems.
Variable A : Type.
Variable sh : A -> bytes.
Variable ce : A -> A -> comparison.
Variable cl : N.
Hypothesis Hcl : cl = 93 \/ cl = 125.
Variable d : nat.
Definition more (l : list A) : bytes := concat (map (fun x => 44 :: sh x) l).
Lemma sep_more x l : sep (map sh (x :: l)) = sh x ++ more l.
Proof.
  revert x. induction l as [|y l IH]; intros x; [unfold more; cbn [map sep concat]; rewrite app_nil_r; reflexivity|].
  change (sep (map sh (x :: y :: l))) with (sh x ++ [44] ++ sep (map sh (y :: l))). rewrite IH. reflexivity.
Qed.
Lemma more_ends l r : ends_number (more l ++ cl :: r).
Proof. right. destruct l as [|x l]; [exists cl, r; split; [reflexivity|]; destruct Hcl; auto|]. eexists 44, _. split; [reflexivity|auto]. Qed.
Lemma cl_comma : type_order (value_type_of cl) <> type_order (value_type_of 44).
Proof. destruct Hcl as [-> | ->]; discriminate. Qed.
Lemma more_ok : forall xs ys, (forall x y, In x xs -> In y ys -> step_ sh ce (S d) x y) -> forall r1 r2 n k, (words ce xs ys = Eq -> K n r1 r2 d k) ->
  L (S n + length (more xs)) (more xs ++ cl :: r1) (more ys ++ cl :: r2) (S d) (then_ (words ce xs ys) k).
Proof.
  induction xs as [|x xs IH]; intros [|y ys] HS r1 r2 n k H.
  - cbn [more map concat app length words then_]. rewrite Nat.add_0_r. apply (@t_single cl r1 r2 (S d) d n k); [right; left; auto|]. apply H. reflexivity.
  - change (then_ (words ce [] (y :: ys)) k) with Lt. cbn [more map concat app]. pose proof (@differ cl 44 r1 ((sh y ++ concat (map (fun x => 44 :: sh x) ys)) ++ cl :: r2) (S d) (S n + 0) ltac:(lia) cl_comma) as X.
    assert (E : (match mode with M_raw => Z.compare (raw_order (value_type_of cl)) (raw_order (value_type_of 44)) | _ => Z.compare (type_order (value_type_of cl)) (type_order (value_type_of 44)) end) = Lt) by (destruct Hcl as [-> | ->]; destruct mode; reflexivity).
    rewrite E in X. exact X.
  - change (then_ (words ce (x :: xs) []) k) with Gt. cbn [more map concat app]. pose proof (@differ 44 cl ((sh x ++ concat (map (fun x => 44 :: sh x) xs)) ++ cl :: r1) r2 (S d) (S n + length ((44 :: sh x) ++ concat (map (fun x => 44 :: sh x) xs))) ltac:(lia) ltac:(intros X; symmetry in X; exact (cl_comma X))) as X.
    assert (E : (match mode with M_raw => Z.compare (raw_order (value_type_of 44)) (raw_order (value_type_of cl)) | _ => Z.compare (type_order (value_type_of 44)) (type_order (value_type_of cl)) end) = Gt) by (destruct Hcl as [-> | ->]; destruct mode; reflexivity).
    rewrite E in X. exact X.
  - assert (Ex : more (x :: xs) = 44 :: sh x ++ more xs) by reflexivity. assert (Ey : more (y :: ys) = 44 :: sh y ++ more ys) by reflexivity. rewrite Ex, Ey. cbn [app].
    eapply L_le with (n := S (S n + length (more xs) + length (sh x))); [|cbn [length]; rewrite app_length; lia]. rewrite <- !app_assoc.
    apply (@t_single 44 _ _ (S d) (S d) (S n + length (more xs) + length (sh x)) _); [right; right; auto|].
    assert (Ek : then_ (words ce (x :: xs) (y :: ys)) k = then_ (ce x y) (then_ (words ce xs ys) k)) by (cbn [words]; destruct (ce x y); reflexivity).
    rewrite Ek. apply HS; [left; reflexivity|left; reflexivity|apply more_ends|apply more_ends|]. intros Ec. apply IH; [intros a b Ha Hb; apply HS; right; assumption|].
    intros Ew. apply H. cbn [words]. rewrite Ec. exact Ew.
Qed.
End Elems.
Lemma cl_value cl c : cl = 93 \/ cl = 125 -> In (value_type_of c) [kNull; kFalse; kTrue; kNumber; kString; kArray; kObject] ->
  type_order (value_type_of cl) <> type_order (value_type_of c) /\
  (match mode with M_raw => Z.compare (raw_order (value_type_of cl)) (raw_order (value_type_of c)) | _ => Z.compare (type_order (value_type_of cl)) (type_order (value_type_of c)) end) = Lt /\
  (match mode with M_raw => Z.compare (raw_order (value_type_of c)) (raw_order (value_type_of cl)) | _ => Z.compare (type_order (value_type_of c)) (type_order (value_type_of cl)) end) = Gt.
Proof.
  intros Hcl H. cbn [In] in H. assert (Ec : value_type_of cl = kEndArray \/ value_type_of cl = kEndObject) by (destruct Hcl as [-> | ->]; auto).
  destruct H as [<-|[<-|[<-|[<-|[<-|[<-|[<-|[]]]]]]]]; destruct Ec as [-> | ->]; destruct mode; repeat split; discriminate.
Qed.
Lemma elems_ok A (sh : A -> bytes) ce op cl d xs ys : (op = 91 /\ cl = 93 \/ op = 123 /\ cl = 125) ->
  (forall x, In x (xs ++ ys) -> exists c l, sh x = c :: l /\ In (value_type_of c) [kNull; kFalse; kTrue; kNumber; kString; kArray; kObject]) ->
  (forall x y, In x xs -> In y ys -> step_ sh ce (S d) x y) -> forall r1 r2 n k, (words ce xs ys = Eq -> K n r1 r2 d k) ->
  L (n + length ([op] ++ sep (map sh xs) ++ [cl])) (([op] ++ sep (map sh xs) ++ [cl]) ++ r1) (([op] ++ sep (map sh ys) ++ [cl]) ++ r2) d (then_ (words ce xs ys) k).
Proof.
  intros Ho Hh HS r1 r2 n k H. assert (Hcl : cl = 93 \/ cl = 125) by (destruct Ho as [[_ ->]|[_ ->]]; auto). cbn [app]. rewrite <- !app_assoc. cbn [app].
  assert (Hop : op = 91 \/ op = 123) by (destruct Ho as [[-> _]|[-> _]]; auto).
  destruct xs as [|x xs], ys as [|y ys].
  - cbn [map sep app length words then_]. replace (n + 2)%nat with (S (S n)) by lia. apply (@t_single op _ _ d (S d)); [left; auto|]. apply (@t_single cl _ _ (S d) d); [right; left; auto|]. apply H. reflexivity.
  - destruct (Hh y ltac:(left; reflexivity)) as (c & l & Ec & Hc). rewrite sep_more, Ec. destruct (cl_value Hcl Hc) as (N1 & N2 & _). cbn [map sep app length words then_]. replace (n + 2)%nat with (S (S n)) by lia.
    apply (@t_single op _ _ d (S d)); [left; auto|]. cbn [K]. rewrite <- N2. apply differ; [lia|exact N1].
  - destruct (Hh x ltac:(apply in_or_app; left; left; reflexivity)) as (c & l & Ec & Hc). rewrite sep_more, Ec. destruct (cl_value Hcl Hc) as (N1 & _ & N2). cbn [map sep app words then_].
    eapply L_le with (n := 2%nat); [|cbn [length]; rewrite ?app_length; cbn [length]; lia]. apply (@t_single op _ _ d (S d)); [left; auto|]. cbn [K]. rewrite <- N2. apply differ; [lia|]. intros X. apply N1. symmetry. exact X.
  - rewrite !sep_more, <- !app_assoc. eapply L_le with (n := S (S n + length (more sh xs) + length (sh x))); [|cbn [length]; rewrite ?app_length; cbn [length]; lia].
    apply (@t_single op _ _ d (S d)); [left; auto|]. assert (Ek : then_ (words ce (x :: xs) (y :: ys)) k = then_ (ce x y) (then_ (words ce xs ys) k)) by (cbn [words]; destruct (ce x y); reflexivity).
    rewrite Ek. cbn [K]. apply HS; [left; reflexivity|left; reflexivity|apply more_ends; exact Hcl|apply more_ends; exact Hcl|]. intros Ec. cbn [K]. apply more_ok; [exact Hcl|intros a b Ha Hb; apply HS; right; assumption|].
    intros Ew. apply H. cbn [words]. rewrite Ec. exact Ew.
Qed.
Lemma head_in j : good j -> exists c l, show j = c :: l /\ In (value_type_of c) [kNull; kFalse; kTrue; kNumber; kString; kArray; kObject].
Proof. intros G. destruct (show_head G) as (c & l & E & Ht). exists c, l. split; [exact E|]. rewrite Ht. destruct j; cbn [vt In]; auto 10. Qed.
Lemma ord_words l l' : ord (JArr l) (JArr l') = words ord l l'. Proof. reflexivity. Qed.

Theorem value_ok : forall a b, good a -> good b -> forall d, step_ show ord d a b.
Proof.
  induction a as [| | |t|s|l IH|l IH] using json_ind'; intros b Ga Gb d r1 r2 n k D1 D2 H.
  all: match goal with |- L _ (show ?a ++ _) (show ?b ++ _) _ _ => destruct (show_head Ga) as (ca & la & Ea & Ta); destruct (show_head Gb) as (cb & lb & Eb & Tb);
     assert (Dif : vt a <> vt b -> L (n + length (show a)) (show a ++ r1) (show b ++ r2) d (then_ (ord a b) k)) by
       (intros Hv; rewrite Ea, Eb; destruct (vt_rank Hv) as [X1 X2]; cbn [app]; replace (then_ (ord a b) k) with (ord a b) by (destruct (ord a b); [contradiction X2; reflexivity|reflexivity|reflexivity]);
        rewrite <- X1, <- Ta, <- Tb; apply differ; [cbn [length]; lia|]; rewrite Ta, Tb; intros X; apply Hv; revert X; clear; destruct (vt a), (vt b); cbn; intros; congruence) end.
  all: destruct b as [| | |t'|s'|l'|l']; try (apply Dif; discriminate); clear Dif Ea Eb Ta Tb.
  - assert (Eo : ord JNull JNull = Eq) by (cbn [json_order]; apply N.compare_refl). rewrite Eo in *. intros f Hf. cbn [show length] in Hf. destruct f as [|f]; [lia|].
    cbn [show app collate_loop]. change (value_type_of 110) with kNull. cbn [type_order]. rewrite Z.compare_refl. cbv iota. apply (next_ok (H eq_refl)). lia.
  - assert (Eo : ord JFalse JFalse = Eq) by (cbn [json_order]; apply N.compare_refl). rewrite Eo in *. intros f Hf. cbn [show length] in Hf. destruct f as [|f]; [lia|].
    cbn [show app collate_loop]. change (value_type_of 102) with kFalse. cbn [type_order]. rewrite Z.compare_refl. cbv iota. apply (next_ok (H eq_refl)). lia.
  - assert (Eo : ord JTrue JTrue = Eq) by (cbn [json_order]; apply N.compare_refl). rewrite Eo in *. intros f Hf. cbn [show length] in Hf. destruct f as [|f]; [lia|].
    cbn [show app collate_loop]. change (value_type_of 116) with kTrue. cbn [type_order]. rewrite Z.compare_refl. cbv iota. apply (next_ok (H eq_refl)). lia.
  - inversion Ga as [| | |? N1| | |]; subst. inversion Gb as [| | |? N2| | |]; subst. intros f Hf. cbn [show] in *. pose proof (num_ok N1 D1) as E1. pose proof (num_ok N2 D2) as E2.
    destruct (number_head N1) as (c1 & l1 & -> & T1). destruct (number_head N2) as (c2 & l2 & -> & T2). cbn [length] in Hf. destruct f as [|f]; [lia|]. cbn [app collate_loop] in *. rewrite T1, T2, Z.compare_refl, E1, E2.
    cbn [json_order] in *. destruct (d_cmp (dval (c1 :: l1)) (dval (c2 :: l2))); cbn [then_]; [|reflexivity|reflexivity]. apply (next_ok (H eq_refl)). lia.
  - inversion Ga as [| | | |? N1| |]; subst. inversion Gb as [| | | |? N2| |]; subst. cbn [show json_order] in *. eapply L_le; [apply t_string; [exact N1|exact N2|exact H]|]. unfold show_str. cbn [app length]. lia.
  - inversion Ga as [| | | | |? N1|]; subst. inversion Gb as [| | | | |? N2|]; subst. rewrite ord_words in *. cbn [show]. rewrite Forall_forall in IH, N1, N2. apply elems_ok; [auto| | |exact H].
    + intros x Hx. apply head_in. apply in_app_or in Hx. destruct Hx; auto.
    + intros x y Hx Hy. apply IH; auto.
  - inversion Ga as [| | | | | |? N1]; subst. inversion Gb as [| | | | | |? N2]; subst. rewrite Forall_forall in IH, N1, N2.
    set (ce := fun p q : list jchar * json => match tord (text_of (fst p)) (text_of (fst q)) with Eq => ord (snd p) (snd q) | r => r end). change (ord (JObj l) (JObj l')) with (words ce l l') in *. cbn [show].
    apply (@elems_ok _ (fun kv => show_str (fst kv) ++ [58] ++ show (snd kv)) ce); [auto| | |exact H].
    + intros x _. exists 34. eexists. split; [unfold show_str; cbn [app]; reflexivity|]. cbn. auto 10.
    + intros x y Hx Hy q1 q2 m kk Q1 Q2 Hk. destruct (N1 x Hx) as [K1 G1]. destruct (N2 y Hy) as [K2 G2]. rewrite <- !app_assoc.
      assert (Ek : then_ (ce x y) kk = then_ (tord (text_of (fst x)) (text_of (fst y))) (then_ (ord (snd x) (snd y)) kk)) by (unfold ce; destruct (tord (text_of (fst x)) (text_of (fst y))); reflexivity).
      rewrite Ek. eapply L_le; [apply (@t_string _ _ _ _ (S d) (S (m + length (show (snd x))))); [exact K1|exact K2|]|].
      * intros Et. cbn [K]. apply (@t_single 58 _ _ (S d) (S d)); [auto|]. apply (IH x Hx (snd y) G1 G2); [exact Q1|exact Q2|]. intros Eo. apply Hk. unfold ce. rewrite Et. exact Eo.
      * unfold show_str. repeat (rewrite app_length || cbn [length app]). lia.
Qed.
Theorem collate_ok a b : good a -> good b -> collate_json d_cmp strtod u_cmp mode (show a) (show b) = Ok (ord a b).
Proof.
  intros Ga Gb. unfold collate_json. pose proof (@value_ok a b Ga Gb O [] [] 0%nat Eq (or_introl eq_refl) (or_introl eq_refl) (fun _ => eq_refl)) as X. rewrite !app_nil_r in X.
  rewrite X by lia. destruct (ord a b); reflexivity.
Qed.
Lemma valid_good j : valid j -> strings simple j -> (mode <> M_unicode -> strings ascii j) -> good j.
Proof.
  induction j as [| | |t|s|l IH|l IH] using json_ind'; intros V Sm As.
  1-3: constructor.
  - inversion V; constructor; assumption.
  - inversion V; inversion Sm; subst. constructor. split; [assumption|]. split; [assumption|]. intros X. specialize (As X). inversion As; assumption.
  - inversion V; inversion Sm; subst. constructor. rewrite Forall_forall in *. intros x Hx. apply IH; auto. intros X. specialize (As X). inversion As as [| | | | |? Y|]; subst. rewrite Forall_forall in Y. apply Y, Hx.
  - inversion V as [| | | | | |? V1]; inversion Sm as [| | | | | |? S1]; subst. constructor. rewrite Forall_forall in *. intros x Hx. destruct (V1 x Hx), (S1 x Hx).
    assert (Y : mode <> M_unicode -> ascii (fst x) /\ strings ascii (snd x)) by (intros X; specialize (As X); inversion As as [| | | | | |? Y]; subst; rewrite Forall_forall in Y; apply Y, Hx).
    split; [split; [assumption|split; [assumption|intros X; apply Y, X]]|]. apply IH; auto. intros X. apply Y, X.
Qed.
End CF.
