(** Not part of the code: reading a JSON text back, to show that the order of JSON texts can be extended to all byte strings. *)
From Verif Require Import Base Codec SpecMap Collate SpecJson CollateFacts JsonOrder.
Local Open Scope N_scope.
Unset Strict Implicit.

Fixpoint p_chars (s : bytes) : option (list jchar * bytes) :=
  match s with
  | [] => None
  | c :: r =>
      if c =? 34 then Some ([], r)
      else if c =? 92 then
        match r with
        | [] => None
        | c' :: r' =>
            if c' =? 117 then
              match r' with
              | d0 :: d1 :: d2 :: d3 :: r'' => match p_chars r'' with Some (l, q) => Some (Uni d0 d1 d2 d3 :: l, q) | None => None end
              | _ => None
              end
            else match p_chars r' with Some (l, q) => Some (Esc c' :: l, q) | None => None end
        end
      else match p_chars r with Some (l, q) => Some (Plain c :: l, q) | None => None end
  end.
Section L.
Variable A : Type.
Variable p : bytes -> option (A * bytes).
Variable cl : N.
Fixpoint p_list (n : nat) (s : bytes) : option (list A * bytes) :=
  match n with
  | O => None
  | S m =>
      match p s with
      | Some (x, c :: r) =>
          if c =? 44 then match p_list m r with Some (l, q) => Some (x :: l, q) | None => None end
          else if c =? cl then Some ([x], r) else None
      | _ => None
      end
  end.
Definition p_list0 (s : bytes) : option (list A * bytes) :=
  match s with c :: r => if c =? cl then Some ([], r) else p_list (length s) s | [] => None end.
End L.
Definition num_char (c : N) : bool := ((48 <=? c) && (c <=? 57)) || (c =? 45) || (c =? 43) || (c =? 46) || (c =? 101) || (c =? 69).
Fixpoint number_end (s : bytes) : bytes * bytes := match s with [] => ([], []) | c :: r => if num_char c then let '(a, b) := number_end r in (c :: a, b) else ([], s) end.
Fixpoint p_value (fuel : nat) (s : bytes) : option (json * bytes) :=
  match fuel with
  | O => None
  | S k =>
      match s with
      | [] => None
      | c :: r =>
          match value_type_of c with
          | kNull => Some (JNull, drop 4 s)
          | kFalse => Some (JFalse, drop 5 s)
          | kTrue => Some (JTrue, drop 4 s)
          | kNumber => let '(t, q) := number_end s in Some (JNum t, q)
          | kString => match p_chars r with Some (l, q) => Some (JStr l, q) | None => None end
          | kArray => match p_list0 (p_value k) 93 r with Some (l, q) => Some (JArr l, q) | None => None end
          | kObject =>
              match p_list0 (fun s => match s with
                       | c :: r => if c =? 34 then match p_chars r with Some (key, c' :: q) => if c' =? 58 then match p_value k q with Some (v, q') => Some ((key, v), q') | None => None end else None | _ => None end else None
                       | [] => None end) 125 r with Some (l, q) => Some (JObj l, q) | None => None end
          | _ => None
          end
      end
  end.
Definition parse (s : bytes) : option json := match p_value (S (length s)) s with Some (j, []) => Some j | _ => None end.

Lemma p_chars_ok s : Forall valid_char s -> forall r, p_chars (body s ++ 34 :: r) = Some (s, r).
Proof.
  induction 1 as [|x s V _ IH]; intros r; [reflexivity|]. specialize (IH r). unfold body in *. cbn [map concat]. rewrite <- app_assoc. destruct x as [c|c|a b c d]; cbn [show_char app p_chars].
  - destruct (plain_not V) as [N1 N2]. rewrite N1, N2, IH. reflexivity.
  - change (92 =? 34) with false. change (92 =? 92) with true. destruct (N.eqb_spec c 117) as [->|_]; [exfalso; eapply esc_code; [exact V|reflexivity]|]. rewrite IH. reflexivity.
  - change (92 =? 34) with false. change (92 =? 92) with true. change (117 =? 117) with true. rewrite IH. reflexivity.
Qed.
Lemma digits_num l : Forall digit l -> Forall (fun c => num_char c = true) l.
Proof.
  intros H. eapply Forall_impl; [|exact H]. intros c Hc. unfold digit in Hc. unfold num_char. destruct (N.leb_spec 48 c); [|lia]. destruct (N.leb_spec c 57); [reflexivity|lia].
Qed.
Lemma number_end_ok t r : number_text t -> ends_number r -> number_end (t ++ r) = (t, r).
Proof.
  intros Ht Hr. assert (F : Forall (fun c => num_char c = true) t).
  { destruct Ht as (m & i & fr & e & -> & Hm & Hi & Hf & He). repeat rewrite Forall_app. split; [|split; [|split]].
    - destruct Hm as [-> | ->]; repeat constructor.
    - destruct Hi as [-> |(d & l & -> & Hd & _ & Hl)]; [repeat constructor|]. apply digits_num. constructor; assumption.
    - destruct Hf as [-> |(l & -> & _ & Hl)]; [constructor|]. constructor; [reflexivity|apply digits_num, Hl].
    - destruct He as [-> |(c & s & l & -> & Hc & Hs & _ & Hl)]; [constructor|]. constructor; [destruct Hc as [-> | ->]; reflexivity|]. apply Forall_app. split; [destruct Hs as [-> |[-> | ->]]; repeat constructor|apply digits_num, Hl]. }
  clear Ht. induction F as [|c t Hc _ IH]; cbn [app number_end].
  - destruct Hr as [-> |(c & q & -> & Hc)]; [reflexivity|]. cbn [number_end]. assert (num_char c = false) as -> by (destruct Hc as [-> |[-> | ->]]; reflexivity). reflexivity.
  - rewrite Hc, IH. reflexivity.
Qed.
Section LF.
Variable A : Type.
Variable p : bytes -> option (A * bytes).
Variable cl : N.
Hypothesis Hcl : cl = 93 \/ cl = 125.
Variable sh : A -> bytes.
Lemma p_list_ok : forall l x n r, (forall y, In y (x :: l) -> forall q, ends_number q -> p (sh y ++ q) = Some (y, q)) -> (length l < n)%nat -> p_list p cl n ((sh x ++ more sh l) ++ cl :: r) = Some (x :: l, r).
Proof.
  induction l as [|y l IH]; intros x n r H Hn; (destruct n as [|n]; [cbn [length] in Hn; lia|]); cbn [p_list]; rewrite <- app_assoc.
  - rewrite H; [|left; reflexivity|apply more_ends; exact Hcl]. cbn [more map concat app]. destruct (N.eqb_spec cl 44); [lia|]. rewrite N.eqb_refl. reflexivity.
  - rewrite H; [|left; reflexivity|apply more_ends; exact Hcl]. assert (Ey : more sh (y :: l) = 44 :: sh y ++ more sh l) by reflexivity. rewrite Ey. cbn [app]. change (44 =? 44) with true. cbv iota.
    rewrite IH; [reflexivity|intros u Hu; apply H; right; exact Hu|cbn [length] in Hn; lia].
Qed.
Lemma more_length l : (forall y, In y l -> sh y <> []) -> (2 * length l <= length (more sh l))%nat.
Proof.
  induction l as [|y l IH]; intros H; [cbn; lia|]. assert (Ey : more sh (y :: l) = 44 :: sh y ++ more sh l) by reflexivity. rewrite Ey. cbn [length]. rewrite app_length. specialize (IH (fun u Hu => H u (or_intror Hu))).
  specialize (H y (or_introl eq_refl)). destruct (sh y); [contradiction|cbn [length]; lia].
Qed.
Lemma p_list0_ok l r : (forall y, In y l -> forall q, ends_number q -> p (sh y ++ q) = Some (y, q)) -> (forall y, In y l -> exists c t, sh y = c :: t /\ c <> cl) ->
  p_list0 p cl (sep (map sh l) ++ cl :: r) = Some (l, r).
Proof.
  intros H Hh. destruct l as [|x l].
  - cbn [map sep app p_list0]. rewrite N.eqb_refl. reflexivity.
  - rewrite sep_more. destruct (Hh x (or_introl eq_refl)) as (c & t & Ec & Nc). pose proof (@p_list_ok l x (length ((sh x ++ more sh l) ++ cl :: r)) r H) as X.
    assert (Hl : (length l < length ((sh x ++ more sh l) ++ cl :: r))%nat).
    { assert (2 * length l <= length (more sh l))%nat by (apply more_length; intros y Hy; destruct (Hh y (or_intror Hy)) as (? & ? & -> & _); discriminate). rewrite !app_length. cbn [length]. lia. }
    specialize (X Hl). rewrite Ec in *. cbn [app p_list0] in *. destruct (N.eqb_spec c cl); [contradiction|]. exact X.
Qed.
End LF.
Lemma type_cl c t cl : (cl = 93 \/ cl = 125) -> value_type_of c = t -> In t [kNull; kFalse; kTrue; kNumber; kString; kArray; kObject] -> c <> cl.
Proof. intros Hcl H Hin ->. destruct Hcl as [-> | ->]; vm_compute in H; subst t; cbn [In] in Hin; intuition discriminate. Qed.
Lemma valid_head j : valid j -> exists c l, show j = c :: l /\ value_type_of c = vt j.
Proof. destruct 1; try (eexists _, _; split; reflexivity). destruct (number_head H) as (c & l & -> & E). exists c, l. auto. Qed.
Lemma vt_in j : In (vt j) [kNull; kFalse; kTrue; kNumber; kString; kArray; kObject]. Proof. destruct j; cbn [vt In]; auto 10. Qed.
Lemma p_value_ok : forall j, valid j -> forall f r, (jsize j <= f)%nat -> ends_number r -> p_value f (show j ++ r) = Some (j, r).
Proof.
  induction j as [| | |t|s|l IH|l IH] using json_ind'; intros V f r Hf Hr; (destruct f as [|f]; [cbn [jsize] in Hf; lia|]).
  1-3: reflexivity.
  - inversion V as [| | |? N1| | |]; subst. pose proof (number_end_ok N1 Hr) as E. destruct (number_head N1) as (c & q & -> & T). cbn [show app p_value] in *. rewrite T, E. reflexivity.
  - inversion V as [| | | |? N1| |]; subst. cbn [show]. rewrite show_str_eq. cbn [p_value]. change (value_type_of 34) with kString. rewrite (p_chars_ok N1). reflexivity.
  - inversion V as [| | | | |? N1|]; subst. cbn [jsize] in Hf. cbn [show app p_value]. change (value_type_of 91) with kArray. rewrite <- app_assoc. cbn [app]. rewrite Forall_forall in IH, N1. rewrite p_list0_ok; [reflexivity|auto| |].
    + intros y Hy q Hq. apply IH; auto. pose proof (sum_in jsize Hy). lia.
    + intros y Hy. destruct (valid_head (N1 y Hy)) as (c & q & E & T). exists c, q. split; [exact E|]. eapply type_cl; [auto|exact T|apply vt_in].
  - inversion V as [| | | | | |? N1]; subst. cbn [jsize] in Hf. cbn [show app p_value]. change (value_type_of 123) with kObject. rewrite <- app_assoc. cbn [app]. rewrite Forall_forall in IH, N1.
    rewrite (@p_list0_ok _ _ 125 (or_intror eq_refl) (fun kv => show_str (fst kv) ++ [58] ++ show (snd kv))); [reflexivity| |].
    + intros [key v] Hy q Hq. cbn [fst snd]. rewrite <- !app_assoc. rewrite show_str_eq. change (34 =? 34) with true. cbv iota. destruct (N1 _ Hy) as [K1 G1]. cbn [fst snd] in *. rewrite (p_chars_ok K1). cbn [app].
      change (58 =? 58) with true. cbv iota. pose proof (sum_in (fun kv => jsize (snd kv)) Hy) as Sz. cbn [snd] in Sz. rewrite (IH _ Hy G1) by (auto; cbn [snd]; lia). reflexivity.
    + intros y _. exists 34. eexists. split; [unfold show_str; cbn [app]; reflexivity|discriminate].
Qed.
Lemma jsize_show : forall j, valid j -> (jsize j <= length (show j))%nat.
Proof.
  induction j as [| | |t|s|l IH|l IH] using json_ind'; intros V; cbn [jsize show].
  1-3: cbn [length]; lia.
  - inversion V as [| | |? N1| | |]; subst. destruct (number_head N1) as (c & q & -> & _). cbn [length]. lia.
  - unfold show_str. cbn [app length]. lia.
  - inversion V as [| | | | |? N1|]; subst. cbn [app length]. rewrite app_length. cbn [length]. assert (X : (list_sum (map jsize l) <= length (sep (map show l)))%nat); [|lia]. clear V.
    destruct l as [|x l]; [cbn; lia|]. rewrite sep_more, app_length. inversion IH as [|? ? I1 I2]; subst. inversion N1 as [|? ? V1 V2]; subst. specialize (I1 V1). unfold list_sum in *. cbn [map fold_right]. clear V1 N1 IH.
    assert (Y : (fold_right Nat.add 0 (map jsize l) <= length (more show l))%nat); [|lia]. induction l as [|y l IHl]; [cbn; lia|]. inversion I2 as [|? ? J1 J2]; subst. inversion V2 as [|? ? V1 V3]; subst. specialize (IHl J2 V3). specialize (J1 V1).
    assert (Ey : more show (y :: l) = 44 :: show y ++ more show l) by reflexivity. rewrite Ey. cbn [map fold_right length]. rewrite app_length. lia.
  - inversion V as [| | | | | |? N1]; subst. cbn [app length]. rewrite app_length. cbn [length]. set (sh := fun kv : list jchar * json => show_str (fst kv) ++ [58] ++ show (snd kv)).
    assert (X : (list_sum (map (fun kv => jsize (snd kv)) l) <= length (sep (map sh l)))%nat); [|unfold sh in X; cbn [app] in X; lia]. clear V.
    assert (Hs : forall kv, (length (show (snd kv)) <= length (sh kv))%nat) by (intros kv; unfold sh; rewrite !app_length; lia).
    destruct l as [|x l]; [cbn; lia|]. rewrite sep_more, app_length. inversion IH as [|? ? I1 I2]; subst. inversion N1 as [|? ? V1 V2]; subst. specialize (I1 (proj2 V1)). pose proof (Hs x). unfold list_sum in *. cbn [map fold_right]. clear V1 N1 IH.
    assert (Y : (fold_right Nat.add 0 (map (fun kv => jsize (snd kv)) l) <= length (more sh l))%nat); [|lia]. induction l as [|y l IHl]; [cbn; lia|]. inversion I2 as [|? ? J1 J2]; subst. inversion V2 as [|? ? V1 V3]; subst. specialize (IHl J2 V3). specialize (J1 (proj2 V1)).
    pose proof (Hs y). assert (Ey : more sh (y :: l) = 44 :: sh y ++ more sh l) by reflexivity. rewrite Ey. cbn [map fold_right length]. rewrite app_length. lia.
Qed.
Lemma parse_show j : valid j -> parse (show j) = Some j.
Proof.
  intros V. unfold parse. pose proof (@p_value_ok j V (S (length (show j))) []) as X. rewrite app_nil_r in X. rewrite X; [reflexivity|pose proof (jsize_show V); lia|left; reflexivity].
Qed.

(** ** An order of all byte strings *)
Section T.
Variable c : json -> json -> comparison.
Hypothesis P : preorder c.
Definition total (a b : bytes) : comparison :=
  match parse a, parse b with
  | Some x, Some y => c x y
  | Some _, None => Lt
  | None, Some _ => Gt
  | None, None => Eq
  end.
Lemma total_ord : ord total.
Proof.
  assert (R : forall x, c x x = Eq) by (intros x; destruct P as [Sy _]; specialize (Sy x x); destruct (c x x); [reflexivity|discriminate|discriminate]).
  unfold total. constructor.
  - intros a. destruct (parse a); auto.
  - intros a b. destruct (parse a), (parse b); try reflexivity. apply P.
  - intros a b z. destruct (parse a) as [x|], (parse b) as [y|], (parse z) as [w|]; try congruence. destruct (tri_mix (pre_tri P x y w)) as (_ & _ & M). exact M.
  - intros a b z. destruct (parse a) as [x|], (parse b) as [y|], (parse z) as [w|]; try congruence. destruct (tri_mix (pre_tri P x y w)) as (M & _). exact M.
Qed.
Lemma total_show a b : valid a -> valid b -> total (show a) (show b) = c a b.
Proof. intros Va Vb. unfold total. rewrite (parse_show Va), (parse_show Vb). reflexivity. Qed.
End T.
