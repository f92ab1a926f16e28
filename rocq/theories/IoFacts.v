(** Proofs about buffered file access. *)
From Verif Require Import Base IoBuffer SpecIo.
Local Open Scope N_scope.
Unset Strict Implicit.

(** ** Bytes of a file *)
Definition at_ (i : N) (l : bytes) : N := nth (N.to_nat i) l 0.
Lemma at_beyond i l : lenN l <= i -> at_ i l = 0.
Proof. intros H. apply nth_overflow. unfold lenN in H. lia. Qed.
Lemma at_app i a b : at_ i (a ++ b) = if i <? lenN a then at_ i a else at_ (i - lenN a) b.
Proof.
  unfold at_, lenN. destruct (N.ltb_spec i (N.of_nat (length a))).
  - apply app_nth1. lia.
  - rewrite app_nth2 by lia. f_equal. lia.
Qed.
Lemma at_take i n l : at_ i (take n l) = if i <? n then at_ i l else 0.
Proof.
  unfold at_, take. destruct (N.ltb_spec i n).
  - revert i n H. induction l as [|x l IH]; intros i n H; [now rewrite firstn_nil|]. destruct (N.to_nat n) as [|m] eqn:Hm; [lia|]. cbn [firstn].
    destruct (N.to_nat i) as [|j] eqn:Hi; [reflexivity|]. cbn [nth]. specialize (IH (N.of_nat j) (N.of_nat m)). rewrite !Nnat.Nat2N.id in IH. apply IH. lia.
  - apply nth_overflow. rewrite firstn_length. lia.
Qed.
Lemma at_drop i n l : at_ i (drop n l) = at_ (n + i) l.
Proof.
  unfold at_, drop. replace (N.to_nat (n + i)) with (N.to_nat n + N.to_nat i)%nat by lia. generalize (N.to_nat i) as j, (N.to_nat n) as m. intros j m. revert l.
  induction m as [|m IH]; intros l; [reflexivity|]. destruct l as [|x l]; cbn [skipn Nat.add nth]; [destruct j; reflexivity|apply IH].
Qed.
Lemma at_zeros i n : at_ i (repeat 0 n) = 0.
Proof. unfold at_. generalize (N.to_nat i) as j. induction n as [|n IH]; intros [|j]; cbn; auto. Qed.
Lemma lenN_zeros n : lenN (repeat 0 (N.to_nat n)) = n.
Proof. unfold lenN. rewrite repeat_length. lia. Qed.
Lemma bytes_ext a b : lenN a = lenN b -> (forall i, i < lenN a -> at_ i a = at_ i b) -> a = b.
Proof.
  revert b. induction a as [|x a IH]; intros [|y b] Hl H; [reflexivity|rewrite lenN_cons, lenN_nil in Hl; lia|rewrite lenN_cons, lenN_nil in Hl; lia|].
  rewrite !lenN_cons in Hl. f_equal.
  - apply (H 0). rewrite lenN_cons. lia.
  - apply IH; [lia|]. intros i Hi. specialize (H (1 + i)). unfold at_ in *. replace (N.to_nat (1 + i)) with (S (N.to_nat i)) in H by lia. apply H. rewrite lenN_cons. lia.
Qed.
Lemma len_overwrite l off b : lenN (overwrite l off b) = match b with [] => lenN l | _ => N.max (lenN l) (off + lenN b) end.
Proof.
  destruct b as [|x b]; [reflexivity|]. unfold overwrite. rewrite !lenN_app, lenN_take, lenN_zeros, lenN_drop. lia.
Qed.
Lemma at_overwrite l off b i : at_ i (overwrite l off b) = if (off <=? i) && (i <? off + lenN b) then at_ (i - off) b else at_ i l.
Proof.
  destruct b as [|x b]; [cbn [overwrite]; rewrite lenN_nil; destruct (_ && _) eqn:H; [lia|reflexivity]|].
  unfold overwrite. remember (x :: b) as y. rewrite !at_app, at_take, at_zeros, at_drop, !lenN_take, lenN_zeros.
  destruct (N.leb_spec off i), (N.ltb_spec i (off + lenN y)); cbn [andb];
  repeat match goal with |- context [?a <? ?b] => destruct (N.ltb_spec a b) end; try lia;
  try (f_equal; lia); try reflexivity; try (symmetry; apply at_beyond; lia).
Qed.
Lemma overwrite_nil l off : overwrite l off [] = l. Proof. reflexivity. Qed.

(** [overwrite] with the empty case removed from the length. *)
Lemma len_overwrite_ne l off b : b <> [] -> lenN (overwrite l off b) = N.max (lenN l) (off + lenN b).
Proof. intros H. rewrite len_overwrite. destruct b; [now elim H|reflexivity]. Qed.
Lemma len_nil (l : bytes) : lenN l = 0 -> l = []. Proof. apply lenN_0. Qed.
Lemma len_pos (l : bytes) : l <> [] -> 0 < lenN l.
Proof. destruct l; [now intros H; elim H|]. rewrite lenN_cons. lia. Qed.

(** Writing a part first, and then the whole or the rest. *)
Lemma overwrite_again l off b k : overwrite (overwrite l off (take k b)) off b = overwrite l off b.
Proof.
  destruct b as [|x b]; [unfold take; rewrite firstn_nil; reflexivity|]. set (y := x :: b). assert (Hy : y <> []) by discriminate. pose proof (len_pos Hy) as Hp.
  apply bytes_ext.
  - rewrite !(len_overwrite_ne _ _ Hy), len_overwrite. destruct (take k y) eqn:Ht; [reflexivity|]. rewrite <- Ht, lenN_take. lia.
  - intros i _. rewrite !at_overwrite, at_take, lenN_take. destruct (N.leb_spec off i), (N.ltb_spec i (off + lenN y)); cbn [andb]; try reflexivity.
    destruct (N.ltb_spec i (off + N.min k (lenN y))); [lia|reflexivity].
Qed.
Lemma overwrite_rest l off b k : k <= lenN b -> overwrite (overwrite l off (take k b)) (off + k) (drop k b) = overwrite l off b.
Proof.
  intros Hk. destruct (N.eq_dec k 0) as [->|H0]; [rewrite take_0, drop_0, overwrite_nil, N.add_0_r; reflexivity|].
  assert (Ht : take k b <> []) by (intros E; pose proof (lenN_take k b) as L; rewrite E, lenN_nil in L; lia).
  assert (Hb : b <> []) by (intros E; rewrite E in Ht; apply Ht, take_nil).
  apply bytes_ext.
  - rewrite (len_overwrite_ne _ _ Hb), len_overwrite. destruct (drop k b) eqn:Hd.
    + rewrite (len_overwrite_ne _ _ Ht), lenN_take. pose proof (lenN_drop k b) as L. rewrite Hd, lenN_nil in L. lia.
    + rewrite <- Hd, (len_overwrite_ne _ _ Ht), lenN_take, lenN_drop. lia.
  - intros i _. rewrite !at_overwrite, at_take, at_drop, lenN_take, lenN_drop.
    destruct (N.leb_spec off i), (N.ltb_spec i (off + lenN b)), (N.leb_spec (off + k) i), (N.ltb_spec i (off + k + (lenN b - k))), (N.ltb_spec i (off + N.min k (lenN b)));
      cbn [andb]; try lia; try reflexivity; try (f_equal; lia). destruct (N.ltb_spec (i - off) k); [reflexivity|lia].
Qed.
(** A write that falls into the bytes of an earlier one or directly behind them. *)
Lemma overwrite_merge l o d off b : o <= off <= o + lenN d ->
  overwrite l o (take (off - o) d ++ b ++ drop (off - o + lenN b) d) = overwrite (overwrite l o d) off b.
Proof.
  intros Ho. destruct b as [|x b].
  { rewrite lenN_nil, N.add_0_r. cbn [app]. rewrite take_drop. reflexivity. }
  set (y := x :: b). assert (Hy : y <> []) by discriminate. pose proof (len_pos Hy) as Hp. set (z := take (off - o) d ++ y ++ drop (off - o + lenN y) d).
  assert (Lz : lenN z = N.max (lenN d) (off - o + lenN y)) by (unfold z; rewrite !lenN_app, lenN_take, lenN_drop; lia).
  assert (Hz : z <> []) by (intros E; rewrite E, lenN_nil in Lz; lia).
  apply bytes_ext.
  - rewrite (len_overwrite_ne _ _ Hz), (len_overwrite_ne _ _ Hy), len_overwrite, Lz. destruct d as [|x0 d0]; [rewrite lenN_nil in *; lia|lia].
  - intros i _. rewrite !at_overwrite, Lz. unfold z. rewrite !at_app, at_take, at_drop, lenN_take.
    destruct (N.leb_spec o i), (N.ltb_spec i (o + N.max (lenN d) (off - o + lenN y))), (N.leb_spec off i), (N.ltb_spec i (off + lenN y)), (N.ltb_spec i (o + lenN d)); cbn [andb]; try lia; try reflexivity;
      repeat match goal with |- context [?a <? ?b] => destruct (N.ltb_spec a b) end; try lia; try reflexivity; try (f_equal; lia).
Qed.
(** Bytes away from a write. *)
Lemma sub_overwrite l off b o n : o + n <= lenN l -> o + n <= off \/ off + lenN b <= o -> take n (drop o (overwrite l off b)) = take n (drop o l).
Proof.
  intros Hl Hd. apply bytes_ext.
  - rewrite !lenN_take, !lenN_drop, len_overwrite. destruct b; [reflexivity|lia].
  - intros i Hi. rewrite lenN_take, lenN_drop in Hi. rewrite !at_take, !at_drop, at_overwrite. destruct (N.ltb_spec i n); [|reflexivity].
    destruct (N.leb_spec off (o + i)), (N.ltb_spec (o + i) (off + lenN b)); cbn [andb]; try lia; reflexivity.
Qed.

(** ** The file underneath *)
Definition within (P : list rstep) (r : raw) : Prop := forall s, In s (rw_plan r) -> In s P.
Definition reported (P : list rstep) (e : err) : Prop := exists s, In s P /\ rs_err s = Some e.

Lemma pwrite_spec P r b off x r1 : raw_pwrite r b off = (x, r1) -> within P r ->
  within P r1 /\
  match x with
  | Ok k => (b <> [] -> 1 <= k) /\ k <= lenN b /\ rw_data r1 = overwrite (rw_data r) off (take k b)
  | Err e => reported P e /\ exists k, k <= lenN b /\ rw_data r1 = overwrite (rw_data r) off (take k b)
  end.
Proof.
  unfold raw_pwrite, next_step, within. intros H W. destruct (rw_plan r) as [|s p] eqn:Hp.
  - cbn [rs_err rs_count] in H. injection H as <- <-. cbn [rw_plan rw_data]. split; [now intros ? []|]. split; [|split; [lia|reflexivity]]. intros Hb. pose proof (len_pos Hb). lia.
  - destruct (rs_err s) as [e|] eqn:He; injection H as <- <-; cbn [rw_plan rw_data].
    + split; [intros z Hz; apply W; now right|]. split; [exists s; split; [apply W; now left|exact He]|]. eexists. split; [|reflexivity]. lia.
    + split; [intros z Hz; apply W; now right|]. split; [|split; [lia|reflexivity]]. intros Hb. pose proof (len_pos Hb). lia.
Qed.
Lemma pread_spec P r n off x r1 : raw_pread r n off = (x, r1) -> within P r ->
  within P r1 /\ rw_data r1 = rw_data r /\
  match x with
  | Ok b => exists k, k <= n /\ (0 < n -> 1 <= k) /\ b = take k (drop off (rw_data r))
  | Err e => reported P e
  end.
Proof.
  unfold raw_pread, next_step, within. intros H W. destruct (rw_plan r) as [|s p] eqn:Hp.
  - cbn [rs_err rs_count] in H. injection H as <- <-. cbn [rw_plan rw_data]. split; [now intros ? []|]. split; [reflexivity|]. eexists. split; [|split; [|reflexivity]]; lia.
  - destruct (rs_err s) as [e|] eqn:He; injection H as <- <-; cbn [rw_plan rw_data]; (split; [intros z Hz; apply W; now right|split; [reflexivity|]]).
    + exists s. split; [apply W; now left|exact He].
    + eexists. split; [|split; [|reflexivity]]; lia.
Qed.
Lemma sync_spec P r x r1 : raw_sync r = (x, r1) -> within P r -> within P r1 /\ rw_data r1 = rw_data r /\ match x with Ok _ => True | Err e => reported P e end.
Proof.
  unfold raw_sync, next_step, within. intros H W. destruct (rw_plan r) as [|s p] eqn:Hp.
  - injection H as <- <-. cbn [rw_plan rw_data rs_err]. split; [now intros ? []|]. auto.
  - destruct (rs_err s) as [e|] eqn:He; injection H as <- <-; cbn [rw_plan rw_data]; (split; [intros z Hz; apply W; now right|split; [reflexivity|]]); [|exact Logic.I].
    exists s. split; [apply W; now left|exact He].
Qed.
Lemma eof_spec P r x r1 : raw_eof r = (x, r1) -> within P r -> within P r1 /\ rw_data r1 = rw_data r /\ match x with Ok n => n = lenN (rw_data r) | Err e => reported P e end.
Proof.
  unfold raw_eof, next_step, within. intros H W. destruct (rw_plan r) as [|s p] eqn:Hp.
  - injection H as <- <-. cbn [rw_plan rw_data rs_err]. split; [now intros ? []|]. auto.
  - destruct (rs_err s) as [e|] eqn:He; injection H as <- <-; cbn [rw_plan rw_data]; (split; [intros z Hz; apply W; now right|split; [reflexivity|]]); [|reflexivity].
    exists s. split; [apply W; now left|exact He].
Qed.

(** ** The write buffer *)
(** The bytes of the file when the buffer has been written. *)
Definition over (w : wbuf) (r : raw) : bytes := overwrite (rw_data r) (wb_off w) (wb_data w).
Record wok (cap : N) (w : wbuf) : Prop := { wo_len : lenN (wb_data w) <= cap; wo_dirty : wb_data w <> [] -> wb_dirty w = true }.

Lemma flush_loop_spec P fuel : forall w r x w1 r1, flush_loop fuel w r = (x, w1, r1) -> (length (wb_data w) <= fuel)%nat -> (wb_data w <> [] -> wb_dirty w = true) -> within P r ->
  within P r1 /\ over w1 r1 = over w r /\ lenN (wb_data w1) <= lenN (wb_data w) /\ (wb_data w1 <> [] -> wb_dirty w1 = true) /\
  match x with Ok _ => wb_data w1 = [] | Err e => reported P e end.
Proof.
  induction fuel as [|m IH]; intros w r x w1 r1 H Hf Hd W; cbn [flush_loop] in H.
  - assert (Hw : wb_data w = []) by (destruct (wb_data w); [reflexivity|cbn in Hf; lia]). rewrite Hw in H. cbn [length] in H. rewrite lenN_nil in H. cbn in H. injection H as <- <- <-.
    unfold over. cbn [wb_data wb_off]. rewrite Hw. split; [exact W|]. split; [reflexivity|]. split; [lia|]. split; [now intros E; elim E|reflexivity].
  - destruct (N.eqb_spec (lenN (wb_data w)) 0) as [E0|E0].
    { apply lenN_0 in E0. cbn [orb] in H. injection H as <- <- <-. unfold over. cbn [wb_data wb_off wb_dirty]. rewrite E0. split; [exact W|]. split; [reflexivity|]. split; [lia|]. split; [now intros E; elim E|reflexivity]. }
    assert (Hne : wb_data w <> []) by (intros E; rewrite E, lenN_nil in E0; lia). rewrite (Hd Hne) in H. cbn [negb orb] in H.
    destruct (raw_pwrite r (wb_data w) (wb_off w)) as [[k|e] r2] eqn:Hp; destruct (pwrite_spec Hp W) as [W2 S2].
    + destruct S2 as (K1 & K2 & K3). specialize (K1 Hne).
      assert (Hdd : length (drop k (wb_data w)) = (length (wb_data w) - N.to_nat k)%nat) by (unfold drop; apply skipn_length).
      destruct (IH _ _ _ _ _ H) as (A1 & A2 & A3 & A4 & A5).
      * cbn [wb_data]. rewrite Hdd. unfold lenN in *. lia.
      * cbn [wb_data wb_dirty]. intros _. exact eq_refl.
      * exact W2.
      * split; [exact A1|]. split; [|split; [|split; [exact A4|exact A5]]].
        -- rewrite A2. unfold over. cbn [wb_data wb_off]. rewrite K3. now apply overwrite_rest.
        -- cbn [wb_data] in A3. rewrite lenN_drop in A3. lia.
    + destruct S2 as (R & k & K2 & K3). injection H as <- <- <-. split; [exact W2|]. split; [|split; [lia|split; [exact Hd|exact R]]].
      unfold over. rewrite K3. apply overwrite_again.
Qed.
Lemma flush_buffer_spec P cap w r x w1 r1 : flush_buffer w r = (x, w1, r1) -> wok cap w -> within P r ->
  within P r1 /\ over w1 r1 = over w r /\ wok cap w1 /\ match x with Ok _ => wb_data w1 = [] | Err e => reported P e end.
Proof.
  unfold flush_buffer. intros H [O1 O2] W. destruct (flush_loop_spec H (Nat.le_refl _) O2 W) as (A1 & A2 & A3 & A4 & A5).
  split; [exact A1|]. split; [exact A2|]. split; [constructor; [lia|exact A4]|exact A5].
Qed.
Lemma write_to_spec cap w b off k w1 r : write_to_buffer cap w b off = (k, w1) -> wok cap w ->
  wok cap w1 /\ k <= lenN b /\ over w1 r = overwrite (over w r) off (take k b) /\
  (wb_data w = [] -> k = N.min cap (lenN b)) /\ (k = lenN b \/ k = 0 \/ lenN (wb_data w1) = cap).
Proof.
  unfold write_to_buffer. intros H [O1 O2].
  destruct (N.eqb_spec (lenN (wb_data w)) 0) as [E0|E0].
  - apply lenN_0 in E0. cbn [negb andb] in H. injection H as <- <-. rewrite N.sub_diag, N.sub_0_r. unfold over. cbn [wb_data wb_off]. rewrite E0, take_nil, drop_nil, app_nil_r, overwrite_nil. cbn [app].
    split; [constructor; cbn [wb_data]; [rewrite lenN_take; lia|reflexivity]|]. split; [lia|]. split; [reflexivity|]. split; [reflexivity|]. rewrite lenN_take. lia.
  - assert (Hne : wb_data w <> []) by (intros E; rewrite E, lenN_nil in E0; lia). cbn [negb andb] in H.
    destruct (N.ltb_spec off (wb_off w)), (N.ltb_spec (wb_off w + lenN (wb_data w)) off); cbn [orb] in H;
      try (injection H as <- <-; rewrite take_0, overwrite_nil; split; [constructor; assumption|]; split; [lia|]; split; [reflexivity|]; split; [intros E; now elim Hne|auto]).
    injection H as <- <-. set (i := off - wb_off w) in *. set (k := N.min (cap - i) (lenN b)).
    assert (Hk : lenN (take k b) = k) by (rewrite lenN_take; lia).
    assert (Hl : lenN (take i (wb_data w) ++ take k b ++ drop (i + k) (wb_data w)) = N.max (lenN (wb_data w)) (i + k)) by (rewrite !lenN_app, Hk, lenN_take, lenN_drop; lia).
    split; [constructor; cbn [wb_data]; [rewrite Hl; lia|reflexivity]|]. split; [lia|]. split; [|split; [intros E; now elim Hne|]].
    + unfold over. cbn [wb_data wb_off]. rewrite <- Hk at 2. apply overwrite_merge. lia.
    + cbn [wb_data]. rewrite Hl. lia.
Qed.

(** ** The read buffers *)
Section Buffers.
Variable p : params.
Hypothesis Hr : 0 < bp_read p.

(** A buffer holds bytes of the file [l]. *)
Definition buf_ok (l : bytes) (b : rbuf) : Prop :=
  exists a, rb_key b = Some (a * bp_read p) /\ rb_off b = Some (a * bp_read p) /\ lenN (rb_data b) <= bp_read p /\
    rb_data b = take (lenN (rb_data b)) (drop (a * bp_read p) l).
Definition bufs_ok (l : bytes) (bs : list rbuf) : Prop := Forall (buf_ok l) bs /\ NoDup (map rb_key bs).

Lemma same_key_true k b : same_key k b = true <-> rb_key b = k.
Proof.
  unfold same_key. destruct k as [x|], (rb_key b) as [y|]; split; intros H; try discriminate; try reflexivity.
  - apply N.eqb_eq in H. now subst.
  - injection H as ->. apply N.eqb_refl.
Qed.
Lemma index_some k l i : index_of k l = Some i -> exists a b c, l = a ++ b :: c /\ length a = i /\ rb_key b = k.
Proof.
  revert i. induction l as [|x l IH]; intros i H; cbn [index_of] in H; [discriminate|]. destruct (same_key k x) eqn:Hk.
  - injection H as <-. apply same_key_true in Hk. exists [], x, l. auto.
  - destruct (index_of k l) as [j|]; [|discriminate]. injection H as <-. destruct (IH j eq_refl) as (a & b & c & -> & <- & Hb). exists (x :: a), b, c. auto.
Qed.
Lemma index_none k l : index_of k l = None <-> ~ In k (map rb_key l).
Proof.
  induction l as [|x l IH]; cbn [index_of map In]; [tauto|]. destruct (same_key k x) eqn:Hk.
  - apply same_key_true in Hk. split; [discriminate|]. intros H. elim H. auto.
  - assert (rb_key x <> k) by (intros E; apply same_key_true in E; congruence). destruct (index_of k l); split; intros; try discriminate; try tauto.
    + exfalso. destruct IH as [_ IH]. assert (Some n = None); [|discriminate]. apply IH. tauto.
Qed.
Lemma index_at a b c : ~ In (rb_key b) (map rb_key a) -> index_of (rb_key b) (a ++ b :: c) = Some (length a).
Proof.
  induction a as [|x a IH]; cbn [app index_of map In length]; intros H.
  - assert (E : same_key (rb_key b) b = true) by now apply same_key_true. now rewrite E.
  - destruct (same_key (rb_key b) x) eqn:Hk; [apply same_key_true in Hk; tauto|]. rewrite IH by tauto. reflexivity.
Qed.
Lemma change_at {A} (f : A -> A) a b c : change (length a) f (a ++ b :: c) = a ++ f b :: c.
Proof. induction a as [|x a IH]; cbn; [reflexivity|now rewrite IH]. Qed.
Lemma without_at {A} (a : list A) b c : without (length a) (a ++ b :: c) = a ++ c.
Proof. induction a as [|x a IH]; cbn; [reflexivity|now rewrite IH]. Qed.
Lemma nth_at {A} (a : list A) b c d : nth (length a) (a ++ b :: c) d = b.
Proof. rewrite app_nth2, Nat.sub_diag by lia. reflexivity. Qed.

(** The buffer that [find_buffer] chooses for the block [s], among the others. *)
Definition chosen (l : bytes) (s : N) (l1 : list rbuf) (i : nat) : Prop :=
  exists a b c, l1 = a ++ b :: c /\ length a = i /\ Forall (buf_ok l) (a ++ c) /\ ~ In (Some s) (map rb_key (a ++ c)) /\ NoDup (map rb_key l1) /\ rb_key b = rb_off b /\
    (buf_ok l b \/ b = no_buffer).

Lemma nodup_mid {A} (a c : list A) b : NoDup (a ++ b :: c) <-> NoDup (a ++ c) /\ ~ In b (a ++ c).
Proof.
  split; intros H.
  - now apply NoDup_remove in H.
  - destruct H as [H1 H2]. apply NoDup_Add with (a := b) (l := a ++ c); [apply Add_app|auto].
Qed.
Lemma find_chosen l bs off : 0 < bp_max p -> bufs_ok l bs -> exists l1 i, find_buffer p bs off = Ok (l1, i) /\ chosen l (off - off mod bp_read p) l1 i.
Proof.
  intros Hm [F Nd]. unfold find_buffer. destruct (N.eqb_spec (bp_read p) 0); [lia|]. set (s := off - off mod bp_read p).
  destruct (index_of (Some s) bs) as [i|] eqn:Hi.
  - destruct (index_some Hi) as (a & b & c & -> & <- & Hb). rewrite nth_at, without_at. eexists _, _. split; [reflexivity|].
    apply Forall_app in F. destruct F as [F1 F2]. pose proof (Forall_inv F2) as Fb. apply Forall_inv_tail in F2. rewrite map_app in Nd. cbn [map] in Nd. apply nodup_mid in Nd. destruct Nd as [N1 N2].
    exists [], b, (a ++ c). split; [reflexivity|]. split; [reflexivity|]. cbn [app]. split; [apply Forall_app; auto|]. split; [rewrite <- Hb, map_app; exact N2|].
    split; [cbn [map]; constructor; rewrite map_app; auto|]. split; [|now left]. destruct Fb as (q & K1 & K2 & _). congruence.
  - apply index_none in Hi. destruct (N.ltb_spec (lenN bs) (bp_max p)).
    + assert (Hn : ~ In None (map rb_key bs)). { intros H1. apply in_map_iff in H1. destruct H1 as (b & E & Hb). rewrite Forall_forall in F. destruct (F b Hb) as (q & K & _). congruence. }
      assert (Hn' : index_of None bs = None) by now apply index_none. rewrite Hn'. eexists _, _. split; [reflexivity|].
      exists [], no_buffer, bs. split; [reflexivity|]. split; [reflexivity|]. split; [exact F|]. split; [exact Hi|]. split; [cbn [map]; constructor; auto|]. split; [reflexivity|now right].
    + destruct bs as [|b0 bs0]; [rewrite lenN_nil in *; lia|]. eexists _, _. split; [reflexivity|]. assert (Hne : b0 :: bs0 <> []) by discriminate.
      destruct (exists_last Hne) as (a & b & E). rewrite E in *. exists a, b, []. split; [reflexivity|]. split; [rewrite app_length; cbn; lia|]. rewrite app_nil_r.
      apply Forall_app in F. destruct F as [F1 F2]. pose proof (Forall_inv F2) as Fb. split; [exact F1|]. split; [intros H1; apply Hi; rewrite map_app; apply in_or_app; auto|]. split; [exact Nd|].
      split; [|now left]. destruct Fb as (q & K1 & K2 & _). congruence.
Qed.
Lemma chosen_relocate l s l1 i : chosen l s l1 i -> relocate l1 (rb_off (nth i l1 no_buffer)) s = Ok (change i (fun _ => RBuf (Some s) (Some s) []) l1).
Proof.
  intros (a & b & c & -> & <- & F & Ni & Nd & Hk & _). rewrite nth_at, <- Hk. unfold relocate. rewrite index_at, without_at.
  - assert (E : index_of (Some s) (a ++ c) = None) by now apply index_none. now rewrite E.
  - rewrite map_app in Nd. cbn [map] in Nd. apply nodup_mid in Nd. destruct Nd as [_ N2]. intros H. apply N2, in_or_app. auto.
Qed.
Lemma chosen_nth l s l1 i f : chosen l s l1 i -> nth i (change i f l1) no_buffer = f (nth i l1 no_buffer) /\ forall g, change i g (change i f l1) = change i (fun x => g (f x)) l1.
Proof. intros (a & b & c & -> & <- & _). rewrite change_at, !nth_at. split; [reflexivity|]. intros g. now rewrite !change_at. Qed.
Lemma chosen_set l q l1 i d : chosen l (q * bp_read p) l1 i -> lenN d <= bp_read p -> d = take (lenN d) (drop (q * bp_read p) l) ->
  bufs_ok l (change i (fun _ => RBuf (Some (q * bp_read p)) (Some (q * bp_read p)) d) l1).
Proof.
  intros (a & b & c & -> & <- & F & Ni & Nd & Hk & _) Hd Hl. rewrite change_at. apply Forall_app in F. destruct F as [F1 F2]. split.
  - apply Forall_app. split; [exact F1|]. constructor; [|exact F2]. exists q. cbn [rb_key rb_off rb_data]. auto.
  - rewrite map_app in *. cbn [map rb_key] in *. apply nodup_mid in Nd. destruct Nd as [N1 _]. apply nodup_mid. auto.
Qed.
Lemma chosen_read l s l1 i n off : chosen l s l1 i -> read_from_buffer (nth i l1 no_buffer) n off <> [] -> bufs_ok l l1 /\ buf_ok l (nth i l1 no_buffer).
Proof.
  intros (a & b & c & -> & <- & F & Ni & Nd & Hk & [Hb| ->]); rewrite nth_at; [|now intros H; elim H]. intros _. split; [|exact Hb]. split; [|exact Nd].
  apply Forall_app in F. apply Forall_app. destruct F as [F1 F2]. split; [exact F1|]. now constructor.
Qed.
Lemma read_from_spec l b n off : buf_ok l b -> let g := read_from_buffer b n off in lenN g <= n /\ g = take (lenN g) (drop off l).
Proof.
  intros (q & K1 & K2 & K3 & K4). unfold read_from_buffer. rewrite K2. set (o := q * bp_read p) in *.
  destruct (N.ltb_spec off o), (N.leb_spec (o + lenN (rb_data b)) off); cbn [orb]; try (cbn; rewrite lenN_nil; split; [lia|reflexivity]).
  set (d := rb_data b) in *. set (m := N.min (lenN d - (off - o)) n). assert (Hm : lenN (take m (drop (off - o) d)) = m) by (rewrite lenN_take, lenN_drop; lia).
  cbv zeta. rewrite Hm. split; [lia|]. apply bytes_ext.
  - rewrite Hm, lenN_take, lenN_drop. pose proof (f_equal (@lenN N) K4) as L. rewrite lenN_take, lenN_drop in L. lia.
  - intros i Hi. rewrite Hm in Hi. rewrite !at_take, !at_drop. destruct (N.ltb_spec i m); [|lia]. rewrite K4, at_take, at_drop. destruct (N.ltb_spec (off - o + i) (lenN d)); [|lia]. f_equal. lia.
Qed.

(** Loading fills the buffer up to its capacity or the end of the file. *)
Lemma load_loop_spec P l o fuel : forall r d x d1 r1, load_loop fuel r o (bp_read p) d = (x, d1, r1) -> rw_data r = l -> within P r -> d = take (lenN d) (drop o l) -> lenN d < bp_read p ->
  bp_read p < N.of_nat fuel + lenN d ->
  within P r1 /\ rw_data r1 = l /\ lenN d1 <= bp_read p /\ d1 = take (lenN d1) (drop o l) /\ match x with Ok _ => d1 = take (bp_read p) (drop o l) | Err e => reported P e end.
Proof.
  induction fuel as [|m IH]; intros r d x d1 r1 H Hl W Hd Hc Hf; cbn [load_loop] in H; [lia|].
  destruct (raw_pread r (bp_read p - lenN d) (o + lenN d)) as [[b|e] r2] eqn:Hp; destruct (pread_spec Hp W) as (W2 & D2 & S2).
  - destruct S2 as (k & K1 & K2 & K3). rewrite Hl in K3. specialize (K2 ltac:(lia)). rewrite <- drop_drop in K3.
    assert (Hdb : d ++ b = take (lenN (d ++ b)) (drop o l)).
    { rewrite lenN_app. rewrite <- (take_drop (lenN d) (drop o l)). rewrite <- Hd. rewrite take_app_ge by lia. f_equal. replace (lenN d + lenN b - lenN d) with (lenN b) by lia.
      rewrite K3 at 2. rewrite lenN_take. rewrite K3. apply bytes_ext; [rewrite !lenN_take; lia|]. intros i Hi. rewrite !at_take. rewrite lenN_take in Hi.
      destruct (N.ltb_spec i k), (N.ltb_spec i (N.min k (lenN (drop (lenN d) (drop o l))))); try lia; reflexivity. }
    assert (Hlb : lenN b <= k) by (rewrite K3, lenN_take; lia).
    destruct (N.eqb_spec (lenN b) 0) as [E0|E0].
    + injection H as <- <- <-. split; [exact W2|]. split; [congruence|]. split; [lia|]. split; [exact Hd|].
      assert (Hend : lenN (drop o l) <= lenN d). { pose proof (f_equal (@lenN N) K3) as L. rewrite lenN_take, lenN_drop in L. lia. }
      rewrite take_all by lia. etransitivity; [exact Hd|]. apply take_all. exact Hend.
    + destruct (N.ltb_spec (lenN (d ++ b)) (bp_read p)).
      * apply IH in H; auto; [congruence|]. rewrite lenN_app. lia.
      * injection H as <- <- <-. rewrite lenN_app in *. assert (E : lenN d + lenN b = bp_read p) by lia. split; [exact W2|]. split; [congruence|]. split; [lia|]. split; [exact Hdb|].
        rewrite E in Hdb. exact Hdb.
  - injection H as <- <- <-. split; [exact W2|]. split; [congruence|]. split; [lia|]. split; [exact Hd|exact S2].
Qed.

Lemma block_start off : off - off mod bp_read p = off / bp_read p * bp_read p.
Proof.
  pose proof (N.div_mod off (bp_read p) ltac:(lia)) as H. rewrite (N.mul_comm (off / bp_read p)). revert H. generalize (bp_read p * (off / bp_read p)), (off mod bp_read p). intros a b ->. clear. lia.
Qed.
Lemma block_in off : off / bp_read p * bp_read p <= off < off / bp_read p * bp_read p + bp_read p.
Proof.
  pose proof (N.div_mod off (bp_read p) ltac:(lia)) as H. pose proof (N.mod_lt off (bp_read p) ltac:(lia)) as L. rewrite (N.mul_comm (off / bp_read p)). revert H L.
  generalize (bp_read p * (off / bp_read p)), (off mod bp_read p). intros a b -> L. clear - L. lia.
Qed.
Lemma take_more (g x : bytes) n : g = take (lenN g) x -> lenN g <= n -> g ++ take (n - lenN g) (drop (lenN g) x) = take n x.
Proof.
  intros Hg Hn. rewrite <- (take_drop (lenN g) x) at 2. rewrite <- Hg. rewrite take_app_ge by lia. reflexivity.
Qed.
Lemma pread_loop_spec P l fuel : 0 < bp_max p -> forall bs r n off acc x bs1 r1, pread_loop fuel p bs r n off acc = (x, bs1, r1) -> bufs_ok l bs -> rw_data r = l -> within P r ->
  (N.to_nat n <= fuel)%nat ->
  within P r1 /\ rw_data r1 = l /\ bufs_ok l bs1 /\ match x with Ok g => g = acc ++ take n (drop off l) | Err e => reported P e end.
Proof.
  intros Hm. induction fuel as [|m IH]; intros bs r n off acc x bs1 r1 H B Hl W Hf; cbn [pread_loop] in H.
  { assert (n = 0) by lia. subst n. cbn in H. injection H as <- <- <-. rewrite take_0, app_nil_r. auto. }
  destruct (N.eqb_spec n 0) as [->|Hn]; [injection H as <- <- <-; rewrite take_0, app_nil_r; auto|].
  destruct (find_chosen off Hm B) as (l1 & i & Hfb & Ch). rewrite Hfb in H. rewrite block_start in Ch.
  assert (Next : forall g bs2 r2, g <> [] -> g = take (lenN g) (drop off l) -> lenN g <= n -> bufs_ok l bs2 -> rw_data r2 = l -> within P r2 ->
    pread_loop m p bs2 r2 (n - lenN g) (off + lenN g) (acc ++ g) = (x, bs1, r1) ->
    within P r1 /\ rw_data r1 = l /\ bufs_ok l bs1 /\ match x with Ok g => g = acc ++ take n (drop off l) | Err e => reported P e end).
  { intros g bs2 r2 G1 G2 G3 B2 L2 W2 H2. pose proof (len_pos G1). apply IH in H2; auto; [|lia]. destruct H2 as (A1 & A2 & A3 & A4). split; [exact A1|]. split; [exact A2|]. split; [exact A3|].
    destruct x as [y|e]; [|exact A4]. rewrite A4, <- app_assoc. f_equal. rewrite <- drop_drop. now apply take_more. }
  destruct (N.eqb_spec (lenN (read_from_buffer (nth i l1 no_buffer) n off)) 0) as [E0|E0]; cbn [negb] in H.
  - rewrite block_start in H. rewrite (chosen_relocate Ch) in H. set (s := off / bp_read p * bp_read p) in *.
    destruct (chosen_nth (fun _ => RBuf (Some s) (Some s) []) Ch) as [C1 C2]. rewrite C1 in H. unfold load_buffer_from in H. cbn [rb_off rb_data rb_key] in H.
    assert (Hs : (if (s <? s) || (s + bp_read p <? s + (off + n - s)) then s else s) = s) by (destruct (_ || _); reflexivity). rewrite Hs in H.
    assert (Hd : (if (s <? s) || (s + bp_read p <? s + (off + n - s)) then @nil N else []) = []) by (destruct (_ || _); reflexivity). rewrite Hd in H.
    destruct (load_loop (S (N.to_nat (bp_read p))) r s (bp_read p) []) as [[y d1] r2] eqn:Hload.
    destruct (@load_loop_spec P l s _ _ _ _ _ _ Hload Hl W) as (A1 & A2 & A3 & A4 & A5); [reflexivity|exact Hr|rewrite lenN_nil; lia|].
    rewrite C2 in H. pose proof (chosen_set Ch A3 A4) as B2. destruct y as [[]|e].
    + set (b := RBuf (Some s) (Some s) d1) in *. assert (Bo : buf_ok l b) by (exists (off / bp_read p); cbn [rb_key rb_off rb_data b]; auto).
      destruct (N.eqb_spec (lenN (read_from_buffer b n off)) 0) as [E1|E1].
      * injection H as <- <- <-. split; [exact A1|]. split; [exact A2|]. split; [exact B2|].
        assert (Hoff : lenN l <= off).
        { apply lenN_0 in E1. unfold read_from_buffer in E1. cbn [rb_off rb_data b] in E1. pose proof (block_in off) as Bi. fold s in Bi.
          destruct (N.ltb_spec off s), (N.leb_spec (s + lenN d1) off); cbn [orb] in E1; try lia.
          - rewrite A5, lenN_take, lenN_drop in *. lia.
          - exfalso. apply (f_equal (@lenN N)) in E1. rewrite lenN_take, lenN_drop, lenN_nil in E1. lia. }
        rewrite (@drop_all _ _ _ Hoff), take_nil, app_nil_r. reflexivity.
      * destruct (read_from_spec n off Bo) as [R1 R2]. apply (Next (read_from_buffer b n off)) in H; auto. intros E. rewrite E, lenN_nil in E1. lia.
    + injection H as <- <- <-. auto.
  - assert (Hg : read_from_buffer (nth i l1 no_buffer) n off <> []) by (intros E; rewrite E, lenN_nil in E0; lia).
    destruct (chosen_read Ch Hg) as [B2 Bo]. destruct (read_from_spec n off Bo) as [R1 R2]. apply (Next _ _ _ Hg R2 R1 B2 Hl W H).
Qed.

(** A write empties the buffers of all blocks that it touches. *)
Lemma mult_next a b c : a * c < b * c + c -> a * c <= b * c.
Proof. intros H. destruct (N.le_gt_cases a b) as [L|L]; [now apply N.mul_le_mono_r|]. assert ((b + 1) * c <= a * c) by (apply N.mul_le_mono_r; lia). lia. Qed.
Definition away (l : bytes) (lo hi : N) (b : rbuf) : Prop := buf_ok l b /\ (rb_data b = [] \/ forall a, rb_key b = Some (a * bp_read p) -> a * bp_read p < lo \/ hi <= a * bp_read p).
Lemma empty_away l lo q bs : NoDup (map rb_key bs) -> Forall (away l lo (q * bp_read p)) bs ->
  NoDup (map rb_key (empty_at (q * bp_read p) bs)) /\ Forall (away l lo (q * bp_read p + bp_read p)) (empty_at (q * bp_read p) bs).
Proof.
  intros Nd F. unfold empty_at. assert (Up : forall b, away l lo (q * bp_read p) b -> rb_key b <> Some (q * bp_read p) -> away l lo (q * bp_read p + bp_read p) b).
  { intros b [B1 B2] Hk. split; [exact B1|]. destruct B2 as [B2|B2]; [now left|]. right. intros a Ha. destruct (B2 a Ha) as [B|B]; [now left|]. right.
    destruct (N.le_gt_cases (q * bp_read p + bp_read p) (a * bp_read p)) as [L|L]; [exact L|]. exfalso. apply Hk. rewrite Ha. f_equal. apply mult_next in L. lia. }
  destruct (index_of (Some (q * bp_read p)) bs) as [i|] eqn:Hi.
  - destruct (index_some Hi) as (a & b & c & -> & <- & Hb). rewrite change_at, map_app in *. cbn [map rb_key] in *. split; [exact Nd|]. apply nodup_mid in Nd. destruct Nd as [_ N2]. rewrite Hb in N2.
    apply Forall_app in F. destruct F as [F1 F2]. pose proof (Forall_inv F2) as Fb. apply Forall_inv_tail in F2.
    assert (Nk : forall z, In z a \/ In z c -> rb_key z <> Some (q * bp_read p)). { intros z Hz E. apply N2. apply in_or_app. rewrite <- E. destruct Hz; [left|right]; now apply in_map. }
    rewrite Forall_forall in F1, F2. apply Forall_app. split; [apply Forall_forall; intros z Hz; apply Up; auto|]. constructor; [|apply Forall_forall; intros z Hz; apply Up; auto].
    destruct Fb as [(a0 & K1 & K2 & _) _]. split; [|now left]. exists a0. cbn [rb_key rb_off rb_data]. split; [exact K1|]. split; [exact K2|]. rewrite lenN_nil. split; [lia|reflexivity].
  - apply index_none in Hi. split; [exact Nd|]. rewrite Forall_forall in *. intros b Hb. apply Up; auto. intros E. apply Hi. rewrite <- E. now apply in_map.
Qed.
Lemma invalidate_away l lo stop fuel : forall q bs, NoDup (map rb_key bs) -> Forall (away l lo (q * bp_read p)) bs -> stop <= q * bp_read p + N.of_nat fuel ->
  exists hi, stop <= hi /\ NoDup (map rb_key (invalidate_loop fuel (q * bp_read p) stop (bp_read p) bs)) /\ Forall (away l lo hi) (invalidate_loop fuel (q * bp_read p) stop (bp_read p) bs).
Proof.
  induction fuel as [|m IH]; intros q bs Nd F Hs; cbn [invalidate_loop].
  - exists (q * bp_read p). split; [lia|]. auto.
  - destruct (N.ltb_spec (q * bp_read p) stop).
    + destruct (empty_away Nd F) as [Nd1 F1]. replace (q * bp_read p + bp_read p) with ((q + 1) * bp_read p) in * by lia. apply IH; auto. lia.
    + exists (q * bp_read p). auto.
Qed.
Lemma invalidate_ok l bs off b k : bufs_ok l bs -> b <> [] -> k <= lenN b -> bufs_ok (overwrite l off (take k b)) (invalidate off (lenN b) (bp_read p) bs).
Proof.
  intros [F Nd] Hb Hk. unfold invalidate. pose proof (len_pos Hb) as Hp. destruct (N.eqb_spec (lenN b) 0); [lia|]. destruct (N.eqb_spec (bp_read p) 0); [lia|]. cbn [orb]. rewrite block_start.
  destruct (@invalidate_away l (off / bp_read p * bp_read p) (off + lenN b) (N.to_nat (off mod bp_read p + lenN b)) (off / bp_read p) bs) as (hi & H1 & H2 & H3).
  - exact Nd.
  - apply Forall_forall. intros x Hx. rewrite Forall_forall in F. split; [now apply F|]. right. intros a _. destruct (N.lt_ge_cases (a * bp_read p) (off / bp_read p * bp_read p)); auto.
  - rewrite N2Nat.id, <- block_start. lia.
  - split; [|exact H2]. rewrite Forall_forall in *. intros x Hx. destruct (H3 x Hx) as [(a & K1 & K2 & K3 & K4) Ha]. exists a. split; [exact K1|]. split; [exact K2|]. split; [exact K3|].
    destruct Ha as [E|Ha]; [rewrite E, lenN_nil; reflexivity|]. destruct (N.eq_dec (lenN (rb_data x)) 0) as [E|E]; [apply lenN_0 in E; rewrite E, lenN_nil; reflexivity|].
    pose proof (f_equal (@lenN N) K4) as L. rewrite lenN_take, lenN_drop in L. specialize (Ha a K1). pose proof (block_in off) as Bi.
    rewrite sub_overwrite; [exact K4|lia|]. rewrite lenN_take. destruct Ha as [Ha|Ha]; [left|right; lia].
    assert (a + 1 <= off / bp_read p) by (destruct (N.le_gt_cases (a + 1) (off / bp_read p)) as [A|A]; [exact A|]; assert (off / bp_read p * bp_read p <= a * bp_read p) by (apply N.mul_le_mono_r; lia); lia).
    assert ((a + 1) * bp_read p <= off / bp_read p * bp_read p) by now apply N.mul_le_mono_r. lia.
Qed.
Lemma append_ok l bs b : bufs_ok l bs -> bufs_ok (l ++ b) bs.
Proof.
  intros [F Nd]. split; [|exact Nd]. eapply Forall_impl; [|exact F]. intros x (a & K1 & K2 & K3 & K4). exists a. split; [exact K1|]. split; [exact K2|]. split; [exact K3|].
  destruct (N.eq_dec (lenN (rb_data x)) 0) as [E|E]; [apply lenN_0 in E; rewrite E, lenN_nil; reflexivity|]. pose proof (f_equal (@lenN N) K4) as L. rewrite lenN_take, lenN_drop in L.
  rewrite drop_app_le by lia. rewrite take_app_le by (rewrite lenN_drop; lia). exact K4.
Qed.
End Buffers.

(** ** Handles *)
Record inv (p : params) (P : list rstep) (h : handle) (l : bytes) (c : bool) : Prop := {
  iv_params : h_params h = p;
  iv_within : within P (h_raw h);
  iv_write : match h_write h with Some w => wok (bp_write p) w /\ over w (h_raw h) = l | None => rw_data (h_raw h) = l end;
  iv_read : match h_read h with Some bs => bufs_ok p l bs | None => True end;
  iv_clean : c = true -> pending h = []
}.
Lemma over_nil w r : wb_data w = [] -> over w r = rw_data r. Proof. unfold over. now intros ->. Qed.
Lemma inv_clean_data p P h l c : inv p P h l c -> pending h = [] -> rw_data (h_raw h) = l.
Proof. intros [_ _ H _ _] Hp. unfold pending in Hp. destruct (h_write h) as [w|]; [|exact H]. destruct H as [_ <-]. symmetry. now apply over_nil. Qed.
Lemma flush_spec p P h l c x h1 : flush h = (x, h1) -> inv p P h l c ->
  inv p P h1 l c /\ h_read h1 = h_read h /\ match x with Ok _ => inv p P h1 l true /\ pending h1 = [] | Err e => reported P e end.
Proof.
  intros H [I1 I2 I3 I4 I5]. unfold flush in H. destruct (h_write h) as [w|] eqn:Hw.
  - destruct (flush_buffer w (h_raw h)) as [[y w1] r1] eqn:Hf. injection H as <- <-. destruct I3 as [O3 E3]. destruct (flush_buffer_spec Hf O3 I2) as (A1 & A2 & A3 & A4).
    assert (Iv : forall c', (c' = true -> wb_data w1 = []) -> inv p P (Handle (h_params h) (Some w1) (h_read h) r1) l c').
    { intros c' Hc. constructor; cbn [h_params h_raw h_write h_read pending]; auto. split; [exact A3|congruence]. }
    split; [|split; [reflexivity|]].
    + apply Iv. intros ->. assert (E : wb_data w = []) by (specialize (I5 eq_refl); unfold pending in I5; now rewrite Hw in I5).
      unfold flush_buffer in Hf. rewrite E in Hf. cbn in Hf. rewrite E, lenN_nil in Hf. cbn in Hf. injection Hf as _ <- _. reflexivity.
    + destruct y; [|exact A4]. split; [now apply Iv|exact A4].
  - injection H as <- <-. assert (Hp : pending h = []) by (unfold pending; now rewrite Hw). split; [constructor; rewrite ?Hw; auto|]. split; [reflexivity|]. split; [constructor; rewrite ?Hw; auto|exact Hp].
Qed.
Lemma pread_ok p P h l c n off x h1 : 0 < bp_read p -> 0 < bp_max p -> buf_pread h n off = (x, h1) -> inv p P h l c ->
  match x with Ok g => inv p P h1 l true /\ g = take n (drop off l) | Err e => inv p P h1 l c /\ reported P e end.
Proof.
  intros Hr Hm H I. unfold buf_pread in H. destruct (flush h) as [[[]|e] h2] eqn:Hf; destruct (flush_spec Hf I) as (I2 & Hrd & S2); [|injection H as <- <-; auto].
  destruct S2 as [I3 Hp]. pose proof (inv_clean_data I3 Hp) as Hl. destruct I3 as [J1 J2 J3 J4 J5]. rewrite J1 in H.
  destruct (pread_loop _ _ _ _ _ _ _) as [[y bs] r1] eqn:Hlp. injection H as <- <-.
  destruct (@pread_loop_spec p Hr P l _ Hm _ _ _ _ _ _ _ _ Hlp) as (A1 & A2 & A3 & A4); [destruct (h_read h2); [exact J4|split; constructor]|exact Hl|exact J2|lia|].
  assert (Iv : inv p P (Handle p (h_write h2) (Some bs) r1) l true).
  { constructor; cbn [h_params h_raw h_write h_read]; auto. destruct (h_write h2) as [w|] eqn:Hw; [|exact A2]. destruct J3 as [O3 _]. split; [exact O3|]. unfold pending in Hp. rewrite Hw in Hp. rewrite (over_nil _ Hp). exact A2. }
  destruct y as [g|e]; [split; [exact Iv|exact A4]|]. split; [|exact A4]. destruct Iv as [V1 V2 V3 V4 V5]. constructor; auto.
Qed.
Lemma pwrite_ok p P h l c b off x h1 : 0 < bp_read p -> buf_pwrite h b off = (x, h1) -> inv p P h l c ->
  match x with
  | Ok k => k <= lenN b /\ (b <> [] -> 1 <= k) /\ inv p P h1 (overwrite l off (take k b)) (c && (lenN b =? 0))
  | Err e => reported P e /\ exists k, k <= lenN b /\ inv p P h1 (overwrite l off (take k b)) false
  end.
Proof.
  intros Hr H [I1 I2 I3 I4 I5]. unfold buf_pwrite in H. destruct (N.eqb_spec (lenN b) 0) as [E0|E0].
  { injection H as <- <-. apply lenN_0 in E0. subst b. rewrite take_nil, overwrite_nil, andb_true_r. split; [lia|]. split; [now intros E; elim E|]. constructor; auto. }
  assert (Hb : b <> []) by (intros E; rewrite E, lenN_nil in E0; lia). rewrite I1 in H.
  set (rd := match h_read h with Some l0 => Some (invalidate off (lenN b) (bp_read p) l0) | None => None end) in *.
  assert (Hrd : forall k, k <= lenN b -> match rd with Some bs => bufs_ok p (overwrite l off (take k b)) bs | None => True end).
  { intros k Hk. unfold rd. destruct (h_read h) as [bs|]; [|exact Logic.I]. now apply invalidate_ok. }
  set (w0 := match h_write h with Some w => w | None => WBuf 0 [] false end) in *.
  assert (H0 : wok (bp_write p) w0 /\ over w0 (h_raw h) = l).
  { unfold w0. destruct (h_write h) as [w|]; [exact I3|]. split; [|exact I3]. constructor; cbn [wb_data]; [rewrite lenN_nil; lia|now intros E; elim E]. }
  destruct H0 as [O0 E1]. clearbody w0. destruct (write_to_buffer (bp_write p) w0 b off) as [k w1] eqn:Hw. destruct (@write_to_spec _ _ _ _ _ _ (h_raw h) Hw O0) as (A1 & A2 & A3 & A4 & A5). rewrite E1 in A3.
  assert (Fl : exists x2 w2 r2, (if (lenN (wb_data w1) =? bp_write p) || (k =? 0) then flush_buffer w1 (h_raw h) else (Ok tt, w1, h_raw h)) = (x2, w2, r2) /\
    within P r2 /\ wok (bp_write p) w2 /\ over w2 r2 = overwrite l off (take k b) /\ match x2 with Ok _ => k < lenN b -> wb_data w2 = [] | Err e => reported P e end).
  { destruct (N.eqb_spec (lenN (wb_data w1)) (bp_write p)), (N.eqb_spec k 0); cbn [orb];
      try (destruct (flush_buffer w1 (h_raw h)) as [[x2 w2] r2] eqn:Hf; destruct (flush_buffer_spec Hf A1 I2) as (F1 & F2 & F3 & F4); exists x2, w2, r2;
        split; [reflexivity|]; split; [exact F1|]; split; [exact F3|]; split; [congruence|]; destruct x2; auto).
    exists (Ok tt), w1, (h_raw h). split; [reflexivity|]. split; [exact I2|]. split; [exact A1|]. split; [exact A3|]. intros Hk. lia. }
  destruct Fl as (x2 & w2 & r2 & Hfl & F1 & F2 & F3 & F4). rewrite Hfl in H.
  assert (Iv : forall w r m, within P r -> wok (bp_write p) w -> m <= lenN b -> over w r = overwrite l off (take m b) -> inv p P (Handle p (Some w) rd r) (overwrite l off (take m b)) false).
  { intros w r m V1 V2 V3 V4. constructor; cbn [h_params h_raw h_write h_read]; [reflexivity|exact V1|split; assumption|apply Hrd; exact V3|discriminate]. }
  assert (Ef : c && false = false) by apply andb_false_r.
  destruct x2 as [[]|e].
  2:{ injection H as <- <-. split; [exact F4|]. exists k. split; [exact A2|]. now apply Iv. }
  destruct (N.eqb_spec (lenN (drop k b)) 0) as [Er|Er]; rewrite lenN_drop in Er.
  { injection H as <- <-. split; [exact A2|]. split; [intros _; pose proof (len_pos Hb); lia|]. rewrite Ef. now apply Iv. }
  specialize (F4 ltac:(lia)). rewrite F4, lenN_nil, N.sub_0_r in H.
  assert (Sp : forall m, m <= lenN (drop k b) -> overwrite (overwrite l off (take k b)) (off + k) (take m (drop k b)) = overwrite l off (take (k + m) b)).
  { intros m Hm. rewrite lenN_drop in Hm. rewrite <- (@overwrite_rest l off (take (k + m) b) k) by (rewrite lenN_take; lia). f_equal.
    - rewrite take_take. do 2 f_equal. lia.
    - apply bytes_ext; [rewrite lenN_drop, !lenN_take, lenN_drop; lia|]. intros i _. rewrite at_drop, !at_take, at_drop. destruct (N.ltb_spec i m), (N.ltb_spec (k + i) (k + m)); try lia; reflexivity. }
  destruct (N.leb_spec (lenN (drop k b)) (bp_write p)) as [Hfit|Hfit].
  - destruct (write_to_buffer (bp_write p) w2 (drop k b) (off + k)) as [m w3] eqn:Hw3. destruct (@write_to_spec _ _ _ _ _ _ r2 Hw3 F2) as (G1 & G2 & G3 & G4 & G5).
    injection H as <- <-. rewrite lenN_drop in *. specialize (G4 F4). split; [lia|]. split; [intros _; lia|]. rewrite Ef. apply Iv; auto; [lia|]. rewrite G3, F3. apply Sp. rewrite ?lenN_drop. lia.
  - destruct (raw_pwrite r2 (drop k b) (off + k)) as [[m|e] r3] eqn:Hp; destruct (pwrite_spec Hp F1) as [G1 G2]; injection H as <- <-.
    + destruct G2 as (K1 & K2 & K3). assert (Hd : drop k b <> []) by (intros E; apply (f_equal (@lenN N)) in E; rewrite lenN_drop, lenN_nil in E; lia). specialize (K1 Hd).
      rewrite lenN_drop in *. split; [lia|]. split; [intros _; lia|]. rewrite Ef. apply Iv; auto; [lia|]. rewrite (over_nil r3 F4), K3. rewrite (over_nil r2 F4) in F3. rewrite F3. apply Sp. rewrite ?lenN_drop. lia.
    + destruct G2 as (R & m & K2 & K3). split; [exact R|]. exists (k + m). rewrite lenN_drop in *. split; [lia|]. apply Iv; auto; [lia|]. rewrite (over_nil r3 F4), K3. rewrite (over_nil r2 F4) in F3. rewrite F3. apply Sp. rewrite ?lenN_drop. lia.
Qed.
Lemma bsync_ok p P h l c x h1 : buf_sync h = (x, h1) -> inv p P h l c -> match x with Ok _ => inv p P h1 l true | Err e => inv p P h1 l c /\ reported P e end.
Proof.
  intros H I. unfold buf_sync in H. destruct (flush h) as [[[]|e] h2] eqn:Hf; destruct (flush_spec Hf I) as (I2 & Hrd & S2); [|injection H as <- <-; auto].
  destruct S2 as [I3 Hp]. destruct (raw_sync (h_raw h2)) as [y r] eqn:Hs. injection H as <- <-. destruct (sync_spec Hs (iv_within I3)) as (A1 & A2 & A3).
  assert (Iv : forall c', inv p P (set_raw h2 r) l c').
  { intros c'. destruct I3 as [J1 J2 J3 J4 J5]. unfold set_raw. constructor; cbn [h_params h_raw h_write h_read pending]; auto. destruct (h_write h2); [|congruence]. unfold over in *. rewrite A2. exact J3. }
  destruct y; [apply Iv|]. split; [apply Iv|exact A3].
Qed.
Lemma beof_ok p P h l c x h1 : buf_eof h = (x, h1) -> inv p P h l c -> inv p P h1 l c /\ match x with Ok n => c = true -> n = lenN l | Err e => reported P e end.
Proof.
  intros H I. unfold buf_eof in H. destruct (raw_eof (h_raw h)) as [y r] eqn:Hs. injection H as <- <-. destruct (eof_spec Hs (iv_within I)) as (A1 & A2 & A3). split.
  - destruct I as [J1 J2 J3 J4 J5]. unfold set_raw. constructor; cbn [h_params h_raw h_write h_read]; auto. destruct (h_write h); [|congruence]. unfold over in *. rewrite A2. exact J3.
  - destruct y; [|exact A3]. intros Hc. rewrite A3, (inv_clean_data I (iv_clean I Hc)). reflexivity.
Qed.
Lemma bfree_ok p P h l : inv p P h l true -> inv p P (buf_free h) l true.
Proof. intros I. pose proof (inv_clean_data I (iv_clean I eq_refl)) as Hl. destruct I as [J1 J2 J3 J4 J5]. constructor; cbn [buf_free set_read set_write h_params h_raw h_write h_read pending]; auto. Qed.
Lemma append_inv p P h l c b : 0 < bp_read p -> inv p P h l c -> pending h = [] -> inv p P (set_raw h (Raw (rw_data (h_raw h) ++ b) (rw_plan (h_raw h)))) (l ++ b) c.
Proof.
  intros Hr I Hp. pose proof (inv_clean_data I Hp) as Hl. destruct I as [J1 J2 J3 J4 J5]. unfold set_raw. constructor; cbn [h_params h_raw h_write h_read rw_plan rw_data]; auto.
  - destruct (h_write h) as [w|] eqn:Hw; [|congruence]. split; [apply J3|]. unfold pending in Hp. rewrite Hw in Hp. rewrite (over_nil _ Hp). cbn [rw_data]. congruence.
  - destruct (h_read h); [|exact Logic.I]. apply append_ok; [exact Hr|exact J4].
Qed.

Lemma calls_direct p P h t h1 : 0 < bp_read p -> 0 < bp_max p -> calls h t h1 -> forall l c, inv p P h l c -> careful c t = true ->
  exists l1 c1, direct (reported P) l c t l1 c1 /\ inv p P h1 l1 c1.
Proof.
  intros Hr Hm H. induction H; intros l c I Hc.
  - exists l, c. split; [constructor|exact I].
  - pose proof (pread_ok Hr Hm H I) as S. destruct x as [g|e]; cbn [careful] in Hc.
    + destruct S as [I1 ->]. destruct (IHcalls _ _ I1 Hc) as (l1 & c1 & D & I2). exists l1, c1. split; [now constructor|exact I2].
    + destruct S as [I1 R]. destruct (IHcalls _ _ I1 Hc) as (l1 & c1 & D & I2). exists l1, c1. split; [now constructor|exact I2].
  - pose proof (pwrite_ok Hr H I) as S. cbn [careful] in Hc. destruct x as [k|e].
    + destruct S as (K1 & K2 & I1). destruct (IHcalls _ _ I1 Hc) as (l1 & c1 & D & I2). exists l1, c1. split; [now constructor|exact I2].
    + destruct S as (R & k & K1 & I1). destruct (N.eqb_spec (lenN b) 0) as [E0|E0].
      * apply lenN_0 in E0. subst b. assert (Hn : buf_pwrite h [] off = (Ok 0, h)) by reflexivity. rewrite Hn in H. discriminate H.
      * rewrite andb_false_r in Hc. destruct (IHcalls _ _ I1 Hc) as (l1 & c1 & D & I2). exists l1, c1. split; [now apply dir_write_err with k|exact I2].
  - pose proof (bsync_ok H I) as S. destruct x as [[]|e]; cbn [careful] in Hc.
    + destruct (IHcalls _ _ S Hc) as (l1 & c1 & D & I2). exists l1, c1. split; [now constructor|exact I2].
    + destruct S as [I1 R]. destruct (IHcalls _ _ I1 Hc) as (l1 & c1 & D & I2). exists l1, c1. split; [now constructor|exact I2].
  - destruct (beof_ok H I) as [I1 S]. cbn [careful] in Hc. apply andb_true_iff in Hc. destruct Hc as [-> Hc]. destruct (IHcalls _ _ I1 Hc) as (l1 & c1 & D & I2). exists l1, c1. split; [|exact I2].
    destruct x as [n|e]; [rewrite (S eq_refl)|]; now constructor.
  - cbn [careful] in Hc. apply andb_true_iff in Hc. destruct Hc as [-> Hc]. destruct (IHcalls _ _ (bfree_ok I) Hc) as (l1 & c1 & D & I2). exists l1, c1. split; [now constructor|exact I2].
  - cbn [careful] in Hc. destruct (IHcalls _ _ (append_inv b Hr I H) Hc) as (l1 & c1 & D & I2). exists l1, c1. split; [now constructor|exact I2].
Qed.
