(** Proofs about the small components. *)
From Verif Require Import Base Alloc Bitmap SortedList Flags PSync SpecUtil CrcFacts.
Local Open Scope N_scope.
Unset Strict Implicit.
Ltac inv H := inversion H; subst; clear H.

(** ** Arena *)

(** The blocks [bs] lie in the chunks; those in the first chunk end below [next]. *)
Definition placed (S : list chunk) (next : N) (b : block) : Prop :=
  match S with
  | [] => False
  | c :: r => (inside b c /\ fst b + snd b <= next) \/ Exists (inside b) r
  end.
Definition snap (S : list chunk) (next : N) (bs : list block) : Prop :=
  Forall (placed S next) bs /\ ForallOrdPairs disjoint bs /\
  match S with [] => next = 0 | c :: _ => ch_start c <= next <= ch_end c end.
Inductive marks_ok : list chunk -> list (N * list block) -> Prop :=
| mo_nil S : marks_ok S []
| mo_cons newer S m old ms : snap S m old -> marks_ok S ms -> marks_ok (newer ++ S) ((m, old) :: ms).
Record arena_ok (a : arena) (bs : list block) (ms : list (N * list block)) : Prop := {
  ao_sys : system_ok a;
  ao_snap : snap (ar_chunks a) (ar_next a) bs;
  ao_end : match ar_chunks a with [] => True | c :: _ => ar_end a = ch_end c end;
  ao_marks : marks_ok (ar_chunks a) ms
}.

Lemma marks_more newer S ms : marks_ok S ms -> marks_ok (newer ++ S) ms.
Proof. intros H. inv H; [constructor|]. rewrite app_assoc. now constructor. Qed.
Lemma inside_apart x y c d : apart c d -> inside x c -> inside y d -> disjoint x y.
Proof. unfold apart, inside, disjoint. lia. Qed.
Lemma apart_sym c d : apart c d -> apart d c.
Proof. unfold apart. tauto. Qed.
Lemma ord_pairs_cons {A} (R : A -> A -> Prop) x l : ForallOrdPairs R (x :: l) <-> Forall (R x) l /\ ForallOrdPairs R l.
Proof. split; [intros H; inv H; auto|intros [? ?]; constructor; auto]. Qed.

Lemma alloc_unaligned_ok a bs ms n base p a' : arena_ok a bs ms -> arena_alloc_unaligned a n base = (p, a') -> system_ok a' -> arena_ok a' ((p, n) :: bs) ms.
Proof.
  intros [A1 (A2 & A3 & A4) A5 A6] H Sy.
  assert (Hnew : add_chunk a n base = (p, a') -> arena_ok a' ((p, n) :: bs) ms).
  { unfold add_chunk. intros He. inv He. constructor; [exact Sy| |reflexivity|].
    - cbn [ar_chunks ar_next]. destruct Sy as [S1 _]. cbn [ar_chunks] in S1. apply ord_pairs_cons in S1. destruct S1 as [S1 S2]. rewrite Forall_forall in S1.
      set (c := Chunk (base + HDR) (N.max n (ar_size a))) in *.
      assert (Hin : inside (ch_start c, n) c) by (unfold inside, ch_end; cbn; lia).
      assert (Hex : forall b, In b bs -> Exists (inside b) (ar_chunks a)).
      { intros b Hb. rewrite Forall_forall in A2. specialize (A2 b Hb). unfold placed in A2. destruct (ar_chunks a); [tauto|]. destruct A2 as [[A2 _]|A2]; [now left|now right]. }
      split; [|split].
      + constructor; [left; split; [exact Hin|cbn; lia]|]. rewrite Forall_forall. intros b Hb. right. apply Hex, Hb.
      + apply ord_pairs_cons. split; [|exact A3]. rewrite Forall_forall. intros b Hb. specialize (Hex b Hb). apply Exists_exists in Hex. destruct Hex as (d & Hd & Hi).
        exact (inside_apart (S1 d Hd) Hin Hi).
      + unfold ch_end. cbn. lia.
    - cbn [ar_chunks]. exact (marks_more [_] A6). }
  unfold arena_alloc_unaligned in H. destruct (N.eqb_spec (ar_next a) 0) as [Hz|Hz]; [exact (Hnew H)|]. destruct ((ar_end a <? ar_next a + n) || (ar_size a <? n)) eqn:Hb; [exact (Hnew H)|].
  apply orb_false_iff in Hb. destruct Hb as [Hb _]. apply N.ltb_ge in Hb. clear Hnew. inv H. constructor; [exact Sy| |exact A5|exact A6].
  cbn [ar_chunks ar_next]. destruct (ar_chunks a) as [|c r] eqn:Hc.
  - congruence.
  - rewrite A5 in Hb. destruct A1 as [S1 _]. rewrite Hc in S1. apply ord_pairs_cons in S1. destruct S1 as [S1 _]. rewrite Forall_forall in S1.
    assert (Hin : inside (ar_next a, n) c) by (unfold inside; cbn; lia).
    split; [|split; [|lia]].
    + constructor; [left; split; [exact Hin|cbn; lia]|]. eapply Forall_impl; [|exact A2]. intros b [[H1 H2]|H1]; [left; split; [exact H1|lia]|now right].
    + apply ord_pairs_cons. split; [|exact A3]. eapply Forall_impl; [|exact A2]. intros b [[H1 H2]|H1]; [right; cbn; lia|].
      apply Exists_exists in H1. destruct H1 as (d & Hd & Hi). exact (inside_apart (S1 d Hd) Hin Hi).
Qed.

Lemma shrink_ok a bs ms p n k : arena_ok a ((p, n + k) :: bs) ms -> arena_ok a ((p + k, n) :: bs) ms.
Proof.
  intros [A1 (A2 & A3 & A4) A5 A6]. constructor; auto. split; [|split; [|exact A4]].
  - inversion A2 as [|? ? H1 Hr]; subst. constructor; [|assumption]. unfold placed in *. destruct (ar_chunks a) as [|c r]; [assumption|].
    destruct H1 as [[H1 H2]|H1]; [left; unfold inside in *; cbn in *; lia|right]. apply Exists_exists in H1. destruct H1 as (d & Hd & Hi).
    apply Exists_exists. exists d. split; [exact Hd|]. unfold inside in *. cbn in *. lia.
  - apply ord_pairs_cons in A3. destruct A3 as [A3 A3']. apply ord_pairs_cons. split; [|exact A3']. eapply Forall_impl; [|exact A3]. intros b. unfold disjoint. cbn. lia.
Qed.
Lemma alloc_ok a bs ms n base p a' : arena_ok a bs ms -> arena_alloc a n base = (p, a') -> system_ok a' -> arena_ok a' ((p, n) :: bs) ms.
Proof.
  intros H. unfold arena_alloc. destruct (ar_next a mod 4 =? 0); [apply alloc_unaligned_ok, H|].
  destruct (arena_alloc_unaligned a (n + (4 - ar_next a mod 4)) base) as [r a1] eqn:Ha. intros He Sy. inv He. apply shrink_ok. eapply alloc_unaligned_ok; eassumption.
Qed.

Lemma pop_newer newer S m : ForallOrdPairs apart (newer ++ S) -> Forall (fun c => HDR < ch_start c) (newer ++ S) ->
  match S with [] => m = 0 | c :: _ => ch_start c <= m <= ch_end c end -> pop_chunks m (newer ++ S) = S.
Proof.
  intros A B C. induction newer as [|d newer IH]; cbn [app] in *.
  - destruct S as [|c r]; [reflexivity|]. cbn [pop_chunks]. destruct (N.ltb_spec m (ch_start c)); [lia|]. destruct (N.ltb_spec (ch_end c) m); [lia|]. reflexivity.
  - apply ord_pairs_cons in A. destruct A as [A1 A2]. inv B. cbn [pop_chunks].
    replace ((m <? ch_start d) || (ch_end d <? m)) with true; [apply IH; assumption|]. symmetry. apply orb_true_iff. rewrite !N.ltb_lt.
    destruct S as [|c r]; [lia|]. rewrite Forall_forall in A1. pose proof (A1 c ltac:(apply in_or_app; right; left; reflexivity)) as Ha.
    assert (Hc : HDR < ch_start c). { match goal with H : Forall _ (newer ++ _) |- _ => rewrite Forall_forall in H; apply H end. apply in_or_app. right. left. reflexivity. }
    unfold apart in Ha. unfold HDR in *. lia.
Qed.
Lemma suffix_sys {A} (R : A -> A -> Prop) x y : ForallOrdPairs R (x ++ y) -> ForallOrdPairs R y.
Proof. induction x as [|a x IH]; [auto|]. cbn. intros H. apply ord_pairs_cons in H. tauto. Qed.

(** A mark stands for a suffix of the chunks. *)
Lemma marks_split newer : forall S ms m old, marks_ok S (newer ++ (m, old) :: ms) -> exists x T, S = x ++ T /\ snap T m old /\ marks_ok T ms.
Proof.
  induction newer as [|[m1 old1] newer IH]; intros S ms m old H; cbn [app] in H; inv H.
  - eauto.
  - match goal with H : marks_ok _ _ |- _ => apply IH in H; destruct H as (x & T & -> & H1 & H2) end. exists (newer0 ++ x), T. split; [apply app_assoc|auto].
Qed.
Lemma free_ok a bs newer m old ms : arena_ok a bs (newer ++ (m, old) :: ms) -> exists a', arena_free_from_mark a m = Ok a' /\ arena_ok a' old ((m, old) :: ms).
Proof.
  intros [A1 A2 A3 A4]. destruct (marks_split A4) as (x & T & Hx & Sn & Mk). destruct A1 as [S1 S2]. rewrite Hx in S1, S2. unfold arena_free_from_mark.
  rewrite Hx, (pop_newer S1 S2) by apply Sn. pose proof (suffix_sys S1) as S1'. apply Forall_app in S2. destruct S2 as [_ S2].
  destruct T as [|c r].
  - destruct Sn as (B1 & B2 & B3). subst m. rewrite N.eqb_refl. eexists. split; [reflexivity|]. constructor; cbn [ar_chunks ar_next ar_end]; auto.
    + split; constructor.
    + split; [exact B1|split; [exact B2|reflexivity]].
    + apply (@mo_cons [] [] 0 old ms); [split; [exact B1|split; [exact B2|reflexivity]]|exact Mk].
  - eexists. split; [reflexivity|]. constructor; cbn [ar_chunks ar_next ar_end]; auto.
    + split; assumption.
    + apply (@mo_cons [] (c :: r) m old ms); assumption.
Qed.
Lemma free_all_ok a bs ms a' : arena_ok a bs ms -> arena_free_all a = Ok a' -> arena_ok a' [] [].
Proof.
  intros [[S1 S2] _ _ _]. unfold arena_free_all, arena_free_from_mark. rewrite <- (app_nil_r (ar_chunks a)) in S1, S2 |- *. rewrite (@pop_newer (ar_chunks a) [] 0 S1 S2 eq_refl), N.eqb_refl. intros H. inv H.
  constructor; cbn [ar_chunks ar_next ar_end]; auto; [split; constructor|repeat split; constructor|constructor].
Qed.
Lemma use_ok a bs ms : arena_use a bs ms -> arena_ok a bs ms.
Proof.
  induction 1 as [n|a bs ms n base p a' H IH Ha Sy|a bs ms n base p a' H IH Ha Sy|a bs ms H IH|a bs newer m old ms a' H IH Ha|a bs ms a' H IH Ha].
  - constructor; cbn; auto; [split; constructor|repeat split; constructor|constructor].
  - eapply alloc_ok; eassumption.
  - eapply alloc_unaligned_ok; eassumption.
  - destruct IH as [A1 A2 A3 A4]. constructor; auto. exact (@mo_cons [] (ar_chunks a) (ar_next a) bs ms A2 A4).
  - destruct (free_ok IH) as (a1 & H1 & H2). congruence.
  - eapply free_all_ok; eassumption.
Qed.

(** ** Bitmaps *)

Lemma upd_nth i v l j : (i < length l)%nat -> nth j (upd i v l) 0 = if Nat.eqb j i then v else nth j l 0.
Proof.
  revert i j. induction l as [|x l IH]; intros i j H; cbn [length] in H; [lia|]. destruct i as [|i], j as [|j]; cbn [upd nth Nat.eqb]; auto. apply IH. lia.
Qed.
Lemma upd_length i v l : length (upd i v l) = length l.
Proof. revert i. induction l as [|x l IH]; intros [|i]; cbn [upd length]; auto. Qed.
Lemma upd_bytes i v l : is_bytes l -> v < 256 -> is_bytes (upd i v l).
Proof. intros H Hv. revert i. induction H as [|x l Hx H IH]; intros [|i]; cbn [upd]; constructor; auto. apply IH. Qed.
Lemma nth_byte l i : is_bytes l -> nth i l 0 < 256.
Proof. intros H. destruct (nth_in_or_default i l 0) as [Hi| ->]; [|lia]. unfold is_bytes in H. rewrite Forall_forall in H. apply H, Hi. Qed.
Lemma land_bit x k : negb (N.land x (N.shiftl 1 k) =? 0) = N.testbit x k.
Proof.
  rewrite N.shiftl_1_l. destruct (N.testbit x k) eqn:Hb.
  - apply negb_true_iff, N.eqb_neq. intros H. apply (f_equal (fun z => N.testbit z k)) in H. rewrite N.land_spec, N.pow2_bits_true, N.bits_0, Hb in H. discriminate.
  - apply negb_false_iff, N.eqb_eq. apply N.bits_inj. intros i. rewrite N.land_spec, N.bits_0. destruct (N.eq_dec i k) as [->|Hn]; [now rewrite Hb|].
    rewrite N.pow2_bits_false by congruence. apply andb_false_r.
Qed.
Definition bit_of (bm : bitmap) (p : N) : bool := N.testbit (nth (N.to_nat (127 - p / 8)) bm 0) (p mod 8).
Lemma chunk_some p : p < 1024 -> chunk_index p = Some (N.to_nat (127 - p / 8)).
Proof. intros H. unfold chunk_index, CHUNKS. destruct (N.ltb_spec (p / 8) 128); [reflexivity|lia]. Qed.
Lemma is_bit_set_eq bm p : p < 1024 -> is_bit_set bm p = Ok (bit_of bm p).
Proof. intros H. unfold is_bit_set. rewrite (chunk_some H), land_bit. reflexivity. Qed.
Lemma same_place p b : p < 1024 -> b < 1024 -> ((Nat.eqb (N.to_nat (127 - p / 8)) (N.to_nat (127 - b / 8)) && (p mod 8 =? b mod 8)) = (p =? b))%bool.
Proof.
  intros Hp Hb. destruct (Nat.eqb_spec (N.to_nat (127 - p / 8)) (N.to_nat (127 - b / 8))) as [H|H], (N.eqb_spec (p mod 8) (b mod 8)) as [H2|H2], (N.eqb_spec p b) as [H3|H3]; cbn; auto; exfalso; try lia; subst; auto.
Qed.
Lemma set_bit_ok bm b : bitmap_ok bm -> b < 1024 -> exists bm', set_bit bm b = Ok bm' /\ bitmap_ok bm' /\ forall p, p < 1024 -> bit_of bm' p = ((p =? b) || bit_of bm p)%bool.
Proof.
  intros [L B] Hb. unfold set_bit. rewrite (chunk_some Hb). eexists. split; [reflexivity|]. set (i := N.to_nat (127 - b / 8)).
  assert (Hi : (i < length bm)%nat) by (rewrite L; unfold i; lia).
  assert (Hv : N.lor (nth i bm 0) (N.shiftl 1 (chunk_offset b)) < 2^8).
  { apply bits_lt. intros j Hj. rewrite N.lor_spec, (@lt_bits 8 _ j (nth_byte i B) Hj), N.shiftl_1_l, N.pow2_bits_false; [reflexivity|]. unfold chunk_offset. lia. }
  split; [split; [rewrite upd_length; exact L|apply upd_bytes; [exact B|exact Hv]]|].
  intros p Hp. unfold bit_of. rewrite (upd_nth _ _ Hi), <- (same_place Hp Hb). fold i. destruct (Nat.eqb_spec (N.to_nat (127 - p / 8)) i) as [He|He].
  - rewrite He, N.lor_spec, N.shiftl_1_l. rewrite orb_comm. f_equal. cbn [andb]. unfold chunk_offset. destruct (N.eqb_spec (p mod 8) (b mod 8)) as [->|Hn]; [apply N.pow2_bits_true|apply N.pow2_bits_false; congruence].
  - reflexivity.
Qed.
Lemma mask_bits k i : k < 8 -> i < 8 -> N.testbit (255 - N.shiftl 1 k) i = negb (i =? k).
Proof.
  intros Hk Hi. assert (C : forallb (fun a => forallb (fun b => Bool.eqb (N.testbit (255 - N.shiftl 1 a) b) (negb (b =? a))) [0;1;2;3;4;5;6;7]) [0;1;2;3;4;5;6;7] = true) by (vm_compute; reflexivity).
  assert (D : forall x, x < 8 -> In x [0;1;2;3;4;5;6;7]) by (intros x Hx; cbn; lia).
  rewrite forallb_forall in C. specialize (C k (D k Hk)). rewrite forallb_forall in C. specialize (C i (D i Hi)). apply Bool.eqb_prop, C.
Qed.
Lemma unset_bit_ok bm b : bitmap_ok bm -> b < 1024 -> exists bm', unset_bit bm b = Ok bm' /\ bitmap_ok bm' /\ forall p, p < 1024 -> bit_of bm' p = (negb (p =? b) && bit_of bm p)%bool.
Proof.
  intros [L B] Hb. unfold unset_bit. rewrite (chunk_some Hb). eexists. split; [reflexivity|]. set (i := N.to_nat (127 - b / 8)).
  assert (Hi : (i < length bm)%nat) by (rewrite L; unfold i; lia).
  assert (Hv : N.land (nth i bm 0) (255 - N.shiftl 1 (chunk_offset b)) < 2^8).
  { apply bits_lt. intros j Hj. rewrite N.land_spec, (@lt_bits 8 _ j (nth_byte i B) Hj). reflexivity. }
  split; [split; [rewrite upd_length; exact L|apply upd_bytes; [exact B|exact Hv]]|].
  intros p Hp. unfold bit_of. rewrite (upd_nth _ _ Hi), <- (same_place Hp Hb). fold i. destruct (Nat.eqb_spec (N.to_nat (127 - p / 8)) i) as [He|He].
  - rewrite He, N.land_spec, andb_comm. f_equal. cbn [andb]. unfold chunk_offset. apply mask_bits; lia.
  - reflexivity.
Qed.
Lemma zip_nth f a b i : length a = length b -> f 0 0 = 0 -> nth i (zip f a b) 0 = f (nth i a 0) (nth i b 0).
Proof.
  revert b i. induction a as [|x a IH]; intros [|y b] i; cbn [length zip]; try discriminate; intros L F.
  - now destruct i; cbn.
  - destruct i; cbn [nth]; [reflexivity|]. apply IH; [congruence|exact F].
Qed.
Lemma zip_ok f a b : bitmap_ok a -> bitmap_ok b -> (forall x y, x < 256 -> y < 256 -> f x y < 256) -> bitmap_ok (zip f a b).
Proof.
  intros [L1 B1] [L2 B2] F. split.
  - assert (H : forall a b, length a = length b -> length (zip f a b) = length a) by (clear; induction a as [|x a IH]; intros [|y b]; cbn; try discriminate; intros H; [reflexivity|]; f_equal; apply IH; congruence).
    rewrite H by congruence. exact L1.
  - clear L1 L2. revert b B2. induction B1 as [|x a Hx B1 IH]; intros b B2; [constructor|]. destruct B2 as [|y b Hy B2]; cbn [zip]; [constructor|]. constructor; [apply F; assumption|apply IH, B2].
Qed.
Lemma equal_bits a b : bitmap_ok a -> bitmap_ok b -> (forall p, p < 1024 -> bit_of a p = bit_of b p) -> a = b.
Proof.
  intros [L1 B1] [L2 B2] H. apply (nth_ext a b 0 0); [congruence|]. intros i Hi. rewrite L1 in Hi. apply N.bits_inj. intros j. destruct (N.lt_ge_cases j 8) as [Hj|Hj].
  - specialize (H (8 * (127 - N.of_nat i) + j) ltac:(lia)). unfold bit_of in H.
    replace ((8 * (127 - N.of_nat i) + j) mod 8) with j in H by lia. replace (N.to_nat (127 - (8 * (127 - N.of_nat i) + j) / 8)) with i in H by lia. exact H.
  - rewrite (@lt_bits 8 _ j (nth_byte i B1) Hj), (@lt_bits 8 _ j (nth_byte i B2) Hj). reflexivity.
Qed.
Lemma is_equal_eq a : forall b, is_equal_bitmap a b = true <-> a = b.
Proof.
  induction a as [|x a IH]; intros [|y b]; cbn [is_equal_bitmap]; split; try discriminate; auto.
  - rewrite andb_true_iff, IH, N.eqb_eq. now intros [-> ->].
  - intros H. inv H. rewrite N.eqb_refl. cbn. now apply IH.
Qed.

(** The bit of the number. *)
Lemma number_app l : forall x, fold_left (fun a b => 256 * a + b) l x = x * 256^(lenN l) + number l.
Proof.
  unfold number. induction l as [|b l IH]; intros x; cbn [fold_left].
  - unfold lenN. cbn [length]. change (256^N.of_nat 0) with 1. lia.
  - rewrite IH, (IH (256 * 0 + b)). unfold lenN. cbn [length]. rewrite Nat2N.inj_succ, N.pow_succ_r'. lia.
Qed.
Lemma number_cons b l : number (b :: l) = b * 256^(lenN l) + number l.
Proof. unfold number at 1. cbn [fold_left]. rewrite number_app. lia. Qed.
Lemma number_lt l : is_bytes l -> number l < 256^(lenN l).
Proof.
  intros H. induction H as [|b l Hb H IH]; [reflexivity|]. rewrite number_cons. unfold lenN in *. cbn [length]. rewrite Nat2N.inj_succ, N.pow_succ_r'. unfold is_byte in Hb. nia.
Qed.
Lemma number_bit l : is_bytes l -> forall p, p < 8 * lenN l -> N.testbit (number l) p = N.testbit (nth (length l - 1 - N.to_nat (p / 8)) l 0) (p mod 8).
Proof.
  intros H. induction H as [|b l Hb H IH]; intros p Hp; [unfold lenN in Hp; cbn in Hp; lia|]. rewrite number_cons. pose proof (number_lt H) as Hl.
  change 256 with (2^8) in *. rewrite <- N.pow_mul_r in *. unfold lenN in *. cbn [length] in *.
  destruct (N.lt_ge_cases p (8 * N.of_nat (length l))) as [Hlt|Hge].
  - rewrite <- (N.mod_pow2_bits_low _ (8 * N.of_nat (length l)) p) by exact Hlt. rewrite N.add_comm, N.mod_add by (apply N.pow_nonzero; discriminate).
    rewrite N.mod_pow2_bits_low by exact Hlt. rewrite (IH p Hlt). replace (S (length l) - 1 - N.to_nat (p / 8))%nat with (S (length l - 1 - N.to_nat (p / 8))) by lia. reflexivity.
  - replace (S (length l) - 1 - N.to_nat (p / 8))%nat with 0%nat by lia. cbn [nth].
    replace p with ((p - 8 * N.of_nat (length l)) + 8 * N.of_nat (length l)) at 1 by lia. rewrite <- N.shiftr_spec by lia. rewrite N.shiftr_div_pow2, N.div_add_l by (apply N.pow_nonzero; discriminate).
    rewrite N.div_small by exact Hl. rewrite N.add_0_r. f_equal. lia.
Qed.

(** ** Flags *)

Lemma field_flag flags k n : has_flag flags (N.shiftl (N.ones n) k) = negb ((flags / 2^k) mod 2^n =? 0).
Proof.
  unfold has_flag. f_equal. rewrite <- N.land_ones, <- N.shiftr_div_pow2.
  assert (H : N.land flags (N.shiftl (N.ones n) k) = N.shiftl (N.land (N.shiftr flags k) (N.ones n)) k).
  { apply N.bits_inj. intros i. rewrite N.land_spec. destruct (N.lt_ge_cases i k) as [Hi|Hi].
    - rewrite !N.shiftl_spec_low by exact Hi. apply andb_false_r.
    - rewrite !N.shiftl_spec_high' by exact Hi. rewrite N.land_spec, N.shiftr_spec'. do 2 f_equal. lia. }
  rewrite H. destruct (N.eqb_spec (N.land (N.shiftr flags k) (N.ones n)) 0) as [->|Hn]; [now rewrite N.shiftl_0_l|].
  apply N.eqb_neq. intros Hz. apply Hn. apply N.shiftl_eq_0_iff in Hz. exact Hz.
Qed.

(** ** Sorted lists *)

Section SL.
Variable A : Type.
Variable cmp : A -> A -> comparison.
Hypothesis T : total_order cmp.
Notation lt := (fun x y => cmp x y = Lt).

Lemma cmp_gt x y : cmp x y = Gt <-> cmp y x = Lt.
Proof. rewrite (to_anti T x y). destruct (cmp x y); cbn; split; congruence. Qed.
Lemma cmp_eq x y : cmp x y = Eq <-> cmp y x = Eq.
Proof. rewrite (to_anti T x y). destruct (cmp x y); cbn; split; congruence. Qed.
Lemma cmp_eq_r x y z : cmp x y = Eq -> cmp z x = cmp z y.
Proof. intros H. rewrite (to_anti T x z), (to_anti T y z), (to_eq T x y z H). reflexivity. Qed.

Lemma hd_trans x y l : cmp x y = Lt -> Forall (lt y) l -> Forall (lt x) l.
Proof. intros H F. rewrite Forall_forall in *. intros z Hz. apply (to_trans T x y z H), F, Hz. Qed.

Lemma add_elem_in e l x : In x (fst (add_elem cmp e l)) -> x = e \/ In x l.
Proof.
  induction l as [|n r IH]; cbn [add_elem]; [cbn; intuition|]. destruct (cmp n e); cbn.
  - intros [->|H]; auto.
  - destruct (add_elem cmp e r) as [r' b]. cbn in *. intros [->|H]; auto. destruct (IH H); auto.
  - intros [->|[->|H]]; auto.
Qed.
Lemma add_elem_sorted e l : StronglySorted lt l -> StronglySorted lt (fst (add_elem cmp e l)).
Proof.
  intros S. induction S as [|n r S IH F]; cbn [add_elem]; [repeat constructor|]. destruct (cmp n e) eqn:C.
  - constructor; [exact S|]. rewrite Forall_forall in *. intros z Hz. rewrite <- (to_eq T n e z C). auto.
  - pose proof (fun x => @add_elem_in e r x) as I. destruct (add_elem cmp e r) as [r' b]. cbn [fst] in *. constructor; [exact IH|]. rewrite Forall_forall in *. intros z Hz. destruct (I z Hz) as [->|Hr]; auto.
  - cbn [fst]. apply cmp_gt in C. constructor; [constructor; assumption|]. constructor; [exact C|]. apply (hd_trans C F).
Qed.
Lemma add_elem_length e l : length (fst (add_elem cmp e l)) = if snd (add_elem cmp e l) then length l else S (length l).
Proof.
  induction l as [|n r IH]; cbn [add_elem]; [reflexivity|]. destruct (cmp n e); try reflexivity. destruct (add_elem cmp e r) as [r' []]; cbn in *; auto.
Qed.
Lemma remove_elem_in e l x : In x (fst (remove_elem cmp e l)) -> In x l.
Proof.
  induction l as [|n r IH]; cbn [remove_elem]; [auto|]. destruct (cmp n e); cbn; auto. destruct (remove_elem cmp e r) as [r' b]. cbn in *. intros [->|H]; auto.
Qed.
Lemma remove_elem_sorted e l : StronglySorted lt l -> StronglySorted lt (fst (remove_elem cmp e l)).
Proof.
  intros S. induction S as [|n r S IH F]; cbn [remove_elem]; [constructor|]. destruct (cmp n e) eqn:C; cbn [fst]; auto.
  - pose proof (fun x => @remove_elem_in e r x) as I. destruct (remove_elem cmp e r) as [r' b]. cbn [fst] in *. constructor; [exact IH|]. rewrite Forall_forall in *. auto.
  - constructor; assumption.
Qed.
Lemma remove_elem_length e l : Z.of_nat (length (fst (remove_elem cmp e l))) = (if snd (remove_elem cmp e l) then Z.of_nat (length l) - 1 else Z.of_nat (length l))%Z.
Proof.
  induction l as [|n r IH]; cbn [remove_elem]; [reflexivity|]. destruct (cmp n e); cbn [fst snd length]; try lia. destruct (remove_elem cmp e r) as [r' []]; cbn [fst snd length] in *; lia.
Qed.
Lemma sl_sorted l : slist_use cmp l -> StronglySorted lt (sl_elems l) /\ sl_length l = Z.of_nat (length (sl_elems l)).
Proof.
  intros H. induction H as [|l e H [S L]|l e H [S L]]; [split; [constructor|reflexivity]| |].
  - unfold sorted_list_add. pose proof (@add_elem_sorted e _ S) as S'. pose proof (add_elem_length e (sl_elems l)) as L'. destruct (add_elem cmp e (sl_elems l)) as [r []]; cbn [fst snd sl_elems sl_length] in *; split; auto; lia.
  - unfold sorted_list_remove. pose proof (@remove_elem_sorted e _ S) as S'. pose proof (remove_elem_length e (sl_elems l)) as L'. destruct (remove_elem cmp e (sl_elems l)) as [r []]; cbn [fst snd sl_elems sl_length] in *; split; auto; lia.
Qed.
Lemma iterate_all (l : list A) : iterate (S (length l)) l = l.
Proof. assert (H : forall l : list A, forall n, (length l < n)%nat -> iterate n l = l) by (clear; induction l as [|x l IH]; intros [|n] Hn; cbn in *; try lia; [reflexivity|]; f_equal; apply IH; lia). apply H. lia. Qed.
Lemma all_of_eq (l : slist A) : all_of l = sl_elems l.
Proof. apply iterate_all. Qed.
Lemma get_some e l x : StronglySorted lt l -> (get_elem cmp e l = Some x <-> In x l /\ cmp x e = Eq).
Proof.
  intros S. induction S as [|n r S IH F]; cbn [get_elem].
  - split; [discriminate|intros [[] _]].
  - destruct (cmp n e) eqn:C.
    + split; [intros H; inv H; split; [left; reflexivity|exact C]|]. intros [[->|Hx] Hc]; [reflexivity|]. rewrite Forall_forall in F. specialize (F x Hx). rewrite (@cmp_eq_r x e n Hc) in F. congruence.
    + rewrite IH. split; [intros [H1 H2]; split; [right|]; assumption|]. intros [[->|Hx] Hc]; [congruence|]. split; assumption.
    + split; [discriminate|]. intros [[->|Hx] Hc]; [congruence|]. rewrite Forall_forall in F. specialize (F x Hx). rewrite (@cmp_eq_r x e n Hc) in F. congruence.
Qed.
Lemma add_in e l x : StronglySorted lt l -> (In x (fst (add_elem cmp e l)) <-> x = e \/ (In x l /\ cmp x e <> Eq)).
Proof.
  intros S. induction S as [|n r S IH F]; cbn [add_elem].
  - cbn. intuition.
  - rewrite Forall_forall in F. destruct (cmp n e) eqn:C.
    + cbn. split; [intros [H|H]; [auto|]|intros [H|[[H|H] Hc]]; [auto|subst; congruence|auto]]. right. split; [auto|]. intros Hc. specialize (F x H). rewrite (@cmp_eq_r x e n Hc) in F. congruence.
    + destruct (add_elem cmp e r) as [r' b]. cbn [fst In] in *. rewrite IH. split.
      * intros [->|[->|[H1 H2]]]; auto. right. split; [auto|congruence].
      * intros [->|[[->|H1] H2]]; auto.
    + cbn [fst In]. split.
      * intros [->|[->|H]]; [auto| |]; right; split; auto; [congruence|]. intros Hc. specialize (F x H). rewrite (@cmp_eq_r x e n Hc) in F. congruence.
      * intros [->|[[->|H1] H2]]; auto.
Qed.
Lemma remove_in e l x : StronglySorted lt l -> (In x (fst (remove_elem cmp e l)) <-> In x l /\ cmp x e <> Eq).
Proof.
  intros S. induction S as [|n r S IH F]; cbn [remove_elem].
  - cbn. intuition.
  - rewrite Forall_forall in F. destruct (cmp n e) eqn:C.
    + cbn [fst In]. split; [intros H|intros [[->|H] Hc]; [congruence|exact H]]. split; [auto|]. intros Hc. specialize (F x H). rewrite (@cmp_eq_r x e n Hc) in F. congruence.
    + destruct (remove_elem cmp e r) as [r' b]. cbn [fst In] in *. rewrite IH. split.
      * intros [->|[H1 H2]]; [split; [auto|congruence]|auto].
      * intros [[->|H1] H2]; auto.
    + cbn [fst In]. split; [intros H|intros [H _]; exact H]. split; [exact H|]. intros Hc. destruct H as [->|H]; [congruence|]. specialize (F x H). rewrite (@cmp_eq_r x e n Hc) in F. congruence.
Qed.
End SL.

(** ** Periodic sync *)

Lemma ps_inv period l f : 0 < period -> period < 2^63 -> Forall ps_fine l -> pf_period f = period -> pf_unsynced f <= pf_count f < period ->
  pf_period (ps_run l f) = period /\ pf_unsynced (ps_run l f) <= pf_count (ps_run l f) < period.
Proof.
  intros H0 H1 F. revert f. induction F as [|o l Ho F IH]; intros f Hp Hu; [split; [exact Hp|exact Hu]|]. cbn [ps_run fold_left]. apply IH.
  - destruct o as [[n|] ok|[]]; cbn [ps_step ps_pwrite ps_sync snd pf_period]; auto. destruct Ho as [_ ->]. cbn [pf_period pf_count]. destruct (_ && _)%bool; exact Hp.
  - destruct o as [[n|] ok|[]]; cbn [ps_step ps_pwrite ps_sync snd pf_period pf_count pf_unsynced]; auto; [|lia]. destruct Ho as [Hn ->].
    rewrite N.mod_small by lia. rewrite Hp. destruct (N.ltb_spec 0 period); [|lia]. cbn [andb]. destruct (N.leb_spec period (pf_count f + n)); cbn [ps_sync snd pf_period pf_count pf_unsynced]; lia.
Qed.

(** ** Fatbuf *)

Lemma fatbuf_gets_ok sizes : forall fb, fb_pos fb <= fb_size fb ->
  Forall (fun x => match snd x with Some p => fb_pos fb <= p /\ p + fst x <= fb_size fb | None => True end) (fatbuf_gets fb sizes)
  /\ ForallOrdPairs (fun x y => match snd x, snd y with Some p, Some q => p + fst x <= q | _, _ => True end) (fatbuf_gets fb sizes).
Proof.
  induction sizes as [|n r IH]; intros fb Hp; cbn [fatbuf_gets]; [split; constructor|]. unfold fatbuf_get.
  destruct (N.ltb_spec (fb_size fb) (fb_pos fb)); [lia|]. cbn [orb]. destruct (N.ltb_spec (fb_size fb - fb_pos fb) n) as [Hn|Hn].
  - destruct (IH fb Hp) as [F P]. split; constructor; cbn [snd]; auto. rewrite Forall_forall. intros x _. destruct (snd x); exact Logic.I.
  - destruct (IH (Fatbuf (fb_size fb) (fb_pos fb + n))) as [F P]; cbn [fb_pos fb_size] in *; [lia|]. split; constructor; cbn [fst snd]; auto.
    + lia.
    + eapply Forall_impl; [|exact F]. intros [m [q|]]; cbn; lia.
    + eapply Forall_impl; [|exact F]. intros [m [q|]]; cbn; lia.
Qed.
Lemma fatbuf_gets_app s1 : forall s2 fb, fatbuf_gets fb (s1 ++ s2) = fatbuf_gets fb s1 ++ fatbuf_gets (Fatbuf (fb_size fb) (fb_pos fb + granted (fatbuf_gets fb s1))) s2.
Proof.
  induction s1 as [|n r IH]; intros s2 fb; cbn [app fatbuf_gets].
  - cbn [granted fold_right app]. rewrite N.add_0_r. now destruct fb.
  - unfold fatbuf_get at 1 2 3. destruct (_ || _)%bool; cbn [app granted fold_right fst snd]; f_equal; rewrite IH; [reflexivity|].
    cbn [fb_size fb_pos]. do 3 f_equal. unfold granted. cbn [fold_right]. lia.
Qed.
Lemma granted_le sizes : forall fb, fb_pos fb <= fb_size fb -> fb_pos fb + granted (fatbuf_gets fb sizes) <= fb_size fb.
Proof.
  induction sizes as [|n r IH]; intros fb Hp; cbn [fatbuf_gets]; [cbn; lia|]. unfold fatbuf_get.
  destruct (N.ltb_spec (fb_size fb) (fb_pos fb)); [lia|]. cbn [orb]. destruct (N.ltb_spec (fb_size fb - fb_pos fb) n) as [Hn|Hn]; cbn [granted fold_right fst snd].
  - apply (IH fb Hp).
  - specialize (IH (Fatbuf (fb_size fb) (fb_pos fb + n))). cbn [fb_pos fb_size] in IH. unfold granted in IH. lia.
Qed.
