(** What cleaning up a view index leaves, for the index by document id and for views. *)
From Verif Require Import Base Codec CodecFacts File FileFacts ChunkFacts Btree TreeStore SpecMap MergeFacts ModifyFacts SpecFile DataFacts SpecSession DbFacts SessionFacts SaveFacts ReadFacts Bitmap SpecUtil UtilFacts
  ViewCodec SpecView ViewFacts Reducers IndexHeader Cleanup ViewGroup SpecCleanup PurgeFacts BulkFacts ModifyPurgeFacts.
Local Open Scope N_scope.
Unset Strict Implicit.

Lemma mask_bit mask p : bitmap_ok mask -> p < 1024 -> N.testbit (number mask) p = bit_of mask p.
Proof.
  intros [Hl Hb] Hp. unfold bit_of. rewrite number_bit; [|exact Hb|unfold lenN; lia]. f_equal. f_equal. rewrite Hl. rewrite N2Nat.inj_sub. reflexivity.
Qed.
Lemma empty_ok : bitmap_ok empty_bitmap.
Proof. split; [reflexivity|]. apply Forall_forall. intros x Hx. apply repeat_spec in Hx. subst x. reflexivity. Qed.
Lemma empty_bit p : bit_of empty_bitmap p = false.
Proof. unfold bit_of, empty_bitmap. rewrite nth_repeat. apply N.bits_0. Qed.
Lemma union_bit a b p : bitmap_ok a -> bitmap_ok b -> bit_of (union_bitmaps a b) p = bit_of a p || bit_of b p.
Proof. intros [A _] [B _]. unfold bit_of, union_bitmaps. rewrite zip_nth by (congruence || reflexivity). apply N.lor_spec. Qed.
Lemma inter_bit a b p : bitmap_ok a -> bitmap_ok b -> bit_of (intersect_bitmaps a b) p = bit_of a p && bit_of b p.
Proof. intros [A _] [B _]. unfold bit_of, intersect_bitmaps. rewrite zip_nth by (congruence || reflexivity). apply N.land_spec. Qed.
Lemma lor_byte x y : x < 256 -> y < 256 -> N.lor x y < 256.
Proof.
  intros Hx Hy. destruct (N.eq_dec (N.lor x y) 0) as [->|H0]; [reflexivity|]. change 256 with (2^8). apply N.log2_lt_pow2; [lia|]. rewrite N.log2_lor.
  destruct (N.eq_dec x 0) as [->|X0], (N.eq_dec y 0) as [->|Y0]; try (cbn in H0; congruence); apply N.max_lub_lt; try (cbn; lia); apply N.log2_lt_pow2; lia.
Qed.
Lemma land_byte x y : x < 256 -> y < 256 -> N.land x y < 256.
Proof.
  intros Hx Hy. destruct (N.eq_dec (N.land x y) 0) as [->|H0]; [reflexivity|]. change 256 with (2^8). apply N.log2_lt_pow2; [lia|]. eapply N.le_lt_trans; [apply N.log2_land|].
  assert (x <> 0) by (intros ->; rewrite N.land_0_l in H0; congruence). assert (y <> 0) by (intros ->; rewrite N.land_0_r in H0; congruence).
  apply N.min_lt_iff. left. apply N.log2_lt_pow2; lia.
Qed.
Lemma union_ok a b : bitmap_ok a -> bitmap_ok b -> bitmap_ok (union_bitmaps a b).
Proof. intros A B. apply zip_ok; auto. apply lor_byte. Qed.
Lemma inter_ok a b : bitmap_ok a -> bitmap_ok b -> bitmap_ok (intersect_bitmaps a b).
Proof. intros A B. apply zip_ok; auto. apply land_byte. Qed.
Lemma set_bits_ok l : forall bm bm', bitmap_ok bm -> set_bits bm l = Ok bm' -> bitmap_ok bm' /\ forall p, p < 1024 -> bit_of bm' p = existsb (N.eqb p) l || bit_of bm p.
Proof.
  induction l as [|b l IH]; intros bm bm' Hb H; cbn [set_bits] in H; [assert (bm' = bm) by congruence; subst; auto|].
  destruct (set_bit bm b) as [bm1|e] eqn:Hs; [|discriminate H]. cbn [bind] in H.
  assert (Hlt : b < 1024).
  { unfold set_bit, chunk_index in Hs. destruct (N.ltb_spec (b / 8) CHUNKS) as [Hc|Hc]; [|discriminate Hs]. unfold CHUNKS in Hc. apply N.div_lt_upper_bound in Hc || idtac.
    pose proof (N.div_mod b 8 ltac:(lia)). pose proof (N.mod_lt b 8 ltac:(lia)). lia. }
  destruct (set_bit_ok Hb Hlt) as (bm2 & E2 & O2 & B2). assert (bm2 = bm1) by congruence. subst bm2. destruct (IH _ _ O2 H) as [I1 I2]. split; [exact I1|].
  intros p Hp. rewrite I2, B2 by exact Hp. cbn [existsb]. now rewrite orb_assoc, (orb_comm (existsb _ _)).
Qed.
Lemma map_res_ok A B (g : A -> res B) l : forall l', map_res g l = Ok l' -> Forall2 (fun a b => g a = Ok b) l l'.
Proof.
  induction l as [|a l IH]; intros l' H; cbn [map_res] in H; [assert (l' = []) by congruence; subst; constructor|].
  destruct (g a) as [b|e] eqn:Hg; [|discriminate H]. cbn [bind] in H. destruct (map_res g l) as [t|e]; [|discriminate H]. cbn [bind] in H. assert (l' = b :: t) by congruence. subst. constructor; auto.
Qed.

(** ** A reduce value that is right for the entries *)

Definition exact (w : kv -> N) (kvs : list kv) (r : bytes) : Prop :=
  exists c bm rest, r = be 5 c ++ bm ++ rest /\ bitmap_ok bm /\ (forall q, q < 1024 -> bit_of bm q = existsb (fun x => part x =? q) kvs) /\
    c < 2^40 /\ (sum_of w kvs < 2^40 -> c = sum_of w kvs).

Lemma head_dec c bm rest : c < 2^40 -> bitmap_ok bm -> read_count_bitmap (be 5 c ++ bm ++ rest) = Ok ((c, bm), rest).
Proof. intros Hc [Hl _]. assert (Hb : lenN bm = 128) by (unfold lenN; now rewrite Hl). pose proof (head_read Hc Hb rest) as H. now rewrite <- app_assoc in H. Qed.
Lemma be_mod k v : be k (v mod 256 ^ N.of_nat k) = be k v.
Proof. rewrite <- unbe_be. apply be_unbe; [apply be_is_bytes|apply be_length]. Qed.
Lemma sum_one A (l : list A) : sum_of (fun _ => 1) l = lenN l.
Proof. induction l as [|x l IH]; [reflexivity|]. rewrite sum_of_cons, lenN_cons, IH. lia. Qed.
Lemma fold_count A (g : A -> N) l : forall a, a + sum_of g l < 2^64 -> fold_left (fun a x => (a + g x) mod 2^64) l a = a + sum_of g l.
Proof.
  induction l as [|x l IH]; intros a H; cbn [fold_left]; [unfold sum_of; cbn [fold_right]; lia|]. rewrite sum_of_cons in *. rewrite (N.mod_small (a + g x)) by lia. rewrite IH by lia. lia.
Qed.
Lemma fold_union A (g : A -> bitmap) l : Forall (fun x => bitmap_ok (g x)) l -> forall bm, bitmap_ok bm ->
  bitmap_ok (fold_left (fun a x => union_bitmaps a (g x)) l bm) /\ forall q, bit_of (fold_left (fun a x => union_bitmaps a (g x)) l bm) q = bit_of bm q || existsb (fun x => bit_of (g x) q) l.
Proof.
  induction 1 as [|x l Hx _ IH]; intros bm Hb; cbn [fold_left existsb]; [split; [exact Hb|intros; now rewrite orb_false_r]|].
  destruct (IH _ (union_ok Hb Hx)) as [I1 I2]. split; [exact I1|]. intros q. now rewrite I2, union_bit, orb_assoc by assumption.
Qed.
Lemma fold_union_len A (g : A -> bitmap) l : forall bm, lenN bm <= 128 -> lenN (fold_left (fun a x => union_bitmaps a (g x)) l bm) <= 128.
Proof.
  induction l as [|d l IH]; intros bm Hz; [exact Hz|]. cbn [fold_left]. apply IH. unfold union_bitmaps. clear IH.
  assert (Hg : (length (zip N.lor bm (g d)) <= length bm)%nat).
  { clear Hz. generalize (g d). induction bm as [|x bm IH]; intros [|y r]; cbn [zip length]; try lia. specialize (IH r). lia. }
  unfold lenN in *. lia.
Qed.
Lemma existsb_map A B (h : A -> B) p l : existsb p (map h l) = existsb (fun x => p (h x)) l.
Proof. induction l as [|x l IH]; [reflexivity|]. cbn [map existsb]. now rewrite IH. Qed.
Lemma existsb_ext A (p p' : A -> bool) l : (forall x, p x = p' x) -> existsb p l = existsb p' l.
Proof. intros H. induction l as [|x l IH]; [reflexivity|]. cbn [existsb]. now rewrite H, IH. Qed.

Lemma part_decode v p : decode_view_btree_partition v = Ok p -> p = unbe (take 2 v).
Proof.
  unfold decode_view_btree_partition, next_int, cur_bind, next. destruct (2 <=? lenN v); [|discriminate]. cbn. intros H. congruence.
Qed.
Lemma value_decode b v : decode_view_btree_value b = Ok v -> vv_partition v = unbe (take 2 b).
Proof.
  unfold decode_view_btree_value, decode_view_btree_partition_and_num_values, next_int, cur_bind, next. destruct (2 <=? lenN b); [|discriminate]. cbn [cur_ret].
  destruct (all_of_rest skip_value (drop 2 b)) as [szs|]; [|discriminate]. destruct (all_of_rest read_value (drop 2 b)) as [vs|]; [|discriminate].
  destruct (lenN vs =? lenN szs mod 2 ^ 16); [|discriminate]. intros H. assert (Hv : v = ViewValue (unbe (take 2 b)) vs) by congruence. now subst v.
Qed.

Section Exact.
Variable w : kv -> N.

Lemma exact_leaf kvs ps c bm rest : Forall2 (fun x p => part x = p) kvs ps -> set_bits empty_bitmap ps = Ok bm -> (sum_of w kvs < 2^40 -> c = sum_of w kvs) ->
  exact w kvs (be 5 c ++ bm ++ rest).
Proof.
  intros Hp Hb Hc. destruct (set_bits_ok empty_ok Hb) as [O B]. exists (c mod 2^40), bm, rest. split; [now rewrite (be_mod 5 c : be 5 (c mod 2^40) = be 5 c)|]. split; [exact O|].
  split; [|split].
  - intros q Hq. rewrite B, empty_bit, orb_false_r by exact Hq. clear - Hp. induction Hp as [|x p kvs ps H _ IH]; [reflexivity|]. cbn [existsb]. rewrite IH, H, N.eqb_sym. reflexivity.
  - apply N.mod_lt. discriminate.
  - intros H. rewrite (Hc H). now apply N.mod_small.
Qed.
Lemma exact_inner kss rs A (cbs : list A) (cnt : A -> N) (bmp : A -> bitmap) rest : Forall2 (exact w) kss rs -> Forall2 (fun r x => exists t, read_count_bitmap r = Ok ((cnt x, bmp x), t)) rs cbs ->
  exact w (concat kss) (be 5 (fold_left (fun a x => (a + cnt x) mod 2^64) cbs 0) ++ fold_left (fun a x => union_bitmaps a (bmp x)) cbs empty_bitmap ++ rest).
Proof.
  intros He Hd.
  assert (H : Forall2 (fun kvs x => bitmap_ok (bmp x) /\ (forall q, q < 1024 -> bit_of (bmp x) q = existsb (fun y => part y =? q) kvs) /\ (sum_of w kvs < 2^40 -> cnt x = sum_of w kvs)) kss cbs).
  { clear rest. revert cbs Hd. induction He as [|kvs r kss rs Hx He IH]; intros cbs Hd; [inv Hd; constructor|]. inversion Hd as [|? x ? cbs' H1 H2]; subst. constructor; [|auto].
    destruct Hx as (c & bm & t & -> & B1 & B2 & B3 & B4). destruct H1 as (t' & H1). rewrite (head_dec t B3 B1) in H1. assert (Hc : cnt x = c) by congruence. assert (Hb : bmp x = bm) by congruence.
    rewrite Hc, Hb. auto. }
  clear He Hd rs. assert (Hok : Forall (fun x => bitmap_ok (bmp x)) cbs).
  { clear rest. induction H as [|kvs x kss cbs Hx _ IH]; constructor; [exact (proj1 Hx)|exact IH]. }
  destruct (fold_union Hok empty_ok) as [U1 U2].
  set (c := fold_left (fun a x => (a + cnt x) mod 2 ^ 64) cbs 0). exists (c mod 2^40). eexists _, rest. split; [rewrite (be_mod 5 c : be 5 (c mod 2^40) = be 5 c); reflexivity|].
  split; [exact U1|]. split; [|split].
  - intros q Hq. rewrite U2, empty_bit. cbn [orb]. clear - H Hq. induction H as [|kvs x kss cbs Hx _ IH]; [reflexivity|]. cbn [existsb concat]. rewrite existsb_app, IH. f_equal. now apply Hx.
  - apply N.mod_lt. discriminate.
  - intros Hs. assert (Hc : sum_of cnt cbs = sum_of w (concat kss)).
    { clear - H Hs. induction H as [|kvs x kss cbs Hx _ IH]; [reflexivity|]. cbn [concat] in *. rewrite sum_of_app in *. rewrite sum_of_cons, IH by lia. f_equal. apply Hx. lia. }
    unfold c. rewrite (fold_count (g := cnt)); rewrite Hc; [rewrite N.add_0_l; now apply N.mod_small|]. change (2^64) with 18446744073709551616. change (2^40) with 1099511627776 in Hs. lia.
Qed.
End Exact.

Lemma id_leaf kvs r : view_id_btree_reduce kvs = Ok r -> exact (fun _ => 1) kvs r /\ lenN r = 133.
Proof.
  unfold view_id_btree_reduce. destruct (map_res _ kvs) as [ps|] eqn:Hp; [|discriminate]. cbn [bind]. destruct (set_bits empty_bitmap ps) as [bm|] eqn:Hb; [|discriminate]. cbn [bind].
  unfold encode_view_id_btree_reduction. cbn [ir_count ir_bitmap]. intros H. assert (Hr : r = be 5 (lenN kvs) ++ bm ++ []) by (rewrite app_nil_r; congruence). clear H. rewrite Hr.
  split.
  - apply exact_leaf with (ps := ps); [|exact Hb|intros; now rewrite sum_one]. apply map_res_ok in Hp. eapply Forall2_impl; [|exact Hp]. intros x p H. symmetry. exact (part_decode H).
  - destruct (set_bits_ok empty_ok Hb) as [[Hl _] _]. rewrite app_nil_r, lenN_app. unfold lenN. rewrite be_length, Hl. reflexivity.
Qed.
Lemma id_inner kss rs r : Forall2 (exact (fun _ => 1)) kss rs -> view_id_btree_rereduce rs = Ok r -> exact (fun _ => 1) (concat kss) r.
Proof.
  unfold view_id_btree_rereduce. destruct (map_res decode_view_id_btree_reduction rs) as [ds|] eqn:Hd; [|discriminate]. cbn [bind]. unfold encode_view_id_btree_reduction. cbn [ir_count ir_bitmap]. intros He H.
  set (a := fold_left _ ds 0) in H. set (b := fold_left _ ds empty_bitmap) in H. assert (Hr : r = be 5 a ++ b ++ []) by (rewrite app_nil_r; congruence). rewrite Hr. subst a b.
  apply (exact_inner (cnt := ir_count) (bmp := ir_bitmap) [] He). apply map_res_ok in Hd. eapply Forall2_impl; [|exact Hd]. intros x d Hx. unfold decode_view_id_btree_reduction in Hx.
  destruct (read_count_bitmap x) as [[[c bm] t]|]; [|discriminate]. exists t. assert (Hdd : d = IdReduction c bm) by congruence. now subst d.
Qed.
Lemma id_inner_len rs r : Forall (fun r => lenN r <= 133) rs -> view_id_btree_rereduce rs = Ok r -> lenN r <= 133.
Proof.
  intros _. unfold view_id_btree_rereduce. destruct (map_res decode_view_id_btree_reduction rs) as [ds|] eqn:Hd; [|discriminate]. cbn [bind]. unfold encode_view_id_btree_reduction. cbn [ir_count ir_bitmap].
  set (a := fold_left _ ds 0). set (b := fold_left _ ds empty_bitmap). intros H. assert (Hr : r = be 5 a ++ b) by congruence. rewrite Hr, lenN_app.
  assert (Hb : lenN b <= 128) by (apply fold_union_len; reflexivity).
  unfold lenN at 1. rewrite be_length. lia.
Qed.
Section View.
Variable rs : list reducer.
Lemma view_leaf kvs r : view_btree_reduce rs kvs = Ok r -> exact num_values kvs r /\ lenN r <= MAX_REDUCTION.
Proof.
  unfold view_btree_reduce. destruct (map_res (fun kv : kv => decode_view_btree_value (snd kv)) kvs) as [vs|] eqn:Hp; [|discriminate]. cbn [bind]. destruct (set_bits empty_bitmap (map vv_partition vs)) as [bm|] eqn:Hb; [|discriminate]. cbn [bind].
  destruct (map_res (fun kv : kv => decode_view_btree_json_key (fst kv)) kvs) as [ks|]; [|discriminate]. cbn [bind]. destruct (run_reducers rs _ _) as [out|]; [|discriminate]. cbn [bind]. set (c := fold_left _ vs 0).
  unfold encode_view_btree_reduction. cbn [vr_count vr_bitmap vr_values]. destruct (N.ltb_spec MAX_REDUCTION (5 + 128 + fold_right (fun (x : bytes) (n : N) => 2 + lenN x + n) 0 out)) as [|Hm]; [discriminate|].
  intros H. set (t := flat_map (fun x : bytes => be 2 (lenN x) ++ x) out) in H. assert (Hr : r = be 5 c ++ bm ++ t) by congruence. rewrite Hr. clear H. apply map_res_ok in Hp.
  destruct (set_bits_ok empty_ok Hb) as [[Hl _] _]. split.
  - apply exact_leaf with (ps := map vv_partition vs); [|exact Hb|].
    + clear - Hp. induction Hp as [|x v kvs vs H _ IH]; cbn [map]; constructor; [|exact IH]. symmetry. exact (value_decode H).
    + intros Hs. unfold c. assert (Hv : sum_of (fun v => lenN (vv_values v)) vs = sum_of num_values kvs).
      { clear - Hp. induction Hp as [|x v kvs vs H _ IH]; [reflexivity|]. rewrite !sum_of_cons, IH. f_equal. unfold num_values. now rewrite H. }
      rewrite (fold_count (g := fun v => lenN (vv_values v))); rewrite Hv; [lia|]. change (2^64) with 18446744073709551616. change (2^40) with 1099511627776 in Hs. lia.
  - rewrite !lenN_app. assert (Ht : lenN t = fold_right (fun (x : bytes) (n : N) => 2 + lenN x + n) 0 out).
    { unfold t. clear. induction out as [|x out IH]; [reflexivity|]. cbn [flat_map fold_right]. rewrite !lenN_app, IH. unfold lenN at 1. rewrite be_length. lia. }
    rewrite Ht. assert (H5 : lenN (be 5 c) = 5) by (unfold lenN; now rewrite be_length). assert (H6 : lenN bm = 128) by (unfold lenN; now rewrite Hl). lia.
Qed.
Lemma view_inner_shape reds r : view_btree_rereduce rs reds = Ok r -> exists ds t, Forall2 (fun x d => exists t, read_count_bitmap x = Ok ((vr_count d, vr_bitmap d), t)) reds ds /\
  r = be 5 (fold_left (fun a d => (a + vr_count d) mod 2^64) ds 0) ++ fold_left (fun a d => union_bitmaps a (vr_bitmap d)) ds empty_bitmap ++ t /\ 133 + lenN t <= MAX_REDUCTION.
Proof.
  unfold view_btree_rereduce. destruct (map_res decode_view_btree_reduction reds) as [ds|] eqn:Hd; [|discriminate]. cbn [bind]. destruct (negb _); [discriminate|]. destruct (rerun_reducers rs 0 ds) as [out|]; [|discriminate]. cbn [bind].
  set (c := fold_left _ ds 0). set (bm := fold_left _ ds empty_bitmap). unfold encode_view_btree_reduction. cbn [vr_count vr_bitmap vr_values].
  destruct (N.ltb_spec MAX_REDUCTION (5 + 128 + fold_right (fun (x : bytes) (n : N) => 2 + lenN x + n) 0 out)) as [|Hm]; [discriminate|].
  intros H. set (t := flat_map (fun x : bytes => be 2 (lenN x) ++ x) out) in H. exists ds, t. split; [|split; [assert (Hr : r = be 5 c ++ bm ++ t) by congruence; exact Hr|]].
  - apply map_res_ok in Hd. eapply Forall2_impl; [|exact Hd]. intros x d Hx. unfold decode_view_btree_reduction in Hx. destruct (read_count_bitmap x) as [[[c1 bm1] t1]|]; [|discriminate].
    destruct (all_of_rest skip_reduce t1) as [us|]; [|discriminate]. exists t1. destruct (lenN us mod 2^8 =? 0); [assert (d = ViewReduction c1 bm1 []) by congruence; now subst d|].
    destruct (lenN us <? 2^8); [|discriminate]. destruct (all_of_rest read_reduce t1) as [vs|]; [|discriminate]. assert (d = ViewReduction c1 bm1 vs) by congruence. now subst d.
  - assert (Ht : lenN t = fold_right (fun (x : bytes) (n : N) => 2 + lenN x + n) 0 out).
    { unfold t. clear. induction out as [|x out IH]; [reflexivity|]. cbn [flat_map fold_right]. rewrite !lenN_app, IH. unfold lenN at 1. rewrite be_length. lia. }
    lia.
Qed.
Lemma view_inner kss reds r : Forall2 (exact num_values) kss reds -> view_btree_rereduce rs reds = Ok r -> exact num_values (concat kss) r.
Proof.
  intros He H. destruct (view_inner_shape H) as (ds & t & Hd & -> & _). apply (exact_inner (cnt := vr_count) (bmp := vr_bitmap) t He). exact Hd.
Qed.
Lemma view_max : bounded rs MAX_REDUCTION.
Proof.
  split; [intros kvs b H; exact (proj2 (view_leaf H))|]. intros l b H. destruct (view_inner_shape H) as (ds & t & _ & -> & Ht). rewrite !lenN_app.
  set (bm := fold_left _ ds empty_bitmap). assert (Hb : lenN bm <= 128) by (apply fold_union_len; reflexivity).
  set (c := fold_left _ ds 0). assert (H5 : lenN (be 5 c) = 5) by (unfold lenN; now rewrite be_length). lia.
Qed.
End View.

(** ** An index has one contents *)

Section Det.
Context {E : Env}.
Lemma subtree_det f d : forall pos kvs n d' kvs' n', subtree f d pos kvs n -> subtree f d' pos kvs' n' -> d = d' /\ kvs = kvs' /\ n = n'.
Proof.
  induction d as [|d IH]; intros pos kvs n d' kvs' n' H H'; inversion H as [? z b ? R1 R2 R3 R4 R5|? ? z b es cs kss ns R1 R2 R3 R4 R5 R6 R7]; subst;
    inversion H' as [? z' b' ? S1 S2 S3 S4 S5|d1 ? z' b' es' cs' kss' ns' S1 S2 S3 S4 S5 S6 S7]; subst;
    rewrite R1 in S1; assert (z' = z) by congruence; subst z'; rewrite R2 in S2; assert (b' = b) by congruence; subst b'; rewrite R3 in S3; try discriminate S3; rewrite R4 in S4.
  - assert (kvs' = kvs) by congruence. subst. auto.
  - assert (es' = es) by congruence. subst es'. clear - IH R5 R6 R7 S6 S7.
    assert (Hc : cs' = cs).
    { clear - R6 S6. revert cs' S6. induction R6 as [|e c es cs He _ IH]; intros cs' S6; inversion S6 as [|? c' ? cs'' H1 H2]; subst; [reflexivity|]. f_equal; [congruence|auto]. }
    subst cs'. assert (Hne : cs <> []) by (destruct R6; [congruence|discriminate]). clear R5 R6 S6 es.
    assert (Hq : kss = kss' /\ ns = ns' /\ (cs <> [] -> d = d1)).
    { revert kss' ns' S7. clear Hne. assert (Hd : d = d) by reflexivity. revert Hd. set (d0 := d) in R7 |- * at 2. clearbody d0. intros Hd.
      induction R7 as [d0|d0 c cs ks kss n ns T Hk _ IHs]; intros kss' ns' S7.
      - inversion S7; subst. repeat split; congruence.
      - subst d0. inversion S7 as [|? ? ? ks' kss'' m ns'' T' Hk' T'']; subst. destruct (IH _ _ _ _ _ _ T T') as (-> & -> & ->).
        destruct (IHs eq_refl _ _ T'') as (-> & -> & _). auto. }
    destruct Hq as (-> & -> & Hd). rewrite (Hd Hne). auto.
Qed.
Lemma index_det f r kvs n kvs' n' : index f r kvs n -> index f r kvs' n' -> kvs = kvs' /\ n = n'.
Proof.
  destruct r as [p|]; cbn; [|intros [-> ->] [-> ->]; auto]. intros [d H] [d' H']. destruct (subtree_det H H') as (_ & -> & ->). auto.
Qed.
End Det.

(** ** Both kinds of indexes *)

Section Generic.
Context {E : Env} (EO : EnvOk E).
Variable cmp : bytes -> bytes -> comparison.
Hypothesis OC : ord cmp.
Variable red : list kv -> res bytes.
Variable rered : list bytes -> res bytes.
Variable w : kv -> N.
Variable record : kv -> Prop.
Variable R : N.
Variable pkv : bitmap -> bytes -> bytes -> res purge_action.
Variable pkp : bitmap -> node_pointer -> res purge_action.
Variable pw : event -> N.
Definition rqm (mask : bitmap) : request := Request cmp (Some red) (Some rered) VIEW_KV VIEW_KP false None None (Some (pkv mask)) (Some (pkp mask)).
Hypothesis HR : R < 2^16.
Hypothesis H_leaf : forall kvs r, red kvs = Ok r -> exact w kvs r /\ lenN r <= R.
Hypothesis H_inner : forall kss rs r, Forall2 (exact w) kss rs -> rered rs = Ok r -> exact w (concat kss) r.
Hypothesis H_inner_len : forall rs r, Forall (fun r => lenN r <= R) rs -> rered rs = Ok r -> lenN r <= R.
Hypothesis Hrec : forall x, record x -> kv_ok x /\ part x < 1024.
Hypothesis Hpkv : forall mask k v, record (k, v) -> pkv mask k v = view_purgekv_action mask (part (k, v)).
Hypothesis Hpkp : forall mask p c bm t, read_count_bitmap (np_reduce p) = Ok ((c, bm), t) -> pkp mask p = Ok (view_purgekp_action mask bm).
Hypothesis Hpwkv : forall k v, record (k, v) -> pw (EvPurgeKv k v) = w (k, v).
Hypothesis Hpwkp : forall p c bm t, read_count_bitmap (np_reduce p) = Ok ((c, bm), t) -> pw (EvPurgeKp p) = c.

Definition redR (r : bytes) : Prop := lenN r <= R.
Definition anyf (_ : file) : Prop := True.
Definition anye (_ : err) : Prop := True.
Lemma rqm_ok mask : rq_ok (rqm mask) record redR anyf anye.
Proof.
  constructor; unfold anyf, anye, redR; auto.
  - right. cbn [rqm r_kv]. unfold VIEW_KV. lia.
  - intros x Hx. apply Hrec. exact Hx.
  - intros r Hr. lia.
  - intros kvs _ _. cbn [leaf_red rqm r_reduce]. destruct (red kvs) as [r|e] eqn:H; [|exact I]. apply (H_leaf H).
  - intros rs _ Hrs. cbn [inner_red rqm r_rereduce]. destruct (rered rs) as [r|e] eqn:H; [|exact I]. apply (H_inner_len Hrs H).
Qed.
Notation tree mask := (tree (rqm mask) record redR).
Notation rtree mask := (rtree (rqm mask) record redR).

Lemma tree_exact mask f d : forall p kvs, tree mask f d p kvs -> exact w kvs (np_reduce p).
Proof.
  induction d as [|d IH]; intros p kvs (_ & _ & _ & H).
  - destruct H as (_ & _ & _ & H & _). cbn [leaf_red rqm r_reduce] in H. apply (H_leaf H).
  - destruct H as (cs & ks & sz & _ & Hc & -> & _ & H & _). cbn [inner_red rqm r_rereduce] in H. eapply H_inner; [|exact H].
    clear - Hc IH. induction Hc as [|c k cs ks H _ IHc]; cbn [map]; constructor; auto.
Qed.
Lemma mask_gone mask x : bitmap_ok mask -> record x -> in_mask mask x = bit_of mask (part x).
Proof. intros Hm Hx. unfold in_mask. apply mask_bit; [exact Hm|]. apply (Hrec Hx). Qed.

Lemma mask_kv mask : bitmap_ok mask -> exists g, r_purge_kv (rqm mask) = Some g /\ forall k v, record (k, v) -> g k v = Ok (if in_mask mask (k, v) then P_ITEM else P_KEEP).
Proof.
  intros Hm. exists (pkv mask). split; [reflexivity|]. intros k v Hx. rewrite (Hpkv mask Hx). unfold view_purgekv_action. rewrite is_bit_set_eq by apply (Hrec Hx). cbn [bind].
  now rewrite (mask_gone Hm Hx).
Qed.
Lemma tree_records mask f d p kvs : tree mask f d p kvs -> Forall record kvs.
Proof. intros H. exact (tree_kvP H). Qed.
Lemma mask_kp mask : bitmap_ok mask -> exists g, r_purge_kp (rqm mask) = Some g /\ forall f d p kvs, tree mask f d p kvs -> exists a, g p = Ok a /\
  match a with
  | P_ITEM => forallb (in_mask mask) kvs = true
  | P_KEEP => existsb (in_mask mask) kvs = false
  | P_PARTIAL => existsb (in_mask mask) kvs = true
  | P_STOP => False
  end.
Proof.
  intros Hm. exists (pkp mask). split; [reflexivity|]. intros f d p kvs Ht. pose proof (tree_records Ht) as Hk. destruct (tree_exact Ht) as (c & bm & t & Hred & Hb & Hbits & Hc & _).
  exists (view_purgekp_action mask bm). split; [apply Hpkp with (c := c) (t := t); rewrite Hred; now apply head_dec|].
  assert (Hin : forall x, In x kvs -> bit_of bm (part x) = true /\ in_mask mask x = bit_of mask (part x)).
  { intros x Hx. pose proof (proj1 (Forall_forall _ _) Hk x Hx) as Hrx. split; [|now apply mask_gone]. rewrite Hbits by apply (Hrec Hrx). apply existsb_exists. exists x. split; [exact Hx|apply N.eqb_refl]. }
  unfold view_purgekp_action. destruct (is_equal_bitmap bm mask) eqn:He.
  - apply is_equal_eq in He. subst bm. apply forallb_forall. intros x Hx. destruct (Hin x Hx) as [H1 H2]. now rewrite H2.
  - destruct (is_equal_bitmap (intersect_bitmaps mask bm) empty_bitmap) eqn:Hi.
    + apply is_equal_eq in Hi. destruct (existsb (in_mask mask) kvs) eqn:Hg; [|reflexivity]. apply existsb_exists in Hg. destruct Hg as (x & Hx & Hgx). destruct (Hin x Hx) as [H1 H2].
      pose proof (inter_bit (part x) Hm Hb) as Hib. rewrite Hi, empty_bit, H1, <- H2, Hgx in Hib. discriminate Hib.
    + destruct (existsb (in_mask mask) kvs) eqn:Hg; [reflexivity|]. exfalso. assert (Heq : intersect_bitmaps mask bm = empty_bitmap); [|apply is_equal_eq in Heq; congruence].
      apply equal_bits; [now apply inter_ok|apply empty_ok|]. intros q Hq. rewrite inter_bit, empty_bit by assumption. destruct (bit_of mask q) eqn:Hmq; [|reflexivity]. cbn [andb].
      rewrite Hbits by exact Hq. destruct (existsb (fun x => part x =? q) kvs) eqn:Hex; [|reflexivity]. apply existsb_exists in Hex. destruct Hex as (x & Hx & Hqx). apply N.eqb_eq in Hqx.
      destruct (Hin x Hx) as [_ H2]. assert (Ht2 : existsb (in_mask mask) kvs = true) by (apply existsb_exists; exists x; split; [exact Hx|rewrite H2, Hqx; exact Hmq]). congruence.
Qed.

Lemma w_kv k v : record (k, v) -> w (k, v) < limit -> pw (EvPurgeKv k v) = w (k, v).
Proof. intros; now apply Hpwkv. Qed.
Lemma w_kp mask f d p kvs : tree mask f d p kvs -> sum_of w kvs < limit -> pw (EvPurgeKp p) = sum_of w kvs.
Proof. intros Ht Hs. destruct (tree_exact Ht) as (c & bm & t & Hred & Hb & _ & Hc & Hcs). rewrite <- (Hcs Hs). apply Hpwkp with (bm := bm) (t := t). rewrite Hred. now apply head_dec. Qed.
Lemma evs_quiet kvs : forall acts, evs cmp false false kvs acts = [].
Proof.
  assert (A : forall a old, ev_a false false a old = []) by (intros a old; unfold ev_a, ev_f, ev_s; now destruct (a_type a)).
  assert (B : forall k v acts, snd (e_entry cmp false false k v acts) = []).
  { intros k v. induction acts as [|a acts IH]; cbn [e_entry]; [reflexivity|]. destruct (cmp k (a_key a)); [|reflexivity|].
    - destruct (a_type a); try apply A. destruct (e_entry cmp false false k v acts). cbn [snd] in *. now rewrite A, IH.
    - destruct (e_entry cmp false false k v acts). cbn [snd] in *. now rewrite A, IH. }
  induction kvs as [|[k v] kvs IH]; intros acts; cbn [evs].
  - induction acts as [|a acts IH]; cbn [flat_map]; [reflexivity|]. now rewrite A, IH.
  - specialize (B k v acts). destruct (e_entry cmp false false k v acts) as [x o]. cbn [snd] in B. now rewrite B, IH.
Qed.
(** An update; with purging, the entries of the mask are gone first. *)
Lemma update_run mask f ev en root kvs acts r s' : (en = true -> bitmap_ok mask) -> good f -> rtree mask f root kvs -> sorted cmp kvs -> asorted cmp acts ->
  Forall (fun a => inserts a = true -> record (a_key a, a_data a)) acts -> acts <> [] -> modify_btree (rqm mask) root acts (St f ev en) = (r, s') -> fin (st_f s') ->
  match r with
  | Ok root' => rtree mask (st_f s') root' (merge cmp (if en then without mask kvs else kvs) acts) /\ exists l, logged (St f ev en) s' l /\
      (if en then sum_of w (untouched cmp acts kvs) < limit -> sum_of pw l = sum_of w (only mask (untouched cmp acts kvs)) else l = [])
  | Err _ => True
  end.
Proof.
  intros Hm G T So Ha Hk Hne Hrun F. destruct en.
  - pose proof (@run_modify_purge E EO (rqm mask) record redR anyf anye (rqm_ok mask) eq_refl R (fun r H => H) (in_mask mask) w pw (mask_kv (Hm eq_refl)) (mask_kp (Hm eq_refl))
      w_kv (w_kp (mask := mask)) eq_refl eq_refl OC root kvs acts (St f ev true) (conj G I) eq_refl Ha Hk Hne T So _ _ Hrun F) as H. destruct r as [root'|e]; [|exact I].
    destruct H as [T' (l & L1 & L2)]. split; [exact T'|]. exists l. split; [exact L1|exact L2].
  - assert (Hao : acts_ok (rqm mask) record acts) by (split; [exact Hk|left; intros g a v Hx; discriminate Hx]).
    pose proof (@run_modify_btree E EO (rqm mask) record redR anyf anye (rqm_ok mask) OC root kvs acts (St f ev false) (conj G I) eq_refl Ha Hao T So _ _ Hrun F) as H. destruct r as [root'|e]; [|exact I].
    destruct H as [T' L]. split; [exact T'|]. exists []. split; [|reflexivity]. cbn [rqm r_fetch r_save] in L. rewrite evs_quiet in L. exact L.
Qed.
(** What cleaning up leaves. *)
Lemma clean_run mask f root kvs r s' : bitmap_ok mask -> good f -> rtree mask f root kvs -> guided_purge_btree (rqm mask) root (St f [] true) = (r, s') -> fin (st_f s') ->
  match r with
  | Ok root' => exists l, rtree mask (st_f s') root' l /\ ending l (without mask kvs) /\
      (match root with Some p => exists d kvs', roomy VIEW_KV VIEW_KP R f d (np_pointer p) kvs' | None => True end -> l = without mask kvs) /\
      (sum_of w kvs < 2^40 -> purged pw (List.rev (st_ev s')) = sum_of w (only mask kvs))
  | Err _ => True
  end.
Proof.
  intros Hm G Hr Hg F.
  assert (RUN := @run_guided_purge E EO (rqm mask) record redR anyf anye (rqm_ok mask) eq_refl R (fun r H => H) (in_mask mask) w pw (mask_kv Hm) (mask_kp Hm)).
  specialize (RUN w_kv (w_kp (mask := mask)) root kvs (St f [] true) (conj G I) Hr r s' Hg F). destruct r as [root'|e]; [|exact I].
  destruct RUN as (l & A1 & A2 & A3 & ev & A4 & A5). exists l. split; [exact A1|]. split; [exact A2|]. split.
  - intros Hro. apply A3. destruct root as [p|]; [|exact Hr]. destruct Hr as (d & p' & Ht & Hp & _). destruct Hro as (d' & kvs' & Hro). rewrite <- Hp in Hro.
    exists d, p'. split; [|exact Hp]. exact (proj2 (proj2 (@roomy_tree2 E EO (rqm mask) record redR anyf anye (rqm_ok mask) R f G d p' kvs d' kvs' Ht Hro))).
  - intros Hs. cbn [st_ev] in A4. rewrite A4, app_nil_r. rewrite rev_involutive. unfold purged. rewrite (fold_count (g := pw)); rewrite (A5 Hs); [reflexivity|].
    pose proof (@sum_filter _ w (in_mask mask) kvs). change (2^64) with 18446744073709551616. change (2^40) with 1099511627776 in Hs. lia.
Qed.

(** ** Indexes that have been made *)

Lemma suffix_sorted l l' : ending l l' -> sorted cmp l' -> sorted cmp l.
Proof. intros [a ->]. induction a as [|x a IH]; intros H; [exact H|]. apply IH. now inv H. Qed.
Lemma filter_sorted p l : sorted cmp l -> sorted cmp (filter p l).
Proof.
  induction 1 as [|x l Hl IH Hx]; cbn [filter]; [constructor|]. destruct (p x); [|exact IH]. constructor; [exact IH|].
  apply Forall_forall. intros y Hy. apply filter_In in Hy. exact (proj1 (Forall_forall _ _) Hx y (proj1 Hy)).
Qed.
Lemma ow_build rq rows : ow (build_rows rq rows).
Proof. unfold build_rows. apply ow_bind; [intros; apply ow_foldM; intros; apply ow_push|intros; apply ow_complete]. Qed.
Lemma modify_none mask root f ev en root' s' : modify_btree (rqm mask) root [] (St f ev en) = (Ok root', s') -> root' = root /\ s' = St f ev en.
Proof. destruct root as [p|]; cbn; intros H; injection H as <- <-; auto. Qed.
Lemma made_tree f root : made rqm record f root -> good f /\ (fin f -> exists kvs, rtree empty_bitmap f root kvs /\ sorted cmp kvs).
Proof.
  induction 1 as [g gsz pl m k Hg|f root f' H [G IH] A|f p p' H [G IH] H1 H2 H3|f root mask ev en acts root' s' H [G IH] He Ha Hs Hk Hm|f root red0 rered0 rows ev root' s' H [G IH] E1 E2 Hso Hr Hm|f root mask root' s' H [G IH] Hok Hm].
  - split; [now apply opened_on_good|]. intros _. exists []. split; [reflexivity|constructor].
  - destruct (appends_good EO A G) as (G' & Hf & _). split; [exact G'|]. intros [F1 F2]. destruct (appends_mono EO A G) as [_ Hb]. destruct IH as (kvs & T & S); [split; [exact (Hb F1)|lia]|].
    exists kvs. split; [|exact S]. eapply rtree_keeps; [|exact T]. now apply appends_keeps.
  - split; [exact G|]. intros F. destruct (IH F) as (kvs & (d & q & T & Q1 & Q2 & Q3) & S). exists kvs. split; [|exact S]. exists d, q. split; [exact T|]. repeat split; congruence.
  - destruct (@ow_modify E (rqm mask) root acts _ _ _ Hm) as [l W]. cbn [st_f] in W. pose proof (writes_le EO G W) as L. split; [exact (le_good L)|]. intros F.
    destruct (IH (fin_le L F)) as (kvs & T & S).
    destruct acts as [|a acts].
    { destruct (modify_none Hm) as [-> ->]. exists kvs. auto. }
    pose proof (@update_run mask f ev en root kvs _ _ _ He G T S Ha Hk ltac:(discriminate) Hm F) as [T' _].
    eexists. split; [exact T'|]. apply merge_sorted; auto. destruct en; [now apply filter_sorted|exact S].
  - cbn [rqm r_reduce r_rereduce r_cmp] in E1, E2, Hm, Hso. injection E1 as <-. injection E2 as <-.
    destruct (@ow_build _ _ _ _ _ Hm) as [l W]. cbn [st_f] in W. pose proof (writes_le EO G W) as L. split; [exact (le_good L)|]. intros F.
    assert (RO : rq_ok (build_request cmp red rered) record redR anyf anye).
    { destruct (rqm_ok empty_bitmap) as [O1 O2 O3 O4 O5 O6 O7 O8 O9]. constructor; try assumption. now left. }
    pose proof (@run_bulk E EO (build_request cmp red rered) record redR anyf anye RO rows (St f ev false) (conj G I) Hr _ _ Hm F) as [T' _].
    exists rows. split; [|exact Hso]. apply toptree_rtree in T'. exact T'.
  - destruct (@ow_purge E (rqm mask) root _ _ _ Hm) as [l W]. cbn [st_f] in W. pose proof (writes_le EO G W) as L. split; [exact (le_good L)|]. intros F.
    destruct (IH (fin_le L F)) as (kvs & T & S). pose proof (@clean_run mask f root kvs _ _ Hok G T Hm F) as (l' & T' & Hsu & _).
    exists l'. split; [exact T'|]. eapply suffix_sorted; [exact Hsu|]. now apply filter_sorted.
Qed.

(** No entry of the mask is left. *)
Lemma suffix_in l l' (x : kv) : ending l l' -> In x l -> In x l'.
Proof. intros [a ->]. intros H. apply in_or_app. now right. Qed.

Theorem made_clean f root mask root' n f' : made rqm record f root -> bitmap_ok mask -> cleanup_btree (rqm mask) pw f root = (Ok (root', n), f') -> fits_file f' ->
  made rqm record f' root' /\ exists kvs z l z', index f root kvs z /\ index f' root' l z' /\ Forall record kvs /\ sorted cmp kvs /\ ending l (without mask kvs) /\
    (match root with Some p => exists d kvs', roomy VIEW_KV VIEW_KP R f d (np_pointer p) kvs' | None => True end -> l = without mask kvs) /\
    (sum_of w kvs < 2^40 -> n = sum_of w (only mask kvs)) /\
    (match root' with Some p => exact w l (np_reduce p) | None => l = [] end).
Proof.
  intros M Hok Hc F. unfold cleanup_btree in Hc. destruct (guided_purge_btree (rqm mask) root (St f [] true)) as [r s'] eqn:Hg. destruct r as [r'|e]; [|discriminate Hc]. cbn [bind] in Hc.
  assert (Hf : f' = st_f s') by congruence. assert (Hr : r' = root') by congruence. assert (Hn : n = purged pw (List.rev (st_ev s'))) by congruence. subst f' r' n. clear Hc.
  split; [eapply made_cleanup; eassumption|]. destruct (made_tree M) as [G T]. destruct (@ow_purge E (rqm mask) root _ _ _ Hg) as [ll W]. cbn [st_f] in W. pose proof (writes_le EO G W) as L.
  destruct (T (fin_le L F)) as (kvs & Tr & S). pose proof (@clean_run mask f root kvs _ _ Hok G Tr Hg F) as (l & T' & Hsu & Hex & Hn).
  assert (H1 : forall x, record x -> kv_ok x) by (intros x Hx; apply (Hrec Hx)). assert (H2 : forall r, redR r -> lenN r < 2^16) by (unfold redR; intros; lia).
  destruct (@rtree_index E EO (rqm mask) record redR f root kvs H1 H2 G Tr) as (z & Hz & _). destruct (@rtree_index E EO (rqm mask) record redR (st_f s') root' l H1 H2 (le_good L) T') as (z' & Hz' & _).
  exists kvs, z, l, z'. split; [exact Hz|]. split; [exact Hz'|]. split; [|split; [exact S|split; [exact Hsu|split; [exact Hex|split; [exact Hn|]]]]].
  - destruct root as [p|]; [|cbn in Tr; subst; constructor]. destruct Tr as (d & p' & Ht & _). exact (tree_records Ht).
  - destruct root' as [p|]; [|exact T']. destruct T' as (d & p' & Ht & _ & Hp & _). rewrite <- Hp. exact (tree_exact Ht).
Qed.
Lemma hasz_keeps f f1 q b z : keeps f f1 -> hasz f q b z -> exists z1, hasz f1 q b z1.
Proof. intros [K _] (y & H & Hu & _). exists (csize f1 (lenN y)), y. auto. Qed.
Lemma roomy_keeps f f1 (G : good f) (G1 : good f1) (K : keeps f f1) d : forall p kvs d' kvs', tree empty_bitmap f d p kvs -> roomy VIEW_KV VIEW_KP R f d' (np_pointer p) kvs' ->
  roomy VIEW_KV VIEW_KP R f1 d' (np_pointer p) kvs'.
Proof.
  induction d as [|d IH]; intros p kvs d' kvs' Ht Hro.
  - destruct Ht as (_ & _ & _ & _ & _ & _ & _ & sz & Hh & _). destruct (hasz_keeps K Hh) as [sz1 Hh1].
    apply (hasz_read EO G) in Hh. apply (hasz_read EO G1) in Hh1. destruct d' as [|d'].
    + destruct Hro as (b & Hb & Hro). exists b. rewrite Hh in Hb. rewrite Hh1. split; [exact Hb|exact Hro].
    + destruct Hro as (b & en & cs & kss & Hb & Hk & _). rewrite Hh in Hb. assert (b = mk_node KV_NODE kvs) by congruence. subst b. cbn in Hk. discriminate Hk.
  - destruct Ht as (_ & _ & _ & cs & ks & sz & _ & Hcs & _ & _ & _ & Hh & _). destruct (hasz_keeps K Hh) as [sz1 Hh1].
    apply (hasz_read EO G) in Hh. apply (hasz_read EO G1) in Hh1. pose proof (@kp_entries_ok E (rqm empty_bitmap) record redR anyf anye (rqm_ok empty_bitmap) f d cs ks Hcs) as Hkvs. destruct d' as [|d'].
    + destruct Hro as (b & R1 & R2 & _). rewrite Hh in R1. assert (b = mk_node KP_NODE (map kp_entry cs)) by congruence. subst b. cbn in R2. discriminate R2.
    + destruct Hro as (b & es & cs' & kss & R1 & R2 & R3 & R4 & R5 & R6). rewrite Hh in R1. assert (b = mk_node KP_NODE (map kp_entry cs)) by congruence. subst b.
      exists (mk_node KP_NODE (map kp_entry cs)), es, cs', kss. rewrite Hh1. split; [reflexivity|]. split; [exact R2|]. split; [exact R3|]. split; [exact R4|]. split; [|exact R6].
      rewrite (node_items_mk KP_NODE Hkvs) in R3. assert (es = map kp_entry cs) by congruence. subst es.
      clear R1 R2 R3 R6 Hh Hh1 Hkvs. revert cs' kss R4 R5. induction Hcs as [|c k cs ks Hc Hcs IHc]; intros cs' kss R4 R5.
      * inv R4. inv R5. constructor.
      * inversion R4 as [|? c' ? cs'' U1 U2]; subst. inversion R5 as [|? ks' ? kss' V1 V2]; subst. rewrite (@read_kp_entry E (rqm empty_bitmap) record redR anyf anye (rqm_ok empty_bitmap) f d c k Hc) in U1. assert (c' = norm c) by congruence. subst c'.
        constructor; [exact (IH _ _ _ _ Hc V1)|exact (IHc _ _ U2 V2)].
Qed.
Lemma made_keep f root f1 : made rqm record f root -> appends f f1 -> fits_file f1 -> exists kvs z z1, index f root kvs z /\ index f1 root kvs z1 /\ (forall p, root = Some p -> np_pointer p < 2^48) /\
  (match root with Some p => exists d kvs', roomy VIEW_KV VIEW_KP R f d (np_pointer p) kvs' | None => True end ->
   match root with Some p => exists d kvs', roomy VIEW_KV VIEW_KP R f1 d (np_pointer p) kvs' | None => True end).
Proof.
  intros M A [F1 F2]. destruct (made_tree M) as [G T]. destruct (appends_good EO A G) as (G1 & Hf & _). destruct (appends_mono EO A G) as [_ Hb].
  destruct T as (kvs & T & _); [split; [exact (Hb F1)|lia]|]. pose proof (appends_keeps EO G A) as K. assert (T1 : rtree empty_bitmap f1 root kvs) by (eapply rtree_keeps; [exact K|exact T]).
  assert (H1 : forall x, record x -> kv_ok x) by (intros x Hx; apply (Hrec Hx)). assert (H2 : forall r, redR r -> lenN r < 2^16) by (unfold redR; intros; lia).
  destruct (@rtree_index E EO (rqm empty_bitmap) record redR f root kvs H1 H2 G T) as (z & Hz & _). destruct (@rtree_index E EO (rqm empty_bitmap) record redR f1 root kvs H1 H2 G1 T1) as (z1 & Hz1 & _).
  exists kvs, z, z1. split; [exact Hz|]. split; [exact Hz1|].
  split; [intros p ->; destruct T as (d & p' & Ht & Hp & _); rewrite <- Hp; destruct d; exact (proj1 Ht)|]. destruct root as [p|]; [|auto]. intros (d' & kvs' & Hro). exists d', kvs'.
  destruct T as (d & p' & Ht & Hp & _). rewrite <- Hp in Hro |- *. exact (@roomy_keeps f f1 G G1 K d p' kvs d' kvs' Ht Hro).
Qed.
End Generic.

(** ** The two kinds *)

Lemma view_key_ord collate : ord collate -> ord (view_key_cmp collate).
Proof.
  intros [C1 C2 C3 C4]. destruct ord_ebin as [B1 B2 B3 B4]. unfold view_key_cmp. constructor.
  - intros a. now rewrite C1.
  - intros a b. rewrite (C2 (json_part a)). destruct (collate (json_part a) (json_part b)); cbn [CompOpp]; [apply B2|reflexivity|reflexivity].
  - intros a b c H1 H2. destruct (collate (json_part a) (json_part b)) eqn:Hab; [|clear H1|discriminate H1].
    + rewrite (C4 _ _ (json_part c) Hab). destruct (collate (json_part b) (json_part c)); [|reflexivity|discriminate H2]. exact (B3 _ _ _ H1 H2).
    + destruct (collate (json_part b) (json_part c)) eqn:Hbc; [clear H2| |discriminate H2].
      * assert (Hac : collate (json_part a) (json_part c) = Lt); [|now rewrite Hac].
        assert (Hcb : collate (json_part c) (json_part b) = Eq) by (rewrite C2, Hbc; reflexivity).
        pose proof (C4 _ _ (json_part a) Hcb) as H. rewrite (C2 (json_part a) (json_part c)), (C2 (json_part a) (json_part b)), Hab in H.
        destruct (collate (json_part a) (json_part c)); cbn in H; congruence.
      * rewrite (C3 _ _ _ Hab Hbc). reflexivity.
  - intros a b c H. destruct (collate (json_part a) (json_part b)) eqn:Hab; [|discriminate H|discriminate H]. rewrite (C4 _ _ (json_part c) Hab).
    destruct (collate (json_part b) (json_part c)); [|reflexivity|reflexivity]. exact (B4 _ _ _ H).
Qed.

Lemma part_be p rest k : p < 1024 -> part (k, be 2 p ++ rest) = p.
Proof.
  intros Hp. unfold part. cbn [snd]. rewrite take_app_exact by (unfold lenN; now rewrite be_length). apply unbe_be_small. change (256 ^ N.of_nat 2) with 65536. lia.
Qed.
Lemma id_rec x : id_record x -> kv_ok x /\ part x < 1024.
Proof. destruct x as [k v]. intros (H1 & H2 & p & rest & Hp & Hv). split; [split; assumption|]. cbn [snd] in Hv. subst v. now rewrite part_be. Qed.
Lemma view_rec x : view_record x -> kv_ok x /\ part x < 1024.
Proof.
  destruct x as [k v]. intros ((_ & H1) & H2 & y & Hp & Hf & Hv). split; [split; assumption|]. cbn [snd] in Hv. subst v. unfold encode_view_btree_value. now rewrite part_be.
Qed.
Lemma id_pkv mask k v : id_record (k, v) -> view_id_btree_purge_kv mask k v = view_purgekv_action mask (part (k, v)).
Proof.
  intros (H1 & H2 & p & rest & Hp & Hv). cbn [snd] in Hv. subst v. rewrite part_be by exact Hp. unfold view_id_btree_purge_kv, decode_view_btree_partition, next_int, cur_bind, next.
  rewrite lenN_app. assert (Hl : lenN (be 2 p) = 2) by (unfold lenN; now rewrite be_length). rewrite Hl. destruct (N.leb_spec 2 (2 + lenN rest)); [|lia].
  rewrite take_app_exact by now rewrite Hl. cbn [cur_ret bind]. rewrite unbe_be_small; [reflexivity|]. change (256 ^ N.of_nat 2) with 65536. lia.
Qed.
Lemma view_pkv mask k v : view_record (k, v) -> view_btree_purge_kv mask k v = view_purgekv_action mask (part (k, v)).
Proof.
  intros (H1 & H2 & y & Hp & Hf & Hv). cbn [snd] in Hv. subst v. unfold view_btree_purge_kv. rewrite part_num_decode by exact Hf. cbn [bind fst].
  unfold encode_view_btree_value. now rewrite part_be.
Qed.
Lemma view_pw k v : view_record (k, v) -> view_purged (EvPurgeKv k v) = num_values (k, v).
Proof.
  intros (H1 & H2 & y & Hp & Hf & Hv). cbn [snd] in Hv. subst v. cbn [view_purged]. rewrite part_num_decode by exact Hf. unfold num_values. cbn [snd]. now rewrite view_value_decode.
Qed.

(** What a cleanup does to one index. *)
Definition cleaned {E : Env} (w : kv -> N) (R : N) (mask : bitmap) (f : file) (root : option node_pointer) (f' : file) (root' : option node_pointer) (n : N) : Prop :=
  exists kvs z l z', index f root kvs z /\ index f' root' l z' /\ ending l (without mask kvs) /\ (room_for R f root -> l = without mask kvs) /\ (sum_of w kvs < 2^40 -> n = sum_of w (only mask kvs)) /\
    match root' with Some p => exact w l (np_reduce p) | None => l = [] end.
Section Both.
Context {E : Env} (EO : EnvOk E).
Theorem id_clean f root mask root' n f' : made id_cleanup_request id_record f root -> bitmap_ok mask ->
  cleanup_btree (id_cleanup_request mask) id_purged f root = (Ok (root', n), f') -> fits_file f' ->
  made id_cleanup_request id_record f' root' /\ cleaned (fun _ => 1) 133 mask f root f' root' n.
Proof.
  intros M Hm Hc F.
  destruct (@made_clean E EO ebin_cmp ord_ebin view_id_btree_reduce view_id_btree_rereduce (fun _ => 1) id_record 133 view_id_btree_purge_kv view_id_btree_purge_kp id_purged) with (f := f) (root := root) (mask := mask) (root' := root') (n := n) (f' := f') as (A & kvs & z & l & z' & B1 & B2 & B3 & B4 & B5 & B6 & B7 & B8); auto.
  - reflexivity.
  - intros kvs r H. destruct (id_leaf H) as [H1 H2]. split; [exact H1|lia].
  - intros kss rs r. apply id_inner.
  - exact id_inner_len.
  - exact id_rec.
  - exact id_pkv.
  - intros mask0 p c bm t H. unfold view_id_btree_purge_kp, decode_view_id_btree_reduction. rewrite H. reflexivity.
  - intros p c bm t H. cbn [id_purged]. unfold decode_view_id_btree_reduction. rewrite H. reflexivity.
  - split; [exact A|]. exists kvs, z, l, z'. auto 10.
Qed.
Theorem view_clean collate rs R f root mask root' n f' : ord collate -> R < 2^16 -> bounded rs R -> made (view_cleanup_request collate rs) view_record f root -> bitmap_ok mask ->
  cleanup_btree (view_cleanup_request collate rs mask) view_purged f root = (Ok (root', n), f') -> fits_file f' ->
  made (view_cleanup_request collate rs) view_record f' root' /\ cleaned num_values R mask f root f' root' n.
Proof.
  intros OC HR [Hb1 Hb2] M Hm Hc F.
  destruct (@made_clean E EO (view_key_cmp collate) (view_key_ord OC) (view_btree_reduce rs) (view_btree_rereduce rs) num_values view_record R view_btree_purge_kv view_btree_purge_kp view_purged) with (f := f) (root := root) (mask := mask) (root' := root') (n := n) (f' := f') as (A & kvs & z & l & z' & B1 & B2 & B3 & B4 & B5 & B6 & B7 & B8); auto.
  - intros kvs r H. split; [exact (proj1 (view_leaf H))|exact (Hb1 _ _ H)].
  - intros kss reds r. apply view_inner.
  - intros reds r _ H. exact (Hb2 _ _ H).
  - exact view_rec.
  - exact view_pkv.
  - intros mask0 p c bm t H. unfold view_btree_purge_kp, decode_view_btree_reduction_partitions_bitmap. rewrite H. reflexivity.
  - exact view_pw.
  - intros p c bm t H. cbn [view_purged]. unfold decode_view_btree_reduction_partitions_bitmap. rewrite H. reflexivity.
  - split; [exact A|]. exists kvs, z, l, z'. auto 10.
Qed.
End Both.

(** ** The whole group *)

Lemma number_lt l : is_bytes l -> number l < 256 ^ lenN l.
Proof.
  induction l as [|x l IH] using rev_ind; intros H; [vm_compute; reflexivity|]. unfold number. rewrite fold_left_app. cbn [fold_left]. fold (number l).
  apply Forall_app in H. destruct H as [H1 H2]. inv H2. specialize (IH H1). rewrite lenN_app. change (lenN [x]) with 1. rewrite N.pow_add_r. change (256 ^ 1) with 256. revert IH. generalize (256 ^ lenN l), (number l). intros P Q HPQ. unfold is_byte in *. lia.
Qed.
Lemma number_zero bm : bitmap_ok bm -> (forall q, q < 1024 -> bit_of bm q = false) -> number bm = 0.
Proof.
  intros Hb H. apply N.bits_inj. intros q. rewrite N.bits_0. destruct (N.ltb_spec q 1024) as [Hq|Hq]; [rewrite mask_bit by assumption; now apply H|].
  destruct Hb as [Hl Hb]. pose proof (number_lt Hb) as Hn. unfold lenN in Hn. rewrite Hl in Hn. rewrite N.testbit_eqb. rewrite N.div_small; [reflexivity|].
  eapply N.lt_le_trans; [exact Hn|]. change 256 with (2 ^ 8). rewrite <- N.pow_mul_r. apply N.pow_le_mono_r; [discriminate|]. change (8 * N.of_nat 128) with 1024. exact Hq.
Qed.

(** A bitmap that has no partition of the mask. *)
Definition apart (mask bm : bitmap) : Prop := bitmap_ok bm /\ forall q, q < 1024 -> bit_of mask q = true -> bit_of bm q = false.
Lemma apart_empty mask : apart mask empty_bitmap.
Proof. split; [exact empty_ok|]. intros. apply empty_bit. Qed.
Lemma apart_union mask a b : apart mask a -> apart mask b -> apart mask (union_bitmaps a b).
Proof. intros [A1 A2] [B1 B2]. split; [now apply union_ok|]. intros q H1 H2. rewrite union_bit by assumption. now rewrite A2, B2. Qed.
Lemma apart_inter mask a : bitmap_ok mask -> apart mask a -> number (intersect_bitmaps a mask) = 0.
Proof.
  intros M [A1 A2]. apply number_zero; [now apply inter_ok|]. intros q Hq. rewrite inter_bit by assumption. specialize (A2 q Hq). destruct (bit_of mask q); [rewrite A2; reflexivity|apply andb_false_r].
Qed.
Lemma exact_apart w mask kvs l r : bitmap_ok mask -> ending l (without mask kvs) -> exact w l r -> exists c bm t, read_count_bitmap r = Ok ((c, bm), t) /\ apart mask bm.
Proof.
  intros M Hs (c & bm & t & -> & Hb & Hbit & Hc & _). exists c, bm, t. split; [now apply head_dec|]. split; [exact Hb|]. intros q Hq Hm. rewrite Hbit by exact Hq.
  destruct (existsb (fun x => part x =? q) l) eqn:Hx; [|reflexivity]. exfalso. apply existsb_exists in Hx. destruct Hx as (x & Hx & Hp). apply N.eqb_eq in Hp.
  apply (suffix_in Hs) in Hx. apply filter_In in Hx. destruct Hx as [_ Hx]. unfold in_mask in Hx. rewrite Hp, mask_bit, Hm in Hx by assumption. discriminate Hx.
Qed.

Section Group.
Context {E : Env} (EO : EnvOk E).
Lemma id_keep f root f1 : made id_cleanup_request id_record f root -> appends f f1 -> fits_file f1 -> exists kvs z z1, index f root kvs z /\ index f1 root kvs z1 /\ (forall p, root = Some p -> np_pointer p < 2^48) /\
  (room_for 133 f root -> room_for 133 f1 root).
Proof.
  intros M A F.
  refine (@made_keep E EO ebin_cmp ord_ebin view_id_btree_reduce view_id_btree_rereduce (fun _ => 1) id_record 133 view_id_btree_purge_kv view_id_btree_purge_kp id_purged _ _ _ _ _ _ _ _ _ f root f1 M A F).
  - reflexivity.
  - intros kvs r H. destruct (id_leaf H) as [H1 H2]. split; [exact H1|lia].
  - intros kss rs r. apply id_inner.
  - exact id_inner_len.
  - exact id_rec.
  - exact id_pkv.
  - intros mask0 p c bm t H. unfold view_id_btree_purge_kp, decode_view_id_btree_reduction. rewrite H. reflexivity.
  - reflexivity.
  - intros p c bm t H. cbn [id_purged]. unfold decode_view_id_btree_reduction. rewrite H. reflexivity.
Qed.
Lemma view_keep collate rs R f root f1 : ord collate -> R < 2^16 -> bounded rs R -> made (view_cleanup_request collate rs) view_record f root -> appends f f1 -> fits_file f1 ->
  exists kvs z z1, index f root kvs z /\ index f1 root kvs z1 /\ (forall p, root = Some p -> np_pointer p < 2^48) /\ (room_for R f root -> room_for R f1 root).
Proof.
  intros OC HR [Hb1 Hb2] M A F.
  refine (@made_keep E EO (view_key_cmp collate) (view_key_ord OC) (view_btree_reduce rs) (view_btree_rereduce rs) num_values view_record R view_btree_purge_kv view_btree_purge_kp view_purged _ _ _ _ _ _ _ _ _ f root f1 M A F).
  - exact HR.
  - intros kvs r H. split; [exact (proj1 (view_leaf H))|exact (Hb1 _ _ H)].
  - intros kss reds r. apply view_inner.
  - intros reds r _ H. exact (Hb2 _ _ H).
  - exact view_rec.
  - exact view_pkv.
  - intros mask0 p c bm t H. unfold view_btree_purge_kp, decode_view_btree_reduction_partitions_bitmap. rewrite H. reflexivity.
  - exact view_pw.
  - intros p c bm t H. cbn [view_purged]. unfold decode_view_btree_reduction_partitions_bitmap. rewrite H. reflexivity.
Qed.
Lemma cleanup_appends rq w f root r f' : good f -> cleanup_btree rq w f root = (r, f') -> appends f f'.
Proof.
  intros G. unfold cleanup_btree. destruct (guided_purge_btree rq root (St f [] true)) as [x s'] eqn:Hg. intros Hc. assert (f' = st_f s') by congruence. subst f'.
  destruct (@ow_purge E rq root _ _ _ Hg) as [l W]. exact (writes_appends W).
Qed.

(** The files and roots during the cleanup of a group: what holds for an index between two steps. *)
Lemma good_made_id f root : made id_cleanup_request id_record f root -> good f.
Proof.
  induction 1 as [g gsz pl m k Hg|f root f' H IH A|f p p' H IH H1 H2 H3|f root mask ev en acts root' s' H IH He Ha Hs Hk Hm|f root red rered rows ev root' s' H IH E1 E2 Hso Hr Hm|f root mask root' s' H IH Hok Hm].
  - now apply opened_on_good.
  - exact (proj1 (appends_good EO A IH)).
  - exact IH.
  - destruct (@ow_modify E _ root acts _ _ _ Hm) as [l W]. exact (le_good (writes_le EO IH W)).
  - destruct (@ow_build E _ _ _ _ _ Hm) as [l W]. exact (le_good (writes_le EO IH W)).
  - destruct (@ow_purge E _ root _ _ _ Hm) as [l W]. exact (le_good (writes_le EO IH W)).
Qed.
Lemma fits_back f f' : good f -> appends f f' -> fits_file f' -> fits_file f.
Proof. intros G A [F1 F2]. destruct (appends_good EO A G) as (_ & Hf & _). destruct (appends_mono EO A G) as [_ Hb]. split; [exact (Hb F1)|lia]. Qed.

(** What is known about one index of the group, from the file before to the file after. *)
Definition result (R : N) (mask : bitmap) (f f' : file) (root root' : option node_pointer) (kvs l : list kv) : Prop :=
  (exists z, index f root kvs z) /\ (exists z, index f' root' l z) /\ ending l (without mask kvs) /\ (room_for R f root -> l = without mask kvs).

Lemma views_appends collate mask l : forall count bm f r f', good f -> cleanup_views collate mask l count bm f = (Ok r, f') -> appends f f'.
Proof.
  induction l as [|[rs root] l IH]; intros count bm f r f' G Hc; cbn [cleanup_views] in Hc; [assert (f' = f) by congruence; subst f'; constructor|].
  destruct (cleanup_btree (view_cleanup_request collate rs mask) view_purged f root) as [[[root' n]|e] f1] eqn:Hcl; [|discriminate Hc].
  destruct (view_bitmask root' bm) as [bm1|e] eqn:Hvb; [|discriminate Hc].
  destruct (cleanup_views collate mask l ((count + n) mod 2^64) bm1 f1) as [[[[roots2 count2] bm2]|e] f2] eqn:Hcv; [|discriminate Hc].
  assert (f' = f2) by congruence. subst f'. pose proof (@cleanup_appends _ _ _ _ _ _ G Hcl) as A1. eapply appends_trans; [exact A1|]. eapply IH; [exact (proj1 (appends_good EO A1 G))|exact Hcv].
Qed.
Lemma views_clean collate mask f0 : ord collate -> bitmap_ok mask -> forall reds roots Rs count bm f r f',
  Forall2 (fun rs R => R < 2^16 /\ bounded rs R) reds Rs ->
  good f0 -> appends f0 f -> Forall2 (fun rs root => made (view_cleanup_request collate rs) view_record f0 root) reds roots -> apart mask bm ->
  cleanup_views collate mask (combine reds roots) count bm f = (Ok r, f') -> fits_file f' ->
  let '(roots', count', bm') := r in
  appends f f' /\ apart mask bm' /\ Forall2 (fun rs root => made (view_cleanup_request collate rs) view_record f' root) reds roots' /\ exists kss ls, length kss = length roots /\ length ls = length roots /\ length roots' = length roots /\
    (forall i R root root' kvs l, nth_error Rs i = Some R -> nth_error roots i = Some root -> nth_error roots' i = Some root' -> nth_error kss i = Some kvs -> nth_error ls i = Some l ->
       result R mask f0 f' root root' kvs l) /\
    (Forall (fun kvs => sum_of num_values kvs < 2^40) kss -> count + sum_of (fun kvs => sum_of num_values (only mask kvs)) kss < 2^64 ->
       count' = count + sum_of (fun kvs => sum_of num_values (only mask kvs)) kss).
Proof.
  intros OC Hmask. induction reds as [|rs reds IH]; intros roots Rs count bm f r f' HR G0 A0 HM Hbm Hc F.
  - inv HM. inv HR. cbn [combine cleanup_views] in Hc. assert (r = ([], count, bm)) by congruence. assert (f' = f) by congruence. subst r f'.
    split; [constructor|]. split; [exact Hbm|]. split; [constructor|]. exists [], []. split; [reflexivity|]. split; [reflexivity|]. split; [reflexivity|]. split; [intros [|i]; discriminate|]. intros _ _. cbn [sum_of fold_right]. lia.
  - inversion HM as [|? root ? roots1 M1 M2]; subst. inversion HR as [|? R ? Rs1 HR1 HR2]; subst. destruct HR1 as [HR1 HB]. cbn [combine cleanup_views] in Hc.
    destruct (cleanup_btree (view_cleanup_request collate rs mask) view_purged f root) as [[[root' n]|e] f1] eqn:Hcl; [|discriminate Hc].
    destruct (view_bitmask root' bm) as [bm1|e] eqn:Hvb; [|discriminate Hc].
    destruct (cleanup_views collate mask (combine reds roots1) ((count + n) mod 2^64) bm1 f1) as [[[[roots2 count2] bm2]|e] f2] eqn:Hcv; [|discriminate Hc].
    assert (r = (root' :: roots2, count2, bm2)) by congruence. assert (f' = f2) by congruence. subst r f'.
    pose proof (proj1 (appends_good EO A0 G0)) as G. pose proof (@cleanup_appends _ _ _ _ _ _ G Hcl) as A1. pose proof (appends_trans A0 A1) as A01. pose proof (proj1 (appends_good EO A1 G)) as G1.
    pose proof (@views_appends _ _ _ _ _ _ _ _ G1 Hcv) as A2. pose proof (fits_back G1 A2 F) as F1. pose proof (appends_trans A1 A2) as A12.
    destruct (@view_clean E EO collate rs R f root mask root' n f1 OC HR1 HB (made_other M1 A0) Hmask Hcl F1) as (M' & kvs & z & l & z' & I1 & I2 & Hs & Hro & Hn & Hex).
    destruct (view_keep OC HR1 HB M1 A0 (fits_back G A1 F1)) as (kvs0 & z0 & z1 & J1 & J2 & _ & Jro). destruct (index_det I1 J2) as [-> _].
    destruct (view_keep OC HR1 HB M' A2 F) as (l0 & y0 & y1 & L1 & L2 & _). destruct (index_det I2 L1) as [-> _].
    assert (Hbm1 : apart mask bm1).
    { destruct root' as [p|]; cbn [view_bitmask] in Hvb; [|assert (bm1 = bm) by congruence; subst bm1; exact Hbm].
      destruct (exact_apart Hmask Hs Hex) as (c & b & t & Hd & Hap). unfold decode_view_btree_reduction_partitions_bitmap in Hvb. rewrite Hd in Hvb. cbn [bind snd] in Hvb.
      assert (bm1 = union_bitmaps bm b) by congruence. subst bm1. now apply apart_union. }
    pose proof (IH roots1 Rs1 _ bm1 f1 _ f2 HR2 G0 A01 M2 Hbm1 Hcv F) as (_ & Hap & HM2 & kss & ls & N1 & N2 & N3 & Hall & Hsum).
    split; [exact A12|]. split; [exact Hap|]. split; [constructor; [exact (made_other M' A2)|exact HM2]|]. exists (kvs0 :: kss), (l0 :: ls). cbn [length]. split; [lia|]. split; [lia|]. split; [lia|]. split.
    + intros [|i] R0 r0 r0' k0 l1; cbn [nth_error]; [|apply Hall]. intros H1 H2 H3 H4 H5. assert (R0 = R) by congruence. assert (r0 = root) by congruence. assert (r0' = root') by congruence.
      assert (k0 = kvs0) by congruence. assert (l1 = l0) by congruence. subst R0 r0 r0' k0 l1. split; [eauto|]. split; [eauto|]. split; [exact Hs|]. auto.
    + intros Hk Hlt. inversion Hk as [|? ? K1 K2]; subst. cbn [sum_of fold_right] in Hlt |- *. fold (sum_of (fun kvs => sum_of num_values (only mask kvs)) kss) in Hlt |- *. specialize (Hn K1). subst n.
      rewrite N.mod_small in Hsum by lia. rewrite Hsum; [lia|exact K2|lia].
Qed.

(** The count, the bitmask and the indexes after the cleanup of a group. *)
Theorem group_clean collate reds Rs h f h' n f' : ord collate -> Forall2 (fun rs R => R < 2^16 /\ bounded rs R) reds Rs -> group_made collate reds h f ->
  cleanup_header collate reds h f = (Ok (h', n), f') -> fits_file f' ->
  number (ih_cleanup h') = 0 /\ group_made collate reds h' f' /\
  exists ids kss ids' ls, result 133 (ih_cleanup h) f f' (ih_id_state h) (ih_id_state h') ids ids' /\
    length kss = length (ih_view_states h) /\ length ls = length (ih_view_states h) /\ length (ih_view_states h') = length (ih_view_states h) /\
    (forall i R root root' kvs l, nth_error Rs i = Some R -> nth_error (ih_view_states h) i = Some root -> nth_error (ih_view_states h') i = Some root' -> nth_error kss i = Some kvs -> nth_error ls i = Some l ->
       result R (ih_cleanup h) f f' root root' kvs l) /\
    (lenN ids < 2^40 -> Forall (fun kvs => sum_of num_values kvs < 2^40) kss -> lenN ids + sum_of (sum_of num_values) kss < 2^64 ->
       n = lenN (only (ih_cleanup h) ids) + sum_of (fun kvs => sum_of num_values (only (ih_cleanup h) kvs)) kss).
Proof.
  intros OC HR (Hmask & M0 & MV) Hc F. unfold cleanup_header in Hc. destruct (negb (lenN reds =? lenN (ih_view_states h))); [discriminate Hc|]. set (mask := ih_cleanup h) in *.
  destruct (cleanup_btree (id_cleanup_request mask) id_purged f (ih_id_state h)) as [[[id_root c]|e] f1] eqn:Hcl; [|discriminate Hc].
  destruct (cleanup_views collate mask (combine reds (ih_view_states h)) c (view_id_bitmask id_root empty_bitmap) f1) as [[[[roots count] bm]|e] f2] eqn:Hcv; [|discriminate Hc].
  assert (h' = with_roots h (intersect_bitmaps bm mask) id_root roots) by congruence. assert (n = count) by congruence. assert (f' = f2) by congruence. subst h' n f'. clear Hc.
  pose proof (good_made_id M0) as G. pose proof (@cleanup_appends _ _ _ _ _ _ G Hcl) as A1. pose proof (proj1 (appends_good EO A1 G)) as G1.
  pose proof (@views_appends _ _ _ _ _ _ _ _ G1 Hcv) as A2. pose proof (fits_back G1 A2 F) as F1.
  destruct (@id_clean E EO f _ mask id_root c f1 M0 Hmask Hcl F1) as (M' & kvs & z & l & z' & I1 & I2 & Hs & Hro & Hn & Hex).
  destruct (id_keep M' A2 F) as (l0 & y0 & y1 & L1 & L2 & _). destruct (index_det I2 L1) as [-> _].
  assert (Hbm1 : apart mask (view_id_bitmask id_root empty_bitmap)).
  { destruct id_root as [p|]; cbn [view_id_bitmask]; [|apply apart_empty].
    destruct (exact_apart Hmask Hs Hex) as (c' & b & t & Hd & Hap). unfold decode_view_id_btree_reduction. rewrite Hd. cbn [bind ir_bitmap]. apply apart_union; [apply apart_empty|exact Hap]. }
  pose proof (@views_clean collate mask f OC Hmask reds (ih_view_states h) Rs c _ f1 _ f2 HR G A1 MV Hbm1 Hcv F) as (_ & Hap & HM2 & kss & ls & N1 & N2 & N3 & Hall & Hsum).
  cbn [with_roots ih_cleanup ih_id_state ih_view_states]. split; [exact (apart_inter Hmask Hap)|]. split; [split; [exact (inter_ok (proj1 Hap) Hmask)|split; [exact (made_other M' A2)|exact HM2]]|].
  exists kvs, kss, l0, ls. split; [split; [eauto|split; [eauto|split; [exact Hs|exact Hro]]]|]. split; [exact N1|]. split; [exact N2|]. split; [exact N3|]. split; [exact Hall|].
  intros H1 H2 H3. rewrite sum_one in Hn. specialize (Hn H1). rewrite sum_one in Hn. subst c. apply Hsum; [exact H2|].
  assert (Hle : sum_of (fun kvs => sum_of num_values (only mask kvs)) kss <= sum_of (sum_of num_values) kss).
  { clear. induction kss as [|k kss IH]; [reflexivity|]. rewrite !sum_of_cons. pose proof (@sum_filter _ num_values (in_mask mask) k) as H. fold (only mask k) in H. lia. }
  assert (Hl : lenN (only mask kvs) <= lenN kvs). { rewrite <- !sum_one. apply (@sum_filter _ (fun _ => 1) (in_mask mask) kvs). }
  lia.
Qed.
End Group.
