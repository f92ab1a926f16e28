(** Properties of the small components: open flags, periodic sync, bitmaps, sorted lists, the legacy checksum, the allocators. *)
From Verif Require Import Base File EnvExample Crc SpecCrc CrcFacts Alloc Bitmap SortedList Flags PSync SpecUtil UtilFacts.
Local Open Scope N_scope.
Unset Strict Implicit.

(** ** C36: open flags *)

Lemma field_bit flags k : has_flag flags (N.shiftl 1 k) = (field flags k 1 =? 1).
Proof. pose proof (field_flag flags k 1) as H. change (N.ones 1) with 1 in H. rewrite H. unfold field. change (2^1) with 2. pose proof (N.mod_lt (flags / 2^k) 2 ltac:(discriminate)) as L. clear H. generalize dependent ((flags / 2 ^ k) mod 2). intros n L. destruct (N.eqb_spec n 0), (N.eqb_spec n 1); cbn; auto; lia. Qed.
Lemma field_land flags k n : N.land (N.shiftr flags k) (N.ones n) = field flags k n.
Proof. unfold field. now rewrite N.land_ones, N.shiftr_div_pow2. Qed.
Lemma field_sub flags k n m : field flags k (n + m) = 0 -> field flags k n = 0 /\ field flags (k + n) m = 0.
Proof.
  unfold field. intros H. rewrite N.pow_add_r in H. rewrite N.mod_mul_r in H by (apply N.pow_nonzero; discriminate). rewrite N.pow_add_r, <- N.div_div by (apply N.pow_nonzero; discriminate).
  apply N.eq_add_0 in H. destruct H as [H1 H2]. split; [exact H1|]. apply N.eq_mul_0_r in H2; [exact H2|]. apply N.pow_nonzero. discriminate.
Qed.

Lemma land_4 flags k : N.land (N.shiftr flags k) 0xf = field flags k 4.
Proof. exact (field_land flags k 4). Qed.
Lemma land_5 flags k : N.land (N.shiftr flags k) 0x1f = field flags k 5.
Proof. exact (field_land flags k 5). Qed.
Lemma has_3 flags : has_flag flags F_UNBUFFERED = (field flags 3 1 =? 1).
Proof. exact (field_bit flags 3). Qed.
Lemma has_buffer flags : has_flag flags F_CUSTOM_BUFFER = negb (field flags 8 8 =? 0).
Proof. exact (field_flag flags 8 8). Qed.
Lemma has_nodes flags : has_flag flags F_CUSTOM_NODESIZE = negb (field flags 16 8 =? 0).
Proof. exact (field_flag flags 16 8). Qed.
Lemma has_sync flags : has_flag flags F_PERIODIC_SYNC = negb (field flags 24 5 =? 0).
Proof. exact (field_flag flags 24 5). Qed.
Lemma power_case buffered b x u d : (b = 0 -> x = 0) ->
  (if buffered && negb (b =? 0) && negb (x =? 0) then u * N.shiftl 1 (x - 1) else d) = (if buffered then power_setting x u d else d).
Proof.
  intros H. unfold power_setting. rewrite N.shiftl_mul_pow2, N.mul_1_l. destruct buffered; [|reflexivity].
  destruct (N.eqb_spec b 0) as [->|]; [rewrite (H eq_refl); reflexivity|]. now destruct (x =? 0).
Qed.
Lemma size_case b x : (b = 0 -> x = 0) -> (if negb (b =? 0) && negb (x =? 0) then x * 1024 else 1279) = (if x =? 0 then 1279 else 1024 * x).
Proof. intros H. destruct (N.eqb_spec b 0) as [->|]; [rewrite (H eq_refl); reflexivity|]. cbn [negb andb]. destruct (x =? 0); cbn [negb]; [reflexivity|apply N.mul_comm]. Qed.

(** Every setting is the documented function of its own bits. *)
Theorem C36_decode : forall flags, let o := get_tree_file_options_from_flags flags in
  op_buffered o = negb (field flags 3 1 =? 1)
  /\ op_read_buffers o = (if op_buffered o then power_setting (field flags 8 4) 8 16 else 16)
  /\ op_read_unit o = (if op_buffered o then power_setting (field flags 12 4) 1024 4096 else 4096)
  /\ op_kv o = (if field flags 16 4 =? 0 then 1279 else 1024 * field flags 16 4)
  /\ op_kp o = (if field flags 20 4 =? 0 then 1279 else 1024 * field flags 20 4)
  /\ op_sync o = power_setting (field flags 24 5) 1024 0
  /\ op_tracing o = (field flags 29 1 =? 1)
  /\ op_validation o = (field flags 30 1 =? 1)
  /\ op_mprotect o = (field flags 35 1 =? 1).
Proof.
  intros flags o. set (b8 := field flags 8 8). set (b16 := field flags 16 8).
  assert (S1 : b8 = 0 -> field flags 8 4 = 0 /\ field flags 12 4 = 0) by exact (@field_sub flags 8 4 4).
  assert (S2 : b16 = 0 -> field flags 16 4 = 0 /\ field flags 20 4 = 0) by exact (@field_sub flags 16 4 4).
  split; [exact (f_equal negb (field_bit flags 3))|]. split; [|split; [|split; [|split; [|split]]]].
  - transitivity (if negb (field flags 3 1 =? 1) && negb (b8 =? 0) && negb (field flags 8 4 =? 0) then 8 * N.shiftl 1 (field flags 8 4 - 1) else 16).
    { unfold o, get_tree_file_options_from_flags. cbn [op_read_buffers]. now rewrite land_4, has_3, has_buffer. }
    replace (op_buffered o) with (negb (field flags 3 1 =? 1)) by exact (eq_sym (f_equal negb (field_bit flags 3))). apply power_case. tauto.
  - transitivity (if negb (field flags 3 1 =? 1) && negb (b8 =? 0) && negb (field flags 12 4 =? 0) then 1024 * N.shiftl 1 (field flags 12 4 - 1) else 4096).
    { unfold o, get_tree_file_options_from_flags. cbn [op_read_unit]. now rewrite land_4, has_3, has_buffer. }
    replace (op_buffered o) with (negb (field flags 3 1 =? 1)) by exact (eq_sym (f_equal negb (field_bit flags 3))). apply power_case. tauto.
  - transitivity (if negb (b16 =? 0) && negb (field flags 16 4 =? 0) then field flags 16 4 * 1024 else 1279).
    { unfold o, get_tree_file_options_from_flags. cbn [op_kv]. now rewrite land_4, has_nodes. }
    apply size_case. tauto.
  - transitivity (if negb (b16 =? 0) && negb (field flags 20 4 =? 0) then field flags 20 4 * 1024 else 1279).
    { unfold o, get_tree_file_options_from_flags. cbn [op_kp]. now rewrite land_4, has_nodes. }
    apply size_case. tauto.
  - transitivity (if negb (field flags 24 5 =? 0) then N.shiftl 1024 (field flags 24 5 - 1) else 0).
    { unfold o, get_tree_file_options_from_flags. cbn [op_sync]. now rewrite land_5, has_sync. }
    unfold power_setting. rewrite N.shiftl_mul_pow2. now destruct (field flags 24 5 =? 0).
  - split; [exact (field_bit flags 29)|]. split; [exact (field_bit flags 30)|exact (field_bit flags 35)].
Qed.
Print Assumptions C36_decode.
Example C36_decode_ex : let o := get_tree_file_options_from_flags 0x3532500 in
  op_buffered o = true /\ op_read_unit o = 2048 /\ op_read_buffers o = 128 /\ op_kp o = 5120 /\ op_kv o = 3072 /\ op_sync o = 4096 /\ op_tracing o = false.
Proof. vm_compute. repeat split. Qed.

(** An encoded interval is decoded to a power of two kilobytes: the largest one that is not above the request rounded up to whole kilobytes, at
    most 1 TiB. The property wants "rounded down": missing where the request is not a whole number of kilobytes. *)
Theorem C36_encode_partial : forall b, 0 < b -> b <= 2^64 - 1024 ->
  exists flags k, encode_periodic_sync_flags b = Ok flags /\ op_sync (get_tree_file_options_from_flags flags) = 1024 * 2^k /\ k <= 30
    /\ 2^k <= (b + 1023) / 1024 /\ (k < 30 -> (b + 1023) / 1024 < 2^(k + 1)).
Proof.
  intros b H0 H1. unfold encode_periodic_sync_flags. rewrite N.mod_small by lia. set (kb := (b + 1023) / 1024). assert (Hk : 1 <= kb) by (unfold kb; lia).
  destruct (N.eqb_spec kb 0); [lia|]. exists (N.shiftl (N.min (N.log2 kb) 30 + 1) 24), (N.min (N.log2 kb) 30).
  pose proof (N.log2_spec kb ltac:(lia)) as [L1 L2]. set (k := N.min (N.log2 kb) 30) in *.
  split; [reflexivity|]. split; [|split; [|split]].
  - destruct (C36_decode (N.shiftl (k + 1) 24)) as (_ & _ & _ & _ & _ & -> & _). unfold field. rewrite N.shiftl_mul_pow2, N.div_mul by discriminate. rewrite N.mod_small by (change (2^5) with 32; unfold k; lia).
    unfold power_setting. destruct (N.eqb_spec (k + 1) 0); [lia|]. rewrite N.add_sub. reflexivity.
  - unfold k. lia.
  - etransitivity; [|exact L1]. apply N.pow_le_mono_r; [discriminate|]. unfold k. lia.
  - intros Hl. replace k with (N.log2 kb) by (unfold k in *; lia). rewrite <- N.add_1_r in L2. exact L2.
Qed.
Print Assumptions C36_encode_partial.
Example C36_encode_ex : encode_periodic_sync_flags 5000 = Ok (3 * 2^24) /\ op_sync (get_tree_file_options_from_flags (3 * 2^24)) = 4096.
Proof. vm_compute. split; reflexivity. Qed.

(** Requests in whole kilobytes are rounded down to a power of two as documented. *)
Theorem C36_encode_whole : forall kb, 0 < kb -> kb < 2^53 ->
  exists flags k, encode_periodic_sync_flags (1024 * kb) = Ok flags /\ op_sync (get_tree_file_options_from_flags flags) = 1024 * 2^k /\ k <= 30
    /\ 1024 * 2^k <= 1024 * kb /\ (k < 30 -> 1024 * kb < 1024 * 2^(k + 1)).
Proof.
  intros kb H0 H1. destruct (C36_encode_partial (b := 1024 * kb)) as (f & k & A & B & C & D & F); [lia|lia|].
  replace ((1024 * kb + 1023) / 1024) with kb in * by lia. exists f, k. repeat split; auto; [|intros Hk; specialize (F Hk)]; lia.
Qed.
Print Assumptions C36_encode_whole.
Example C36_whole_ex : 0 < 1000 /\ 1000 < 2^53.
Proof. lia. Qed.

(** A request of 1025 bytes gives 2048, which is above it: not "rounded down". *)
Theorem C36_rounded_down_refuted : exists b flags, 1024 <= b /\ encode_periodic_sync_flags b = Ok flags /\ b < op_sync (get_tree_file_options_from_flags flags).
Proof. exists 1025, (2 * 2^24). split; [lia|]. split; vm_compute; reflexivity. Qed.
Print Assumptions C36_rounded_down_refuted.
(** A request of 0 bytes is undefined behaviour, and so is one so large that the rounding overflows. *)
Theorem C36_defined_refuted : exists b1 b2, b1 < 2^64 /\ b2 < 2^64 /\ b1 <> b2 /\ encode_periodic_sync_flags b1 = Err E_UB /\ encode_periodic_sync_flags b2 = Err E_UB.
Proof. exists 0, (2^64 - 1). repeat split; vm_compute; auto; discriminate. Qed.
Print Assumptions C36_defined_refuted.

(** ** C37: periodic sync *)

(** As long as no sync reports an error: the bytes not yet synced stay below the interval. Missing: failing syncs, see below. *)
Theorem C37_bound_partial : forall period l, 0 < period -> period < 2^63 -> Forall ps_fine l -> pf_unsynced (ps_run l (ps_set period ps_open)) < period.
Proof. intros period l H0 H1 F. destruct (@ps_inv period l (ps_set period ps_open) H0 H1 F eq_refl) as [_ H]; [cbn; lia|]. lia. Qed.
Print Assumptions C37_bound_partial.
Example C37_ex : Forall ps_fine [PsWrite (Some 5) true; PsWrite (Some 9) true; PsSync false; PsWrite None true; PsWrite (Some 3) true]
  /\ pf_unsynced (ps_run [PsWrite (Some 5) true; PsWrite (Some 9) true; PsSync false; PsWrite None true; PsWrite (Some 3) true] (ps_set 8 ps_open)) = 3.
Proof. split; [repeat constructor|vm_compute; reflexivity]. Qed.

(** A failed sync restarts the count: the next write succeeds with more than the interval unsynced. *)
Theorem C37_failed_sync_refuted : exists period o1 f, 0 < period /\
  fst (ps_pwrite (Some 1) true (ps_run [o1] (ps_set period ps_open))) = Ok 1 /\ f = snd (ps_pwrite (Some 1) true (ps_run [o1] (ps_set period ps_open))) /\ period <= pf_unsynced f.
Proof. exists 8, (PsWrite (Some 10) false). eexists. split; [lia|]. split; [vm_compute; reflexivity|]. split; [reflexivity|]. vm_compute. discriminate. Qed.
Print Assumptions C37_failed_sync_refuted.

(** ** C40: bitmaps *)

Section Bitmaps.
Variables a b : bitmap.
Hypotheses (Ha : bitmap_ok a) (Hb : bitmap_ok b).

(** Partition [p] is in the set if bit [p] of the number in the 128 bytes is set, highest byte first. *)
Theorem C40_order : forall p, p < 1024 -> is_bit_set a p = Ok (N.testbit (number a) p).
Proof. intros p Hp. rewrite is_bit_set_eq by exact Hp. destruct Ha as [L B]. f_equal. rewrite (number_bit B) by (unfold lenN; lia). rewrite L. unfold bit_of. do 2 f_equal. lia. Qed.
Theorem C40_set : forall x, x < 1024 -> exists c, set_bit a x = Ok c /\ bitmap_ok c /\
  forall p, p < 1024 -> (is_bit_set c p = Ok true <-> p = x \/ is_bit_set a p = Ok true).
Proof.
  intros x Hx. destruct (set_bit_ok Ha Hx) as (c & H1 & H2 & H3). exists c. split; [exact H1|]. split; [exact H2|]. intros p Hp. rewrite !is_bit_set_eq, H3 by assumption.
  destruct (N.eqb_spec p x); cbn [orb]; [tauto|]. intuition congruence.
Qed.
Theorem C40_unset : forall x, x < 1024 -> exists c, unset_bit a x = Ok c /\ bitmap_ok c /\
  forall p, p < 1024 -> (is_bit_set c p = Ok true <-> p <> x /\ is_bit_set a p = Ok true).
Proof.
  intros x Hx. destruct (unset_bit_ok Ha Hx) as (c & H1 & H2 & H3). exists c. split; [exact H1|]. split; [exact H2|]. intros p Hp. rewrite !is_bit_set_eq, H3 by assumption.
  destruct (N.eqb_spec p x); cbn [negb andb]; intuition congruence.
Qed.
Theorem C40_union : bitmap_ok (union_bitmaps a b) /\ forall p, p < 1024 -> (is_bit_set (union_bitmaps a b) p = Ok true <-> is_bit_set a p = Ok true \/ is_bit_set b p = Ok true).
Proof.
  split.
  - apply zip_ok; [exact Ha|exact Hb|]. intros x y Hx Hy. apply (@bits_lt 8). intros i Hi. rewrite N.lor_spec, (@lt_bits 8 x i Hx Hi), (@lt_bits 8 y i Hy Hi). reflexivity.
  - intros p Hp. rewrite !is_bit_set_eq by exact Hp. unfold bit_of, union_bitmaps. rewrite zip_nth by (destruct Ha, Hb; congruence || reflexivity). rewrite N.lor_spec.
    destruct (N.testbit (nth _ a 0) _), (N.testbit (nth _ b 0) _); cbn; intuition congruence.
Qed.
Theorem C40_intersect : bitmap_ok (intersect_bitmaps a b) /\ forall p, p < 1024 -> (is_bit_set (intersect_bitmaps a b) p = Ok true <-> is_bit_set a p = Ok true /\ is_bit_set b p = Ok true).
Proof.
  split.
  - apply zip_ok; [exact Ha|exact Hb|]. intros x y Hx Hy. apply (@bits_lt 8). intros i Hi. rewrite N.land_spec, (@lt_bits 8 x i Hx Hi). reflexivity.
  - intros p Hp. rewrite !is_bit_set_eq by exact Hp. unfold bit_of, intersect_bitmaps. rewrite zip_nth by (destruct Ha, Hb; congruence || reflexivity). rewrite N.land_spec.
    destruct (N.testbit (nth _ a 0) _), (N.testbit (nth _ b 0) _); cbn; intuition congruence.
Qed.
Theorem C40_equal : is_equal_bitmap a b = true <-> forall p, p < 1024 -> is_bit_set a p = is_bit_set b p.
Proof.
  rewrite is_equal_eq. split; [now intros ->|]. intros H. apply (equal_bits Ha Hb). intros p Hp. specialize (H p Hp). rewrite !is_bit_set_eq in H by exact Hp. now inv H.
Qed.
End Bitmaps.
Theorem C40_empty : bitmap_ok empty_bitmap /\ forall p, p < 1024 -> is_bit_set empty_bitmap p = Ok false.
Proof.
  split; [split; [reflexivity|]|].
  - unfold is_bytes, empty_bitmap. rewrite Forall_forall. intros x Hx. apply repeat_spec in Hx. subst. reflexivity.
  - intros p Hp. rewrite is_bit_set_eq by exact Hp. unfold bit_of, empty_bitmap. destruct (nth_in_or_default (N.to_nat (127 - p / 8)) (repeat 0 128) 0) as [H| ->]; [apply repeat_spec in H; rewrite H|]; now rewrite N.bits_0.
Qed.
Print Assumptions C40_order.
Print Assumptions C40_set.
Print Assumptions C40_unset.
Print Assumptions C40_union.
Print Assumptions C40_intersect.
Print Assumptions C40_equal.
Print Assumptions C40_empty.
Example C40_ex : exists a, bitmap_ok a /\ set_bit empty_bitmap 1000 = Ok a /\ is_bit_set a 1000 = Ok true /\ is_bit_set a 999 = Ok false /\ number a = 2^1000.
Proof. destruct C40_empty as [H _]. destruct (C40_set H (x := 1000) ltac:(lia)) as (a & H1 & H2 & _). exists a. split; [exact H2|]. split; [exact H1|]. vm_compute in H1. inv H1. vm_compute. repeat split. Qed.

(** ** C41: sorted lists *)

Section Sorted.
Variable A : Type.
Variable cmp : A -> A -> comparison.
Hypothesis T : total_order cmp.
Variable l : slist A.
Hypothesis U : slist_use cmp l.

(** Iteration is strictly ascending, and the size is the number of elements. *)
Theorem C41_ascending : StronglySorted (fun x y => cmp x y = Lt) (all_of l) /\ sorted_list_size l = Z.of_nat (length (all_of l)).
Proof. rewrite all_of_eq. exact (sl_sorted T U). Qed.
Theorem C41_get : forall e x, sorted_list_get cmp l e = Some x <-> In x (all_of l) /\ cmp x e = Eq.
Proof. intros e x. rewrite all_of_eq. apply (get_some T), (sl_sorted T U). Qed.
Theorem C41_add : forall e x, In x (all_of (sorted_list_add cmp l e)) <-> x = e \/ (In x (all_of l) /\ cmp x e <> Eq).
Proof. intros e x. rewrite !all_of_eq, <- (add_in T e x (proj1 (sl_sorted T U))). unfold sorted_list_add. destruct (add_elem cmp e (sl_elems l)). reflexivity. Qed.
Theorem C41_remove : forall e x, In x (all_of (sorted_list_remove cmp l e)) <-> In x (all_of l) /\ cmp x e <> Eq.
Proof. intros e x. rewrite !all_of_eq, <- (remove_in T e x (proj1 (sl_sorted T U))). unfold sorted_list_remove. destruct (remove_elem cmp e (sl_elems l)). reflexivity. Qed.
End Sorted.
Theorem C41_new : forall A, all_of (sorted_list_create A) = [] /\ sorted_list_size (sorted_list_create A) = 0%Z.
Proof. intros A. split; reflexivity. Qed.
Print Assumptions C41_ascending.
Print Assumptions C41_get.
Print Assumptions C41_add.
Print Assumptions C41_remove.
Print Assumptions C41_new.
(** Numbers ordered by their tens: 21 replaces 25. *)
Definition tens (x y : N) : comparison := N.compare (x / 10) (y / 10).
Example C41_ex : total_order tens
  /\ all_of (fold_left (sorted_list_add tens) [35; 14; 25; 7; 21] (sorted_list_create N)) = [7; 14; 21; 35]
  /\ all_of (sorted_list_remove tens (fold_left (sorted_list_add tens) [35; 14; 25; 7; 21] (sorted_list_create N)) 18) = [7; 21; 35].
Proof.
  split; [|split; vm_compute; reflexivity]. unfold tens. constructor.
  - intros x. apply N.compare_refl.
  - intros x y. apply N.compare_antisym.
  - intros x y z. rewrite !N.compare_lt_iff. lia.
  - intros x y z. rewrite N.compare_eq_iff. now intros ->.
Qed.

(** ** C44: the legacy checksum *)

Theorem C44_crc : forall msg, is_bytes msg -> is_crc32 msg (hash_crc32 msg).
Proof. exact hash_is_crc. Qed.
Theorem C44_unique : forall msg c c', is_crc32 msg c -> is_crc32 msg c' -> c = c'.
Proof. exact crc_unique. Qed.
(** Which checksums are accepted, where the two checksums are those of the environment, the legacy one computed as above. *)
Theorem C44_modes : forall (E : Env), (forall x, crc32 x = hash_crc32 x) -> forall m msg c, is_bytes msg ->
  (integrity m msg c = true <->
   match m with
   | CRC32 => is_crc32 msg c
   | CRC32C => c = crc32c msg
   | CRC_UNKNOWN => is_crc32 msg c \/ c = crc32c msg
   end).
Proof.
  intros E HE m msg c Hm. assert (R : c = crc32 msg <-> is_crc32 msg c).
  { rewrite HE. split; [intros ->; apply hash_is_crc, Hm|]. intros H. exact (crc_unique H (hash_is_crc Hm)). }
  destruct m; cbn [integrity]; rewrite ?orb_true_iff, !N.eqb_eq, ?R; tauto.
Qed.
(** The number that couch_create takes for the partition of a key: the 15 bits from bit 16 of the checksum. *)
Theorem C44_client : forall msg c, is_bytes msg -> is_crc32 msg c -> client_hash_crc32 msg = (c / 2^16) mod 2^15.
Proof.
  intros msg c Hm Hc. rewrite (crc_unique Hc (hash_is_crc Hm)). unfold client_hash_crc32, hash_crc32. change 0x7fff with (N.ones 15). rewrite N.land_ones, N.shiftr_div_pow2. reflexivity.
Qed.
Print Assumptions C44_client.
Print Assumptions C44_crc.
Print Assumptions C44_unique.
Print Assumptions C44_modes.
Example C44_client_ex : client_hash_crc32 [49;50;51;52;53;54;55;56;57] = 0x4BF4.
Proof. vm_compute. reflexivity. Qed.
(** The usual check value: "123456789" gives CBF43926. *)
Example C44_ex : hash_crc32 [49;50;51;52;53;54;55;56;57] = 0xCBF43926 /\ is_bytes [49;50;51;52;53;54;55;56;57].
Proof. split; [vm_compute; reflexivity|repeat constructor]. Qed.

(** ** C45: the record allocator *)

(** Every grant lies inside the block, and after all earlier ones. *)
Theorem C45_disjoint : forall size sizes,
  let l := fatbuf_gets (fatbuf_alloc size) sizes in
  Forall (fun x => match snd x with Some p => p + fst x <= size | None => True end) l
  /\ ForallOrdPairs (fun x y => match snd x, snd y with Some p, Some q => p + fst x <= q | _, _ => True end) l.
Proof.
  intros size sizes. destruct (@fatbuf_gets_ok sizes (fatbuf_alloc size)) as [F P]; [cbn; lia|]. split; [|exact P]. eapply Forall_impl; [|exact F]. intros [m [q|]]; cbn; lia.
Qed.
(** A request is granted exactly if it fits in what is left. *)
Theorem C45_refused : forall size sizes n, exists r,
  fatbuf_gets (fatbuf_alloc size) (sizes ++ [n]) = fatbuf_gets (fatbuf_alloc size) sizes ++ [(n, r)]
  /\ (r <> None <-> granted (fatbuf_gets (fatbuf_alloc size) sizes) + n <= size).
Proof.
  intros size sizes n. rewrite fatbuf_gets_app. eexists. split; [cbn [fatbuf_gets]; destruct (fatbuf_get _ n) eqn:E; f_equal; f_equal; f_equal; exact (eq_sym (f_equal fst E))|].
  pose proof (@granted_le sizes (fatbuf_alloc size) ltac:(cbn; lia)) as H. unfold fatbuf_get. cbn [fst fatbuf_alloc fb_size fb_pos] in *. rewrite !N.add_0_l in *.
  change (fatbuf_alloc size) with (Fatbuf size 0) in *. set (g := granted _) in *.
  destruct (N.ltb_spec size g); [lia|]. cbn [orb]. destruct (N.ltb_spec (size - g) n); cbn [fst]; split; intros; try congruence; lia.
Qed.
Print Assumptions C45_disjoint.
Print Assumptions C45_refused.
Example C45_ex : fatbuf_gets (fatbuf_alloc 100) [40; 70; 60; 1] = [(40, Some 0); (70, None); (60, Some 40); (1, None)].
Proof. vm_compute. reflexivity. Qed.

(** ** C50: the arena *)

(** For every use of an arena: the blocks in use do not overlap, and each lies in a piece of memory obtained from the system. *)
Theorem C50_disjoint : forall a bs ms, arena_use a bs ms -> ForallOrdPairs disjoint bs /\ Forall (fun b => Exists (inside b) (ar_chunks a)) bs.
Proof.
  intros a bs ms H. destruct (use_ok H) as [_ (A2 & A3 & _) _ _]. split; [exact A3|]. eapply Forall_impl; [|exact A2]. intros b Hb. unfold placed in Hb.
  destruct (ar_chunks a); [tauto|]. destruct Hb as [[Hb _]|Hb]; [now left|now right].
Qed.
(** Giving back everything since a mark succeeds. *)
Theorem C50_free : forall a bs newer m old ms, arena_use a bs (newer ++ (m, old) :: ms) -> exists a', arena_free_from_mark a m = Ok a'.
Proof. intros a bs newer m old ms H. destruct (free_ok (use_ok H)) as (a' & H1 & _). exists a'. exact H1. Qed.
Print Assumptions C50_disjoint.
Print Assumptions C50_free.
(** Three blocks, one of them in a second piece of memory. *)
Definition ar1 := Arena 16405 49152 [Chunk 16400 32752] 32752.
Definition ar2 := Arena 16458 49152 [Chunk 16400 32752] 32752.
Definition ar3 := Arena 165554 165554 [Chunk 65552 100002; Chunk 16400 32752] 32752.
Lemma ar1_ok : system_ok ar1. Proof. split; repeat constructor. Qed.
Lemma ar2_ok : system_ok ar2. Proof. split; repeat constructor. Qed.
Lemma ar3_ok : system_ok ar3. Proof. unfold system_ok, ar3. cbn [ar_chunks]. split; [|repeat constructor]. repeat (apply FOP_cons || apply FOP_nil || apply Forall_cons || apply Forall_nil). right. vm_compute. discriminate. Qed.
Example C50_ex : arena_use ar3 [(65554, 100000); (16408, 50); (16400, 5)] [(16405, [(16400, 5)])].
Proof.
  apply (@au_alloc ar2 _ _ 100000 65536); [|vm_compute; reflexivity|exact ar3_ok]. apply (@au_alloc ar1 _ _ 50 1); [|vm_compute; reflexivity|exact ar2_ok].
  apply au_mark. apply (@au_alloc_unaligned (new_arena 0) _ _ 5 16384); [apply au_new|vm_compute; reflexivity|exact ar1_ok].
Qed.
(** arena_alloc does not always deliver a multiple of four, although malloc does: the padding is computed for the old chunk. *)
Theorem C50_aligned_refuted : exists a bs ms n base p a', arena_use a bs ms /\ base mod 16 = 0 /\ arena_alloc a n base = (p, a') /\ system_ok a' /\ p mod 4 <> 0.
Proof.
  exists ar2, [(16408, 50); (16400, 5)], [(16405, [(16400, 5)])], 100000, 65536, 65554, ar3. split; [|split; [reflexivity|split; [vm_compute; reflexivity|split; [exact ar3_ok|vm_compute; discriminate]]]].
  apply (@au_alloc ar1 _ _ 50 1); [|vm_compute; reflexivity|exact ar2_ok].
  apply au_mark. apply (@au_alloc_unaligned (new_arena 0) _ _ 5 16384); [apply au_new|vm_compute; reflexivity|exact ar1_ok].
Qed.
Print Assumptions C50_aligned_refuted.
