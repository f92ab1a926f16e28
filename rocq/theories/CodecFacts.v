(** Facts about the codecs of [Codec]. *)
From Verif Require Import Base Codec.
Local Open Scope N_scope.

(** ** Big-endian integers *)

Lemma be_length n x : length (be n x) = n.
Proof. revert x; induction n as [|n IH]; intros x; cbn; auto. rewrite app_length, IH; cbn; lia. Qed.
Lemma lenN_be n x : lenN (be n x) = N.of_nat n.
Proof. unfold lenN; now rewrite be_length. Qed.

Lemma unbe_snoc l b : unbe (l ++ [b]) = unbe l * 256 + b.
Proof. unfold unbe; rewrite fold_left_app; reflexivity. Qed.

Lemma pow256_S n : 256 ^ N.of_nat (S n) = 256 * 256 ^ N.of_nat n.
Proof. rewrite Nnat.Nat2N.inj_succ, N.pow_succ_r'; lia. Qed.

Lemma pow256_pos n : 0 < 256 ^ n.
Proof. apply N.neq_0_lt_0, N.pow_nonzero; lia. Qed.

Lemma unbe_be n x : unbe (be n x) = x mod 256 ^ N.of_nat n.
Proof.
  revert x; induction n as [|n IH]; intros x; cbn [be].
  - change (unbe []) with 0. change (256 ^ N.of_nat 0) with 1. now rewrite N.mod_1_r.
  - rewrite unbe_snoc, IH, pow256_S.
    rewrite (N.mod_mul_r x 256 (256 ^ N.of_nat n)); [lia | lia | apply N.pow_nonzero; lia].
Qed.

Lemma unbe_be_small n x : x < 256 ^ N.of_nat n -> unbe (be n x) = x.
Proof. intros; rewrite unbe_be; now apply N.mod_small. Qed.

Lemma unbe_bound l : is_bytes l -> unbe l < 256 ^ lenN l.
Proof.
  induction l as [|b l IH] using rev_ind; intros H.
  - reflexivity.
  - apply Forall_app in H; destruct H as [H1 H2]. inv H2. specialize (IH H1).
    rewrite unbe_snoc, lenN_app, lenN_cons, lenN_nil.
    replace (lenN l + (1 + 0)) with (N.succ (lenN l)) by lia.
    rewrite N.pow_succ_r'. unfold is_byte in *. nia.
Qed.

Lemma be_unbe l n : is_bytes l -> length l = n -> be n (unbe l) = l.
Proof.
  revert l; induction n as [|n IH]; intros l Hb Hl.
  - destruct l; [reflexivity|discriminate].
  - destruct (exists_last (l := l)) as [l' [b ->]]; [now destruct l|].
    apply Forall_app in Hb; destruct Hb as [H1 H2]. inv H2.
    rewrite app_length in Hl; cbn in Hl.
    unfold is_byte in *.
    cbn [be]. rewrite unbe_snoc.
    replace ((unbe l' * 256 + b) / 256) with (unbe l') by lia.
    replace ((unbe l' * 256 + b) mod 256) with b by lia.
    rewrite IH; auto. lia.
Qed.

Lemma be_is_bytes n x : is_bytes (be n x).
Proof.
  revert x; induction n as [|n IH]; intros x; cbn; [constructor|].
  apply Forall_app; split; [apply IH|]. constructor; [|constructor]. unfold is_byte; lia.
Qed.

Lemma be_mod n x : be n (x mod 256 ^ N.of_nat n) = be n x.
Proof.
  rewrite <- unbe_be. apply be_unbe; [apply be_is_bytes | apply be_length].
Qed.

Lemma be_inj n x y : x < 256 ^ N.of_nat n -> y < 256 ^ N.of_nat n -> be n x = be n y -> x = y.
Proof. intros Hx Hy H. rewrite <- (unbe_be_small n Hx), H. now apply unbe_be_small. Qed.

Lemma rd_be_app n off (a b c : bytes) :
  off = lenN a -> n = lenN b -> rd_be n off (a ++ b ++ c) = Ok (unbe b).
Proof. intros; unfold rd_be; rewrite getb_app_mid by assumption; reflexivity. Qed.

Lemma rd_be_app0 n (b c : bytes) : n = lenN b -> rd_be n 0 (b ++ c) = Ok (unbe b).
Proof. intros H. now apply (@rd_be_app n 0 [] b c). Qed.
Lemma getb_app0 n (b c : bytes) : n = lenN b -> getb 0 n (b ++ c) = Ok b.
Proof. intros H. now apply (@getb_app_mid [] b c). Qed.

Lemma getb_ok off len l : off + len <= lenN l -> getb off len l = Ok (take len (drop off l)).
Proof. intros; unfold getb. destruct (N.leb_spec (off + len) (lenN l)); [reflexivity | lia]. Qed.

Lemma getb_len off len l b : getb off len l = Ok b -> lenN b = len.
Proof.
  unfold getb. destruct (N.leb_spec (off + len) (lenN l)); intros H1; inv H1.
  rewrite lenN_take, lenN_drop; lia.
Qed.

Lemma rd_be_ok n off l : off + n <= lenN l -> exists x, rd_be n off l = Ok x.
Proof. intros; unfold rd_be; rewrite getb_ok by assumption; cbn; eauto. Qed.

(** ** Packed lengths *)

Lemma nibble_pack a b : a < 16 -> b < 16 ->
  N.lor a (N.shiftl b 4) = a + 16 * b /\
  N.shiftr (N.land (a + 16 * b) 240) 4 = b.
Proof.
  intros Ha Hb.
  assert (H : forallb (fun a => forallb (fun b =>
     (N.lor a (N.shiftl b 4) =? a + 16 * b) && (N.shiftr (N.land (a + 16 * b) 240) 4 =? b))
     (map N.of_nat (seq 0 16))) (map N.of_nat (seq 0 16)) = true) by (vm_compute; reflexivity).
  rewrite forallb_forall in H.
  assert (Ia : In a (map N.of_nat (seq 0 16))).
  { apply in_map_iff; exists (N.to_nat a); split; [lia|apply in_seq; lia]. }
  assert (Ib : In b (map N.of_nat (seq 0 16))).
  { apply in_map_iff; exists (N.to_nat b); split; [lia|apply in_seq; lia]. }
  specialize (H a Ia). rewrite forallb_forall in H. specialize (H b Ib).
  apply andb_true_iff in H; destruct H as [H1 H2].
  apply N.eqb_eq in H1, H2. auto.
Qed.

Lemma be4_shape x : be 4 x = [(x / 256 / 256 / 256) mod 256; (x / 256 / 256) mod 256; (x / 256) mod 256; x mod 256].
Proof. reflexivity. Qed.

Lemma unbe4_shape a b c d : unbe [a;b;c;d] = ((a * 256 + b) * 256 + c) * 256 + d.
Proof. unfold unbe; cbn [fold_left]. lia. Qed.

Lemma land_ones28 x : N.land x 268435455 = x mod 2^28.
Proof. change 268435455 with (N.ones 28). apply N.land_ones. Qed.

Lemma shiftl4 x : N.shiftl x 4 = x * 16.
Proof. rewrite N.shiftl_mul_pow2. reflexivity. Qed.
Lemma shiftr4 x : N.shiftr x 4 = x / 16.
Proof. rewrite N.shiftr_div_pow2. reflexivity. Qed.
Lemma land15 x : N.land x 15 = x mod 16.
Proof. change 15 with (N.ones 4). rewrite N.land_ones. reflexivity. Qed.

Lemma lor_add a b : N.land a b = 0 -> N.lor a b = a + b.
Proof. intros H. rewrite N.add_nocarry_lxor by exact H. symmetry. now apply N.lxor_lor. Qed.

Lemma lor_mul16 a b : b < 16 -> N.lor (a * 16) b = a * 16 + b.
Proof.
  intros Hb. apply lor_add. rewrite <- shiftl4.
  apply N.bits_inj_0; intros i. rewrite N.land_spec.
  destruct (N.lt_ge_cases i 4) as [Hi|Hi].
  - now rewrite N.shiftl_spec_low.
  - rewrite (N.bits_above_log2 b i); [apply andb_false_r|].
    destruct (N.eq_dec b 0) as [->|Hz]; [cbn; lia|].
    apply N.lt_le_trans with 4; [|assumption].
    apply N.log2_lt_pow2; [lia|]. exact Hb.
Qed.

Lemma kv_length_len k v : lenN (encode_kv_length k v) = 5.
Proof. unfold encode_kv_length. rewrite be4_shape. reflexivity. Qed.

Lemma kv_length_roundtrip klen vlen :
  klen < 2^12 -> vlen < 2^28 -> decode_kv_length (encode_kv_length klen vlen) = (klen, vlen).
Proof.
  intros Hk Hv. unfold encode_kv_length. rewrite be4_shape. cbn [decode_kv_length].
  assert (Hb1 : (vlen / 256 / 256 / 256) mod 256 < 16) by (change (2^28) with 268435456 in Hv; lia).
  assert (Hk1 : N.land klen 15 < 16) by (rewrite land15; lia).
  destruct (@nibble_pack ((vlen / 256 / 256 / 256) mod 256) (N.land klen 15) Hb1 Hk1) as [E1 E2].
  rewrite E1, E2. rewrite shiftl4, land15.
  rewrite lor_mul16 by lia. rewrite shiftr4.
  rewrite unbe4_shape, land_ones28.
  change (2^12) with 4096 in Hk. change (2^28) with 268435456 in *.
  f_equal; [lia|]. lia.
Qed.

(** ** Entries *)

Lemma lenN_write_kv k v : lenN (write_kv k v) = 5 + lenN k + lenN v.
Proof. unfold write_kv. rewrite !lenN_app, kv_length_len. lia. Qed.

Definition kv_ok (kv : bytes * bytes) : Prop := lenN (fst kv) < 2^12 /\ lenN (snd kv) < 2^28.

Lemma read_write_kv (pre : bytes) k v (post : bytes) :
  lenN k < 2^12 -> lenN v < 2^28 ->
  read_kv (pre ++ write_kv k v ++ post) (lenN pre) = Ok (Some (k, v, 5 + lenN k + lenN v)).
Proof.
  intros Hk Hv. change (2^12) with 4096 in Hk. change (2^28) with 268435456 in Hv.
  unfold read_kv.
  assert (E : write_kv k v = encode_kv_length (lenN k) (lenN v) ++ k ++ v).
  { unfold write_kv. change (2^32) with 4294967296. rewrite !N.mod_small by lia. reflexivity. }
  rewrite !lenN_app, lenN_write_kv.
  destruct (N.ltb_spec (lenN pre + (5 + lenN k + lenN v + lenN post)) (lenN pre + 5)); [lia|].
  rewrite E, <- !app_assoc.
  rewrite getb_app_mid by (rewrite ?kv_length_len; reflexivity). cbn [bind].
  rewrite kv_length_roundtrip by assumption.
  destruct (N.ltb_spec (lenN pre + (5 + lenN k + lenN v + lenN post) - lenN pre) (5 + lenN k + lenN v)); [lia|].
  rewrite (app_assoc pre).
  rewrite getb_app_mid by (rewrite ?lenN_app, ?kv_length_len; reflexivity). cbn [bind].
  rewrite (app_assoc (pre ++ _)).
  rewrite getb_app_mid by (rewrite ?lenN_app, ?kv_length_len; reflexivity). reflexivity.
Qed.

Definition enc_items (kvs : list (bytes * bytes)) : bytes :=
  flat_map (fun kv => write_kv (fst kv) (snd kv)) kvs.

Lemma enc_items_app a b : enc_items (a ++ b) = enc_items a ++ enc_items b.
Proof. apply flat_map_app. Qed.

Lemma parse_enc_items kvs : Forall kv_ok kvs -> forall pre fuel,
  (length kvs < fuel)%nat ->
  parse_items fuel (pre ++ enc_items kvs) (lenN pre) = (kvs, TEnd).
Proof.
  induction kvs as [|[k v] kvs IH]; intros H pre fuel Hf.
  - destruct fuel; [lia|]. cbn [parse_items enc_items flat_map]. rewrite app_nil_r.
    destruct (N.ltb_spec (lenN pre) (lenN pre)); [lia|reflexivity].
  - destruct fuel; [lia|]. inv H. destruct H2 as [Hk Hv]. cbn [fst snd] in *.
    change (enc_items ((k, v) :: kvs)) with (write_kv k v ++ enc_items kvs).
    cbn [parse_items].
    rewrite !lenN_app, lenN_write_kv.
    destruct (N.ltb_spec (lenN pre) (lenN pre + (5 + lenN k + lenN v + lenN (enc_items kvs)))); [|lia].
    rewrite read_write_kv by assumption.
    rewrite app_assoc.
    replace (lenN pre + (5 + lenN k + lenN v)) with (lenN (pre ++ write_kv k v))
      by (rewrite lenN_app, lenN_write_kv; lia).
    rewrite IH; auto. cbn [length] in Hf. lia.
Qed.

Lemma enc_items_len_ge kvs : N.of_nat (length kvs) <= lenN (enc_items kvs).
Proof.
  induction kvs as [|kv kvs IH]; cbn [length]; [lia|].
  change (enc_items (kv :: kvs)) with (write_kv (fst kv) (snd kv) ++ enc_items kvs).
  rewrite lenN_app, lenN_write_kv. lia.
Qed.

Lemma node_items_mk ty kvs : Forall kv_ok kvs -> node_items (mk_node ty kvs) = (kvs, TEnd).
Proof.
  intros H. unfold node_items, mk_node. fold (enc_items kvs).
  change (ty :: enc_items kvs) with ([ty] ++ enc_items kvs).
  change 1 with (lenN [ty]). apply parse_enc_items; auto.
  rewrite app_length. cbn [length].
  pose proof (enc_items_len_ge kvs). unfold lenN in *. lia.
Qed.

(** read_kv never reads outside of its buffer. *)
Lemma read_kv_no_ub buf start : exists r, read_kv buf start = Ok r.
Proof.
  unfold read_kv. destruct (N.ltb_spec (lenN buf) (start + 5)); eauto.
  rewrite getb_ok by lia. cbn [bind].
  destruct (decode_kv_length _) as [klen vlen].
  destruct (N.ltb_spec (lenN buf - start) (5 + klen + vlen)); eauto.
  rewrite getb_ok by lia. cbn [bind]. rewrite getb_ok by lia. cbn [bind]. eauto.
Qed.

(** ** Pointers and roots *)

Definition ptr_ok (p : node_pointer) : Prop :=
  np_pointer p < 2^48 /\ np_subtree p < 2^48 /\ lenN (np_reduce p) < 2^16.

Lemma lenN_encode_pointer p : lenN (encode_pointer p) = 14 + lenN (np_reduce p).
Proof. unfold encode_pointer. rewrite !lenN_app, !lenN_be. lia. Qed.

Lemma read_encode_pointer k p :
  np_pointer p < 2^48 -> lenN (np_reduce p) < 2^16 ->
  read_pointer k (encode_pointer p) =
  Ok (NodePointer k (np_pointer p) (np_reduce p) (np_subtree p mod 2^48)).
Proof.
  intros H1 H2. unfold read_pointer. rewrite lenN_encode_pointer.
  destruct (N.ltb_spec (14 + lenN (np_reduce p)) 14); [lia|].
  unfold encode_pointer.
  rewrite (@rd_be_app0 6 (be 6 (np_pointer p))) by (rewrite ?lenN_be; reflexivity). cbn [bind].
  rewrite (@rd_be_app 6 6 (be 6 (np_pointer p)) (be 6 (np_subtree p))) by (rewrite ?lenN_be; reflexivity).
  cbn [bind].
  rewrite (app_assoc (be 6 (np_pointer p))).
  rewrite (@rd_be_app 2 12 _ (be 2 (lenN (np_reduce p)))) by (rewrite ?lenN_app, ?lenN_be; reflexivity).
  cbn [bind]. rewrite !unbe_be. change (256 ^ N.of_nat 6) with (2^48). change (256 ^ N.of_nat 2) with (2^16).
  rewrite (N.mod_small (lenN _)), (N.mod_small (np_pointer p)) by assumption.
  destruct (N.ltb_spec (14 + lenN (np_reduce p)) (14 + lenN (np_reduce p))); [lia|].
  rewrite (app_assoc (be 6 (np_pointer p) ++ _)).
  rewrite getb_app_end by (rewrite ?lenN_app, ?lenN_be; reflexivity). reflexivity.
Qed.

Lemma lenN_encode_root r : lenN (encode_root r) = match r with None => 0 | Some p => 12 + lenN (np_reduce p) end.
Proof. destruct r as [p|]; cbn [encode_root]; [|reflexivity]. rewrite !lenN_app, !lenN_be. lia. Qed.

Lemma read_encode_root p :
  read_root (encode_root (Some p)) =
  Ok (Some (NodePointer [] (np_pointer p mod 2^48) (np_reduce p) (np_subtree p mod 2^48))).
Proof.
  unfold read_root. rewrite lenN_encode_root.
  destruct (N.ltb_spec (12 + lenN (np_reduce p)) 12); [lia|].
  cbn [encode_root].
  rewrite (@rd_be_app0 6 (be 6 (np_pointer p))) by (rewrite ?lenN_be; reflexivity). cbn [bind].
  rewrite (@rd_be_app 6 6 (be 6 (np_pointer p)) (be 6 (np_subtree p))) by (rewrite ?lenN_be; reflexivity).
  cbn [bind].
  rewrite (app_assoc (be 6 (np_pointer p))).
  rewrite getb_app_end by (rewrite ?lenN_app, ?lenN_be; lia). cbn [bind].
  rewrite !unbe_be. reflexivity.
Qed.

(** ** Document information *)

(** Limits of the on-disk format for document information. *)
Definition docinfo_ok (d : doc_info) : Prop :=
  lenN (di_id d) < 2^12 /\ di_db_seq d < 2^48 /\ di_rev_seq d < 2^48 /\
  di_content_meta d < 2^8 /\ di_bp d < 2^47 /\ di_physical_size d < 2^28.

Lemma bp_flag_set bp : bp < 2^47 -> N.lor bp BP_DELETED_FLAG = bp + 2^47.
Proof.
  intros H. change BP_DELETED_FLAG with (2^47).
  assert (Hz : N.land bp (2^47) = 0).
  { apply N.bits_inj_0; intros i. rewrite N.land_spec.
    destruct (N.eq_dec i 47) as [->|Hi].
    - rewrite (N.bits_above_log2 bp 47); [reflexivity|].
      destruct (N.eq_dec bp 0) as [->|Hb]; [reflexivity|]. apply N.log2_lt_pow2; lia.
    - rewrite N.pow2_bits_false by congruence. apply andb_false_r. }
  now apply lor_add.
Qed.

Lemma bp_field_bound d : di_bp d < 2^47 -> bp_field d < 2^48.
Proof.
  intros H. unfold bp_field. change (2^48) with 281474976710656.
  destruct (di_deleted d); [rewrite bp_flag_set by assumption|];
  change (2^47) with 140737488355328 in *; lia.
Qed.

Lemma bp_field_flag d : di_bp d < 2^47 ->
  negb (N.land (bp_field d) BP_DELETED_FLAG =? 0) = di_deleted d /\
  N.ldiff (bp_field d) BP_DELETED_FLAG = di_bp d.
Proof.
  intros H. unfold bp_field.
  assert (Hb : N.testbit (di_bp d) 47 = false).
  { apply N.bits_above_log2. destruct (N.eq_dec (di_bp d) 0) as [->|Hz]; [reflexivity|].
    apply N.log2_lt_pow2; lia. }
  assert (L : forall x, N.land x BP_DELETED_FLAG = if N.testbit x 47 then 2^47 else 0).
  { intros x. apply N.bits_inj; intros i. change BP_DELETED_FLAG with (2^47).
    rewrite N.land_spec. destruct (N.eq_dec i 47) as [->|Hi].
    - rewrite N.pow2_bits_true, andb_true_r.
      destruct (N.testbit x 47); [now rewrite N.pow2_bits_true | now rewrite N.bits_0].
    - rewrite N.pow2_bits_false, andb_false_r by congruence.
      destruct (N.testbit x 47); [now rewrite N.pow2_bits_false by congruence | now rewrite N.bits_0]. }
  destruct (di_deleted d); rewrite L.
  - split.
    + rewrite N.lor_spec, Hb. reflexivity.
    + apply N.bits_inj; intros i. change BP_DELETED_FLAG with (2^47).
      rewrite N.ldiff_spec, N.lor_spec. destruct (N.eq_dec i 47) as [->|Hi].
      * rewrite N.pow2_bits_true, Hb. reflexivity.
      * rewrite N.pow2_bits_false by congruence. now rewrite orb_false_r, andb_true_r.
  - split.
    + rewrite Hb. reflexivity.
    + apply N.bits_inj; intros i. change BP_DELETED_FLAG with (2^47).
      rewrite N.ldiff_spec. destruct (N.eq_dec i 47) as [->|Hi].
      * rewrite N.pow2_bits_true, Hb. reflexivity.
      * rewrite N.pow2_bits_false by congruence. now rewrite andb_true_r.
Qed.

Lemma lenN_id_value d : lenN (assemble_id_index_value d) = 23 + lenN (di_rev_meta d).
Proof. unfold assemble_id_index_value. rewrite !lenN_app, !lenN_be. lia. Qed.
Lemma lenN_seq_value d : lenN (assemble_seq_index_value d) = 18 + lenN (di_id d) + lenN (di_rev_meta d).
Proof. unfold assemble_seq_index_value. rewrite !lenN_app, !lenN_be, kv_length_len. lia. Qed.

Lemma by_id_roundtrip d : docinfo_ok d ->
  by_id_read_docinfo (di_id d) (assemble_id_index_value d) = Ok d.
Proof.
  intros (Hid & Hseq & Hrev & Hcm & Hbp & Hps).
  unfold by_id_read_docinfo. rewrite lenN_id_value.
  destruct (N.ltb_spec (23 + lenN (di_rev_meta d)) 23); [lia|].
  unfold assemble_id_index_value.
  set (a := be 6 (di_db_seq d)). set (b := be 4 (di_physical_size d)).
  set (c := be 6 (bp_field d)). set (e := be 6 (di_rev_seq d)). set (f := be 1 (di_content_meta d)).
  assert (La : lenN a = 6) by apply lenN_be. assert (Lb : lenN b = 4) by apply lenN_be.
  assert (Lc : lenN c = 6) by apply lenN_be. assert (Le : lenN e = 6) by apply lenN_be.
  assert (Lf : lenN f = 1) by apply lenN_be.
  rewrite (@rd_be_app0 6 a) by (try reflexivity; now rewrite La). cbn [bind].
  rewrite (@rd_be_app 4 6 a b) by (try reflexivity; now rewrite ?La, ?Lb). cbn [bind].
  rewrite (app_assoc a b).
  rewrite (@rd_be_app 6 10 (a ++ b) c) by (now rewrite ?lenN_app, ?La, ?Lb, ?Lc). cbn [bind].
  rewrite (app_assoc (a ++ b)).
  rewrite (@rd_be_app 6 16 _ e) by (now rewrite ?lenN_app, ?La, ?Lb, ?Lc, ?Le). cbn [bind].
  rewrite (app_assoc ((a ++ b) ++ c)).
  rewrite (@rd_be_app 1 22 _ f) by (now rewrite ?lenN_app, ?La, ?Lb, ?Lc, ?Le, ?Lf). cbn [bind].
  rewrite (app_assoc (((a ++ b) ++ c) ++ e)).
  rewrite getb_app_end by (rewrite ?lenN_app, ?La, ?Lb, ?Lc, ?Le, ?Lf; lia). cbn [bind].
  subst a b c e f.
  pose proof (bp_field_bound d Hbp) as Hbf.
  rewrite !unbe_be_small; try assumption.
  - destruct (bp_field_flag d Hbp) as [E1 E2]. rewrite E1, E2. destruct d; reflexivity.
  - change (256 ^ N.of_nat 4) with 4294967296. change (2^28) with 268435456 in Hps. lia.
Qed.

Lemma by_seq_roundtrip d : docinfo_ok d ->
  by_seq_read_docinfo (be 6 (di_db_seq d)) (assemble_seq_index_value d) = Ok d.
Proof.
  intros (Hid & Hseq & Hrev & Hcm & Hbp & Hps).
  unfold by_seq_read_docinfo. rewrite lenN_seq_value, lenN_be.
  destruct (N.ltb_spec (18 + lenN (di_id d) + lenN (di_rev_meta d)) 18); [lia|].
  change (N.of_nat 6 <? 6) with false. cbn [orb].
  assert (Eps : di_physical_size d mod 2^32 = di_physical_size d).
  { apply N.mod_small. change (2^28) with 268435456 in Hps. change (2^32) with 4294967296. lia. }
  unfold assemble_seq_index_value. rewrite Eps.
  set (a := encode_kv_length (lenN (di_id d)) (di_physical_size d)).
  set (c := be 6 (bp_field d)). set (e := be 6 (di_rev_seq d)). set (f := be 1 (di_content_meta d)).
  assert (La : lenN a = 5) by apply kv_length_len.
  assert (Lc : lenN c = 6) by apply lenN_be. assert (Le : lenN e = 6) by apply lenN_be.
  assert (Lf : lenN f = 1) by apply lenN_be.
  rewrite (@getb_app0 5 a) by (now rewrite La). cbn [bind].
  unfold a at 1. rewrite kv_length_roundtrip by assumption.
  destruct (N.ltb_spec (18 + lenN (di_id d) + lenN (di_rev_meta d) - 18) (lenN (di_id d))); [lia|].
  rewrite (@rd_be_app 6 5 a c) by (try reflexivity; now rewrite ?La, ?Lc). cbn [bind].
  rewrite (app_assoc a c).
  rewrite (@rd_be_app 6 11 (a ++ c) e) by (now rewrite ?lenN_app, ?La, ?Lc, ?Le). cbn [bind].
  rewrite (app_assoc (a ++ c)).
  rewrite (@rd_be_app 1 17 _ f) by (now rewrite ?lenN_app, ?La, ?Lc, ?Le, ?Lf). cbn [bind].
  rewrite (app_assoc ((a ++ c) ++ e)).
  unfold decode_sequence_key.
  rewrite <- (app_nil_r (be 6 (di_db_seq d))).
  rewrite (@rd_be_app0 6 (be 6 (di_db_seq d)) []) by (rewrite ?lenN_be; reflexivity). cbn [bind].
  rewrite getb_app_mid by (rewrite ?lenN_app, ?La, ?Lc, ?Le, ?Lf; lia). cbn [bind].
  rewrite (app_assoc (((a ++ c) ++ e) ++ f)).
  rewrite getb_app_end by (rewrite ?lenN_app, ?La, ?Lc, ?Le, ?Lf; lia). cbn [bind].
  subst a c e f.
  pose proof (bp_field_bound d Hbp) as Hbf.
  rewrite !unbe_be_small; try assumption.
  destruct (bp_field_flag d Hbp) as [E1 E2]. rewrite E1, E2. destruct d; reflexivity.
Qed.

(** The doc info readers never read outside of the key and value. *)
Lemma by_id_no_ub k v e : by_id_read_docinfo k v = Err e -> e = E_CORRUPT.
Proof.
  unfold by_id_read_docinfo. destruct (N.ltb_spec (lenN v) 23); [intros H1; now inv H1|].
  unfold rd_be. rewrite !getb_ok by lia. discriminate.
Qed.
Lemma by_seq_no_ub k v e : by_seq_read_docinfo k v = Err e -> e = E_CORRUPT.
Proof.
  unfold by_seq_read_docinfo, decode_sequence_key.
  destruct (N.ltb_spec (lenN v) 18); [intros H1; now inv H1|].
  destruct (N.ltb_spec (lenN k) 6); [intros H1; now inv H1|]. cbn [orb].
  rewrite getb_ok by lia. cbn [bind].
  destruct (decode_kv_length _) as [ids ds].
  destruct (N.ltb_spec (lenN v - 18) ids); [intros H2; now inv H2|].
  unfold rd_be. rewrite !getb_ok by lia. discriminate.
Qed.

(** ** Order on keys *)

Lemma ebin_refl a : ebin_cmp a a = Eq.
Proof. induction a as [|x a IH]; cbn; auto. now rewrite N.compare_refl. Qed.
Lemma ebin_eq a b : ebin_cmp a b = Eq <-> a = b.
Proof.
  split; [|intros ->; apply ebin_refl].
  revert b; induction a as [|x a IH]; intros [|y b]; cbn; try discriminate; auto.
  destruct (N.compare_spec x y); try discriminate. intros H1. subst; f_equal; auto.
Qed.
Lemma ebin_antisym a b : ebin_cmp b a = CompOpp (ebin_cmp a b).
Proof.
  revert b; induction a as [|x a IH]; intros [|y b]; cbn; auto.
  rewrite N.compare_antisym. destruct (x ?= y); cbn; auto.
Qed.
Lemma ebin_lt_trans a b c : ebin_cmp a b = Lt -> ebin_cmp b c = Lt -> ebin_cmp a c = Lt.
Proof.
  revert b c; induction a as [|x a IH]; intros [|y b] [|z c]; cbn; try discriminate; auto.
  destruct (N.compare_spec x y); destruct (N.compare_spec y z); destruct (N.compare_spec x z);
    try discriminate; subst; try lia; auto.
  intros; eapply IH; eassumption.
Qed.

(** For keys of equal length, byte order is the numeric order of the big-endian values. *)
Lemma unbe_app a b : unbe (a ++ b) = unbe a * 256 ^ lenN b + unbe b.
Proof.
  revert a; induction b as [|x b IH] using rev_ind; intros a.
  - rewrite app_nil_r. change (lenN []) with 0. change (unbe []) with 0. rewrite N.pow_0_r. lia.
  - rewrite app_assoc, !unbe_snoc, IH, lenN_app, lenN_cons, lenN_nil.
    replace (lenN b + (1 + 0)) with (N.succ (lenN b)) by lia. rewrite N.pow_succ_r'. lia.
Qed.
Lemma unbe_cons x a : unbe (x :: a) = x * 256 ^ lenN a + unbe a.
Proof. change (x :: a) with ([x] ++ a). rewrite unbe_app. f_equal. Qed.

Lemma ebin_unbe a b : is_bytes a -> is_bytes b -> length a = length b ->
  ebin_cmp a b = (unbe a ?= unbe b).
Proof.
  revert b; induction a as [|x a IH]; intros [|y b] Ha Hb Hl; try discriminate; auto.
  inv Ha; inv Hb. cbn [length] in Hl. injection Hl as Hl.
  cbn [ebin_cmp]. rewrite !unbe_cons.
  assert (El : lenN a = lenN b) by (unfold lenN; congruence). rewrite El.
  pose proof (unbe_bound H2) as B1. pose proof (unbe_bound H4) as B2. rewrite El in B1.
  destruct (N.compare_spec x y) as [->|Hxy|Hxy].
  - rewrite IH by assumption.
    destruct (N.compare_spec (unbe a) (unbe b)); destruct (N.compare_spec (y * 256 ^ lenN b + unbe a) (y * 256 ^ lenN b + unbe b)); auto; lia.
  - symmetry. apply N.compare_lt_iff. nia.
  - symmetry. apply N.compare_gt_iff. nia.
Qed.

(** Lexicographic order of the specification. *)
From Verif Require Import SpecOrder.
Lemma ebin_lex a b : ebin_cmp a b = Lt <-> lex a b.
Proof.
  split.
  - revert b; induction a as [|x a IH]; intros [|y b]; cbn; try discriminate.
    + constructor.
    + destruct (N.compare_spec x y); try discriminate; subst; intros; [apply lex_eq; auto | now apply lex_lt].
  - induction 1; cbn; auto.
    + now rewrite (proj2 (N.compare_lt_iff x y)).
    + now rewrite N.compare_refl.
Qed.
