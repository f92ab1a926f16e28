(** Properties C38, C39 and C43: the records of the view indexes. *)
From Verif Require Import Base Codec CodecFacts File Bitmap SortedList SpecUtil UtilFacts ViewCodec IndexHeader SpecView ViewFacts EnvExample.
Local Open Scope N_scope.
Unset Strict Implicit.

(** ** C38 *)

Theorem C38_keys : (forall k, view_key_fits k -> decode_view_btree_key (encode_view_btree_key k) = Ok k /\ decode_view_btree_json_key (encode_view_btree_key k) = Ok (vk_json k)) /\
  (forall b k, is_bytes b -> decode_view_btree_key b = Ok k -> view_key_fits k /\ encode_view_btree_key k = b) /\
  (forall k, id_key_fits k -> decode_view_id_btree_key (encode_view_id_btree_key k) = Ok k) /\
  (forall b k, is_bytes b -> decode_view_id_btree_key b = Ok k -> id_key_fits k /\ encode_view_id_btree_key k = b).
Proof.
  split; [intros k H; split; [exact (view_key_decode H)|exact (json_key_decode H)]|]. split; [intros b k B H; destruct (view_key_encode B H); auto|]. split; [exact id_key_decode|]. intros b k B H; destruct (id_key_encode B H); auto.
Qed.
Print Assumptions C38_keys.

Theorem C38_values : (forall v, view_value_fits v -> decode_view_btree_value (encode_view_btree_value v) = Ok v) /\
  (forall b v, is_bytes b -> decode_view_btree_value b = Ok v -> view_value_fits v /\ encode_view_btree_value v = b).
Proof. split; [exact view_value_decode|]. intros b v B H. destruct (view_value_encode B H); auto. Qed.
Print Assumptions C38_values.

(** The cleanup of an index looks only at the partition and the number of values. *)
Theorem C38_peek : forall v, view_value_fits v -> decode_view_btree_partition (encode_view_btree_value v) = Ok (vv_partition v) /\
  decode_view_btree_partition_and_num_values (encode_view_btree_value v) = Ok (vv_partition v, lenN (vv_values v), fold_right (fun x n => lenN x + n) 0 (vv_values v)).
Proof. intros v H. split; [exact (partition_decode H)|exact (part_num_decode H)]. Qed.
Print Assumptions C38_peek.

(** What is missing: a document for which no view emitted a key (see below). *)
Theorem C38_id_values_partial : (forall p l, l <> [] -> id_value_fits p l -> exists b, encode_view_id_btree_value (IdValue p (Some l)) = Ok b /\ decode_view_id_btree_value b = Ok (IdValue p (Some l))) /\
  (forall b p l, is_bytes b -> decode_view_id_btree_value b = Ok (IdValue p (Some l)) -> id_value_fits p l /\ encode_view_id_btree_value (IdValue p (Some l)) = Ok b).
Proof. split; [exact id_value_decode|]. intros b p l B H. destruct (id_value_encode B H); auto. Qed.
Print Assumptions C38_id_values_partial.

Example C38_ex : view_key_fits (ViewKey [34; 97; 34] [100; 49]) /\ id_key_fits (IdKey 1023 [100; 49]) /\ view_value_fits (ViewValue 1023 [[49]; []; repeat 50 300]) /\
  id_value_fits 7 [(0, [[34; 97; 34]; []]); (255, [])].
Proof.
  unfold view_key_fits, id_key_fits, view_value_fits, id_value_fits, view_keys_fit, short. split; [reflexivity|]. split; [reflexivity|]. split; [split; [reflexivity|]; split; [reflexivity|]; repeat (constructor; [reflexivity|]); constructor|].
  split; [reflexivity|]. split; [reflexivity|]. constructor; [split; [reflexivity|]; split; [reflexivity|]; repeat (constructor; [reflexivity|]); constructor|]. constructor; [|constructor]. split; [reflexivity|]. split; [reflexivity|constructor].
Qed.

(** The value for no keys at all is decoded without its number of views; using the number, as the encoder does, is undefined. *)
Theorem C38_empty_refuted : exists p b v, id_value_fits p [] /\ encode_view_id_btree_value (IdValue p (Some [])) = Ok b /\ decode_view_id_btree_value b = Ok v /\ v <> IdValue p (Some []) /\ encode_view_id_btree_value v = Err E_UB.
Proof. exists 7, [0; 7], (IdValue 7 None). split; [split; [reflexivity|split; [reflexivity|constructor]]|]. split; [reflexivity|]. split; [reflexivity|]. split; [discriminate|reflexivity]. Qed.
Print Assumptions C38_empty_refuted.

(** ** C39 *)

Theorem C39_reduction : forall r, view_reduction_fits r ->
  (reduction_size r <= 65535 -> exists b, encode_view_btree_reduction r = Ok b /\ lenN b = reduction_size r /\ decode_view_btree_reduction b = Ok r) /\
  (65535 < reduction_size r -> encode_view_btree_reduction r = Err E_REDUCTION_TOO_LARGE).
Proof. intros r F. split; intros H; [exact (reduction_decode F H)|]. apply reduction_refused. exact H. Qed.
Print Assumptions C39_reduction.
Theorem C39_id_reduction : forall r, id_reduction_fits r -> exists b, encode_view_id_btree_reduction r = Ok b /\ decode_view_id_btree_reduction b = Ok r.
Proof. exact id_reduction_decode. Qed.
Print Assumptions C39_id_reduction.
(** What is decoded is encoded in the same way. *)
Theorem C39_again : (forall b r, is_bytes b -> lenN b <= 65535 -> (vr_values r <> [] \/ lenN b = 133) -> decode_view_btree_reduction b = Ok r -> encode_view_btree_reduction r = Ok b) /\
  (forall b r, is_bytes b -> lenN b = 133 -> decode_view_id_btree_reduction b = Ok r -> encode_view_id_btree_reduction r = Ok b).
Proof. split; [intros b r B L V H; exact (proj1 (reduction_encode B H L V))|intros b r B L H; exact (proj1 (id_reduction_encode B L H))]. Qed.
Print Assumptions C39_again.
Example C39_ex : let r := ViewReduction 5 (repeat 1 128) [[49]; repeat 50 300] in view_reduction_fits r /\ reduction_size r = 438.
Proof. vm_compute. auto. Qed.
Example C39_large_ex : match encode_view_btree_reduction (ViewReduction 5 (repeat 1 128) [repeat 50 (N.to_nat 65400); [49]]) with Err E_REDUCTION_TOO_LARGE => true | _ => false end = true.
Proof. vm_compute. reflexivity. Qed.

(** Damaged bytes: 256 values are taken for none. *)
Theorem C39_wrap_refuted : exists b c bm, is_bytes b /\ lenN b <= 65535 /\ b = be 5 c ++ bm ++ flat_map (fun x : bytes => be 2 (lenN x) ++ x) (repeat [49] 256) /\ decode_view_btree_reduction b = Ok (ViewReduction c bm []).
Proof.
  exists (be 5 7 ++ repeat 0 128 ++ flat_map (fun x : bytes => be 2 (lenN x) ++ x) (repeat [49] 256)), 7, (repeat 0 128). split.
  - assert (H : forallb (fun x => x <? 256) (be 5 7 ++ repeat 0 128 ++ flat_map (fun x : bytes => be 2 (lenN x) ++ x) (repeat [49] 256)) = true) by (vm_compute; reflexivity). rewrite forallb_forall in H. apply Forall_forall. intros x Hx. apply N.ltb_lt, H, Hx.
  - vm_compute. split; [discriminate|]. split; reflexivity.
Qed.
Print Assumptions C39_wrap_refuted.

(** ** C43 *)
Section WithEnv.
Context {E : Env}.
Hypothesis EO : EnvOk E.

Theorem C43_roundtrip : forall h, header_fits h -> (forall x y, compress x = Some y -> y <> []) ->
  (exists b, encode_index_header h = Ok b /\ decode_index_header b = Ok h) \/ encode_index_header h = Err E_ALLOC /\ exists x, compress x = None.
Proof.
  intros h F Hc. destruct (header_fields F) as (ids & views & vers & H1 & H2 & H3 & R). unfold encode_index_header. rewrite H1, H2, H3. cbn [bind].
  set (buf := be 1 (ih_version h) ++ _) in *. destruct (compress buf) as [c|] eqn:Ec; [left|right; split; [reflexivity|exists buf; exact Ec]]. exists (ih_signature h ++ c). split; [reflexivity|].
  unfold decode_index_header. rewrite lenN_app, (if_sig F). assert (0 < lenN c). { destruct c as [|z c]; [now elim (Hc _ _ Ec)|]. rewrite lenN_cons. lia. }
  destruct (N.leb_spec (16 + lenN c) 16); [lia|]. rewrite (@drop_app_exact _ 16 (ih_signature h) c) by (symmetry; exact (if_sig F)). rewrite (@take_app_exact _ 16 (ih_signature h) c) by (symmetry; exact (if_sig F)).
  rewrite (ok_compress EO _ Ec). specialize (R []). rewrite app_nil_r in R. rewrite R. reflexivity.
Qed.

(** Whatever is decoded fits, so that it can be encoded and decoded again. *)
Theorem C43_decoded : forall b h, is_bytes b -> (forall x y, uncompress x = Some y -> is_bytes y) -> decode_index_header b = Ok h -> header_fits h.
Proof.
  intros b h B U H. unfold decode_index_header in H. destruct (N.leb_spec (lenN b) 16) as [|Hl]; [discriminate|]. destruct (uncompress (drop 16 b)) as [u|] eqn:Eu; [|discriminate]. specialize (U _ _ Eu).
  destruct (decode_fields (take 16 b) u) as [[h' r]|e] eqn:Hd; [|discriminate]. injection H as ->. unfold decode_fields in Hd.
  apply bind_inv in Hd. destruct Hd as (v & q1 & D1 & Hd). destruct (@int_writes 1 1 eq_refl _ _ _ U D1) as (_ & P1 & B1).
  apply bind_inv in Hd. destruct Hd as (np & q2 & D2 & Hd). destruct (@int_writes 2 2 eq_refl _ _ _ B1 D2) as (_ & P2 & B2).
  apply bind_inv in Hd. destruct Hd as (ba & q3 & D3 & Hd). destruct (next_writes B2 D3) as (_ & [P3 _] & B3).
  apply bind_inv in Hd. destruct Hd as (bp & q4 & D4 & Hd). destruct (next_writes B3 D4) as (_ & [P4 _] & B4).
  apply bind_inv in Hd. destruct Hd as (bc & q5 & D5 & Hd). destruct (next_writes B4 D5) as (_ & [P5 _] & B5).
  apply bind_inv in Hd. destruct Hd as (sq & q6 & D6 & Hd). destruct (@slist_fits part_seq (@fst N N) _ dec_part_seq part_seq_fits part_seq_writes _ _ _ B5 D6) as [P6 B6].
  apply bind_inv in Hd. destruct Hd as (ids & q7 & D7 & Hd). destruct (state_fits B6 D7) as [P7 B7].
  apply bind_inv in Hd. destruct Hd as (nv & q8 & D8 & Hd). destruct (@int_writes 1 1 eq_refl _ _ _ B7 D8) as (_ & P8 & B8).
  apply bind_inv in Hd. destruct Hd as (vs & q9 & D9 & Hd). destruct (states_fit B8 D9) as [[P9 P9'] B9].
  apply bind_inv in Hd. destruct Hd as (rep & q10 & D10 & Hd). destruct (@int_writes 1 1 eq_refl _ _ _ B9 D10) as (_ & P10 & B10).
  assert (W : writes (next_int 2) (be 2) part_fits) by (exact (@int_writes 2 2 eq_refl)).
  apply bind_inv in Hd. destruct Hd as (l1 & q11 & D11 & Hd). destruct (@slist_fits N (fun a => a) (be 2) (next_int 2) part_fits W _ _ _ B10 D11) as [P11 B11].
  apply bind_inv in Hd. destruct Hd as (l2 & q12 & D12 & Hd). destruct (@slist_fits N (fun a => a) (be 2) (next_int 2) part_fits W _ _ _ B11 D12) as [P12 B12].
  apply bind_inv in Hd. destruct Hd as (l3 & q13 & D13 & Hd). destruct (@slist_fits N (fun a => a) (be 2) (next_int 2) part_fits W _ _ _ B12 D13) as [P13 B13].
  apply bind_inv in Hd. destruct Hd as (l4 & q14 & D14 & Hd). destruct (@slist_fits N (fun a => a) (be 2) (next_int 2) part_fits W _ _ _ B13 D14) as [P14 B14].
  apply bind_inv in Hd. destruct Hd as (un & q15 & D15 & Hd). destruct (@slist_fits part_seq (@fst N N) _ dec_part_seq part_seq_fits part_seq_writes _ _ _ B14 D15) as [P15 B15].
  assert (K : forall vers, (if 2 <=? v then exists l, vers = Some l /\ list_fits part_versions_cmp version_fits l else vers = None) -> header_fits (IndexHeader v (take 16 b) np ba bp bc sq ids vs (negb (rep =? 0)) l1 l2 l3 l4 un vers)).
  { intros vers Kv. constructor; cbn [ih_version ih_signature ih_num_partitions ih_active ih_passive ih_cleanup ih_seqs ih_id_state ih_view_states ih_replicas ih_pend_active ih_pend_passive ih_pend_unindexable ih_unindexable ih_versions]; auto.
    - rewrite lenN_take. lia.
    - split; [|exact P9']. change (256^1) with (2^8) in P8. unfold lenN. lia. }
  cbv zeta in Hd. destruct (2 <=? v) eqn:Ev.
  - apply bind_inv in Hd. destruct Hd as (pv & q16 & D16 & Hd). destruct (@slist_fits part_version (@fst N _) enc_version dec_part_version version_fits version_writes _ _ _ B15 D16) as [P16 B16]. unfold cur_ret in Hd. injection Hd as <- _. apply K. exists pv. split; [reflexivity|exact P16].
  - unfold cur_ret in Hd. injection Hd as <- _. apply K. reflexivity.
Qed.
End WithEnv.
Print Assumptions C43_roundtrip.
Print Assumptions C43_decoded.

Definition some_list {A} (cmp : A -> A -> comparison) (l : list A) : slist A := fold_left (sorted_list_add cmp) l (sorted_list_create A).
Lemma some_list_use A (cmp : A -> A -> comparison) l : slist_use cmp (some_list cmp l).
Proof. unfold some_list. assert (H : slist_use cmp (sorted_list_create A)) by constructor. revert H. generalize (sorted_list_create A). induction l as [|x l IH]; intros s H; [exact H|]. apply IH. constructor. exact H. Qed.
Definition header_ex : index_header :=
  IndexHeader 2 (repeat 9 16) 1024 (repeat 1 128) (repeat 0 128) (repeat 2 128) (some_list part_seq_cmp [(3, 10); (1, 2^40); (3, 11)]) (Some (NodePointer [] 4096 [1; 2; 3] 700)) [None; Some (NodePointer [] 8192 [] 90)] true
    (some_list part_id_cmp [5; 4]) (some_list part_id_cmp []) (some_list part_id_cmp [7]) (some_list part_id_cmp [1; 2; 3]) (some_list part_seq_cmp []) (Some (some_list part_versions_cmp [(2, [(repeat 8 8, 2^50)]); (1, [])])).
Lemma some_fits A (cmp : A -> A -> comparison) (ok : A -> Prop) l r : all_of (some_list cmp l) = r -> lenN r < 2^16 -> Forall ok r -> list_fits cmp ok (some_list cmp l).
Proof. intros <- L F. split; [apply some_list_use|]. auto. Qed.
Example C43_ex : header_fits header_ex.
Proof.
  constructor; unfold header_ex; cbn [ih_version ih_signature ih_num_partitions ih_active ih_passive ih_cleanup ih_seqs ih_id_state ih_view_states ih_replicas ih_pend_active ih_pend_passive ih_pend_unindexable ih_unindexable ih_versions].
  - reflexivity.
  - reflexivity.
  - reflexivity.
  - split; [reflexivity|split; reflexivity].
  - apply (@some_fits _ _ _ _ [(1, 2^40); (3, 11)]); [vm_compute; reflexivity|reflexivity|]. repeat (constructor; [split; reflexivity|]). constructor.
  - split; [reflexivity|]. split; [reflexivity|]. split; reflexivity.
  - split; [reflexivity|]. constructor; [exact I|]. constructor; [|constructor]. split; [reflexivity|]. split; [reflexivity|]. split; reflexivity.
  - constructor; [apply (@some_fits _ _ _ _ [4; 5]); [vm_compute; reflexivity|reflexivity|]; repeat (constructor; [reflexivity|]); constructor|].
    constructor; [apply (@some_fits _ _ _ _ []); [vm_compute; reflexivity|reflexivity|constructor]|].
    constructor; [apply (@some_fits _ _ _ _ [7]); [vm_compute; reflexivity|reflexivity|]; repeat (constructor; [reflexivity|]); constructor|].
    constructor; [apply (@some_fits _ _ _ _ [1; 2; 3]); [vm_compute; reflexivity|reflexivity|]; repeat (constructor; [reflexivity|]); constructor|]. constructor.
  - apply (@some_fits _ _ _ _ []); [vm_compute; reflexivity|reflexivity|constructor].
  - change (2 <=? 2) with true. exists (some_list part_versions_cmp [(2, [(repeat 8 8, 2^50)]); (1, [])]). split; [reflexivity|].
    apply (@some_fits _ _ _ _ [(1, []); (2, [(repeat 8 8, 2^50)])]); [vm_compute; reflexivity|reflexivity|].
    constructor; [split; [reflexivity|]; split; [reflexivity|constructor]|]. constructor; [|constructor]. split; [reflexivity|]. split; [reflexivity|]. constructor; [split; reflexivity|constructor].
Qed.
Example C43_env_ex : EnvOk env0 /\ (forall x y, @compress env0 x = Some y -> y <> []) /\ exists b, @encode_index_header env0 header_ex = Ok b /\ @decode_index_header env0 b = Ok header_ex.
Proof. split; [exact env0_ok|]. split; [intros x y H; injection H as <-; discriminate|]. exists (match @encode_index_header env0 header_ex with Ok b => b | Err _ => [] end). split; vm_compute; reflexivity. Qed.

(** Damaged headers are not recognised as such: the bytes behind the end are read. *)
Theorem C43_damaged_refuted : exists (E : Env) b, EnvOk E /\ 16 < lenN b /\ decode_index_header b = Err E_UB.
Proof. exists env0, (repeat 9 16 ++ [7; 2; 0; 5]). split; [exact env0_ok|]. split; [reflexivity|]. vm_compute. reflexivity. Qed.
Print Assumptions C43_damaged_refuted.
