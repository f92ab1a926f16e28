(** Properties C28, C29, C32, C33: entries, key order, parsing of entries, revision information. *)
From Verif Require Import Base Codec CodecFacts SpecOrder.
Local Open Scope N_scope.

(** ** C28 *)

(** Anywhere inside a node, an entry comes back with its key and value and its exact extent.
    Missing for the full property: ids of 4096 bytes or more (see the refutation below). *)
Theorem C28_entries_partial : forall (pre post k v : bytes),
  lenN k < 4096 -> lenN v < 268435456 ->
  read_kv (pre ++ write_kv k v ++ post) (lenN pre) = Ok (Some (k, v, lenN (write_kv k v))).
Proof. intros. rewrite lenN_write_kv. now apply read_write_kv. Qed.
Print Assumptions C28_entries_partial.

Example C28_entries_ex :
  read_kv ([1] ++ write_kv [107;101;121] [118;97;108] ++ [9]) 1 =
  Ok (Some ([107;101;121], [118;97;108], 11)).
Proof. reflexivity. Qed.

(** A whole node comes back entry by entry. *)
Theorem C28_node_partial : forall ty kvs,
  Forall (fun kv => lenN (fst kv) < 4096 /\ lenN (snd kv) < 268435456) kvs ->
  node_items (mk_node ty kvs) = (kvs, TEnd).
Proof. intros. now apply node_items_mk. Qed.
Print Assumptions C28_node_partial.

Example C28_node_ex : node_items (mk_node 1 [([1],[2;3]); ([], []); ([4;5],[6])]) =
  ([([1],[2;3]); ([], []); ([4;5],[6])], TEnd).
Proof. reflexivity. Qed.

(** The limits are not checked when an entry is written: a key of 4096 bytes comes back empty. *)
Theorem C28_entries_refuted : exists k v,
  lenN k = 4096 /\ lenN v = 1 /\ exists v' n, read_kv (write_kv k v) 0 = Ok (Some ([], v', n)).
Proof.
  exists (repeat 97 4096), [7]. split; [vm_compute; reflexivity|]. split; [reflexivity|].
  exists [97], 6. vm_compute. reflexivity.
Qed.
Print Assumptions C28_entries_refuted.

(** ** C29 *)

(** Id comparison is the lexicographic order on bytes. *)
Theorem C29_id_order : forall a b : bytes,
  (ebin_cmp a b = Lt <-> lex a b) /\ (ebin_cmp a b = Eq <-> a = b) /\ (ebin_cmp a b = Gt <-> lex b a).
Proof.
  intros a b. split; [apply ebin_lex|]. split; [apply ebin_eq|].
  rewrite <- ebin_lex, (ebin_antisym a b). destruct (ebin_cmp a b); cbn; split; congruence.
Qed.
Print Assumptions C29_id_order.

(** It is a strict total order. *)
Theorem C29_id_total : 
  (forall a, ~ lex a a) /\ (forall a b c, lex a b -> lex b c -> lex a c) /\
  (forall a b, lex a b \/ a = b \/ lex b a) /\ (forall k, lex_le [] k).
Proof.
  split; [|split; [|split]].
  - intros a H. apply ebin_lex in H. rewrite ebin_refl in H. discriminate.
  - intros a b c. rewrite <- !ebin_lex. apply ebin_lt_trans.
  - intros a b. rewrite <- !ebin_lex, <- ebin_eq, (ebin_antisym a b).
    destruct (ebin_cmp a b); cbn; auto.
  - intros [|x k]; [left; reflexivity | right; constructor].
Qed.
Print Assumptions C29_id_total.

Example C29_id_ex : ebin_cmp [1;2] [1;2;0] = Lt /\ ebin_cmp [2] [1;9] = Gt.
Proof. split; reflexivity. Qed.

(** Sequence comparison on encoded keys is numeric, and agrees with the byte order of the keys. *)
Theorem C29_seq_order : forall x y,
  x < 2^48 -> y < 2^48 ->
  seq_cmp_res (be 6 x) (be 6 y) = Ok (x ?= y) /\ ebin_cmp (be 6 x) (be 6 y) = (x ?= y).
Proof.
  intros x y Hx Hy. split.
  - unfold seq_cmp_res, decode_sequence_key.
    rewrite <- (app_nil_r (be 6 x)), <- (app_nil_r (be 6 y)).
    rewrite !rd_be_app0 by (rewrite lenN_be; reflexivity). cbn [bind].
    now rewrite !unbe_be_small.
  - rewrite ebin_unbe; [now rewrite !unbe_be_small | apply be_is_bytes | apply be_is_bytes |].
    now rewrite !be_length.
Qed.
Print Assumptions C29_seq_order.

Example C29_seq_ex : seq_cmp_res (be 6 255) (be 6 256) = Ok Lt.
Proof. reflexivity. Qed.

(** ** C32 *)

(** Reading the entries, child pointers, index roots and document information of arbitrary bytes
    either succeeds or reports corruption; it never reads outside of the buffer ([E_UB]).
    Missing for the full property: sequence keys, see below. *)
Theorem C32_parse_partial :
  (forall buf start, exists r, read_kv buf start = Ok r) /\
  (forall k v e, read_pointer k v = Err e -> e = E_CORRUPT) /\
  (forall buf, exists r, read_root buf = Ok r) /\
  (forall k v e, by_id_read_docinfo k v = Err e -> e = E_CORRUPT) /\
  (forall k v e, by_seq_read_docinfo k v = Err e -> e = E_CORRUPT).
Proof.
  repeat split.
  - apply read_kv_no_ub.
  - intros k v e. unfold read_pointer. destruct (N.ltb_spec (lenN v) 14); [intros H1; now inv H1|].
    unfold rd_be. rewrite !getb_ok by lia. cbn [bind].
    set (rs := unbe _). destruct (N.ltb_spec (lenN v) (14 + rs)); [intros H1; now inv H1|].
    rewrite getb_ok by lia. discriminate.
  - intros buf. unfold read_root. destruct (N.ltb_spec (lenN buf) 12); eauto.
    unfold rd_be. rewrite !getb_ok by lia. cbn [bind]. eauto.
  - apply by_id_no_ub.
  - apply by_seq_no_ub.
Qed.
Print Assumptions C32_parse_partial.

Example C32_parse_ex :
  read_kv [1; 0; 16; 0; 0; 99] 1 = Ok None /\ read_pointer [7] [1;2;3] = Err E_CORRUPT /\
  by_seq_read_docinfo (be 6 3) (repeat 255 18) = Err E_CORRUPT.
Proof. repeat split; reflexivity. Qed.

(** A sequence key shorter than six bytes in a node is compared beyond its end (and, when it is the
    last entry, beyond the node). The node below parses cleanly. *)
Theorem C32_seq_key_refuted : exists node k v,
  node_items node = ([(k, v)], TEnd) /\ seq_cmp_res k (be 6 5) = Err E_UB.
Proof. exists [1; 0; 16; 0; 0; 0; 9], [9], []. split; reflexivity. Qed.
Print Assumptions C32_seq_key_refuted.

(** ** C33 *)

(** Within the widths of the format, what the two indexes store for a document gives back all of
    its revision information. *)
Theorem C33_docinfo : forall d,
  lenN (di_id d) < 4096 -> di_db_seq d < 2^48 -> di_rev_seq d < 2^48 ->
  di_content_meta d < 256 -> di_bp d < 2^47 -> di_physical_size d < 2^28 ->
  by_id_read_docinfo (di_id d) (assemble_id_index_value d) = Ok d /\
  by_seq_read_docinfo (be 6 (di_db_seq d)) (assemble_seq_index_value d) = Ok d.
Proof.
  intros. assert (docinfo_ok d) by (repeat split; assumption).
  split; [now apply by_id_roundtrip | now apply by_seq_roundtrip].
Qed.
Print Assumptions C33_docinfo.

Example C33_docinfo_ex :
  let d := DocInfo [100;49] 77 3 [1;2;3;4] true 128 4711 1000 in
  by_id_read_docinfo (di_id d) (assemble_id_index_value d) = Ok d /\
  by_seq_read_docinfo (be 6 77) (assemble_seq_index_value d) = Ok d.
Proof. split; vm_compute; reflexivity. Qed.

(** Stored information determines the document: equal stored values mean equal information. *)
Theorem C33_injective : forall d d',
  docinfo_ok d -> docinfo_ok d' -> di_id d = di_id d' ->
  assemble_id_index_value d = assemble_id_index_value d' -> d = d'.
Proof.
  intros d d' H H' Hid E. pose proof (by_id_roundtrip H) as R. pose proof (by_id_roundtrip H') as R'.
  rewrite Hid, E, R' in R. now inv R.
Qed.
Print Assumptions C33_injective.
