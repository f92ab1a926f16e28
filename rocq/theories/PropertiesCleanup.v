(** Properties C42 and C52: cleaning up view indexes. *)
From Verif Require Import Base Codec File Btree Bitmap SpecFile SpecMap SpecUtil ViewCodec SpecView Reducers IndexHeader Cleanup SpecSession SpecCleanup
  MergeFacts UtilFacts PurgeFacts CleanupFacts PropertiesView GroupFacts EnvExample CleanupExample.
Local Open Scope N_scope.
Unset Strict Implicit.

(** ** C42: which entries are left

    Full statement: after a successful cleanup the index holds exactly the entries of the other partitions, in order. This is false
    ([C42_id_refuted], [C42_view_refuted]). What holds for every index: no entry of the partitions is left, nothing is added or changed, and if anything else is missing then it is missing at the
    front ([_always_partial]); and nothing else is missing if no node has to be split ([_exact_partial]). *)
Section C42.
Context {E : Env} (EO : EnvOk E).

Theorem C42_id_exact_partial : forall f root mask root' n f', made id_cleanup_request id_record f root -> bitmap_ok mask ->
  cleanup_btree (id_cleanup_request mask) id_purged f root = (Ok (root', n), f') -> fits_file f' -> room_for 133 f root ->
  exists kvs z z', index f root kvs z /\ index f' root' (without mask kvs) z'.
Proof. intros f root mask root' n f' M Hm Hc F Hr. destruct (id_clean EO M Hm Hc F) as (_ & kvs & z & l & z' & H1 & H2 & _ & H3 & _). rewrite (H3 Hr) in H2. eauto. Qed.

Theorem C42_view_exact_partial : forall collate rs R f root mask root' n f', ord collate -> R < 2^16 -> bounded rs R ->
  made (view_cleanup_request collate rs) view_record f root -> bitmap_ok mask ->
  cleanup_btree (view_cleanup_request collate rs mask) view_purged f root = (Ok (root', n), f') -> fits_file f' -> room_for R f root ->
  exists kvs z z', index f root kvs z /\ index f' root' (without mask kvs) z'.
Proof.
  intros collate rs R f root mask root' n f' OC HR HB M Hm Hc F Hr. destruct (view_clean EO OC HR HB M Hm Hc F) as (_ & kvs & z & l & z' & H1 & H2 & _ & H3 & _). rewrite (H3 Hr) in H2. eauto.
Qed.

Theorem C42_id_always_partial : forall f root mask root' n f', made id_cleanup_request id_record f root -> bitmap_ok mask ->
  cleanup_btree (id_cleanup_request mask) id_purged f root = (Ok (root', n), f') -> fits_file f' ->
  exists kvs z l z', index f root kvs z /\ index f' root' l z' /\ ending l (without mask kvs).
Proof. intros f root mask root' n f' M Hm Hc F. destruct (id_clean EO M Hm Hc F) as (_ & kvs & z & l & z' & H1 & H2 & H3 & _). eauto 10. Qed.

Theorem C42_view_always_partial : forall collate rs f root mask root' n f', ord collate ->
  made (view_cleanup_request collate rs) view_record f root -> bitmap_ok mask ->
  cleanup_btree (view_cleanup_request collate rs mask) view_purged f root = (Ok (root', n), f') -> fits_file f' ->
  exists kvs z l z', index f root kvs z /\ index f' root' l z' /\ ending l (without mask kvs).
Proof.
  intros collate rs f root mask root' n f' OC M Hm Hc F. assert (HR : MAX_REDUCTION < 2^16) by reflexivity.
  destruct (view_clean EO OC HR (view_max rs) M Hm Hc F) as (_ & kvs & z & l & z' & H1 & H2 & H3 & _). eauto 10.
Qed.
End C42.
Print Assumptions C42_id_exact_partial.
Print Assumptions C42_view_exact_partial.
Print Assumptions C42_id_always_partial.
Print Assumptions C42_view_always_partial.

(** Two entries of other partitions are lost. The keys of five entries have 1502 bytes each, and each shares its leaf with an entry of the cleaned partition that has a short key and comes after it.
    The parent has five short keys before and five long keys after the cleanup, so it is split into two nodes; only the last one becomes the new root. *)
Theorem C42_id_refuted : exists (E : Env) f root mask root' n f' kvs z l z' x, EnvOk E /\ made id_cleanup_request id_record f root /\ bitmap_ok mask /\
  cleanup_btree (id_cleanup_request mask) id_purged f root = (Ok (root', n), f') /\ fits_file f' /\
  index f root kvs z /\ index f' root' l z' /\ In x kvs /\ in_mask mask x = false /\ ~ In x l.
Proof.
  set (k := 1 :: 1 :: repeat 65 1500). set (v := id_val 1 3200).
  destruct (@lacks_ok env1 1 k v id_cleaned) as (root' & n & f' & l & z' & Hc & F & Hl & Hx); [vm_compute; reflexivity|].
  destruct (@holds_ok env1 1 k v (st_f (snd id_built)) id_root) as (kvs & z & Hk & Hy); [vm_compute; reflexivity|].
  exists env1, (st_f (snd id_built)), id_root, mask2, root', n, f', kvs, z, l, z', (k, v). split; [exact env1_ok|]. split; [exact id_made|]. split; [exact mask2_ok|]. split; [rewrite id_cleaned_eq; exact Hc|].
  split; [exact F|]. split; [exact Hk|]. split; [exact Hl|]. split; [exact Hy|]. split; [vm_compute; reflexivity|exact Hx].
Qed.
Theorem C42_view_refuted : exists (E : Env) collate rs f root mask root' n f' kvs z l z' x, EnvOk E /\ ord collate /\ made (view_cleanup_request collate rs) view_record f root /\ bitmap_ok mask /\
  cleanup_btree (view_cleanup_request collate rs mask) view_purged f root = (Ok (root', n), f') /\ fits_file f' /\
  index f root kvs z /\ index f' root' l z' /\ In x kvs /\ in_mask mask x = false /\ ~ In x l.
Proof.
  set (k := v_key (1 :: 1 :: repeat 65 1500) 1). set (v := v_val 1 3200).
  destruct (@lacks_ok env1 1 k v v_cleaned) as (root' & n & f' & l & z' & Hc & F & Hl & Hx); [vm_compute; reflexivity|].
  destruct (@holds_ok env1 1 k v (st_f (snd v_built)) v_root) as (kvs & z & Hk & Hy); [vm_compute; reflexivity|].
  exists env1, ebin_cmp, [], (st_f (snd v_built)), v_root, mask2, root', n, f', kvs, z, l, z', (k, v). split; [exact env1_ok|]. split; [exact ord_ebin|]. split; [exact v_made|]. split; [exact mask2_ok|]. split; [rewrite v_cleaned_eq; exact Hc|].
  split; [exact F|]. split; [exact Hk|]. split; [exact Hl|]. split; [exact Hy|]. split; [vm_compute; reflexivity|exact Hx].
Qed.
Print Assumptions C42_id_refuted.
Print Assumptions C42_view_refuted.

(** ** The whole group *)

Section Group.
Context {E : Env} (EO : EnvOk E).
Lemma nth_some A (l : list A) i n : length l = n -> (i < n)%nat -> exists x, nth_error l i = Some x.
Proof. intros <- H. apply nth_error_Some in H. destruct (nth_error l i); [eauto|now elim H]. Qed.

(** Cleaning up a view group in its file: every index of the new header holds an end of what should be left. *)
Theorem C42_group_always_partial : forall collate reds f pos h p n f', (forall x y, compress x = Some y -> y <> []) -> ord collate ->
  read_view_group_header f pos = Ok h -> header_fits h -> group_made collate reds h f ->
  cleanup_view_group collate reds f pos = (Ok (p, n), f') -> fits_file f' -> fpos f' - p <= MAX_VIEW_HEADER ->
  exists h', read_view_group_header f' p = Ok h' /\ group_made collate reds h' f' /\
  Forall2 (fun root root' => exists kvs z l z', index f root kvs z /\ index f' root' l z' /\ ending l (without (ih_cleanup h) kvs))
    (ih_id_state h :: ih_view_states h) (ih_id_state h' :: ih_view_states h').
Proof.
  intros collate reds f pos h p n f' HC OC Hr Hf Hm Hc F Hs. destruct (max_bounded reds) as (Rs & HR & HL).
  destruct (file_clean EO HC OC HR Hr Hf Hm Hc F Hs) as (h' & H1 & H2 & H3 & H4 & H5 & ids & kss & ids' & ls & ((z & I1) & (z' & I2) & I3 & _) & N1 & N2 & N3 & Hall & _).
  exists h'. split; [exact H1|]. split; [exact H4|]. constructor; [exists ids, z, ids', z'; auto|].
  apply nth_F2; [congruence|]. intros i root root' Ha Hb. assert (Hi : (i < length (ih_view_states h))%nat) by (apply nth_error_Some; congruence).
  assert (NR : length Rs = length (ih_view_states h)). { rewrite HL. destruct Hm as (_ & _ & MV). exact (F2_length MV). }
  destruct (nth_some NR Hi) as [R HRi]. destruct (nth_some N1 Hi) as [kvs Hk]. destruct (nth_some N2 Hi) as [l Hl]. destruct (Hall i R root root' kvs l HRi Ha Hb Hk Hl) as ((y & J1) & (y' & J2) & J3 & _). eauto 10.
Qed.

(** ** C52: what a cleanup reports and writes

    The new header can be read at the position that is returned; no partition is left to clean up, and the header differs from the old one only in this and in the roots. The number returned
    is the number of rows that the group had for the partitions: entries of the index by document id and values in the views. *)
Theorem C52_report : forall collate reds f pos h p n f', (forall x y, compress x = Some y -> y <> []) -> ord collate ->
  read_view_group_header f pos = Ok h -> header_fits h -> group_made collate reds h f ->
  cleanup_view_group collate reds f pos = (Ok (p, n), f') -> fits_file f' -> fpos f' - p <= MAX_VIEW_HEADER ->
  exists h', read_view_group_header f' p = Ok h' /\ header_fits h' /\ number (ih_cleanup h') = 0 /\
    h' = with_roots h (ih_cleanup h') (ih_id_state h') (ih_view_states h') /\
  exists ids z kss, index f (ih_id_state h) ids z /\ Forall2 (fun root kvs => exists z, index f root kvs z) (ih_view_states h) kss /\
    (lenN ids < 2^40 -> Forall (fun kvs => sum_of num_values kvs < 2^40) kss -> lenN ids + sum_of (sum_of num_values) kss < 2^64 ->
     n = lenN (only (ih_cleanup h) ids) + sum_of (fun kvs => sum_of num_values (only (ih_cleanup h) kvs)) kss).
Proof.
  intros collate reds f pos h p n f' HC OC Hr Hf Hm Hc F Hs. destruct (max_bounded reds) as (Rs & HR & HL).
  destruct (file_clean EO HC OC HR Hr Hf Hm Hc F Hs) as (h' & H1 & H2 & H3 & H4 & H5 & ids & kss & ids' & ls & ((z & I1) & (z' & I2) & I3 & _) & N1 & N2 & N3 & Hall & Hn).
  exists h'. split; [exact H1|]. split; [exact H2|]. split; [exact H3|]. split; [exact H5|]. exists ids, z, kss. split; [exact I1|]. split; [|exact Hn].
  apply nth_F2; [congruence|]. intros i root kvs Ha Hk. assert (Hi : (i < length (ih_view_states h))%nat) by (apply nth_error_Some; congruence).
  assert (NR : length Rs = length (ih_view_states h)). { rewrite HL. destruct Hm as (_ & _ & MV). exact (F2_length MV). }
  destruct (nth_some NR Hi) as [R HRi]. destruct (nth_some N3 Hi) as [root' Hb]. destruct (nth_some N2 Hi) as [l Hl]. destruct (Hall i R root root' kvs l HRi Ha Hb Hk Hl) as ((y & J1) & _). eauto.
Qed.
(** A header is taken only from a position within the file that holds the mark of a header. *)
Theorem C52_mark : forall f pos h, read_view_group_header f pos = Ok h -> pos < size f /\ File.cur f pos = 1.
Proof.
  intros f pos h H. unfold read_view_group_header in H. destruct (N.leb_spec (size f) pos) as [_|Hp]; [discriminate H|]. split; [exact Hp|].
  destruct (File.cur f pos =? 0); [discriminate H|]. destruct (N.eqb_spec (File.cur f pos) 1) as [Hc|_]; [exact Hc|discriminate H].
Qed.
End Group.
Print Assumptions C52_mark.
Print Assumptions C42_group_always_partial.
Print Assumptions C52_report.

(** A group with three documents and two views; partition 2 is cleaned up. *)
Example C52_ex : exists f pos h p n f', read_view_group_header (E := env0) f pos = Ok h /\ header_fits h /\ group_made (E := env0) ebin_cmp [[]; []] h f /\
  cleanup_view_group (E := env0) ebin_cmp [[]; []] f pos = (Ok (p, n), f') /\ fits_file f' /\ fpos f' - p <= MAX_VIEW_HEADER /\ n = 3 /\ room_for (E := env0) 133 f (ih_id_state h).
Proof.
  destruct (@three_ok g_clean) as (p & n & f' & Hc & F & Hs & Hn); [vm_compute; reflexivity|]. exists (snd g_w), g_pos, g_header, p, n, f'.
  split; [exact g_read|]. split; [exact g_fits|]. split; [exact g_made|]. split; [rewrite g_clean_eq; exact Hc|]. split; [exact F|]. split; [exact Hs|]. split; [exact Hn|exact g_room].
Qed.
