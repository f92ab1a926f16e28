(** Properties of the building, the updating and the compaction of the indexes of a view group. *)
From Coq Require Import Permutation Sorted.
From Verif Require Import Base Codec File Btree Bitmap ViewCodec IndexHeader Reducers Cleanup FileMerger FileSorter ViewFiles EnvExample SpecFile SpecMap SpecUtil MergeFacts SpecView SpecSession SpecCleanup SpecSorter
  TreeStore SessionFacts PropertiesView CleanupFacts GroupFacts CleanupExample PropertiesSorter ViewGroup SpecGroup ViewGroupFacts ViewUpdateFacts.
Local Open Scope N_scope.
Unset Strict Implicit.

Section Group.
Context {E : Env} (EO : EnvOk E).

(** ** C59: compaction of a view group

    Every index of the new file has exactly the rows of the old one that do not belong to the partitions to clean up, in the same order; the new header differs from the old one in the roots and in
    that no partition is left to clean up; the number is that of the rows written. The old contents of the target are kept. *)
Theorem C59_compact : forall collate reds hb h src f n hb' n' f', (forall x y, compress x = Some y -> y <> []) -> ord collate ->
  decode_index_header hb = Ok h -> header_fits h -> group_made collate reds h src -> fits_file src -> some_file f -> n < 2^64 ->
  compact_view_group collate reds hb src f n = (Ok (hb', n'), f') -> fits_file f' ->
  exists h', decode_index_header hb' = Ok h' /\ header_fits h' /\ group_made collate reds h' f' /\ appends f f' /\ h' = with_roots h empty_bitmap (ih_id_state h') (ih_view_states h') /\
  exists ids kss, holds src (ih_id_state h) ids /\ holds f' (ih_id_state h') (without (ih_cleanup h) ids) /\
    Forall2 (holds src) (ih_view_states h) kss /\ Forall2 (fun root kvs => holds f' root (without (ih_cleanup h) kvs)) (ih_view_states h') kss /\
    n' = (n + lenN (without (ih_cleanup h) ids) + sum_of (fun kvs => lenN (without (ih_cleanup h) kvs)) kss) mod 2^64.
Proof. intros collate reds hb h src f n hb' n' f'. exact (@file_compact E EO collate reds hb h src f n hb' n' f'). Qed.

(** ** C60: the initial build of a view group

    When the sorter passes the records of every file in the order of their keys, which are different, then the new header can be read at the position that is returned; every index has exactly the
    rows of its records, in order, and the header differs from the one that was read only in the roots. *)
Theorem C60_build : forall collate reds info pos h sids skvs ids kvs f p f', (forall x y, compress x = Some y -> y <> []) -> ord collate ->
  read_view_group_header info pos = Ok h -> header_fits h -> bitmap_ok (ih_cleanup h) ->
  passed ebin_cmp sids ids -> Forall id_record (rows_of ids) -> length skvs = length reds -> Forall2 (passed (view_key_cmp collate)) skvs kvs -> Forall (fun l => Forall view_record (rows_of l)) kvs ->
  some_file f -> build_view_group collate reds info pos sids skvs f = (Ok p, f') -> fits_file f' -> fpos f' - p <= MAX_VIEW_HEADER ->
  exists h', read_view_group_header f' p = Ok h' /\ header_fits h' /\ group_made collate reds h' f' /\ h' = with_roots h (ih_cleanup h) (ih_id_state h') (ih_view_states h') /\
    holds_set ebin_cmp f' (ih_id_state h') (rows_of ids) /\ Forall2 (fun root l => holds_set (view_key_cmp collate) f' root (rows_of l)) (ih_view_states h') kvs.
Proof.
  intros collate reds info pos h sids skvs ids kvs f p f' HC OC Hr Hf Hb (ids' & -> & HP & HS) HI Hl HK HV Sf Hbuild F Hsz.
  assert (HP' : Permutation (rows_of ids) (rows_of ids')) by (apply Permutation_map; exact HP).
  assert (exists kvs', skvs = map (fun l => Good l) kvs' /\ Forall2 (fun l l' => Permutation l l' /\ strictly (view_key_cmp collate) l') kvs kvs') as (kvs' & -> & HK').
  { clear - HK. induction HK as [|s l skvs kvs (out & -> & P & S) HK (kvs' & -> & IH)]; [exists []; split; [reflexivity|constructor]|]. exists (out :: kvs'). split; [reflexivity|]. constructor; auto. }
  assert (HS' : Forall (strictly (view_key_cmp collate)) kvs') by (clear - HK'; induction HK' as [|? ? ? ? [_ S] _ IH]; constructor; assumption).
  assert (HV' : Forall (fun l => Forall view_record (rows_of l)) kvs').
  { clear - HK' HV. induction HK' as [|l l' ? ? [P _] _ IH]; constructor; inversion HV as [|? ? V1 V2]; subst; [|auto]. rewrite Forall_forall in *. intros x Hx. apply V1. eapply Permutation_in; [apply Permutation_sym, Permutation_map; exact P|exact Hx]. }
  destruct (@file_build E EO collate reds info pos h ids' kvs' f p f' HC OC Hr Hf Hb HS) as (h' & D & Hf' & Hm & Hh & W1 & W2); try assumption.
  - rewrite Forall_forall in *. intros x Hx. apply HI. eapply Permutation_in; [apply Permutation_sym; exact HP'|exact Hx].
  - now rewrite map_length in Hl.
  - exists h'. split; [exact D|]. split; [exact Hf'|]. split; [exact Hm|]. split; [exact Hh|]. split; [exists (rows_of ids'); split; [exact HP'|split; [apply rows_sorted; exact HS|exact W1]]|].
    clear - W2 HK'. revert kvs HK'. induction W2 as [|root l' roots kvs' H W2 IH]; intros kvs HK; inversion HK as [|l ? kvs0 ? [P S] HK2]; subst; constructor; [|apply IH; exact HK2].
    exists (rows_of l'). split; [apply Permutation_map; exact P|]. split; [apply rows_sorted; exact S|exact H].
Qed.

(** ** C61: an incremental update of a view group

    The records of the files set and remove rows; the rows of the partitions to clean up are removed as well. What is left in every index: see [SpecGroup.updated]. A partition stays in the mask of
    the new header exactly if an index still has one of its rows. The statistics are increased by the number of records; the rows removed for the partitions of the mask are counted exactly
    if no record concerns these partitions. *)
Theorem C61_update : forall collate reds batch sid skv idb kvb ids recs hb h us f hb' us' f', (forall x y, compress x = Some y -> y <> []) -> ord collate ->
  decode_index_header hb = Ok h -> header_fits h -> group_made collate reds h f -> prepared ebin_cmp sid idb ids -> Forall (op_ok id_record) ids ->
  Forall2 (prepared (view_key_cmp collate) skv) kvb recs -> Forall (Forall (op_ok view_record)) recs -> length kvb = length reds ->
  us_ids_ins us < 2^64 -> us_ids_rem us < 2^64 -> us_kvs_ins us < 2^64 -> us_kvs_rem us < 2^64 ->
  update_view_group collate reds batch sid skv idb kvb hb us f = (Ok (hb', us'), f') -> fits_file f' ->
  exists h', decode_index_header hb' = Ok h' /\ header_fits h' /\ group_made collate reds h' f' /\ appends f f' /\ h' = with_roots h (ih_cleanup h') (ih_id_state h') (ih_view_states h') /\
  exists idr rows, holds f (ih_id_state h) (fst idr) /\ holds f' (ih_id_state h') (snd idr) /\ index_updated ebin_cmp (ih_cleanup h) ids idr /\
    Forall2 (fun root x => holds f root (fst x)) (ih_view_states h) rows /\ Forall2 (fun root x => holds f' root (snd x)) (ih_view_states h') rows /\
    Forall2 (index_updated (view_key_cmp collate) (ih_cleanup h)) recs rows /\
    (forall q, q < 1024 -> (N.testbit (number (ih_cleanup h')) q = true <-> N.testbit (number (ih_cleanup h)) q = true /\ exists x y, In x (idr :: rows) /\ In y (snd x) /\ part y = q)) /\
    us_ids_ins us' = (us_ids_ins us + n_set ids) mod 2^64 /\ us_ids_rem us' = (us_ids_rem us + n_removed ids) mod 2^64 /\
    us_kvs_ins us' = (us_kvs_ins us + sum_of n_set recs) mod 2^64 /\ us_kvs_rem us' = (us_kvs_rem us + sum_of n_removed recs) mod 2^64 /\
    (countable ebin_cmp (fun _ => 1) (ih_cleanup h) ids idr -> Forall2 (countable (view_key_cmp collate) num_values (ih_cleanup h)) recs rows ->
     cleaned (fun _ => 1) (ih_cleanup h) ids (fst idr) + sum_of (fun x => cleaned num_values (ih_cleanup h) (fst x) (fst (snd x))) (combine recs rows) < 2^64 ->
     us_purged us' = cleaned (fun _ => 1) (ih_cleanup h) ids (fst idr) + sum_of (fun x => cleaned num_values (ih_cleanup h) (fst x) (fst (snd x))) (combine recs rows)).
Proof. intros collate reds batch sid skv idb kvb ids recs hb h us f hb' us' f'. exact (@file_update E EO collate reds batch sid skv idb kvb ids recs hb h us f hb' us' f'). Qed.
End Group.
Print Assumptions C59_compact.
Print Assumptions C60_build.
Print Assumptions C61_update.

(** When the partitions of the mask are not concerned, the rows left are determined: those that the records set, and the old ones that are not named by a record and not of the mask. *)
Theorem C61_rows : forall cmp mask l kvs kvs', l <> [] -> updated cmp mask l kvs kvs' -> apart_from cmp mask l kvs ->
  forall x, In x kvs' <-> In x (set_rows l) \/ In x kvs /\ ~ named cmp l x /\ in_mask mask x = false.
Proof.
  intros cmp mask l kvs kvs' Hne [U0 U1 U2 U3] [A1 A2] x. split; [apply U1, Hne|]. intros [H|(H1 & H2 & H3)]; [apply U3; [exact H|apply A1, H]|apply U2; assumption].
Qed.
Print Assumptions C61_rows.

(** ** The sorter

    Full statement: whatever the order of the records in the files, the sorter prepares them for the build and for the update. Missing: the cases in which the sorter fails (C57). *)
Lemma reorder cmp l out : distinct_keys cmp l -> Permutation out l -> in_key_order cmp out -> Permutation l out /\ strictly cmp out.
Proof. intros D P S. split; [apply Permutation_sym; exact P|exact (strict_order D P S)]. Qed.
Theorem C60_sorter_partial : forall cmp sort_tmp outcome value l, ord cmp -> sorts_tmp sort_tmp -> runs_written outcome -> Forall (record_ok false) l -> value + 2 * lenN l < 100000 -> distinct_keys cmp l ->
  passed cmp (sorted_rows cmp sort_tmp outcome value (records_file false l)) l.
Proof.
  intros cmp st oc value l O Ht Hw Hok Hv D. destruct (C57_sort_partial O Ht Hw Hok Hv) as (out & P & S & H). unfold sorted_rows. rewrite H. cbn [fbind snd]. destruct (reorder D P S). exists out. auto.
Qed.
Theorem C61_sorter_partial : forall cmp sort_tmp outcome value l, ord cmp -> sorts_tmp sort_tmp -> runs_written outcome -> Forall (record_ok true) l -> value + 2 * lenN l < 100000 -> distinct_keys cmp l ->
  prepared cmp (Some (sorted_ops cmp sort_tmp outcome value)) (records_file true l) l.
Proof.
  intros cmp st oc value l O Ht Hw Hok Hv D. destruct (C57_sort_partial O Ht Hw Hok Hv) as (out & P & S & H). destruct (reorder D P S) as [P' S']. exists out. split; [exact P'|]. split; [exact S'|].
  unfold ops_file, sorted_ops. rewrite H. reflexivity.
Qed.
Print Assumptions C60_sorter_partial.
Print Assumptions C61_sorter_partial.

(** ** Examples: the group of CleanupExample, with partition 2 in the mask *)
Definition g_hb : bytes := match @encode_index_header env0 g_header with Ok b => b | Err _ => [] end.
Lemma env0_nonempty : forall x y, @compress env0 x = Some y -> y <> [].
Proof. intros x y Hx. injection Hx as <-. discriminate. Qed.
Lemma g_hb_ok : @decode_index_header env0 g_hb = Ok g_header.
Proof.
  unfold g_hb. assert (H : okb (@encode_index_header env0 g_header) = true) by (vm_compute; reflexivity).
  destruct (C43_roundtrip env0_ok g_fits env0_nonempty) as [(b & -> & Hd)|[He _]]; [exact Hd|]. rewrite He in H. discriminate H.
Qed.
Definition fitsb (f : file) : bool := negb (big f) && (fpos f <=? 2^48).
Lemma fitsb_ok f : fitsb f = true -> fits_file f.
Proof. unfold fitsb. intros H. apply andb_prop in H. destruct H as [H1 H2]. split; [destruct (big f); [discriminate H1|reflexivity]|now apply N.leb_le]. Qed.
Lemma f0_some : @some_file env0 f0.
Proof. exists (fun _ => 0), 0, [], CRC32C, None. split; [exact f0_zero|constructor]. Qed.

Definition g_compact := @compact_view_group env0 ebin_cmp [[]; []] g_hb (snd g_w) f0 0.
Lemma g_compact_eq : @compact_view_group env0 ebin_cmp [[]; []] g_hb (snd g_w) f0 0 = g_compact.
Proof. unfold g_compact. reflexivity. Qed.
Lemma counted_ok (C : res (bytes * N) * file) n : match C with (Ok (_, m), f) => (m =? n) && fitsb f | _ => false end = true -> exists hb f, C = (Ok (hb, n), f) /\ fits_file f.
Proof. destruct C as [[[hb m]|e] f]; intros H; [|discriminate H]. apply andb_prop in H. destruct H as [H1 H2]. apply N.eqb_eq in H1. subst m. exists hb, f. split; [reflexivity|now apply fitsb_ok]. Qed.
(** Two rows are left: one of the index by id, one of the second view. *)
Example C59_ex : exists hb h src f hb' f', @decode_index_header env0 hb = Ok h /\ header_fits h /\ @group_made env0 ebin_cmp [[]; []] h src /\ fits_file src /\ @some_file env0 f /\
  @compact_view_group env0 ebin_cmp [[]; []] hb src f 0 = (Ok (hb', 2), f') /\ fits_file f'.
Proof.
  destruct (@counted_ok g_compact 2) as (hb' & f' & Hc & F); [vm_compute; reflexivity|]. exists g_hb, g_header, (snd g_w), f0, hb', f'.
  split; [exact g_hb_ok|]. split; [exact g_fits|]. split; [exact g_made|]. split; [apply fitsb_ok; vm_compute; reflexivity|]. split; [exact f0_some|]. split; [rewrite g_compact_eq; exact Hc|exact F].
Qed.

(** Three records for the index by id and two for the second view, not in order. *)
Definition b_ids : list vrec := [VRec 0 [3] (id_val 2 0); VRec 0 [1] (id_val 2 3); VRec 0 [2] (id_val 1 3)].
Definition b_kvs : list vrec := [VRec 0 (v_key [34; 34] 2) (v_val 1 3); VRec 0 (v_key [34; 34] 1) (v_val 2 3)].
Definition b_sort (cmp : bytes -> bytes -> comparison) (l : list vrec) : fres (list vrec) := sorted_rows cmp ex_sort_tmp (fun _ => J_done) 0 (records_file false l).
Definition g_build := @build_view_group env0 ebin_cmp [[]; []] (snd g_w) g_pos (b_sort ebin_cmp b_ids) [b_sort (view_key_cmp ebin_cmp) []; b_sort (view_key_cmp ebin_cmp) b_kvs] f0.
Lemma g_build_eq : @build_view_group env0 ebin_cmp [[]; []] (snd g_w) g_pos (b_sort ebin_cmp b_ids) [b_sort (view_key_cmp ebin_cmp) []; b_sort (view_key_cmp ebin_cmp) b_kvs] f0 = g_build.
Proof. unfold g_build. reflexivity. Qed.
Lemma built_ok (C : res N * file) : match C with (Ok p, f) => fitsb f && (fpos f - p <=? MAX_VIEW_HEADER) | _ => false end = true -> exists p f, C = (Ok p, f) /\ fits_file f /\ fpos f - p <= MAX_VIEW_HEADER.
Proof. destruct C as [[p|e] f]; intros H; [|discriminate H]. apply andb_prop in H. destruct H as [H1 H2]. exists p, f. split; [reflexivity|]. split; [now apply fitsb_ok|now apply N.leb_le]. Qed.
Lemma id_rec k p n : lenN k < 2^12 -> p < 1024 -> n < 4000 -> id_record (k, id_val p n).
Proof.
  intros Hk Hp Hn. split; [exact Hk|]. split; [|exists p, (repeat 66 (N.to_nat n)); split; [exact Hp|reflexivity]]. cbn [snd]. unfold id_val. unfold lenN. rewrite app_length, repeat_length. unfold be. 
  change (length _) with 2%nat. change (2^28) with 268435456. lia.
Qed.
Lemma v_rec j i p : lenN j < 100 -> p < 1024 -> view_record (v_key j i, v_val p 3).
Proof.
  intros Hj Hp. split; [cbn [fst]; unfold v_key; rewrite !lenN_app; change (lenN (be 2 (lenN j))) with 2; change (lenN [i]) with 1; change (2^12) with 4096; lia|].
  split; [vm_compute; reflexivity|]. exists (ViewValue p [repeat 66 (N.to_nat 3)]). split; [exact Hp|]. split; [apply v_fits; [exact Hp|reflexivity]|reflexivity].
Qed.
Lemma b_ids_passed : passed ebin_cmp (b_sort ebin_cmp b_ids) b_ids.
Proof.
  apply C60_sorter_partial; [apply ord_ebin|apply ex_sorts|intros j; reflexivity| |reflexivity|].
  - repeat constructor; vm_compute; try reflexivity; discriminate.
  - split; [repeat constructor; cbn; intuition discriminate|]. intros x y [<-|[<-|[<-|[]]]] [<-|[<-|[<-|[]]]] H; try reflexivity; discriminate H.
Qed.
Lemma b_kvs_passed : passed (view_key_cmp ebin_cmp) (b_sort (view_key_cmp ebin_cmp) b_kvs) b_kvs.
Proof.
  apply C60_sorter_partial; [apply view_key_ord, ord_ebin|apply ex_sorts|intros j; reflexivity| |reflexivity|].
  - repeat constructor; vm_compute; try reflexivity; discriminate.
  - split; [repeat constructor; cbn; intuition discriminate|]. intros x y [<-|[<-|[]]] [<-|[<-|[]]] H; try reflexivity; discriminate H.
Qed.
Lemma nil_passed : passed (view_key_cmp ebin_cmp) (b_sort (view_key_cmp ebin_cmp) []) [].
Proof. exists []. split; [vm_compute; reflexivity|]. split; constructor. Qed.
Example C60_ex : exists info pos h sids skvs ids kvs f p f', @read_view_group_header env0 info pos = Ok h /\ header_fits h /\ bitmap_ok (ih_cleanup h) /\ passed ebin_cmp sids ids /\
  Forall id_record (rows_of ids) /\ length ids = 3%nat /\ Forall2 (passed (view_key_cmp ebin_cmp)) skvs kvs /\ Forall (fun l => Forall view_record (rows_of l)) kvs /\ @some_file env0 f /\
  @build_view_group env0 ebin_cmp [[]; []] info pos sids skvs f = (Ok p, f') /\ fits_file f' /\ fpos f' - p <= MAX_VIEW_HEADER.
Proof.
  destruct (@built_ok g_build) as (p & f' & Hb & F & Hs); [vm_compute; reflexivity|].
  exists (snd g_w), g_pos, g_header, (b_sort ebin_cmp b_ids), [b_sort (view_key_cmp ebin_cmp) []; b_sort (view_key_cmp ebin_cmp) b_kvs], b_ids, [[]; b_kvs], f0, p, f'.
  split; [exact g_read|]. split; [exact g_fits|]. split; [exact mask2_ok|]. split; [exact b_ids_passed|]. split; [repeat constructor; apply id_rec; reflexivity|]. split; [reflexivity|].
  split; [constructor; [exact nil_passed|constructor; [exact b_kvs_passed|constructor]]|]. split; [repeat constructor; apply v_rec; reflexivity|]. split; [exact f0_some|].
  split; [rewrite g_build_eq; exact Hb|]. split; [exact F|exact Hs].
Qed.
(** Errors of the sorter have numbers of their own, but are returned as they are: the caller takes a failing read for a damaged file, a failing write for a lack of memory, and the
    failure to create a temporary file for a cancellation. *)
Theorem C60_errors_refuted : exists info pos h skvs f, @read_view_group_header env0 info pos = Ok h /\
  fst (@build_view_group env0 ebin_cmp [[]; []] info pos (Bad F_READ) skvs f) = Err E_CORRUPT /\
  fst (@build_view_group env0 ebin_cmp [[]; []] info pos (Bad F_WRITE) skvs f) = Err E_ALLOC /\
  fst (@build_view_group env0 ebin_cmp [[]; []] info pos (Bad F_MK_TMP_FILE) skvs f) = Err E_CANCEL.
Proof.
  exists (snd g_w), g_pos, g_header, [Good []; Good []], f0. split; [exact g_read|].
  assert (Hl : (lenN (A := list reducer) [[]; []] =? lenN (ih_view_states g_header)) = true) by (vm_compute; reflexivity).
  unfold build_view_group. rewrite g_read, Hl. cbn [negb build_btree fst sort_err]. auto.
Qed.
Print Assumptions C60_errors_refuted.

(** Document 4 of partition 1 is added, document 2 removed; the file of the index by id is sorted first. *)
Definition u_ids : list vrec := [VRec 2 [4] (id_val 1 3); VRec 1 [2] []].
Definition u_kvs : list vrec := [VRec 2 (v_key [34; 34] 4) (v_val 1 3)].
Definition u_sort : option (bytes -> fres bytes) := Some (sorted_ops ebin_cmp ex_sort_tmp (fun _ => J_done) 0).
Definition g_update := @update_view_group env0 ebin_cmp [[]; []] 1000 u_sort None (records_file true u_ids) [records_file true []; records_file true u_kvs] g_hb (UStats 0 0 0 0 0) (snd g_w).
Lemma g_update_eq : @update_view_group env0 ebin_cmp [[]; []] 1000 u_sort None (records_file true u_ids) [records_file true []; records_file true u_kvs] g_hb (UStats 0 0 0 0 0) (snd g_w) = g_update.
Proof. unfold g_update. reflexivity. Qed.
Definition same_stats (a b : ustats) : bool :=
  (us_ids_ins a =? us_ids_ins b) && (us_ids_rem a =? us_ids_rem b) && (us_kvs_ins a =? us_kvs_ins b) && (us_kvs_rem a =? us_kvs_rem b) && (us_purged a =? us_purged b).
Lemma same_stats_eq a b : same_stats a b = true -> a = b.
Proof.
  unfold same_stats. destruct a, b. cbn. intros H. apply andb_prop in H. destruct H as [H H5]. apply andb_prop in H. destruct H as [H H4]. apply andb_prop in H. destruct H as [H H3]. apply andb_prop in H. destruct H as [H1 H2].
  rewrite N.eqb_eq in *. congruence.
Qed.
Lemma updated_ok (C : res (bytes * ustats) * file) us : match C with (Ok (_, u), f) => same_stats u us && fitsb f | _ => false end = true -> exists hb f, C = (Ok (hb, us), f) /\ fits_file f.
Proof. destruct C as [[[hb m]|e] f]; intros H; [|discriminate H]. apply andb_prop in H. destruct H as [H1 H2]. apply same_stats_eq in H1. subst m. exists hb, f. split; [reflexivity|now apply fitsb_ok]. Qed.
Lemma sorted_prepared cmp l : strictly cmp l -> prepared cmp None (records_file true l) l.
Proof. intros H. exists l. split; [apply Permutation_refl|]. split; [exact H|reflexivity]. Qed.
Lemma op_set (record : kv -> Prop) k v : record (k, v) -> 0 < lenN k < 2^12 -> lenN v < 2^28 -> op_ok record (VRec 2 k v).
Proof. intros H Hk Hv. unfold op_ok. cbn [v_key v_val v_op FileMerger.v_key FileMerger.v_val]. change (2^12) with 4096 in *. change (2^28) with 268435456 in *. change (2^16) with 65536. change (2^31) with 2147483648. split; [lia|]. split; [lia|]. right. auto. Qed.
Lemma op_remove (record : kv -> Prop) k : 0 < lenN k < 2^12 -> op_ok record (VRec 1 k []).
Proof. intros Hk. unfold op_ok. cbn [FileMerger.v_key FileMerger.v_val v_op]. change (lenN (@nil N)) with 0. change (2^12) with 4096 in *. change (2^16) with 65536. change (2^31) with 2147483648. split; [lia|]. split; [lia|]. left. reflexivity. Qed.
Lemma u_ids_prepared : prepared ebin_cmp u_sort (records_file true u_ids) u_ids.
Proof.
  apply C61_sorter_partial; [apply ord_ebin|apply ex_sorts|intros j; reflexivity| |reflexivity|].
  - repeat constructor; vm_compute; try reflexivity; discriminate.
  - split; [repeat constructor; cbn; intuition discriminate|]. intros x y [<-|[<-|[]]] [<-|[<-|[]]] H; try reflexivity; discriminate H.
Qed.
(** Two rows of the index by id and one of the second view are removed for partition 2. *)
Example C61_ex : exists skv idb kvb ids recs hb h f hb' f', @decode_index_header env0 hb = Ok h /\ header_fits h /\ @group_made env0 ebin_cmp [[]; []] h f /\
  prepared ebin_cmp u_sort idb ids /\ Forall (op_ok id_record) ids /\ Forall2 (prepared (view_key_cmp ebin_cmp) skv) kvb recs /\ Forall (Forall (op_ok view_record)) recs /\ length kvb = 2%nat /\
  @update_view_group env0 ebin_cmp [[]; []] 1000 u_sort skv idb kvb hb (UStats 0 0 0 0 0) f = (Ok (hb', UStats 1 1 1 0 3), f') /\ fits_file f'.
Proof.
  destruct (@updated_ok g_update (UStats 1 1 1 0 3)) as (hb' & f' & Hu & F); [vm_compute; reflexivity|].
  exists None, (records_file true u_ids), [records_file true []; records_file true u_kvs], u_ids, [[]; u_kvs], g_hb, g_header, (snd g_w), hb', f'.
  split; [exact g_hb_ok|]. split; [exact g_fits|]. split; [exact g_made|]. split; [exact u_ids_prepared|].
  split; [constructor; [apply op_set; [apply id_rec; reflexivity|split; reflexivity|reflexivity]|constructor; [apply op_remove; split; reflexivity|constructor]]|].
  split; [constructor; [apply sorted_prepared; constructor|constructor; [apply sorted_prepared; repeat constructor|constructor]]|].
  split; [constructor; [constructor|constructor; [constructor; [apply op_set; [apply v_rec; reflexivity|split; reflexivity|reflexivity]|constructor]|constructor]]|].
  split; [reflexivity|]. split; [rewrite g_update_eq; exact Hu|exact F].
Qed.

(** What an update leaves depends on the size of the batches: a row set for a partition of the mask stays if all records are in one batch, and is removed by the next batch otherwise; in the second
    case the update reports one row more as cleaned up than there were before it. *)
Definition w_ids : list vrec := [VRec 2 [4] (id_val 2 3); VRec 2 [5] (id_val 1 0)].
Definition w_kvs : list vrec := [VRec 2 (v_key [34; 34] 5) (v_val 1 3)].
Definition g_batch (batch : N) := @update_view_group env0 ebin_cmp [[]; []] batch None None (records_file true w_ids) [records_file true []; records_file true w_kvs] g_hb (UStats 0 0 0 0 0) (snd g_w).
Lemma g_batch_eq batch : @update_view_group env0 ebin_cmp [[]; []] batch None None (records_file true w_ids) [records_file true []; records_file true w_kvs] g_hb (UStats 0 0 0 0 0) (snd g_w) = g_batch batch.
Proof. unfold g_batch. reflexivity. Qed.
Definition mask_is (C : res (bytes * ustats) * file) (q : N) (b : bool) : bool :=
  match C with (Ok (hb, _), _) => match @decode_index_header env0 hb with Ok h => Bool.eqb (N.testbit (number (ih_cleanup h)) q) b | Err _ => false end | _ => false end.
Lemma batch_case batch us b : match g_batch batch with (Ok (_, u), f) => same_stats u us && fitsb f | _ => false end = true -> mask_is (g_batch batch) 2 b = true ->
  exists hb' f' h', g_batch batch = (Ok (hb', us), f') /\ @decode_index_header env0 hb' = Ok h' /\
    (b = true <-> exists root l x, In root (ih_id_state h' :: ih_view_states h') /\ @SpecGroup.holds env0 f' root l /\ In x l /\ part x = 2).
Proof.
  intros H1 H2. destruct (updated_ok H1) as (hb' & f' & Hu & F). pose proof (g_batch_eq batch) as Hg. rewrite Hu in Hg, H2.
  destruct (@C61_update env0 env0_ok ebin_cmp [[]; []] batch None None (records_file true w_ids) [records_file true []; records_file true w_kvs] w_ids [[]; w_kvs] g_hb g_header (UStats 0 0 0 0 0) (snd g_w) hb' us f' env0_nonempty ord_ebin g_hb_ok g_fits g_made) as
    (h' & D & _ & _ & _ & _ & idr & rows & _ & W2 & _ & _ & W5 & _ & Wq & _).
  - apply sorted_prepared. repeat constructor.
  - constructor; [apply op_set; [apply id_rec; reflexivity|split; reflexivity|reflexivity]|constructor; [apply op_set; [apply id_rec; reflexivity|split; reflexivity|reflexivity]|constructor]].
  - constructor; [apply sorted_prepared; constructor|constructor; [apply sorted_prepared; repeat constructor|constructor]].
  - constructor; [constructor|constructor; [constructor; [apply op_set; [apply v_rec; reflexivity|split; reflexivity|reflexivity]|constructor]|constructor]].
  - reflexivity.
  - reflexivity.
  - reflexivity.
  - reflexivity.
  - reflexivity.
  - exact Hg.
  - exact F.
  - exists hb', f', h'. split; [exact Hu|]. split; [exact D|]. unfold mask_is in H2. rewrite D in H2. apply eqb_prop in H2. rewrite <- H2, (Wq 2 eq_refl).
    assert (Hm : N.testbit (number (ih_cleanup g_header)) 2 = true) by (vm_compute; reflexivity). rewrite Hm.
    assert (Hall : Forall2 (fun root (x : list kv * list kv) => @SpecGroup.holds env0 f' root (snd x)) (ih_id_state h' :: ih_view_states h') (idr :: rows)) by (constructor; assumption). clear - Hall. split.
    + intros [_ (x & y & Hx & Hy & Hp)]. revert Hx. induction Hall as [|root z roots0 rows0 H Hall IH]; intros Hx; [destruct Hx|]. destruct Hx as [<-|Hx].
      * exists root, (snd z), y. split; [left; reflexivity|]. auto.
      * destruct (IH Hx) as (r & l & w & Hr & Hw). exists r, l, w. split; [right; exact Hr|exact Hw].
    + intros (root & l & x & Hr & Hh & Hx & Hp). split; [reflexivity|]. revert Hr. induction Hall as [|root' z roots0 rows0 H Hall IH]; intros Hr; [destruct Hr|]. destruct Hr as [->|Hr].
      * destruct H as [n H]. destruct Hh as [n' Hh]. destruct (index_det H Hh) as [He _]. exists z, x. split; [left; reflexivity|]. rewrite He. auto.
      * destruct (IH Hr) as (a & y & Ha & Hy). exists a, y. split; [right; exact Ha|exact Hy].
Qed.
Theorem C61_batches_refuted : exists collate reds idb kvb hb us f big_batch small_batch,
  (exists hb' us' f' h', @update_view_group env0 collate reds big_batch None None idb kvb hb us f = (Ok (hb', us'), f') /\ @decode_index_header env0 hb' = Ok h' /\ us_purged us' = 3 /\
    exists root l x, In root (ih_id_state h' :: ih_view_states h') /\ @SpecGroup.holds env0 f' root l /\ In x l /\ part x = 2) /\
  (exists hb' us' f' h', @update_view_group env0 collate reds small_batch None None idb kvb hb us f = (Ok (hb', us'), f') /\ @decode_index_header env0 hb' = Ok h' /\ us_purged us' = 4 /\
    forall root l x, In root (ih_id_state h' :: ih_view_states h') -> @SpecGroup.holds env0 f' root l -> In x l -> part x <> 2).
Proof.
  exists ebin_cmp, [[]; []], (records_file true w_ids), [records_file true []; records_file true w_kvs], g_hb, (UStats 0 0 0 0 0), (snd g_w), 1000, 0. rewrite !g_batch_eq. split.
  - destruct (@batch_case 1000 (UStats 2 0 1 0 3) true) as (hb' & f' & h' & H1 & H2 & H3); [vm_compute; reflexivity|vm_compute; reflexivity|].
    exists hb', (UStats 2 0 1 0 3), f', h'. split; [exact H1|]. split; [exact H2|]. split; [reflexivity|]. apply H3. reflexivity.
  - destruct (@batch_case 0 (UStats 2 0 1 0 4) false) as (hb' & f' & h' & H1 & H2 & H3); [vm_compute; reflexivity|vm_compute; reflexivity|].
    exists hb', (UStats 2 0 1 0 4), f', h'. split; [exact H1|]. split; [exact H2|]. split; [reflexivity|]. intros root l x Hr Hh Hx Hp. assert (false = true) as Hf; [|discriminate Hf]. apply H3. exists root, l, x. auto.
Qed.
Print Assumptions C61_batches_refuted.
