(** Properties of the sorting and merging of files of records. *)
From Coq Require Import Permutation Sorted.
From Verif Require Import Base Codec CodecFacts SpecMap MergeFacts FileMerger Quicksort QuicksortFacts MergerFacts FileSorter SorterFacts ViewFiles SpecSorter RecordFacts.
Local Open Scope N_scope.
Unset Strict Implicit.

(** ** C55: merging the files of an incremental update *)
Lemma cv_sym cmp : ord cmp -> forall x y, compare_view_records cmp y x = CompOpp (compare_view_records cmp x y).
Proof. intros O x y. apply (o_anti O). Qed.
Lemma cv_trans cmp : ord cmp -> forall x y z, compare_view_records cmp x y <> Gt -> compare_view_records cmp y z <> Gt -> compare_view_records cmp x z <> Gt.
Proof. intros O x y z. apply (c_le_trans O). Qed.
Lemma newest_latest cmp files r : newest (compare_view_records cmp) files r -> from_latest cmp files r.
Proof.
  intros (i & l & Hl & Hr & Hn). destruct (nth_error_split _ _ Hl) as (older & newer & -> & <-). exists older, l, newer. split; [reflexivity|]. split; [exact Hr|].
  intros l' r' Hl' Hr'. apply In_nth_error in Hl'. destruct Hl' as [k Hk]. specialize (Hn (length older + S k)%nat l' ltac:(lia)). rewrite nth_error_app2 in Hn by lia.
  replace (length older + S k - length older)%nat with (S k) in Hn by lia. specialize (Hn Hk). rewrite Forall_forall in Hn. apply (Hn r' Hr').
Qed.
(** Merging gives a file in strictly ascending order; it has a record for every key that occurs, and it is the one of the latest file that has the key. *)
Theorem C55_merge : forall cmp files, ord cmp -> files <> [] -> Forall (Forall (record_ok true)) files -> Forall (strictly cmp) files ->
  exists out, merge_view_files cmp (map (records_file true) files) = Good (records_file true out) /\ strictly cmp out /\
    (forall l r, In l files -> In r l -> exists r', In r' out /\ cmp (v_key r) (v_key r') = Eq) /\
    Forall (from_latest cmp files) out.
Proof.
  intros cmp files O Hne Hok Hs. unfold merge_view_files.
  assert (E : map (records_file true) files = map (ser (write_view_record true)) files).
  { clear - Hok. induction Hok as [|l files H _ IH]; [reflexivity|]. cbn [map]. rewrite IH. unfold ser. rewrite write_file by exact H. reflexivity. }
  rewrite E. destruct (@merge_dedup vrec (compare_view_records cmp) (cv_sym O) (cv_trans O) (write_view_record true) (read_view_record true) (record_ok true) (read_record_nil true)
    (@read_write_record true) (Some dedup_view_records_merger) ltac:(intros d l X Hl; injection X as <-; apply dedup_view_in, Hl) dedup_view_records_merger files eq_refl) as (out & Em & So & Ho & Nw).
  { intros l w _ H. apply dedup_view_max, H. }
  { exact Hne. }
  { exact Hok. }
  { exact Hs. }
  assert (Fo : Forall (record_ok true) out).
  { rewrite Forall_forall in *. intros r Hr. destruct (Nw r Hr) as (i & l & Hl & Hin & _). apply nth_error_In in Hl. specialize (Hok l Hl). rewrite Forall_forall in Hok. apply Hok, Hin. }
  exists out. rewrite Em. cbn [fbind]. rewrite write_file by exact Fo. split; [reflexivity|]. split; [exact So|]. split.
  - intros l r Hl Hr. rewrite Forall_forall in Ho. apply Ho. apply in_concat. exists l. auto.
  - rewrite Forall_forall in *. intros r Hr. apply newest_latest, Nw, Hr.
Qed.
Print Assumptions C55_merge.

Definition mk_rec (op : N) (k v : bytes) : vrec := VRec op k v.
Definition ex_old : list vrec := [mk_rec 1 [1] [10]; mk_rec 1 [3] [30]; mk_rec 1 [5] [50]].
Definition ex_new : list vrec := [mk_rec 2 [3] [31]; mk_rec 1 [4] []].
Example C55_example : ord ebin_cmp /\ Forall (Forall (record_ok true)) [ex_old; ex_new] /\ Forall (strictly ebin_cmp) [ex_old; ex_new] /\
  merge_view_files ebin_cmp (map (records_file true) [ex_old; ex_new]) = Good (records_file true [mk_rec 1 [1] [10]; mk_rec 2 [3] [31]; mk_rec 1 [4] []; mk_rec 1 [5] [50]]).
Proof.
  split; [apply ord_ebin|]. split; [repeat constructor; cbn; try lia; discriminate|]. split; [repeat constructor|]. vm_compute. reflexivity.
Qed.
(** A source file that ends within the length of a record is taken as complete: the merge succeeds without the record. *)
Theorem C55_truncated_refuted : exists l r n, record_ok true r /\ strictly ebin_cmp (l ++ [r]) /\ 0 < n < lenN (record_bytes true r) /\
  merge_view_files ebin_cmp [records_file true l ++ take n (record_bytes true r)] = Good (records_file true l).
Proof.
  exists [mk_rec 1 [1] [10]], (mk_rec 1 [2] [20]), 3. split; [repeat split; cbn; lia|]. split; [repeat constructor|]. split; [split; vm_compute; reflexivity|]. vm_compute. reflexivity.
Qed.
Print Assumptions C55_truncated_refuted.
(** Equal keys within one file are both kept: then the merged file has a key twice. *)
Theorem C55_duplicates_refuted : exists l, Forall (record_ok true) l /\ in_key_order ebin_cmp l /\
  exists r1 r2, v_key r1 = v_key r2 /\ r1 <> r2 /\ merge_view_files ebin_cmp [records_file true l] = Good (records_file true [r1; r2]).
Proof.
  exists [mk_rec 1 [1] [10]; mk_rec 1 [1] [20]]. split; [repeat constructor; cbn; try lia; discriminate|]. split; [repeat constructor; discriminate|].
  exists (mk_rec 1 [1] [10]), (mk_rec 1 [1] [20]). split; [reflexivity|]. split; [discriminate|]. vm_compute. reflexivity.
Qed.
Print Assumptions C55_duplicates_refuted.

(** ** C56: sorting in memory *)
(** For every comparison that is a total preorder and every array: the result has the same elements, in order; no access is outside of the array. *)
Theorem C56_quicksort : forall (A : Type) (cmp : A -> A -> comparison), (forall x y, cmp y x = CompOpp (cmp x y)) -> (forall x y z, cmp x y <> Gt -> cmp y z <> Gt -> cmp x z <> Gt) ->
  forall a, exists a', quicksort cmp a = Good a' /\ Permutation a a' /\ StronglySorted (fun x y => cmp x y <> Gt) a'.
Proof. intros A cmp H1 H2 a. apply quicksort_ok; assumption. Qed.
Print Assumptions C56_quicksort.

Definition ex_array : list N := map (fun i => (N.of_nat i * 37) mod 23) (seq 0 60).
Example C56_example : (forall x y, N.compare y x = CompOpp (N.compare x y)) /\ (forall x y z, N.compare x y <> Gt -> N.compare y z <> Gt -> N.compare x z <> Gt) /\
  match quicksort N.compare ex_array with Good a => firstn 6 a = [0; 0; 0; 1; 1; 1] /\ nth 59 a 0 = 22 | Bad _ => False end.
Proof.
  split; [intros x y; apply N.compare_antisym|]. split; [intros x y z H1 H2; change (x <= z); change (x <= y) in H1; change (y <= z) in H2; lia|]. vm_compute. auto.
Qed.

(** ** C57: sorting a file *)
Definition runs_written (outcome : nat -> job_end) : Prop := forall j, outcome j = J_done.
Definition sorts_tmp (sort_tmp : list tmp -> list tmp) : Prop := forall l, Permutation l (sort_tmp l) /\ StronglySorted tmp_le (sort_tmp l).
Lemma sort_records_ok cmp : ord cmp -> forall l, Permutation l (sort_records cmp l) /\ StronglySorted (fun x y => compare_view_records cmp x y <> Gt) (sort_records cmp l).
Proof. intros O l. unfold sort_records. destruct (quicksort_ok (cv_sym O) (cv_trans O) l) as (a & -> & P & S). auto. Qed.
Lemma job_ext A cmp wr rd sz sr st (o1 o2 : nat -> job_end) num mx : (forall j, o1 j = o2 j) -> forall f b records size s,
  @read_loop A cmp wr rd sz sr st o1 num mx f b records size s = read_loop cmp wr rd sz sr st o2 num mx f b records size s.
Proof.
  intros H. assert (J : forall records s, add_job wr sr o1 num records s = add_job wr sr o2 num records s).
  { intros records s. unfold add_job. destruct (create_tmp_file num s) as [[i s1]|e]; [|reflexivity]. cbn [fbind]. rewrite H. reflexivity. }
  induction f as [|f IH]; intros b records size s; cbn [read_loop]; [reflexivity|]. destruct (rd b) as [|e|a rest]; [reflexivity|reflexivity|]. rewrite J.
  match goal with |- fbind ?x _ = fbind ?x _ => destruct x as [[[r z] s1]|e]; [|reflexivity] end. cbn [fbind].
  match goal with |- fbind ?x _ = fbind ?x _ => destruct x as [s2|e]; [|reflexivity] end. cbn [fbind]. apply IH.
Qed.
Lemma sort_file_ext A cmp wr rd sz sr st (o1 o2 : nat -> job_end) num mx src feed skip v : (forall j, o1 j = o2 j) ->
  @sort_file A cmp wr rd sz sr st o1 num mx src feed skip v = sort_file cmp wr rd sz sr st o2 num mx src feed skip v.
Proof.
  intros H. unfold sort_file. rewrite (@job_ext A cmp wr rd sz sr st o1 o2 num mx H).
  assert (J : forall records s, add_job wr sr o1 num records s = add_job wr sr o2 num records s).
  { intros records s. unfold add_job. destruct (create_tmp_file num s) as [[i s1]|e]; [|reflexivity]. cbn [fbind]. rewrite H. reflexivity. }
  destruct (Nat.leb num 1); [reflexivity|]. destruct (skip && negb feed); [reflexivity|]. match goal with |- fbind ?x _ = fbind ?x _ => destruct x as [[[r z] s1]|e]; [|reflexivity] end. cbn [fbind]. rewrite J. reflexivity.
Qed.
(** When every run can be written and there are names for the temporary files, sorting the file succeeds. The file of an incremental update is replaced by the sorted one; for an initial
    build the sorted records are given to the callback and the file stays. *)
Theorem C57_sort_partial : forall cmp sort_tmp outcome incr l value, ord cmp -> sorts_tmp sort_tmp -> runs_written outcome -> Forall (record_ok incr) l -> value + 2 * lenN l < 100000 ->
  exists out, Permutation out l /\ in_key_order cmp out /\
    sort_view_file cmp sort_tmp outcome incr (records_file incr l) value = Good (if incr then (records_file incr out, []) else (records_file incr l, out)).
Proof.
  intros cmp sort_tmp outcome incr l value O Ht Hw Hok Hv. unfold sort_view_file. rewrite (sort_file_ext _ _ _ _ _ _ _ _ _ _ _ _ Hw).
  destruct (@sort_file_ok vrec (compare_view_records cmp) (cv_sym O) (cv_trans O) (write_view_record incr) (read_view_record incr) (record_ok incr) (read_record_nil incr) (@read_write_record incr)
    record_size ltac:(intros a (_ & X & _); exact X) (sort_records cmp) (sort_records_ok O) sort_tmp Ht SORT_MAX_NUM_TMP_FILES ltac:(unfold SORT_MAX_NUM_TMP_FILES; lia) SORT_MAX_BUFFER_SIZE
    ltac:(vm_compute; discriminate) l (negb incr) (negb incr) value Hok Hv (fun H => H)) as (out & P & So & E).
  exists out. split; [exact P|]. split; [exact So|]. unfold ser in E. rewrite (write_file Hok) in E. rewrite E.
  assert (Fo : Forall (record_ok incr) out) by (rewrite Forall_forall in *; intros r Hr; apply Hok; eapply Permutation_in; eassumption).
  rewrite (write_file Fo). destruct incr; reflexivity.
Qed.
Print Assumptions C57_sort_partial.
(** The same for sort_file with any number of temporary files and any buffer size: then there are several runs and merges in between. *)
Theorem C57_sort_file_partial : forall cmp sort_tmp outcome num max_buffer incr l feed skip value, ord cmp -> sorts_tmp sort_tmp -> runs_written outcome -> (2 <= num)%nat -> max_buffer <= 2^31 ->
  (skip = true -> feed = true) -> Forall (record_ok incr) l -> value + 2 * lenN l < 100000 ->
  exists out, Permutation out l /\ in_key_order cmp out /\
    sort_file (compare_view_records cmp) (write_view_record incr) (read_view_record incr) record_size (sort_records cmp) sort_tmp outcome num max_buffer (records_file incr l) feed skip value =
    Good (if skip then records_file incr l else records_file incr out, if feed then out else []).
Proof.
  intros cmp sort_tmp outcome num mx incr l feed skip value O Ht Hw Hn Hm Hfs Hok Hv. rewrite (sort_file_ext _ _ _ _ _ _ _ _ _ _ _ _ Hw).
  destruct (@sort_file_ok vrec (compare_view_records cmp) (cv_sym O) (cv_trans O) (write_view_record incr) (read_view_record incr) (record_ok incr) (read_record_nil incr) (@read_write_record incr)
    record_size ltac:(intros a (_ & X & _); exact X) (sort_records cmp) (sort_records_ok O) sort_tmp Ht num Hn mx Hm l feed skip value Hok Hv Hfs) as (out & P & So & E).
  exists out. split; [exact P|]. split; [exact So|]. unfold ser in E. rewrite (write_file Hok) in E. rewrite E.
  assert (Fo : Forall (record_ok incr) out) by (rewrite Forall_forall in *; intros r Hr; apply Hok; eapply Permutation_in; eassumption).
  rewrite (write_file Fo). reflexivity.
Qed.
Print Assumptions C57_sort_file_partial.

(** A way to sort the temporary files for the examples. *)
Definition ex_sort_tmp (l : list tmp) : list tmp :=
  let '(z, nz) := List.partition (fun t => t_level t =? 0) l in
  match quicksort (fun x y => N.compare (t_level x) (t_level y)) nz with Good a => a ++ z | Bad _ => [] end.
Lemma ex_sorts : sorts_tmp ex_sort_tmp.
Proof.
  intros l. unfold ex_sort_tmp. destruct (List.partition (fun t => t_level t =? 0) l) as [z nz] eqn:E.
  assert (Hp : Permutation l (nz ++ z) /\ Forall (fun t => t_level t = 0) z /\ Forall (fun t => t_level t <> 0) nz).
  { revert z nz E. induction l as [|t l IH]; intros z nz E; cbn [List.partition] in E.
    - injection E as <- <-. repeat split; constructor.
    - destruct (List.partition (fun t => t_level t =? 0) l) as [z1 n1]. destruct (IH z1 n1 eq_refl) as (P & Z & Nz). destruct (N.eqb_spec (t_level t) 0) as [H|H]; injection E as <- <-.
      + split; [apply Permutation_cons_app; exact P|]. split; [constructor; auto|exact Nz].
      + split; [cbn [app]; apply perm_skip; exact P|]. split; [exact Z|constructor; auto]. }
  destruct Hp as (P & Z & Nz). destruct (@quicksort_ok tmp (fun x y => N.compare (t_level x) (t_level y))) with (a := nz) as (a & -> & Pa & Sa).
  { intros x y. apply N.compare_antisym. }
  { intros x y w H1 H2. change (t_level x <= t_level w). change (t_level x <= t_level y) in H1. change (t_level y <= t_level w) in H2. lia. }
  split; [eapply perm_trans; [exact P|]; apply Permutation_app_tail; exact Pa|].
  assert (Na : Forall (fun t => t_level t <> 0) a) by (rewrite Forall_forall in *; intros t Ht; apply Nz; eapply Permutation_in; [apply Permutation_sym; exact Pa|exact Ht]).
  clear - Sa Na Z. induction Sa as [|t a S IH F].
  - cbn [app]. induction Z as [|t z H Z IH]; constructor; [exact IH|]. eapply Forall_impl; [|exact Z]. intros u Hu. left. exact Hu.
  - inversion Na as [|? ? H1 H2]; subst. cbn [app]. constructor; [apply IH; exact H2|]. apply Forall_app. split.
    + eapply Forall_impl; [|exact F]. intros u Hu. right. split; [exact H1|exact Hu].
    + eapply Forall_impl; [|exact Z]. intros u Hu. left. exact Hu.
Qed.
Definition ex_records : list vrec := map (fun i => mk_rec 1 [(N.of_nat i * 7) mod 11] [N.of_nat i]) (seq 0 11).
Definition ex_sorted : list vrec := map (fun i => mk_rec 1 [N.of_nat i] [(N.of_nat i * 8) mod 11]) (seq 0 11).
(** Eleven records, a run for every two of them, at most three temporary files. *)
Example C57_example : ord ebin_cmp /\ sorts_tmp ex_sort_tmp /\ runs_written (fun _ => J_done) /\ Forall (record_ok true) ex_records /\
  sort_view_file ebin_cmp ex_sort_tmp (fun _ => J_done) true (records_file true ex_records) 0 = Good (records_file true ex_sorted, []) /\
  sort_file (compare_view_records ebin_cmp) (write_view_record true) (read_view_record true) record_size (sort_records ebin_cmp) ex_sort_tmp (fun _ => J_done) 3 4 (records_file true ex_records) true true 0 =
    Good (records_file true ex_records, ex_sorted).
Proof.
  split; [apply ord_ebin|]. split; [apply ex_sorts|]. split; [intros j; reflexivity|]. split.
  { unfold ex_records. apply Forall_forall. intros r Hr. apply in_map_iff in Hr. destruct Hr as (i & <- & _). repeat split; try discriminate; vm_compute; reflexivity. }
  split; vm_compute; reflexivity.
Qed.

(** Full statement: sort_file reports success only if the sorted file has all the records. Missing: the errors of writing a run. The last runs can fail unnoticed, since the result of the
    threads is not looked at (nor that of fclose); then the records are gone, although the source file was replaced. *)
Theorem C57_lost_refuted : exists l outcome, Forall (record_ok true) l /\ l <> [] /\
  sort_view_file ebin_cmp ex_sort_tmp outcome true (records_file true l) 0 = Good (records_file true [], []).
Proof.
  exists ex_records, (fun _ => J_error 0). split; [apply C57_example|]. split; [discriminate|]. vm_compute. reflexivity.
Qed.
Print Assumptions C57_lost_refuted.
(** A run that fails earlier ends its thread; waiting for both threads then never ends. *)
Theorem C57_hang_refuted : exists l outcome num max_buffer, Forall (record_ok true) l /\ (2 <= num)%nat /\ outcome 0%nat = J_error 0 /\ (forall j, j <> 0%nat -> outcome j = J_done) /\
  sort_file (compare_view_records ebin_cmp) (write_view_record true) (read_view_record true) record_size (sort_records ebin_cmp) ex_sort_tmp outcome num max_buffer (records_file true l) false false 0 = Bad F_HANG.
Proof.
  exists ex_records, (fun j => match j with O => J_error 0 | _ => J_done end), 3%nat, 4. split; [apply C57_example|]. split; [lia|]. split; [reflexivity|]. split.
  { intros [|j] H; [contradiction|reflexivity]. }
  vm_compute. reflexivity.
Qed.
Print Assumptions C57_hang_refuted.
(** A process can name 100000 temporary files; after that every sort of a file with records fails. *)
Theorem C57_names_refuted : exists l, Forall (record_ok true) l /\
  sort_view_file ebin_cmp ex_sort_tmp (fun _ => J_done) true (records_file true l) 99999 = Good (records_file true ex_sorted, []) /\
  (forall value, sorter_random_name 99999 = Some (99999, value) -> sort_view_file ebin_cmp ex_sort_tmp (fun _ => J_done) true (records_file true l) value = Bad F_MK_TMP_FILE).
Proof.
  exists ex_records. split; [apply C57_example|]. split; [vm_compute; reflexivity|]. intros value H. assert (value = 100000) as -> by (vm_compute in H; congruence). vm_compute. reflexivity.
Qed.
Print Assumptions C57_names_refuted.
