(** Properties of sorting and bulk loading (C35). *)
From Coq Require Import Permutation Sorted.
From Verif Require Import Base Codec CodecFacts File FileFacts ChunkFacts Header History Btree BtreeRead TreeStore SpecMap MergeFacts ModifyFacts Db SpecDb DbFacts DbSave SpecSession SessionFacts ReadFacts SaveFacts
  EnvExample SessionExample MergeSort MergeSortFacts TreeWriter BulkFacts TreeWriterFacts.
Local Open Scope N_scope.
Unset Strict Implicit.

(** For every strict weak order, every block size and every list of fewer than 2^63 elements, the sort ends and gives a permutation in which no element
    is below an earlier one. *)
Theorem C35_sorted : forall (A : Type) (less : A -> A -> bool),
  (forall a b, less a b = true -> less b a = false) -> (forall a b c, less b a = false -> less c b = false -> less c a = false) ->
  forall block l, 0 < block -> lenN l < 2^63 ->
  exists r, merge_sort less block l = Ok r /\ Permutation l r /\ StronglySorted (fun a b => less b a = false) r.
Proof. intros A less H1 H2 block l Hb Hl. exact (@merge_sort_ok A less H1 H2 block l Hb Hl). Qed.
Print Assumptions C35_sorted.
Example C35_sorted_ex : merge_sort N.ltb 2 [5; 3; 9; 1; 7; 7; 2; 8; 6; 4; 0] = Ok [0; 1; 2; 3; 4; 5; 6; 7; 7; 8; 9].
Proof. vm_compute. reflexivity. Qed.
(** The sort does not keep the order of elements with equal keys: with more than one block, a pair of equal keys may come out swapped. *)
Example C35_not_stable : merge_sort (fun a b => fst a <? fst b) 2 [(1, 1); (1, 2); (1, 3)] <> Ok [(1, 1); (1, 2); (1, 3)].
Proof. vm_compute. discriminate. Qed.

(** The temporary file: what is added is read back. *)
Definition adds (l : list record) : writer := fold_left (fun w x => tw_add (fst x) (snd x) w) l new_writer.
Lemma adds_gen l : forall w, fold_left (fun w x => tw_add (fst x) (snd x) w) l w = Writer (w_stream w ++ serial l) (w_added w + lenN l) (w_written w).
Proof.
  induction l as [|[k v] l IH]; intros w; cbn [fold_left].
  - change (lenN (@nil record)) with 0. rewrite N.add_0_r. cbn. rewrite app_nil_r. destruct w; reflexivity.
  - rewrite IH. cbn [tw_add w_stream w_added w_written fst snd]. rewrite serial_cons, app_assoc. f_equal. rewrite lenN_cons. lia.
Qed.
Lemma adds_eq l : adds l = Writer (serial l) (lenN l) 0.
Proof. unfold adds. rewrite adds_gen. cbn [new_writer w_stream w_added w_written app]. now rewrite N.add_0_l. Qed.
Theorem C35_records : forall l, Forall (fun x => lenN (fst x) < 2^32 /\ lenN (snd x) < 2^32) l ->
  read_records (S (length (w_stream (adds l)))) (w_stream (adds l)) = Ok l /\ w_added (adds l) = lenN l.
Proof.
  intros l Hl. rewrite adds_eq. cbn [w_stream w_added]. split; [|reflexivity]. apply read_records_ok; [exact Hl|]. pose proof (serial_length l). lia.
Qed.
Print Assumptions C35_records.
Example C35_records_ex : read_records 100 (w_stream (adds [([1;2], [3]); ([], [7;7;7]); ([9], [])])) = Ok [([1;2], [3]); ([], [7;7;7]); ([9], [])].
Proof. vm_compute. reflexivity. Qed.

(** The reduce functions give values that fit into an index node. *)
Definition small_reduces (rq : request) : Prop :=
  (forall g l v, r_reduce rq = Some g -> g l = Ok v -> lenN v < 2^16) /\ (forall g l v, r_rereduce rq = Some g -> g l = Ok v -> lenN v < 2^16).

Lemma bulk_rq {E : Env} rq : r_compact rq = true -> small_reduces rq -> rq_ok rq kv_ok (fun r => lenN r < 2^16) anyf anye.
Proof.
  intros Hc [H1 H2]. constructor.
  - now left.
  - auto.
  - auto.
  - intros kvs _ _. unfold leaf_red. destruct (r_reduce rq) as [g|]; [|reflexivity]. destruct (g kvs) as [r|e] eqn:Hg; [exact (H1 _ _ _ eq_refl Hg)|exact Logic.I].
  - intros rs _ _. unfold inner_red. destruct (r_rereduce rq) as [g|]; [|reflexivity]. destruct (g rs) as [r|e] eqn:Hg; [exact (H2 _ _ _ eq_refl Hg)|exact Logic.I].
  - intros. exact Logic.I.
  - intros. exact Logic.I.
  - intros. exact Logic.I.
  - intros. exact Logic.I.
Qed.

(** Adding entries in any order, sorting, and writing them into the file of any session: if the writing succeeds, the new index holds exactly these entries,
    in ascending order, and as many have been written as were added. *)
Theorem C35_index : forall (E : Env), EnvOk E -> forall key getkey, key_ok key getkey -> forall s, sessions key getkey s ->
  forall rq, ord (r_cmp rq) -> r_compact rq = true -> small_reduces rq ->
  forall l, Forall (fun x => lenN (fst x) < 2^12 /\ lenN (snd x) < 2^28) l -> lenN l < 2^63 ->
  exists w, tw_sort (r_cmp rq) (adds l) = Ok w /\
    forall root w' st', tw_write rq w (St (dbf (ss_db s)) [] false) = (Ok (root, w'), st') -> big (st_f st') = false -> fpos (st_f st') <= 2^48 ->
    w_added w' = lenN l /\ w_written w' = lenN l /\
    exists l' n, Permutation l l' /\ StronglySorted (fun a b => r_cmp rq (fst a) (fst b) <> Gt) l' /\ index (st_f st') root l' n.
Proof.
  intros E EO key getkey KO s H rq OC Hc Hr l Hl Hn. destruct (sessions_stored EO KO H) as (G & D & P & ps & S).
  assert (Hrec : Forall rec_ok l).
  { revert Hl. apply Forall_impl. intros x [H1 H2]. split; [eapply N.lt_trans; [exact H1|reflexivity]|eapply N.lt_trans; [exact H2|reflexivity]]. }
  destruct (@tw_sort_ok (r_cmp rq) OC (adds l) l) as (r & R1 & R2 & R3); [now rewrite adds_eq|exact Hrec|exact Hn|].
  eexists. split; [exact R1|]. intros root w' st' Hw Hb Hp. rewrite adds_eq in Hw. cbn [w_added w_written] in Hw.
  assert (Hl' : Forall kv_ok r) by (eapply Permutation_Forall; [exact R2|exact Hl]).
  assert (Hrec' : Forall rec_ok r) by (eapply Permutation_Forall; [exact R2|exact Hrec]).
  destruct (@run_tw_write E EO rq kv_ok _ anyf anye (bulk_rq Hc Hr) (Writer (serial r) (lenN l) 0) r (St (dbf (ss_db s)) [] false)) with (r := Ok (root, w')) (s' := st')
    as (T & _ & Hx); [split; [exact G|exact Logic.I]|reflexivity|exact Hrec'|exact Hl'|exact Hw|split; assumption|].
  cbn [fst snd w_added w_written w_stream] in *. subst w'. cbn [w_added w_written]. split; [reflexivity|]. split; [replace (lenN l) with (lenN r) by (unfold lenN; f_equal; symmetry; apply Permutation_length; exact R2); apply N.add_0_l|].
  assert (G' : good (st_f st')).
  { destruct (@ow_tw_write E rq _ _ _ _ Hw) as [log W]. exact (le_good (writes_le EO G W)). }
  destruct (@rtree_index E EO rq kv_ok (fun r => lenN r < 2^16) (st_f st') root r) as [n [Hi _]]; auto.
  { apply toptree_rtree. exact T. }
  exists r, n. auto.
Qed.
Print Assumptions C35_index.

(** Loading five entries into the file of the example session. *)
Definition bulk_req : request := Request ebin_cmp None None 8 8 true None None None None.
Definition bulk_entries : list record := [([5], [1]); ([2;2], [2]); ([9], [3]); ([1], [4]); ([2], [5])].
Definition bulk_writer : writer := match tw_sort ebin_cmp (adds bulk_entries) with Ok w => w | Err _ => new_writer end.
Definition bulk_result : res (option node_pointer * writer) * st := @tw_write env0 bulk_req bulk_writer (St (dbf (ss_db sx5)) [] false).
Example C35_index_ex : tw_sort ebin_cmp (adds bulk_entries) = Ok bulk_writer /\ ord (r_cmp bulk_req) /\ small_reduces bulk_req /\ exists p w' st', bulk_result = (Ok (Some p, w'), st') /\ big (st_f st') = false /\ fpos (st_f st') <= 2^48.
Proof.
  split; [vm_compute; reflexivity|]. split; [exact ord_ebin|]. split; [split; intros ? ? ?; discriminate|].
  assert (H : match bulk_result with (Ok (Some _, _), st') => negb (big (st_f st')) && (fpos (st_f st') <=? 2^48) | _ => false end = true) by (vm_compute; reflexivity).
  destruct bulk_result as [[[[p|] w']|e] st']; try discriminate. exists p, w', st'. apply andb_true_iff in H. destruct H as [H1 H2]. split; [reflexivity|]. split; [apply negb_true_iff; exact H1|apply N.leb_le; exact H2].
Qed.
