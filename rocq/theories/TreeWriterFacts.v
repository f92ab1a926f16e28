(** Facts about TreeWriter: records are read back, sorting, the index written. *)
From Coq Require Import Permutation Sorted.
From Verif Require Import Base Codec CodecFacts File FileFacts ChunkFacts Btree TreeStore SpecMap MergeFacts ModifyFacts BulkFacts MergeSort MergeSortFacts TreeWriter.
Local Open Scope N_scope.
Unset Strict Implicit.

(** ** Records *)
Definition rec_ok (x : record) : Prop := lenN (fst x) < 2^32 /\ lenN (snd x) < 2^32.

Lemma lenN_write_record x : lenN (write_record x) = 8 + lenN (fst x) + lenN (snd x).
Proof. unfold write_record. rewrite !lenN_app, !lenN_be. lia. Qed.
Lemma read_record_ok x s : rec_ok x -> read_record (write_record x ++ s) = Ok (Some (x, s)).
Proof.
  destruct x as [k v]. intros [Hk Hv]. cbn [fst snd] in *. unfold read_record. rewrite lenN_app, lenN_write_record. cbn [fst snd].
  destruct (N.ltb_spec (8 + lenN k + lenN v + lenN s) 8); [lia|].
  assert (W : write_record (k, v) ++ s = be 4 (lenN k) ++ be 4 (lenN v) ++ k ++ v ++ s).
  { unfold write_record. cbn [fst snd]. rewrite !N.mod_small by assumption. now rewrite <- !app_assoc. }
  assert (R1 : rd_be 4 0 (write_record (k, v) ++ s) = Ok (lenN k)).
  { rewrite W, rd_be_app0 by (now rewrite lenN_be). now rewrite unbe_be_small. }
  assert (R2 : rd_be 4 4 (write_record (k, v) ++ s) = Ok (lenN v)).
  { rewrite W. unfold rd_be. rewrite getb_ok by (rewrite !lenN_app, !lenN_be; lia).
    rewrite drop_app_exact by (now rewrite lenN_be). rewrite take_app_exact by (now rewrite lenN_be). cbn [bind]. now rewrite unbe_be_small. }
  rewrite R1, R2. cbn [bind]. destruct (N.ltb_spec (8 + lenN k + lenN v + lenN s) (8 + lenN k + lenN v)); [lia|].
  assert (D : forall n, drop (8 + n) (write_record (k, v) ++ s) = drop n (k ++ v ++ s)).
  { intros n. rewrite W. rewrite app_assoc. rewrite drop_app_ge by (rewrite lenN_app, !lenN_be; lia). f_equal. rewrite lenN_app, !lenN_be. lia. }
  rewrite getb_ok by (rewrite lenN_app, lenN_write_record; cbn [fst snd]; lia). replace (drop 8 (write_record (k, v) ++ s)) with (k ++ v ++ s) by (symmetry; exact (D 0)).
  rewrite take_app_exact by reflexivity. cbn [bind].
  rewrite getb_ok by (rewrite lenN_app, lenN_write_record; cbn [fst snd]; lia). rewrite D, drop_app_exact by reflexivity. rewrite take_app_exact by reflexivity. cbn [bind].
  rewrite <- N.add_assoc, D, app_assoc, drop_app_exact by (now rewrite lenN_app). reflexivity.
Qed.
Lemma read_record_nil : read_record [] = Ok None.
Proof. reflexivity. Qed.

Definition serial (l : list record) : bytes := concat (map write_record l).
Lemma serial_cons x l : serial (x :: l) = write_record x ++ serial l. Proof. reflexivity. Qed.
Lemma serial_app a b : serial (a ++ b) = serial a ++ serial b.
Proof. unfold serial. now rewrite map_app, concat_app. Qed.
Lemma serial_length l : (length l <= length (serial l))%nat.
Proof.
  induction l as [|x l IH]; [cbn; lia|]. rewrite serial_cons, app_length. pose proof (lenN_write_record x) as H. unfold lenN in H. cbn [length]. lia.
Qed.
Lemma read_records_ok l : Forall rec_ok l -> forall fuel, (length l < fuel)%nat -> read_records fuel (serial l) = Ok l.
Proof.
  induction 1 as [|x l Hx _ IH]; intros [|fuel] Hf; cbn [length] in Hf; try lia; cbn [read_records].
  - reflexivity.
  - rewrite serial_cons, read_record_ok by exact Hx. cbn [bind]. rewrite IH by lia. reflexivity.
Qed.

(** ** Sorting *)
Section Sorting.
Variable cmp : bytes -> bytes -> comparison.
Hypothesis OC : ord cmp.
Lemma rec_less_asym a b : rec_less cmp a b = true -> rec_less cmp b a = false.
Proof.
  unfold rec_less. destruct (cmp (fst a) (fst b)) eqn:H; try discriminate. intros _. destruct (cmp (fst b) (fst a)) eqn:H'; try reflexivity.
  apply (c_gt OC) in H'. congruence.
Qed.
Lemma rec_less_false a b : rec_less cmp b a = false <-> cmp (fst a) (fst b) <> Gt.
Proof.
  unfold rec_less. split; intros H.
  - intros Hc. apply (c_gt OC) in Hc. rewrite Hc in H. discriminate.
  - destruct (cmp (fst b) (fst a)) eqn:Hc; try reflexivity. exfalso. apply H. now apply (c_gt OC).
Qed.
Lemma rec_less_ntrans a b c : rec_less cmp b a = false -> rec_less cmp c b = false -> rec_less cmp c a = false.
Proof. rewrite !rec_less_false. intros H1 H2. eapply (c_le_trans OC); eassumption. Qed.

Lemma tw_sort_ok w l : w_stream w = serial l -> Forall rec_ok l -> lenN l < 2^63 ->
  exists r, tw_sort cmp w = Ok (Writer (serial r) (w_added w) (w_written w)) /\ Permutation l r /\ StronglySorted (fun a b => cmp (fst a) (fst b) <> Gt) r.
Proof.
  intros Hw Hl Hn. unfold tw_sort. rewrite Hw, read_records_ok by (try exact Hl; pose proof (serial_length l); lia). cbn [bind].
  destruct (@merge_sort_ok _ (rec_less cmp) rec_less_asym rec_less_ntrans block_size l) as (r & H1 & H2 & H3); [reflexivity|exact Hn|].
  rewrite H1. cbn [bind]. exists r. split; [reflexivity|]. split; [exact H2|].
  clear - H3 OC. induction H3 as [|a l H IH Ha]; constructor; [exact IH|]. revert Ha. apply Forall_impl. intros b. apply rec_less_false.
Qed.
End Sorting.

(** ** Writing *)
Section WithEnv.
Context {E : Env} (EO : EnvOk E).
Variable rq : request.
Variable kvP : bytes * bytes -> Prop.
Variable redP : bytes -> Prop.
Variable okf : file -> Prop.
Variable allowed : err -> Prop.
Hypothesis RO : rq_ok rq kvP redP okf allowed.

Lemma write_records_eq l : Forall rec_ok l -> forall fuel m n s, (length l < fuel)%nat ->
  write_records fuel rq (serial l) m n s = (let+ m' := pushes rq l m in ret (m', n + lenN l)) s.
Proof.
  induction 1 as [|x l Hx Hl IH]; intros [|fuel] m n s Hf; cbn [length] in Hf; try lia; cbn [write_records].
  - unfold bindM, lift. cbn [serial map concat]. rewrite read_record_nil. unfold pushes. cbn [foldM]. unfold ret. cbv beta. change (lenN (@nil record)) with 0. now rewrite N.add_0_r.
  - unfold bindM at 1, lift. rewrite serial_cons, read_record_ok by exact Hx. unfold pushes. cbn [foldM]. unfold bindM. 
    destruct (push_item rq (fst x) (snd x) m s) as [[m1|e] s1]; [|reflexivity]. rewrite IH by lia. unfold bindM, pushes.
    destruct (foldM _ l m1 s1) as [[m2|e] s2]; [|reflexivity]. unfold ret. replace (n + 1 + lenN l) with (n + lenN (x :: l)) by (rewrite lenN_cons; lia). reflexivity.
Qed.
Theorem run_tw_write w l s : okst okf s -> w_stream w = serial l -> Forall rec_ok l -> Forall kvP l ->
  run allowed (tw_write rq w) s (fun x s' => toptree rq kvP redP (st_f s') (fst x) l /\ quiet s s' /\ snd x = Writer (w_stream w) (w_added w) (w_written w + lenN l)).
Proof.
  intros O Hw Hr Hl. unfold tw_write. rewrite Hw.
  apply run_eq with (y := (let+ r := (let+ m := pushes rq l new_btree_modres in complete_new_btree rq m) in ret (r, Writer (serial l) (w_added w) (w_written w + lenN l)))).
  { unfold bindM at 1. rewrite write_records_eq by (try exact Hr; pose proof (serial_length l); lia). unfold bindM.
    destruct (pushes rq l new_btree_modres s) as [[m|e] s1]; reflexivity. }
  apply (@run_bind E EO rq kvP redP okf allowed RO _ _ _ _ _ (fun r s' => toptree rq kvP redP (st_f s') r l /\ quiet s s')); [exact O| | | |].
  - apply ow_bind; [apply ow_foldM; intros; apply ow_push|intros; apply ow_complete].
  - intros. apply ow_ret.
  - apply (@run_bulk E EO rq kvP redP okf allowed RO); assumption.
  - intros r s1 O1 L1 F1 [A1 A2]. apply run_ret. cbn [fst snd]. auto.
Qed.
Lemma ow_write_records fuel : forall s m n, ow (write_records fuel rq s m n).
Proof.
  induction fuel as [|fuel IH]; intros s m n; cbn [write_records]; [apply ow_fail|]. apply ow_bind; [apply ow_lift|]. intros [[r s']|]; [|apply ow_ret].
  apply ow_bind; [apply ow_push|intros; apply IH].
Qed.
Lemma ow_tw_write w : ow (tw_write rq w).
Proof. unfold tw_write. apply ow_bind; [apply ow_write_records|intros]. apply ow_bind; [apply ow_complete|intros; apply ow_ret]. Qed.
End WithEnv.
