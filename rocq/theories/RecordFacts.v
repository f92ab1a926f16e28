(** Proofs about the records of the view files. *)
From Coq Require Import Permutation Sorted.
From Verif Require Import Base Codec CodecFacts FileMerger SpecSorter.
Local Open Scope N_scope.
Unset Strict Implicit.

Lemma write_record_bytes incr r : record_ok incr r -> write_view_record incr r = record_bytes incr r.
Proof.
  intros (H1 & H2 & _). unfold write_view_record, record_bytes. rewrite (N.mod_small (lenN (v_key r))) by exact H1. f_equal. f_equal. f_equal.
  rewrite !lenN_app. change (lenN (be 2 (lenN (v_key r)))) with 2. destruct incr; [change (lenN [v_op r]) with 1|change (lenN (@nil N)) with 0]; rewrite N.mod_small; lia.
Qed.
Lemma read_record_bytes incr r rest : record_ok incr r -> read_view_record incr (record_bytes incr r ++ rest) = R_rec r rest.
Proof.
  intros (H1 & H2 & H3). destruct r as [op k v]. cbn [v_op v_key v_val] in *. unfold record_bytes. cbn [v_op v_key v_val].
  set (body := (if incr then [op] else []) ++ be 2 (lenN k) ++ k ++ v).
  assert (Lb : lenN body = (if incr then 1 else 0) + 2 + lenN k + lenN v).
  { unfold body. rewrite !lenN_app. change (lenN (be 2 (lenN k))) with 2. destruct incr; [change (lenN [op]) with 1|change (lenN (@nil N)) with 0]; lia. }
  unfold read_view_record. assert (L4 : lenN (rev (be 4 (lenN body))) = 4) by (rewrite lenN_rev; reflexivity).
  rewrite <- app_assoc. rewrite take_app_exact, drop_app_exact by (symmetry; exact L4). rewrite rev_involutive, unbe_be_small by (rewrite Lb; change (256 ^ N.of_nat 4) with (2^32); destruct incr; lia).
  destruct (N.ltb_spec (lenN (rev (be 4 (lenN body)) ++ body ++ rest)) 4) as [X|_]; [rewrite lenN_app in X; lia|].
  destruct (N.ltb_spec (lenN (body ++ rest)) 1) as [X|_]; [rewrite lenN_app in X; destruct incr; lia|]. rewrite andb_false_r.
  assert (E2 : (if incr then drop 1 (body ++ rest) else body ++ rest) = be 2 (lenN k) ++ k ++ v ++ rest).
  { unfold body. destruct incr; [rewrite <- !app_assoc; apply (@drop_app_exact N 1 [op]); reflexivity|rewrite <- !app_assoc; reflexivity]. }
  rewrite E2. rewrite take_app_exact, drop_app_exact by reflexivity. rewrite unbe_be_small by exact H1.
  destruct (N.ltb_spec (lenN (be 2 (lenN k) ++ k ++ v ++ rest)) 2) as [X|_]; [rewrite lenN_app in X; change (lenN (be 2 (lenN k))) with 2 in X; lia|].
  assert (Ev : (lenN body + 2 ^ 32 + 2 ^ 32 - 2 - lenN k - (if incr then 1 else 0)) mod 2 ^ 32 = lenN v).
  { replace (lenN body + 2 ^ 32 + 2 ^ 32 - 2 - lenN k - (if incr then 1 else 0)) with (lenN v + 2 * 2^32) by (rewrite Lb; destruct incr; lia). rewrite N.mod_add by lia. apply N.mod_small. lia. }
  rewrite Ev. rewrite (N.mod_small (lenN k + lenN v)) by lia.
  destruct (N.eqb_spec (lenN k + lenN v) 0); [lia|]. destruct (N.leb_spec (2^31) (lenN k + lenN v)); [lia|]. destruct (N.ltb_spec (lenN (k ++ v ++ rest)) (lenN k + lenN v)) as [X|_]; [rewrite !lenN_app in X; lia|].
  cbn [orb]. destruct (N.ltb_spec (lenN k + lenN v) (lenN k)); [lia|].
  rewrite (@take_app_exact N (lenN k) k (v ++ rest) eq_refl). rewrite (app_assoc k v rest). rewrite (@take_app_exact N (lenN k + lenN v) (k ++ v) rest), (@drop_app_exact N (lenN k + lenN v) (k ++ v) rest) by (rewrite lenN_app; reflexivity).
  rewrite (@drop_app_exact N (lenN k) k v eq_refl). f_equal. f_equal. unfold body. destruct incr; [reflexivity|]. symmetry. apply H3. reflexivity.
Qed.
Lemma read_record_nil incr : read_view_record incr [] = R_eof.
Proof. reflexivity. Qed.
Lemma read_write_record incr r rest : record_ok incr r -> read_view_record incr (write_view_record incr r ++ rest) = R_rec r rest.
Proof. intros H. rewrite write_record_bytes by exact H. apply read_record_bytes, H. Qed.
Lemma write_file incr l : Forall (record_ok incr) l -> concat (map (write_view_record incr) l) = records_file incr l.
Proof. unfold records_file. induction 1 as [|r l H _ IH]; [reflexivity|]. cbn [map concat]. rewrite write_record_bytes by exact H. rewrite IH. reflexivity. Qed.
