(** What replaying does to the stored contents of the target. *)
From Verif Require Import Base Codec CodecFacts File FileFacts ChunkFacts Header Btree TreeStore SpecMap MergeFacts ModifyFacts BtreeRead LookupFacts Db SortFacts ReduceFacts SpecDb DbFacts DbSave DbRead
  Compact SpecCompact BulkFacts CompactFacts Replay SpecReplay.
Local Open Scope N_scope.
Unset Strict Implicit.

Section WithEnv.
Context {E : Env} (EO : EnvOk E).

(** ** Every step only appends chunks *)

Lemma add_docs_writes o l : forall seq f r f' infos, add_docs o seq f l = (r, f', infos) -> exists log, writes f log f'.
Proof.
  induction l as [|x l IH]; intros seq f r f' infos Ha; cbn [add_docs] in Ha.
  - injection Ha as _ <- _. exists []. constructor.
  - match type of Ha with (match ?t with _ => _ end = _) => destruct t as [r0 f0] eqn:Hd0 end.
    assert (Hw : exists log, writes f log f0).
    { clear - Hd0. unfold add_doc in Hd0. destruct (sb_body x) as [b|]; [|injection Hd0 as <- <-; exists []; constructor].
      match type of Hd0 with (match (if ?t then _ else _) with _ => _ end = _) => destruct t end; unfold db_write_buf_compressed in Hd0.
      - destruct (compress b) as [z|]; [|injection Hd0 as _ <-; exists []; constructor].
        destruct (db_write_buf f z) as [[[p sz]|e] f2] eqn:Hw; injection Hd0 as _ <-; eexists; (eapply wr_step; [constructor|exact Hw]).
      - destruct (db_write_buf f b) as [[[p sz]|e] f2] eqn:Hw; injection Hd0 as _ <-; eexists; (eapply wr_step; [constructor|exact Hw]). }
    destruct r0 as [d0|e0]; [|injection Ha as _ <- _; exact Hw].
    match type of Ha with context [add_docs o ?q f0 l] => destruct (add_docs o q f0 l) as [[r1 f2] i1] eqn:Hr end.
    injection Ha as _ <- _. destruct (IH _ _ _ _ _ Hr) as [log2 W2]. destruct Hw as [log1 W1]. exists (log2 ++ log1). eapply writes_trans; eassumption.
Qed.
Lemma save_writes c o cb l d : exists log, writes (dbf d) log (dbf (sv_db (save_documents c o cb l d))).
Proof.
  unfold save_documents. destruct (dropped d); [exists []; constructor|].
  destruct (add_docs o (h_update_seq (dbh d)) (dbf d) l) as [[r1 f1] infos] eqn:Ha. destruct (add_docs_writes Ha) as [log1 W1].
  destruct r1 as [[ds sq]|e]; [|exists log1; exact W1].
  destruct (update_indexes c cb (Db f1 (dbh d) false) ds) as [[r2 d2] ev] eqn:Hu.
  assert (Hw : exists log, writes f1 log (dbf d2)).
  { unfold update_indexes in Hu. cbn [dbf dbh] in Hu.
    destruct (modify_btree (id_request c cb) _ _ _) as [r3 s1] eqn:Hm1. destruct (@ow_modify E _ _ _ _ _ _ Hm1) as [log2 W2]. cbn [st_f] in W2.
    destruct r3 as [a|e]; [|injection Hu as _ <- _; cbn [dbf]; eauto].
    destruct (modify_btree (seq_request c) _ _ _) as [r4 s2] eqn:Hm2. destruct (@ow_modify E _ _ _ _ _ _ Hm2) as [log3 W3]. cbn [st_f] in W3.
    assert (Hd2 : dbf d2 = st_f s2) by (destruct r4; injection Hu as _ <- _; reflexivity). rewrite Hd2. exists (log3 ++ log2). eapply writes_trans; eassumption. }
  destruct Hw as [log2 W2]. exists (log2 ++ log1). destruct r2; cbn [sv_db dbf]; eapply writes_trans; eassumption.
Qed.
Lemma update_writes c d l r d' : update_local_documents c d l = (r, d') -> exists log, writes (dbf d) log (dbf d').
Proof.
  unfold update_local_documents. destruct (dropped d); [intros H; injection H as _ <-; exists []; constructor|]. unfold update_locals.
  destruct (modify_btree _ _ _ _) as [r1 s1] eqn:Hm1. destruct (@ow_modify E _ _ _ _ _ _ Hm1) as [log2 W2]. destruct r1; intros H; injection H as _ <-; eauto.
Qed.
Definition cxf (x : context) : file := dbf (cx_db x).
Lemma flush_writes c x r x' : flush c x = (r, x') -> exists log, writes (cxf x) log (cxf x').
Proof.
  unfold flush, cxf. destruct (cx_locals x) as [|y ys].
  - destruct (cx_docs x) as [|y ys]; [intros H; injection H as _ <-; exists []; constructor|].
    destruct (save_writes c (SaveOpts false true) false (y :: ys) (cx_db x)) as [log W]. destruct (sv_res _); intros H; injection H as _ <-; eauto.
  - destruct (update_local_documents c (cx_db x) (y :: ys)) as [r1 d1] eqn:Hu. destruct (update_writes Hu) as [log W]. destruct r1; intros H; injection H as _ <-; eauto.
Qed.
Lemma spooled_writes c limit x r x' : spooled c limit x = (r, x') -> exists log, writes (cxf x) log (cxf x').
Proof. unfold spooled. destruct (_ <? _); [apply flush_writes|]. intros H; injection H as _ <-. exists []. constructor. Qed.
Lemma replay_local_writes c limit hook k v x r x' : replay_local c limit hook k v x = (r, x') -> exists log, writes (cxf x) log (cxf x').
Proof.
  assert (H0 : forall r0 : res unit, (r0, x) = (r, x') -> exists log, writes (cxf x) log (cxf x')) by (intros r0 H; injection H as _ <-; exists []; constructor).
  unfold replay_local. destruct v as [b|]; [|exact (H0 _)]. destruct (hook true _); [|exact (H0 _)]. exact (@spooled_writes _ _ _ _ _).
Qed.
Lemma replay_doc_writes c limit hook src i x r x' : replay_doc c limit hook src i x = (r, x') -> exists log, writes (cxf x) log (cxf x').
Proof.
  assert (H0 : forall r0 : res unit, (r0, x) = (r, x') -> exists log, writes (cxf x) log (cxf x')) by (intros r0 H; injection H as _ <-; exists []; constructor).
  unfold replay_doc. destruct (hook false i); [|exact (H0 _)]. destruct (open_doc_with_docinfo src i false) as [b|e]; [exact (@spooled_writes _ _ _ _ _)|].
  destruct (_ && _); [exact (@spooled_writes _ _ _ _ _)|exact (H0 _)].
Qed.
Lemma feed_writes A (cb : A -> context -> res unit * context) : (forall a x r x', cb a x = (r, x') -> exists log, writes (cxf x) log (cxf x')) ->
  forall l x r x', feed cb l x = (r, x') -> exists log, writes (cxf x) log (cxf x').
Proof.
  intros Hc. induction l as [|a l IH]; intros x r x' H; cbn [feed] in H; [injection H as _ <-; exists []; constructor|].
  destruct (cb a x) as [[u|e] x1] eqn:Hx; destruct (Hc _ _ _ _ Hx) as [l1 W1]; [|injection H as _ <-; eauto].
  destruct (IH _ _ _ H) as [l2 W2]. exists (l2 ++ l1). eapply writes_trans; eassumption.
Qed.

(** ** Local documents *)

Section Ok.
Variable okf : file -> Prop.
Variable allowed : err -> Prop.
Hypothesis OE : okerr okf allowed.
Variable c : cfg.
Hypothesis Hc : 2 <= c_kv c.

Lemma upd_rq : rq_ok (update_request c) kv_ok loc_redP okf allowed.
Proof.
  constructor.
  - right. exact Hc.
  - auto.
  - intros r Hr. rewrite Hr. reflexivity.
  - intros kvs _ _. reflexivity.
  - intros rs _ H. reflexivity.
  - intros g a v e [= <-]. unfold locals_fetch. destruct v; discriminate.
  - intros g k k' v e [=].
  - apply (oe_okf OE).
  - apply (oe_node OE).
Qed.
Lemma update_local_documents_ok l d v ps r d' : good (dbf d) -> okf (dbf d) -> dropped d = false -> stored (dbf d) (dbh d) v ps ->
  Forall (fun x => ld_deleted x = false) l -> NoDup (map ld_id l) -> Forall local_fits l -> update_local_documents c d l = (r, d') -> fin (dbf d') ->
  (exists log, writes (dbf d) log (dbf d')) /\ le (dbf d) (dbf d') /\ okf (dbf d') /\ dropped d' = false /\
  match r with
  | Ok _ => exists a, dbh d' = set_roots (dbh d) (h_by_id (dbh d)) (h_by_seq (dbh d)) a /\ stored (dbf d') (dbh d') (save_locals l v) ps
  | Err e => allowed e /\ dbh d' = dbh d
  end.
Proof.
  intros G Ho Hd S Hl Hn Hf Hr F. unfold update_local_documents in Hr. rewrite Hd in Hr. rewrite <- Hd at 1.
  set (acts := isort _ _) in Hr.
  assert (Hst : StronglySorted (fun a b => ebin_cmp (a_key a) (a_key b) = Lt) acts).
  { apply (@isort_ss _ a_key ebin_cmp); [apply ord_ebin| |].
    - intros a b _ _. now rewrite ebin_eq.
    - rewrite map_map. exact Hn. }
  eapply update_locals_ok with (rq := update_request c) (act := update_action) (acts := acts); try eassumption.
  - reflexivity.
  - exact upd_rq.
  - intros f1 r1 l1. split; intros H; exact H.
  - intros x. repeat split. discriminate.
  - revert Hl. apply Forall_impl. intros x Hx. now rewrite Hx.
  - right. split; [|split].
    + intros g a v0 [= <-]. unfold locals_fetch. destruct v0 as [b|]; [|discriminate]. destruct (ebin_cmp b (a_data a)) eqn:Hb; try discriminate. apply ebin_eq in Hb. subst b. auto.
    + intros x y H. now apply ebin_eq.
    + exact Hst.
  - apply isort_perm.
Qed.

(** ** Batches *)

(** The target holds the contents [t] and has a header that agrees with [h0] up to roots and last sequence number. *)
Record holds (h0 : header) (x : context) (t : contents) : Prop := {
  ho_good : good (cxf x);
  ho_okf : okf (cxf x);
  ho_pos : 1 <= fpos (cxf x);
  ho_drop : dropped (cx_db x) = false;
  ho_stored : exists ps, stored (cxf x) (dbh (cx_db x)) t ps;
  ho_hdr : exists a b l n, dbh (cx_db x) = set_seq_num (set_roots h0 a b l) n
}.
Lemma holds_db h0 x y t : cx_db x = cx_db y -> holds h0 x t -> holds h0 y t.
Proof. intros H [A1 A2 A3 A4 A5 A6]. unfold cxf in *. rewrite H in *. constructor; auto. Qed.

Lemma hdr_again h0 a b l n a' b' l' : exists a1 b1 l1 n1, set_roots (set_seq_num (set_roots h0 a b l) n) a' b' l' = set_seq_num (set_roots h0 a1 b1 l1) n1.
Proof. exists a', b', l', n. reflexivity. Qed.
Lemma hdr_twice h0 a b l n a' b' l' n' : exists a1 b1 l1 n1, set_seq_num (set_roots (set_seq_num (set_roots h0 a b l) n) a' b' l') n' = set_seq_num (set_roots h0 a1 b1 l1) n1.
Proof. exists a', b', l', n'. reflexivity. Qed.
Lemma flush_locals h0 x t r x' : holds h0 x t -> cx_docs x = [] -> Forall (fun y => ld_deleted y = false) (cx_locals x) -> NoDup (map ld_id (cx_locals x)) -> Forall local_fits (cx_locals x) ->
  flush c x = (r, x') -> fin47 (cxf x') ->
  match r with Ok _ => holds h0 x' (save_locals (cx_locals x) t) /\ cx_locals x' = [] /\ cx_docs x' = [] | Err e => allowed e end.
Proof.
  intros Ho Hd Hl Hn Hf H F. unfold flush in H. destruct (cx_locals x) as [|y ys] eqn:Ey.
  - rewrite Hd in H. injection H as <- <-. split; [|split; assumption]. replace (save_locals [] t) with t by (destruct t; reflexivity). exact Ho.
  - destruct (update_local_documents c (cx_db x) (y :: ys)) as [r1 d1] eqn:Hu. destruct (ho_stored Ho) as [ps S].
    assert (Fd : fin (dbf d1)) by (apply fin47_fin; destruct r1; injection H as _ <-; exact F).
    destruct (@update_local_documents_ok _ _ _ ps _ _ (ho_good Ho) (ho_okf Ho) (ho_drop Ho) S Hl Hn Hf Hu Fd) as (_ & L & O1 & D1 & R).
    destruct r1 as [u|e]; injection H as <- <-; [|apply R]. destruct R as (a & Hh & S'). split; [|auto].
    constructor; unfold cxf; cbn [cx_db]; auto.
    + exact (le_good L).
    + destruct L as (_ & L & _). pose proof (ho_pos Ho). unfold cxf in *. lia.
    + eauto.
    + destruct (ho_hdr Ho) as (a1 & b1 & l1 & n1 & HE). rewrite Hh, HE. eapply hdr_again.
Qed.

Notation O := (SaveOpts false true).
Lemma flush_docs h0 x t r x' : holds h0 x t -> cx_locals x = [] -> batch_ok O (cx_docs x) t -> flush c x = (r, x') -> fin47 (cxf x') ->
  match r with Ok _ => holds h0 x' (save O (cx_docs x) t) /\ cx_locals x' = [] /\ cx_docs x' = [] | Err e => allowed e end.
Proof.
  intros Ho Hl B H F. unfold flush in H. rewrite Hl in H. destruct (cx_docs x) as [|y ys] eqn:Ey.
  - injection H as <- <-. split; [|split; assumption]. replace (save O [] t) with t by (destruct t; reflexivity). exact Ho.
  - set (R := save_documents c O false (y :: ys) (cx_db x)) in H. destruct (ho_stored Ho) as [ps S].
    assert (Fd : fin47 (dbf (sv_db R))) by (destruct (sv_res R); injection H as _ <-; exact F).
    destruct (@save_documents_ok E EO okf allowed OE c Hc false O (y :: ys) _ _ ps R eq_refl (ho_good Ho) (ho_okf Ho) (ho_pos Ho) (ho_drop Ho) S B Fd) as (_ & L & O1 & D1 & Q).
    destruct (sv_res R) as [u|e]; injection H as <- <-; [|apply Q]. destruct Q as (a & b & ds & Hh & _ & _ & S' & _). split; [|auto].
    constructor; unfold cxf; cbn [cx_db]; auto.
    + exact (le_good L).
    + destruct L as (_ & L & _). pose proof (ho_pos Ho). unfold cxf in *. lia.
    + eauto.
    + destruct (ho_hdr Ho) as (a1 & b1 & l1 & n1 & HE). rewrite Hh, HE. eapply hdr_twice.
Qed.

(** ** Scanning *)

Variable limit : N.
Variable hook : precopy_hook.
Definition hooked (e : err) : Prop := exists b i, hook b i = Err e.
Variable h0 : header.

Definition mk_local (x : kv) : local_doc := LocalDoc (fst x) (snd x) false.
Definition lstate (t : contents) (x : context) (pr : list local_doc) : Prop :=
  exists done, holds h0 x (save_locals done t) /\ done ++ cx_locals x = pr /\ cx_docs x = [].
Lemma save_locals_app a b t : save_locals b (save_locals a t) = save_locals (a ++ b) t.
Proof. unfold save_locals. cbn [v_docs v_locals v_seq]. now rewrite fold_left_app. Qed.

Lemma nodup_app_l A (a b : list A) : NoDup (a ++ b) -> NoDup a.
Proof. induction a as [|x a IH]; cbn; [constructor|]. intros H. inv H. constructor; [|auto]. intros Hx. apply H2, in_or_app. auto. Qed.
Lemma nodup_app_r A (a b : list A) : NoDup (a ++ b) -> NoDup b.
Proof. induction a as [|x a IH]; cbn; [auto|]. intros H. inv H. auto. Qed.

Lemma locals_flush t x pr r x' : lstate t x pr -> Forall (fun y => ld_deleted y = false) pr -> NoDup (map ld_id pr) -> Forall local_fits pr ->
  flush c x = (r, x') -> fin47 (cxf x') ->
  match r with Ok _ => holds h0 x' (save_locals pr t) /\ cx_locals x' = [] /\ cx_docs x' = [] | Err e => allowed e end.
Proof.
  intros (done & Ho & <- & Hd) Hl Hn Hf H F. apply Forall_app in Hl. apply Forall_app in Hf. rewrite map_app in Hn. apply nodup_app_r in Hn.
  pose proof (@flush_locals h0 x (save_locals done t) r x' Ho Hd (proj2 Hl) Hn (proj2 Hf) H F) as R. rewrite save_locals_app in R. exact R.
Qed.
Lemma local_step t x pr k v r x' : let y := mk_local (k, v) in
  lstate t x pr -> Forall (fun y => ld_deleted y = false) (pr ++ [y]) -> NoDup (map ld_id (pr ++ [y])) -> Forall local_fits (pr ++ [y]) ->
  replay_local c limit hook k (Some v) x = (r, x') -> fin47 (cxf x') ->
  match r with Ok _ => lstate t x' (pr ++ [y]) | Err e => allowed e \/ hooked e end.
Proof.
  intros y (done & Ho & Hp & Hd) Hl Hn Hf H F. unfold replay_local in H. destruct (hook true _) as [u|e] eqn:Hh; [|injection H as <- <-; right; eexists _, _; exact Hh].
  unfold spool_local, spooled in H. set (x1 := Context _ _ _ _) in H. change (LocalDoc k v false) with y in x1.
  assert (S1 : lstate t x1 (pr ++ [y])). { exists done. split; [exact (@holds_db h0 x x1 _ eq_refl Ho)|]. split; [cbn [x1 cx_locals]; rewrite app_assoc, Hp; reflexivity|exact Hd]. }
  destruct (limit <? cx_size x1).
  - pose proof (locals_flush S1 Hl Hn Hf H F) as R. destruct r as [u'|e]; [|now left]. destruct R as (R1 & R2 & R3). exists (pr ++ [y]). split; [exact R1|]. rewrite R2, app_nil_r. auto.
  - injection H as <- <-. exact S1.
Qed.
Lemma locals_scan t l : forall x pr r x', lstate t x pr -> Forall (fun y => ld_deleted y = false) (pr ++ map mk_local l) -> NoDup (map ld_id (pr ++ map mk_local l)) -> Forall local_fits (pr ++ map mk_local l) ->
  feed (fun y => replay_local c limit hook (fst y) (Some (snd y))) l x = (r, x') -> fin47 (cxf x') ->
  match r with Ok _ => lstate t x' (pr ++ map mk_local l) | Err e => allowed e \/ hooked e end.
Proof.
  induction l as [|[k v] l IH]; intros x pr r x' S Hl Hn Hf H F; cbn [feed map] in *.
  - injection H as <- <-. rewrite app_nil_r in *. exact S.
  - destruct (replay_local c limit hook (fst (k, v)) (Some (snd (k, v))) x) as [r1 x1] eqn:Hx. cbn [fst snd] in Hx.
    replace (pr ++ mk_local (k, v) :: map mk_local l) with ((pr ++ [mk_local (k, v)]) ++ map mk_local l) in * by (rewrite <- app_assoc; reflexivity).
    assert (F1 : fin47 (cxf x1)).
    { destruct r1 as [u|e]; [|injection H as <- <-; exact F]. assert (W : exists log, writes (cxf x1) log (cxf x')).
      { eapply feed_writes; [|exact H]. intros a y r2 y' Hy. exact (replay_local_writes Hy). }
      destruct W as [log W]. assert (G1 : good (cxf x1)). { destruct (replay_local_writes Hx) as [l1 W1]. destruct S as (done & Ho & _). exact (le_good (writes_le EO (ho_good Ho) W1)). }
      exact (fin47_le (writes_le EO G1 W) F). }
    assert (R : match r1 with Ok _ => lstate t x1 (pr ++ [mk_local (k, v)]) | Err e => allowed e \/ hooked e end).
    { apply (@local_step t x pr k v r1 x1 S); auto.
      - apply Forall_app in Hl. apply Hl.
      - rewrite map_app in Hn. eapply nodup_app_l; exact Hn.
      - apply Forall_app in Hf. apply Hf. }
    destruct r1 as [u|e]; [|injection H as <- <-; exact R]. exact (IH _ _ _ _ R Hl Hn Hf H F).
Qed.

(** ** Documents *)

Definition stored_bytes (b : option content) : option bytes :=
  match b with None => None | Some (Raw b) => Some b | Some (Packed b) => compress b end.
Lemma stored_bytes_as b z : stored_as b z <-> stored_bytes (Some b) = Some z.
Proof. destruct b; cbn; split; congruence. Qed.
(** What is submitted for a document of the source. *)
Definition subm (p : doc_info * revision) : submit := Submit (stored_bytes (rv_body (snd p))) (fst p) 0.
Definition sid (x : submit) : bytes := di_id (sb_info x).
Definition sseq (x : submit) : N := di_db_seq (sb_info x).

Lemma new_revs_seq l : forall a b, new_revs O a l = new_revs O b l.
Proof. induction l as [|x l IH]; intros a b; [reflexivity|]. cbn [new_revs so_as_is]. f_equal. apply IH. Qed.
Lemma new_revs_app l l' a : new_revs O a (l ++ l') = new_revs O a l ++ new_revs O a l'.
Proof. induction l as [|x l IH]; [reflexivity|]. cbn [new_revs app so_as_is]. f_equal. exact IH. Qed.
Lemma save_app l l' t : save O l' (save O l t) = save O (l ++ l') t.
Proof.
  unfold save. cbn [v_docs v_locals v_seq]. rewrite new_revs_app, fold_left_app, (@new_revs_seq l' _ (v_seq t)). f_equal.
  unfold last_seq. cbn [so_as_is]. now rewrite fold_left_app.
Qed.
Lemma in_puts ns : forall l r, In r (fold_left (fun d x => SpecDb.put x d) ns l) -> In r ns \/ In r l.
Proof.
  induction ns as [|x ns IH]; intros l r H; [now right|]. cbn [fold_left] in H. apply IH in H. destruct H as [H|H]; [now left; right|].
  change (SpecDb.put x l) with (gput rv_id x l) in H. apply gput_in in H. destruct H as [->|[H _]]; [now left; left|now right].
Qed.
Lemma last_seq_le l : forall s n, s < n -> Forall (fun x => sseq x < n) l -> last_seq O s l < n.
Proof.
  induction l as [|x l IH]; intros s n Hs Hf; [exact Hs|]. rewrite last_seq_cons. cbn [so_as_is]. inv Hf. apply IH; [|assumption]. unfold sseq in *. lia.
Qed.

Record addable (since : N) (l : list submit) : Prop := {
  ad_fits : Forall (fits O) l;
  ad_ids : NoDup (map sid l);
  ad_seqs : NoDup (map sseq l);
  ad_new : Forall (fun x => since < sseq x /\ sseq x < 2^48) l
}.
Record below (since : N) (t : contents) : Prop := {
  be_seq : v_seq t <= since;
  be_max : v_seq t < 2^48;
  be_docs : Forall (fun r => rv_seq r <= v_seq t) (v_docs t)
}.
Lemma nodup_app_disj A (a b : list A) x : NoDup (a ++ b) -> In x a -> In x b -> False.
Proof. induction a as [|y a IH]; cbn; [auto|]. intros H [->|Ha] Hb; inv H; [apply H2, in_or_app; now right|auto]. Qed.
Lemma pending_ok since t done pend : below since t -> addable since (done ++ pend) -> batch_ok O pend (save O done t).
Proof.
  intros [B1 B2 B3] [A1 A2 A3 A4]. apply Forall_app in A1. apply Forall_app in A4. rewrite map_app in A2, A3. constructor.
  - apply A1.
  - exact (nodup_app_r A2).
  - cbn [save v_seq]. apply last_seq_le; [apply last_seq_le; [exact B2|]|]; [destruct A4 as [A4 _]|destruct A4 as [_ A4]]; revert A4; apply Forall_impl; tauto.
  - intros _. split; [exact (nodup_app_r A3)|]. intros r x Hr Hx He. exfalso. cbn [save v_docs] in Hr. apply in_puts in Hr. destruct Hr as [Hr|Hr].
    + apply (in_map rv_seq) in Hr. rewrite (@new_revs_given O done eq_refl) in Hr. apply (nodup_app_disj A3 Hr). rewrite He. exact (in_map sseq _ _ Hx).
    + rewrite Forall_forall in B3. specialize (B3 _ Hr). destruct A4 as [_ A4]. rewrite Forall_forall in A4. specialize (A4 _ Hx). unfold sseq in A4. lia.
Qed.

Variable src : db.
Hypothesis Gs : good (dbf src).
Hypothesis Ds : dropped src = false.

Definition dstate (t : contents) (x : context) (pr : list submit) : Prop :=
  exists done, holds h0 x (save O done t) /\ done ++ cx_docs x = pr /\ cx_locals x = [].
Lemma docs_flush since t x pr r x' : dstate t x pr -> below since t -> addable since pr -> flush c x = (r, x') -> fin47 (cxf x') ->
  match r with Ok _ => holds h0 x' (save O pr t) /\ cx_locals x' = [] /\ cx_docs x' = [] | Err e => allowed e end.
Proof.
  intros (done & Ho & <- & Hd) B A H F. pose proof (@flush_docs h0 x (save O done t) r x' Ho Hd (pending_ok B A) H F) as R. rewrite save_app in R. exact R.
Qed.
Lemma doc_step since t x pr p r x' : rep (dbf src) (fst p) (snd p) -> dstate t x pr -> below since t -> addable since (pr ++ [subm p]) ->
  replay_doc c limit hook src (fst p) x = (r, x') -> fin47 (cxf x') ->
  match r with Ok _ => dstate t x' (pr ++ [subm p]) /\ (rv_body (snd p) = None -> rv_deleted (snd p) = true) | Err e => allowed e \/ hooked e \/ e = E_DOC_NOT_FOUND /\ rv_body (snd p) = None /\ rv_deleted (snd p) = false end.
Proof.
  intros Rp (done & Ho & Hp & Hd) B A H F. unfold replay_doc in H. destruct (hook false (fst p)) as [u|e] eqn:Hh; [|injection H as <- <-; right; left; eexists _, _; exact Hh].
  assert (Step : forall b r x', b = stored_bytes (rv_body (snd p)) -> spool_doc c limit (fst p) b x = (r, x') -> fin47 (cxf x') ->
    match r with Ok _ => dstate t x' (pr ++ [subm p]) | Err e => allowed e end).
  { clear H F r x'. intros b r x' -> H F. unfold spool_doc, spooled in H. set (x1 := Context _ _ _ _) in H. change (Submit _ (fst p) 0) with (subm p) in x1.
    assert (S1 : dstate t x1 (pr ++ [subm p])). { exists done. split; [exact (@holds_db h0 x x1 _ eq_refl Ho)|]. split; [cbn [x1 cx_docs]; rewrite app_assoc, Hp; reflexivity|exact Hd]. }
    destruct (limit <? cx_size x1).
    - pose proof (docs_flush S1 B A H F) as R. destruct r as [u'|e]; [|exact R]. destruct R as (R1 & R2 & R3). exists (pr ++ [subm p]). split; [exact R1|]. rewrite R3, app_nil_r. auto.
    - injection H as <- <-. exact S1. }
  pose proof (@open_ok E EO src Gs Ds (fst p) (snd p) false Rp) as Ho1. unfold body_read in Ho1. destruct Rp as [Ab _].
  destruct (rv_body (snd p)) as [b|] eqn:Hb.
  - cbn [andb] in Ho1. destruct Ho1 as (z & Hz & Ho1). rewrite Ho1 in H. apply stored_bytes_as in Hz. pose proof (Step (Some z) r x' (eq_sym Hz) H F) as R.
    destruct r as [u'|e]; [|now left]. split; [exact R|discriminate].
  - rewrite Ho1 in H. rewrite andb_true_r in H. destruct (di_deleted (fst p)) eqn:Hdel.
    + pose proof (Step None r x' eq_refl H F) as R. destruct r as [u'|e]; [|now left]. split; [exact R|]. intros _. now rewrite <- (ab_deleted Ab).
    + injection H as <- <-. right. right. rewrite <- (ab_deleted Ab). auto.
Qed.
Lemma docs_scan since t l : forall x pr r x', Forall (fun p => rep (dbf src) (fst p) (snd p)) l -> dstate t x pr -> below since t -> addable since (pr ++ map subm l) ->
  feed (replay_doc c limit hook src) (map fst l) x = (r, x') -> fin47 (cxf x') ->
  match r with
  | Ok _ => dstate t x' (pr ++ map subm l) /\ Forall (fun p => rv_body (snd p) = None -> rv_deleted (snd p) = true) l
  | Err e => allowed e \/ hooked e \/ e = E_DOC_NOT_FOUND /\ exists p, In p l /\ rv_body (snd p) = None /\ rv_deleted (snd p) = false end.
Proof.
  induction l as [|p l IH]; intros x pr r x' Rp S B A H F; cbn [feed map] in *.
  - injection H as <- <-. rewrite app_nil_r in *. split; [exact S|constructor].
  - inversion Rp as [|? ? Rp1 Rp2]; subst. destruct (replay_doc c limit hook src (fst p) x) as [r1 x1] eqn:Hx.
    replace (pr ++ subm p :: map subm l) with ((pr ++ [subm p]) ++ map subm l) in * by (rewrite <- app_assoc; reflexivity).
    assert (F1 : fin47 (cxf x1)).
    { destruct r1 as [u|e]; [|injection H as <- <-; exact F]. assert (W : exists log, writes (cxf x1) log (cxf x')).
      { eapply feed_writes; [|exact H]. intros a y r2 y' Hy. exact (replay_doc_writes Hy). }
      destruct W as [log W]. assert (G1 : good (cxf x1)). { destruct (replay_doc_writes Hx) as [l1 W1]. destruct S as (done & Ho & _). exact (le_good (writes_le EO (ho_good Ho) W1)). }
      exact (fin47_le (writes_le EO G1 W) F). }
    assert (A' : addable since (pr ++ [subm p])).
    { destruct A as [A1 A2 A3 A4]. apply Forall_app in A1. apply Forall_app in A4. rewrite map_app in A2, A3. constructor; try (now apply A1); try (now apply A4); eapply nodup_app_l; eassumption. }
    pose proof (@doc_step since t x pr p r1 x1 Rp1 S B A' Hx F1) as R.
    destruct r1 as [u|e].
    + destruct R as [R1 R2]. pose proof (IH _ _ _ _ Rp2 R1 B A H F) as R. destruct r as [u'|e].
      * destruct R as [R3 R4]. split; [exact R3|constructor; assumption].
      * destruct R as [R|[R|(R3 & q & R4 & R5)]]; [auto|auto|]. right. right. split; [exact R3|]. exists q. split; [now right|exact R5].
    + injection H as <- <-. destruct R as [R|[R|(R3 & R4)]]; [auto|auto|]. right. right. split; [exact R3|]. exists p. split; [now left|exact R4].
Qed.

(** ** The whole scan *)

Variable v1 : contents.
Variable ps1 : list (doc_info * revision).
Hypothesis S1 : stored (dbf src) (dbh src) v1 ps1.

Lemma scan_locals_eq U (cb : bytes -> option bytes -> U -> res unit * U) u :
  scan_locals cb src u = feed (fun y => cb (fst y) (Some (snd y))) (by_key (v_locals v1)) u.
Proof.
  unfold scan_locals. rewrite Ds. pose proof (sd_loc S1) as T. destruct (h_local (dbh src)) as [p|]; [|cbn in T; now rewrite T].
  set (rq := LReq ebin_cmp cb None false).
  etransitivity; [apply (@btree_lookup_range U rq eq_refl eq_refl (ord_lookup ord_ebin) E EO _ kv_ok loc_redP (fun _ H => H) Hloc_red (dbf src) p (by_key (v_locals v1)) [] [] u Gs T)|].
  - apply sorted_lookup_ebin, by_key_sorted. exact (sd_lids S1).
  - cbn. lia.
  - unfold fc. assert (Hf : filter (inrange rq [] []) (by_key (v_locals v1)) = by_key (v_locals v1)).
    { generalize (by_key (v_locals v1)). intros l0. induction l0 as [|[k w] l0 IH]; [reflexivity|]. cbn [filter]. unfold inrange at 1. cbn [fst rq l_cmp]. rewrite lookup_ebin.
      assert (Hk : ge (ebin_cmp k []) = true) by (destruct k; reflexivity). rewrite Hk. cbn [andb]. f_equal. exact IH. }
    rewrite Hf. generalize (by_key (v_locals v1)). intros l. revert u. induction l as [|[k w] l IH]; intros u; [reflexivity|]. cbn [map found run_calls feed fst snd rq l_fetch].
    destruct (cb k (Some w) u) as [[[]|e] u']; [apply IH|reflexivity].
Qed.
Lemma locals_fit : Forall local_fits (map mk_local (by_key (v_locals v1))).
Proof.
  pose proof (sd_loc S1) as T. destruct (h_local (dbh src)) as [p|]; [|cbn in T; rewrite T; constructor]. destruct T as (dd & p' & T & _).
  pose proof (tree_kvP T) as Hk. rewrite Forall_forall in *. intros x Hx. apply in_map_iff in Hx. destruct Hx as (y & <- & Hy). exact (Hk y Hy).
Qed.

Variable since : N.
Hypothesis Hsince : since + 1 < 2^48.
Hypothesis Hst : Forall storable (v_docs v1).

(** The documents replayed, in the order of their sequence numbers. *)
Definition news : list (doc_info * revision) := filter (fun p => since <? di_db_seq (fst p)) (ordered ps1).
Lemma news_fst : map fst news = filter (fun i => (since + 1 <=? di_db_seq i) && chosen (EnumOpts false false false) i) (by_seq (map fst ps1)).
Proof.
  rewrite <- ordered_fst. unfold news. generalize (ordered ps1). intros l. induction l as [|p l IH]; [reflexivity|]. cbn [map filter]. rewrite chosen_all, andb_true_r.
  replace (since <? di_db_seq (fst p)) with (since + 1 <=? di_db_seq (fst p)); [|destruct (N.leb_spec (since + 1) (di_db_seq (fst p))), (N.ltb_spec since (di_db_seq (fst p))); lia].
  destruct (_ <=? _); cbn [map]; rewrite IH; reflexivity.
Qed.
Lemma news_in p : In p news -> In p ps1 /\ since < di_db_seq (fst p).
Proof. intros H. apply filter_In in H. destruct H as [H1 H2]. apply N.ltb_lt in H2. split; [|exact H2]. eapply Permutation_in; [apply Permutation_sym, ordered_perm|exact H1]. Qed.
Lemma news_perm : Permutation (newer since v1) (map snd news).
Proof.
  unfold newer. rewrite <- (sd_docs S1). transitivity (map snd (filter (fun p : doc_info * revision => since <? di_db_seq (fst p)) ps1)).
  - pose proof (sd_rep S1) as Hr. clear - Hr. induction Hr as [|p l [Ab _] Hr IH]; [constructor|]. cbn [map filter]. rewrite (ab_seq Ab). destruct (_ <? _); cbn [map]; [now constructor|exact IH].
  - apply Permutation_map, perm_filter, ordered_perm.
Qed.
Lemma news_addable : addable since (map subm news).
Proof.
  assert (N1 : NoDup (map pid news)).
  { unfold news. apply nodup_filter. eapply Permutation_NoDup; [apply Permutation_map, ordered_perm|exact (sd_ids S1)]. }
  assert (N2 : NoDup (map (fun p => di_db_seq (fst p)) news)).
  { unfold news. apply nodup_filter. eapply Permutation_NoDup; [apply Permutation_map, ordered_perm|]. rewrite <- map_map. exact (sd_seqs S1). }
  constructor.
  - apply Forall_forall. intros x Hx. apply in_map_iff in Hx. destruct Hx as (p & <- & Hp). apply news_in in Hp. destruct Hp as [Hp _].
    assert (Hd : dok (fst p)) by (apply (in_ok S1); now apply in_map). destruct Hd as [(K1 & K2 & K3 & K4 & K5 & K6) K7].
    unfold fits. cbn [subm sb_info]. repeat (split; [assumption|]). split; [auto|].
    unfold new_rev. cbn [subm sb_info sb_body rv_body so_compress andb].
    assert (Hs : storable (snd p)). { rewrite Forall_forall in Hst. apply Hst. rewrite <- (sd_docs S1). now apply in_map. }
    unfold storable in Hs. destruct (rv_body (snd p)) as [b|]; [|exact Logic.I].
    destruct (stored_bytes (Some b)) as [z|] eqn:Hz; [|exact Logic.I]. intros z' Hz'. cbn in Hz'. subst z'. apply Hs. now apply stored_bytes_as.
  - rewrite map_map. exact N1.
  - rewrite map_map. exact N2.
  - apply Forall_forall. intros x Hx. apply in_map_iff in Hx. destruct Hx as (p & <- & Hp). apply news_in in Hp. destruct Hp as [Hp Hs]. split; [exact Hs|].
    assert (Hd : dok (fst p)) by (apply (in_ok S1); now apply in_map). exact (dok_seq Hd).
Qed.

(** ** The contents afterwards *)

Lemma stored_convert f h w ps docs locals (g : doc_info * revision -> revision) : stored f h w ps -> (forall p, In p ps -> rep f (fst p) (g p)) ->
  Permutation docs (map g ps) -> NoDup (map fst locals) -> (forall x, In x (v_locals w) <-> In x locals) ->
  exists ps', stored f h (Contents docs locals (v_seq w)) ps'.
Proof.
  intros S Hg P Hn Hl. set (qs := map (fun p => (fst p, g p)) ps).
  assert (Hf : map fst qs = map fst ps) by (unfold qs; rewrite map_map; reflexivity).
  assert (Hs : map snd qs = map g ps) by (unfold qs; rewrite map_map; reflexivity).
  assert (S0 : stored f h (Contents (map g ps) locals (v_seq w)) qs).
  { constructor; cbn [v_docs v_locals v_seq]; rewrite ?Hf.
    - exact Hs.
    - apply Forall_forall. intros x Hx. unfold qs in Hx. apply in_map_iff in Hx. destruct Hx as (p & <- & Hp). exact (Hg p Hp).
    - exact (sd_ok S).
    - pose proof (sd_ids S) as H. unfold qs. rewrite map_map. exact H.
    - exact (sd_seqs S).
    - intros p Hp. unfold qs in Hp. apply in_map_iff in Hp. destruct Hp as (p0 & <- & Hp). exact (sd_max S _ Hp).
    - exact (sd_seq S).
    - exact (sd_bound S).
    - exact (sd_id S).
    - exact (sd_sq S).
    - exact Hn.
    - rewrite <- (@sorted_ext ebin_cmp ord_ebin (by_key (v_locals w)) (by_key locals)); [exact (sd_loc S)| | |].
      + apply by_key_sorted. exact (sd_lids S).
      + now apply by_key_sorted.
      + intros x. rewrite !in_by_key. apply Hl. }
  rewrite <- Hs in P. apply Permutation_map_inv in P. destruct P as (ps' & -> & P2). exists ps'. exact (stored_perm P2 S0).
Qed.

Definition nr (p : doc_info * revision) : revision := new_rev O (subm p) (di_db_seq (fst p)).
Lemma new_revs_nr l a : new_revs O a (map subm l) = map nr l.
Proof. induction l as [|p l IH]; [reflexivity|]. cbn [map new_revs so_as_is]. f_equal. exact IH. Qed.
Lemma rep_back f i p : rep (dbf src) (fst p) (snd p) -> (rv_body (snd p) = None -> rv_deleted (snd p) = true) -> rep f i (nr p) -> rep f i (snd p).
Proof.
  intros [Ab Rb] Hd [[N1 N2 N3 N4 N5 N6] Nb]. unfold nr, new_rev in *. cbn [subm sb_info sb_body rv_id rv_seq rv_rev_seq rv_rev_meta rv_deleted rv_content_meta rv_body so_compress andb] in *.
  destruct Ab as [A1 A2 A3 A4 A5 A6]. split.
  - constructor; try congruence. destruct (rv_body (snd p)) as [b|].
    + destruct Rb as (_ & z & _ & Hz & _). apply stored_bytes_as in Hz. rewrite Hz in N5. congruence.
    + cbn in N5. rewrite N5. symmetry. now apply Hd.
  - destruct (rv_body (snd p)) as [b|]; [|exact Nb].
    destruct Rb as (_ & z & _ & Hz & _). pose proof Hz as Hz'. apply stored_bytes_as in Hz. rewrite Hz in Nb. destruct Nb as (Nb & z1 & Z1 & Z2 & Z3). split; [exact Nb|].
    cbn in Z2. subst z1. eauto.
Qed.
Lemma nodup_app A (a b : list A) : NoDup a -> NoDup b -> (forall x, In x a -> In x b -> False) -> NoDup (a ++ b).
Proof.
  intros Ha Hb Hd. induction Ha as [|x a Hx Ha IH]; [exact Hb|]. cbn [app]. constructor.
  - intros H. apply in_app_or in H. destruct H as [H|H]; [now apply Hx|]. apply (Hd x); [now left|exact H].
  - apply IH. intros y Hy. apply Hd. now right.
Qed.
Lemma foldmax_perm l l' : Permutation l l' -> forall s, fold_left N.max l s = fold_left N.max l' s.
Proof.
  intros H. induction H as [|x l l' H IH|x y l|l l' l'' H1 IH1 H2 IH2]; intros s; cbn [fold_left]; auto.
  - f_equal. lia.
  - now rewrite IH1.
Qed.
Lemma last_seq_fold l : forall s, last_seq O s l = fold_left N.max (map sseq l) s.
Proof. induction l as [|x l IH]; intros s; [reflexivity|]. rewrite last_seq_cons. cbn [so_as_is map fold_left]. apply IH. Qed.
Lemma nodup_ids (l : list revision) : NoDup (map rv_id l) -> NoDup l.
Proof. apply NoDup_map_inv. Qed.

Theorem caught_up_stored f h t ps : NoDup (map rv_id (v_docs t)) -> NoDup (map fst (v_locals t)) ->
  stored f h (save O (map subm news) (save_locals (map mk_local (by_key (v_locals v1))) t)) ps ->
  Forall (fun p => rv_body (snd p) = None -> rv_deleted (snd p) = true) news ->
  exists ps', stored f h (caught_up since v1 t) ps'.
Proof.
  intros Ht Htl S Hnd. set (w := save _ _ _) in *.
  assert (Hrep : forall q, In q news -> rep (dbf src) (fst q) (snd q)).
  { intros q Hq. apply news_in in Hq. pose proof (sd_rep S1) as H. rewrite Forall_forall in H. apply H, Hq. }
  assert (Hid : forall q, In q news -> rv_id (nr q) = rv_id (snd q)) by (intros q Hq; exact (ab_id (proj1 (Hrep q Hq)))).
  assert (Nn : NoDup (map rv_id (map nr news))).
  { pose proof (ad_ids news_addable) as H. rewrite map_map in *. exact H. }
  assert (Nn' : NoDup (map rv_id (map snd news))).
  { rewrite map_map in *. erewrite map_ext_in; [exact Nn|]. intros q Hq. cbn. symmetry. now apply Hid. }
  assert (Huniq : forall q q', In q news -> In q' news -> rv_id (snd q) = rv_id (snd q') -> q = q').
  { intros q q' Hq Hq' He. rewrite map_map in Nn'. exact (@nodup_map_eq _ _ (fun x => rv_id (snd x)) _ _ _ Nn' Hq Hq' He). }
  assert (Hw : forall r, In r (v_docs w) <-> In r (map nr news) \/ (In r (v_docs t) /\ forall x, In x (map nr news) -> rv_id x <> rv_id r)).
  { intros r. unfold w. cbn [save v_docs save_locals]. change (fold_left (fun d r => SpecDb.put r d) ?a ?b) with (gputs rv_id a b). rewrite new_revs_nr. now apply gputs_in. }
  assert (Hps : forall p, In p ps -> In (snd p) (v_docs w)) by (intros p Hp; rewrite <- (sd_docs S); now apply in_map).
  set (src_of := fun r' => find (fun q : doc_info * revision => same (rv_id (snd q)) (rv_id r')) news).
  assert (Hfind : forall r' q, src_of r' = Some q -> In q news /\ rv_id (snd q) = rv_id r').
  { intros r' q H. apply find_some in H. destruct H as [H1 H2]. apply same_true in H2. auto. }
  assert (Hfind0 : forall r', src_of r' = None -> forall q, In q news -> rv_id (snd q) <> rv_id r').
  { intros r' H q Hq He. pose proof (List.find_none _ _ H q Hq) as H1. cbn in H1. apply same_false in H1. now apply H1. }
  set (g := fun p : doc_info * revision => match src_of (snd p) with Some q => snd q | None => snd p end).
  assert (Hcase : forall r', In r' (v_docs w) -> forall q, src_of r' = Some q -> r' = nr q).
  { intros r' Hr q Hq. destruct (Hfind _ _ Hq) as [Q1 Q2]. apply Hw in Hr. destruct Hr as [Hr|[_ Hr]].
    - apply in_map_iff in Hr. destruct Hr as (q2 & <- & Q3). rewrite (Hid _ Q3) in Q2. now rewrite (Huniq _ _ Q1 Q3 Q2).
    - exfalso. apply (Hr (nr q)); [now apply in_map|]. now rewrite (Hid _ Q1). }
  assert (Hnew : forall r, In r (newer since v1) <-> exists q, In q news /\ snd q = r).
  { intros r. split.
    - intros H. apply (Permutation_in _ news_perm) in H. apply in_map_iff in H. destruct H as (q & H1 & H2). eauto.
    - intros (q & H1 & <-). apply (Permutation_in _ (Permutation_sym news_perm)). now apply in_map. }
  assert (Hgid : forall p, In p ps -> rv_id (g p) = rv_id (snd p)).
  { intros p Hp. unfold g. destruct (src_of (snd p)) as [q|] eqn:Hq; [|reflexivity]. now destruct (Hfind _ _ Hq). }
  assert (Nw : NoDup (map rv_id (v_docs w))).
  { unfold w. cbn [save v_docs save_locals]. change (fold_left (fun d r => SpecDb.put r d) ?a ?b) with (gputs rv_id a b). now apply gputs_nodup. }
  assert (Nnew : NoDup (map rv_id (newer since v1))).
  { eapply Permutation_NoDup; [apply Permutation_sym, Permutation_map, news_perm|exact Nn']. }
  unfold caught_up. set (old := filter _ (v_docs t)). set (lold := filter _ (v_locals t)).
  replace (fold_left N.max (map rv_seq (newer since v1)) (v_seq t)) with (v_seq w).
  2:{ unfold w. cbn [save v_seq save_locals]. rewrite last_seq_fold. symmetry. apply foldmax_perm. rewrite (Permutation_map rv_seq news_perm). rewrite !map_map.
      erewrite map_ext_in; [reflexivity|]. intros q Hq. symmetry. exact (ab_seq (proj1 (Hrep q Hq))). }
  assert (Hold : forall r, In r old <-> In r (v_docs t) /\ forall q, In q news -> rv_id (snd q) <> rv_id r).
  { intros r. unfold old. rewrite filter_In, negb_true_iff. split; intros [H1 H2]; (split; [exact H1|]).
    - intros q Hq He. assert (Hx : existsb (fun n => same (rv_id n) (rv_id r)) (newer since v1) = true); [|congruence].
      apply existsb_exists. exists (snd q). split; [apply Hnew; eauto|now apply same_true].
    - destruct (existsb _ _) eqn:Hx; [|reflexivity]. exfalso. apply existsb_exists in Hx. destruct Hx as (n & Hn & Hs). apply same_true in Hs. apply Hnew in Hn. destruct Hn as (q & Hq & <-). exact (H2 q Hq Hs). }
  apply (@stored_convert f h w ps _ _ g S).
  - intros p Hp. pose proof (sd_rep S) as H. rewrite Forall_forall in H. specialize (H p Hp). unfold g. destruct (src_of (snd p)) as [q|] eqn:Hq; [|exact H].
    destruct (Hfind _ _ Hq) as [Q1 _]. rewrite (Hcase _ (Hps p Hp) q Hq) in H. apply rep_back; [now apply Hrep| |exact H]. rewrite Forall_forall in Hnd. now apply Hnd.
  - apply NoDup_Permutation.
    + apply nodup_ids. rewrite map_app. apply nodup_app; [exact Nnew|unfold old; now apply nodup_filter|].
      intros x Hx Hy. apply in_map_iff in Hx, Hy. destruct Hx as (r & <- & Hr). destruct Hy as (r2 & He & Hr2). apply Hold in Hr2. apply Hnew in Hr. destruct Hr as (q & Hq & <-). exact (proj2 Hr2 q Hq (eq_sym He)).
    + apply nodup_ids. rewrite map_map. erewrite map_ext_in; [|exact Hgid]. rewrite <- map_map, (sd_docs S). exact Nw.
    + intros r. rewrite in_app_iff, in_map_iff. split.
      * intros [H|H].
        -- apply Hnew in H. destruct H as (q & Hq & <-). assert (Hn : In (nr q) (v_docs w)) by (apply Hw; left; now apply in_map).
           rewrite <- (sd_docs S) in Hn. apply in_map_iff in Hn. destruct Hn as (p & Hp1 & Hp2). exists p. split; [|exact Hp2]. unfold g. rewrite Hp1.
           destruct (src_of (nr q)) as [q'|] eqn:Hq'.
           ++ destruct (Hfind _ _ Hq') as [Q1 Q2]. rewrite (Hid _ Hq) in Q2. now rewrite (Huniq _ _ Q1 Hq Q2).
           ++ exfalso. apply (Hfind0 _ Hq' q Hq). now rewrite (Hid _ Hq).
        -- apply Hold in H. destruct H as [H1 H2]. assert (Hn : In r (v_docs w)).
           { apply Hw. right. split; [exact H1|]. intros x Hx. apply in_map_iff in Hx. destruct Hx as (q & <- & Hq). rewrite (Hid _ Hq). now apply H2. }
           rewrite <- (sd_docs S) in Hn. apply in_map_iff in Hn. destruct Hn as (p & Hp1 & Hp2). exists p. split; [|exact Hp2]. unfold g. rewrite Hp1.
           destruct (src_of r) as [q'|] eqn:Hq'; [|reflexivity]. destruct (Hfind _ _ Hq') as [Q1 Q2]. exfalso. exact (H2 q' Q1 Q2).
      * intros (p & <- & Hp). unfold g. destruct (src_of (snd p)) as [q|] eqn:Hq.
        -- left. apply Hnew. exists q. split; [|reflexivity]. now destruct (Hfind _ _ Hq).
        -- right. apply Hold. pose proof (Hps p Hp) as Hd. apply Hw in Hd. destruct Hd as [Hd|[Hd Hd']].
           ++ exfalso. apply in_map_iff in Hd. destruct Hd as (q & Hq1 & Hq2). apply (Hfind0 _ Hq q Hq2). rewrite <- Hq1. symmetry. now apply Hid.
           ++ split; [exact Hd|]. now apply Hfind0.
  - rewrite map_app. apply nodup_app; [exact (sd_lids S1)|unfold lold; now apply nodup_filter|].
    intros x Hx Hy. apply in_map_iff in Hx, Hy. destruct Hx as (a & <- & Ha). destruct Hy as (b & He & Hb). unfold lold in Hb. apply filter_In in Hb. destruct Hb as [_ Hb].
    rewrite negb_true_iff in Hb. assert (Hx : existsb (fun y : kv => same (fst y) (fst b)) (v_locals v1) = true); [|congruence]. apply existsb_exists. exists a. split; [exact Ha|]. apply same_true. now rewrite He.
  - intros x. unfold w. cbn [save v_locals save_locals]. rewrite put_locals_in.
    2:{ rewrite map_map. cbn [mk_local ld_id]. eapply Permutation_NoDup; [apply Permutation_map, isort_perm|exact (sd_lids S1)]. }
    rewrite in_app_iff. unfold lold. rewrite filter_In, negb_true_iff. split.
    + intros [(y & Hy & _ & ->)|[Hx Hx']].
      * left. apply in_map_iff in Hy. destruct Hy as ([k b] & <- & Hy). rewrite in_by_key in Hy. exact Hy.
      * right. split; [exact Hx|]. destruct (existsb _ _) eqn:Hy; [|reflexivity]. exfalso. apply existsb_exists in Hy. destruct Hy as (y & Hy & Hs). apply same_true in Hs.
        apply (Hx' (mk_local y)); [apply in_map; now rewrite in_by_key|exact Hs].
    + intros [Hx|[Hx Hx']].
      * left. exists (mk_local x). split; [apply in_map; now rewrite in_by_key|]. split; [reflexivity|]. now destruct x.
      * right. split; [exact Hx|]. intros y Hy He. apply in_map_iff in Hy. destruct Hy as (z & <- & Hz). rewrite in_by_key in Hz.
        assert (Hy : existsb (fun y : kv => same (fst y) (fst x)) (v_locals v1) = true); [|congruence]. apply existsb_exists. exists z. split; [exact Hz|]. now apply same_true.
Qed.

(** ** Everything up to the commit *)

Definition stuck (e : err) : Prop := e = E_DOC_NOT_FOUND /\ exists r, In r (newer since v1) /\ rv_body r = None /\ rv_deleted r = false.

Lemma replay_changes_writes d r d' : replay_changes c limit hook src since d = (r, d') -> exists log, writes (dbf d) log (dbf d').
Proof.
  unfold replay_changes. rewrite scan_locals_eq. destruct (feed _ (by_key (v_locals v1)) _) as [r1 x1] eqn:H1.
  assert (W1 : exists log, writes (dbf d) log (cxf x1)).
  { change (dbf d) with (cxf (Context d [] [] 0)). eapply feed_writes; [|exact H1]. intros a x q x' H. exact (replay_local_writes H). }
  destruct W1 as [l1 W1]. destruct r1 as [u|e]; [|intros H; injection H as _ <-; eauto].
  destruct (flush c x1) as [r2 x2] eqn:H2. destruct (flush_writes H2) as [l2 W2]. pose proof (writes_trans W1 W2) as W12.
  destruct r2 as [u2|e]; [|intros H; injection H as _ <-; eauto].
  rewrite (@N.mod_small (since + 1)) by (etransitivity; [exact Hsince|reflexivity]).
  rewrite (@changes_since_eq E EO src v1 ps1 Gs Ds S1 _ (since + 1) (EnumOpts false false false) _ _ eq_refl Hsince). destruct (feed _ _ x2) as [r3 x3] eqn:H3.
  destruct (@feed_writes _ (replay_doc c limit hook src) (fun a x q x' H => replay_doc_writes H) _ _ _ _ H3) as [l3 W3]. pose proof (writes_trans W12 W3) as W13.
  destruct r3 as [u3|e]; [|intros H; injection H as _ <-; eauto].
  destruct (flush c x3) as [r4 x4] eqn:H4. destruct (flush_writes H4) as [l4 W4]. pose proof (writes_trans W13 W4) as W14.
  destruct r4 as [u4|e]; intros H; injection H as _ <-; eauto.
Qed.

Theorem replay_changes_ok d t pst r d' : good (dbf d) -> okf (dbf d) -> 1 <= fpos (dbf d) -> dropped d = false -> dbh d = h0 -> stored (dbf d) (dbh d) t pst -> v_seq t <= since ->
  replay_changes c limit hook src since d = (r, d') -> fin47 (dbf d') ->
  match r with
  | Ok _ => okf (dbf d') /\ dropped d' = false /\
      (exists a b l n, dbh d' = dbh (set_purge_seq (Db (dbf d) (set_seq_num (set_roots h0 a b l) n) false) (h_purge_seq (dbh src)))) /\
      exists ps', stored (dbf d') (dbh d') (caught_up since v1 t) ps'
  | Err e => allowed e \/ hooked e \/ stuck e
  end.
Proof.
  intros G Ok1 P D Hh S Hsq Hr F. unfold replay_changes in Hr. rewrite scan_locals_eq in Hr. destruct (feed _ (by_key (v_locals v1)) _) as [r1 x1] eqn:H1.
  set (x0 := Context d [] [] 0) in *.
  assert (L0 : lstate t x0 []).
  { exists []. split; [|split; reflexivity]. replace (save_locals [] t) with t by (destruct t; reflexivity). constructor; unfold cxf; cbn [cx_db x0]; auto; [eauto|].
    exists (h_by_id h0), (h_by_seq h0), (h_local h0), (h_update_seq h0). rewrite Hh. now destruct h0. }
  assert (Hl : Forall (fun y => ld_deleted y = false) (map mk_local (by_key (v_locals v1)))) by (apply Forall_forall; intros y Hy; apply in_map_iff in Hy; destruct Hy as (z & <- & _); reflexivity).
  assert (Hn : NoDup (map ld_id (map mk_local (by_key (v_locals v1))))).
  { rewrite map_map. cbn [mk_local ld_id]. eapply Permutation_NoDup; [apply Permutation_map, isort_perm|exact (sd_lids S1)]. }
  pose proof locals_fit as Hf.
  assert (G0 : good (cxf x0)) by exact G.
  assert (W1 : exists log, writes (cxf x0) log (cxf x1)) by (eapply feed_writes; [|exact H1]; intros a x q x' H; exact (replay_local_writes H)). destruct W1 as [l1 W1]. pose proof (le_good (writes_le EO G0 W1)) as G1.
  pose proof (@locals_scan t (by_key (v_locals v1)) x0 [] r1 x1 L0 Hl Hn Hf H1) as R1. cbn [app] in R1.
  destruct r1 as [u|e]; [|injection Hr as <- <-; destruct (R1 F); auto].
  destruct (flush c x1) as [r2 x2] eqn:H2. destruct (flush_writes H2) as [l2 W2]. pose proof (le_good (writes_le EO G1 W2)) as G2. pose proof (writes_le EO G1 W2) as L2.
  assert (R2 : fin47 (cxf x2) -> match r2 with Ok _ => holds h0 x2 (save_locals (map mk_local (by_key (v_locals v1))) t) /\ cx_locals x2 = [] /\ cx_docs x2 = [] | Err e => allowed e end).
  { intros F2. exact (locals_flush (R1 (fin47_le L2 F2)) Hl Hn Hf H2 F2). }
  destruct r2 as [u2|e]; [|injection Hr as <- <-; left; exact (R2 F)].
  rewrite (@N.mod_small (since + 1)) in Hr by (etransitivity; [exact Hsince|reflexivity]).
  rewrite (@changes_since_eq E EO src v1 ps1 Gs Ds S1 _ (since + 1) (EnumOpts false false false) _ _ eq_refl Hsince), <- news_fst in Hr.
  destruct (feed _ _ x2) as [r3 x3] eqn:H3.
  destruct (@feed_writes _ (replay_doc c limit hook src) (fun a x q x' H => replay_doc_writes H) _ _ _ _ H3) as [l3 W3]. pose proof (writes_le EO G2 W3) as L3. pose proof (le_good L3) as G3.
  set (t1 := save_locals (map mk_local (by_key (v_locals v1))) t) in *.
  assert (B : below since t1).
  { constructor; [exact Hsq|exact (sd_bound S)|]. apply Forall_forall. intros q Hq. cbn [t1 save_locals v_docs v_seq] in *. rewrite <- (sd_docs S) in Hq. apply in_map_iff in Hq. destruct Hq as (p & <- & Hp).
    pose proof (sd_rep S) as HR. rewrite Forall_forall in HR. rewrite <- (ab_seq (proj1 (HR p Hp))). exact (sd_max S _ Hp). }
  assert (Hrep : Forall (fun p => rep (dbf src) (fst p) (snd p)) news).
  { apply Forall_forall. intros q Hq. apply news_in in Hq. pose proof (sd_rep S1) as H. rewrite Forall_forall in H. apply H, Hq. }
  assert (R3 : fin47 (cxf x3) -> match r3 with
    | Ok _ => dstate t1 x3 (map subm news) /\ Forall (fun p => rv_body (snd p) = None -> rv_deleted (snd p) = true) news
    | Err e => allowed e \/ hooked e \/ stuck e end).
  { intros F3. destruct (R2 (fin47_le L3 F3)) as (Q1 & Q2 & Q3).
    assert (D0 : dstate t1 x2 []). { exists []. split; [|split; [now rewrite Q3|exact Q2]]. replace (save O [] t1) with t1 by reflexivity. exact Q1. }
    pose proof (@docs_scan since t1 news x2 [] r3 x3 Hrep D0 B news_addable H3 F3) as R. cbn [app] in R. destruct r3 as [u3|e]; [exact R|].
    destruct R as [R|[R|(R & p & R4 & R5)]]; [auto|auto|]. right. right. split; [exact R|]. exists (snd p). split; [|exact R5]. apply (Permutation_in _ (Permutation_sym news_perm)). now apply in_map. }
  destruct r3 as [u3|e]; [|injection Hr as <- <-; exact (R3 F)].
  destruct (flush c x3) as [r4 x4] eqn:H4. destruct (flush_writes H4) as [l4 W4]. pose proof (writes_le EO G3 W4) as L4.
  assert (F4 : fin47 (cxf x4)) by (destruct r4; injection Hr as _ <-; exact F). destruct (R3 (fin47_le L4 F4)) as [D3 Hnd].
  pose proof (docs_flush D3 B news_addable H4 F4) as R4. destruct r4 as [u4|e]; injection Hr as <- <-; [|now left].
  destruct R4 as (Q & _ & _). destruct (ho_stored Q) as [ps4 S4]. destruct (ho_hdr Q) as (a & b & l & n & HE).
  assert (Ht : NoDup (map rv_id (v_docs t))).
  { rewrite <- (sd_docs S), map_map. erewrite map_ext_in; [exact (sd_ids S)|]. intros p Hp. pose proof (sd_rep S) as HR. rewrite Forall_forall in HR. symmetry. exact (ab_id (proj1 (HR p Hp))). }
  destruct (@caught_up_stored _ _ t ps4 Ht (sd_lids S) S4 Hnd) as [ps' S'].
  split; [exact (ho_okf Q)|]. split; [exact (ho_drop Q)|]. split.
  - exists a, b, l, n. unfold set_purge_seq. cbn [dbh]. rewrite HE. reflexivity.
  - exists ps'. destruct S' as [Z1 Z2 Z3 Z4 Z5 Z6 Z7 Z8 Z9 Z10 Z11 Z12]. constructor; assumption.
Qed.
End Ok.
End WithEnv.
