(** Compaction in recovery mode of a damaged database. *)
From Verif Require Import Base Codec CodecFacts File FileFacts ChunkFacts SpecFile DataFacts Header HeaderFacts Btree TreeStore BtreeRead SpecMap MergeFacts ModifyFacts LookupFacts BulkFacts
  Db SortFacts ReduceFacts SpecDb DbFacts DbSave DbRead MergeSort MergeSortFacts TreeWriter TreeWriterFacts Compact SpecCompact CompactFacts SpecRecover RecoverFacts.
Local Open Scope N_scope.
Unset Strict Implicit.

(** ** Parts chosen by a test *)

Definition kv_eq (a b : kv) : {a = b} + {a <> b}.
Proof. decide equality; apply (list_eq_dec N.eq_dec). Defined.
Lemma part_filter (a b : list kv) : part a b -> NoDup b -> exists q : kv -> bool, a = filter q b.
Proof.
  intros H. induction H as [|x a b H IH|x a b H IH]; intros Hn.
  - exists (fun _ => true). reflexivity.
  - inversion Hn as [|? ? H1 H2]; subst. destruct (IH H2) as [q Hq]. exists (fun y => if kv_eq y x then false else q y). cbn [filter]. destruct (kv_eq x x) as [_|]; [|congruence].
    rewrite Hq. apply filter_ext_in. intros y Hy. destruct (kv_eq y x) as [->|]; [contradiction|reflexivity].
  - inversion Hn as [|? ? H1 H2]; subst. destruct (IH H2) as [q Hq]. exists (fun y => if kv_eq y x then true else q y). cbn [filter]. destruct (kv_eq x x) as [_|]; [|congruence].
    f_equal. rewrite Hq at 1. apply filter_ext_in. intros y Hy. destruct (kv_eq y x) as [->|]; [contradiction|reflexivity].
Qed.
Lemma filter_twice A (p q : A -> bool) l : filter p (filter q l) = filter (fun x => q x && p x) l.
Proof. induction l as [|x l IH]; [reflexivity|]. cbn [filter]. destruct (q x); cbn [filter andb]; [|exact IH]. destruct (p x); [f_equal|]; exact IH. Qed.
Lemma filter_all A (q : A -> bool) l : filter q l = l <-> forall x, In x l -> q x = true.
Proof.
  split.
  - intros H x Hx. rewrite <- H in Hx. apply filter_In in Hx. apply Hx.
  - induction l as [|x l IH]; intros H; [reflexivity|]. cbn [filter]. rewrite (H x (or_introl eq_refl)). f_equal. apply IH. intros y Hy. apply H. now right.
Qed.

Section WithEnv.
Context {E : Env} (EO : EnvOk E).
(** The compression library does not fail. *)
Hypothesis Hcomp : forall b, compress b <> None.

(** ** Writing without failures to a file that is not encrypted *)

Definition easy_file (f : file) : Prop := calm f /\ crcm f <> CRC_UNKNOWN /\ fkey f = None.
Definition no_error (e : err) : Prop := False.
Lemma easy_write f b r f' : easy_file f -> good f -> db_write_buf f b = (r, f') -> easy_file f' /\ exists x, r = Ok x.
Proof.
  intros (H1 & H2 & H3) G Hw. destruct (db_write_buf_spec EO _ G Hw) as [(X & _) _].
  assert (Hc : calm f' /\ exists x, r = Ok x).
  { clear X. revert Hw. unfold db_write_buf. rewrite H3. destruct (get_checksum (crcm f) b) as [c|e] eqn:Ec; [|destruct (crcm f); cbn in Ec; try discriminate; congruence].
    destruct (@raw_write_calm B_DATA f (fpos f) (be 4 (N.lor (lenN b mod 2^32) HIGH) ++ be 4 c) H1) as (e & f1 & Hw1 & C1).
    destruct (@raw_write_calm B_DATA f1 e b C1) as (e2 & f2 & Hw2 & C2). rewrite Hw1, Hw2. intros H; injection H as <- <-. split; [exact C2|eauto]. }
  destruct Hc as [Hc Hr]. split; [|exact Hr]. split; [exact Hc|]. rewrite (ex_crcm X), (ex_fkey X). auto.
Qed.
Lemma easy_okerr : okerr easy_file no_error.
Proof.
  constructor.
  - intros f b r f' H G Hw. exact (proj1 (easy_write H G Hw)).
  - intros f b e f' H G Hw _. unfold db_write_buf_compressed in Hw. destruct (compress b) as [z|] eqn:Ez; [|now destruct (Hcomp Ez)]. destruct (proj2 (easy_write H G Hw)) as [x Hx]. discriminate.
  - intros f b e f' H G _ Hw _. destruct (proj2 (easy_write H G Hw)) as [x Hx]. discriminate.
Qed.
Lemma easy_body f b e f' : easy_file f -> good f -> db_write_buf f b = (Err e, f') -> no_error e.
Proof. intros H G Hw. destruct (proj2 (easy_write H G Hw)) as [x Hx]. discriminate. Qed.
Notation copied := (copied easy_file).

(** ** The scan *)

Section Scan.
Variable c : cfg.
Variable o : copts.
Variable pol : policy.
Variable f g : file.
Variable enc : bool.
Hypothesis Gs : good f.
Hypothesis Sp : spoiled f g.
Hypothesis Hsrc : fkey f = None <-> enc = false.
Hypothesis Hre : co_filter o = None -> co_rewrite o = None.
(** The entries that are found, and the documents that are recovered. *)
Variable q : kv -> bool.
Variable sel : revision -> bool.
Notation rq := (seq_bulk c).
Definition body_ok (p : doc_info * revision) : bool := match rv_body (snd p) with None => true | Some _ => match pread_bin g (di_bp (fst p)) with Ok _ => true | Err _ => false end end.
Definition pol_sel : policy := Policy (fun r => sel r && po_keep pol r) (po_meta pol).

Lemma body_same i r : rep f i r -> rv_body r <> None -> body_ok (i, r) = true -> pread_bin g (di_bp i) = pread_bin f (di_bp i).
Proof.
  intros _ Hb Hk. unfold body_ok in Hk. cbn [fst snd] in Hk. destruct (rv_body r); [|congruence]. destruct (proj2 Sp (di_bp i)) as [H|(e & He)]; [exact H|]. rewrite He in Hk. discriminate.
Qed.
Lemma ask_same i r : docinfo_ok i -> rep f i r -> follows o pol r -> body_ok (i, r) = true ->
  ask o g (be 6 (di_db_seq i)) (assemble_seq_index_value i) (di_bp i) = ask o f (be 6 (di_db_seq i)) (assemble_seq_index_value i) (di_bp i).
Proof.
  intros Di Rp [Fk _] Hk. unfold ask. destruct (co_filter o) as [h|]; [|reflexivity]. rewrite by_seq_roundtrip by exact Di. cbn [bind].
  destruct (Fk i (proj1 Rp)) as [Hg|(Hg & ct & Hb & _)]; rewrite Hg; [destruct (po_keep pol r); reflexivity|]. rewrite (body_same Rp); [reflexivity|congruence|exact Hk].
Qed.
Lemma fetch_same i r u : dok i -> rep f i r -> follows o pol r -> body_ok (i, r) = true ->
  seq_fetch o rq g (fst (seq_entry i)) (Some (snd (seq_entry i))) u = seq_fetch o rq f (fst (seq_entry i)) (Some (snd (seq_entry i))) u.
Proof.
  intros Di Rp Fo Hk. cbn [seq_entry fst snd]. unfold seq_fetch. rewrite (seq_value_bp (proj1 Di)). assert (Hbp : di_bp i < 2^47) by apply Di.
  destruct (bp_field_flag i Hbp) as [_ Hclr]. rewrite Hclr. rewrite (ask_same (proj1 Di) Rp Fo Hk).
  destruct (lenN _ <? 18); [reflexivity|]. destruct (_ && _ && _); [reflexivity|]. destruct (ask _ _ _ _ _) as [[[[] item] info]|e]; [|reflexivity|reflexivity].
  destruct (N.eqb_spec (di_bp i) 0) as [|Hne]; [reflexivity|]. destruct item; [reflexivity|]. rewrite (body_same Rp); [reflexivity| |exact Hk].
  intros Hn. destruct Rp as [_ Rb]. rewrite Hn in Rb. destruct Rb as [Rb _]. contradiction.
Qed.
(** A document whose body cannot be read is passed over; the scan reports it unless the document is to be dropped. *)
Lemma fetch_lost i r u x u' : dok i -> rep f i r -> follows o pol r -> body_ok (i, r) = false ->
  seq_fetch o rq g (fst (seq_entry i)) (Some (snd (seq_entry i))) u = (x, u') -> u' = u /\ (x = Ok tt -> po_keep pol r = false).
Proof.
  intros Di Rp Fo Hk. cbn [seq_entry fst snd]. unfold seq_fetch. rewrite (seq_value_bp (proj1 Di)). assert (Hbp : di_bp i < 2^47) by apply Di.
  destruct (bp_field_flag i Hbp) as [Hdel Hclr]. rewrite Hclr, Hdel. unfold body_ok in Hk. cbn [fst snd] in Hk. destruct Rp as [Ab Rb]. destruct (rv_body r) as [ct|] eqn:Hb; [|discriminate].
  destruct Rb as (Hne & _). destruct (pread_bin g (di_bp i)) as [z|e] eqn:Hr; [discriminate|].
  destruct (lenN _ <? 18); [intros H; injection H as <- <-; split; [reflexivity|discriminate]|]. destruct Fo as [Fk _].
  destruct (di_deleted i && match co_filter o with None => true | Some _ => false end && co_drop o) eqn:Hdrop.
  { intros H; injection H as <- <-. split; [reflexivity|]. intros _. apply andb_prop in Hdrop. destruct Hdrop as [Hd1 Hd2]. apply andb_prop in Hd1. destruct Hd1 as [Hd0 Hd1].
    destruct (co_filter o); [discriminate|]. rewrite Fk, <- (ab_deleted Ab), Hd0, Hd2. reflexivity. }
  unfold ask. destruct (co_filter o) as [h|].
  - rewrite by_seq_roundtrip by exact (proj1 Di). cbn [bind]. destruct (Fk i Ab) as [Hg|(Hg & _)]; rewrite Hg.
    + destruct (po_keep pol r); cbn [verdict]; [|intros H; injection H as <- <-; auto]. destruct (N.eqb_spec (di_bp i) 0); [contradiction|]. try rewrite Hr.
      intros H; injection H as <- <-. split; [reflexivity|discriminate].
    + rewrite Hr. cbn [bind]. intros H; injection H as <- <-. split; [reflexivity|discriminate].
  - destruct (N.eqb_spec (di_bp i) 0); [contradiction|]. try rewrite Hr. intros H; injection H as <- <-. split; [reflexivity|discriminate].
Qed.

Lemma copied_skip u qs qs' p : copied c pol_sel enc u qs qs' -> sel (snd p) = false -> copied c pol_sel enc u (qs ++ [p]) qs'.
Proof.
  intros [C1 C0 C2 C3 C4 C5 C6 C7 C8 C9] Hs. constructor; auto. unfold outs. rewrite map_app, filter_app, map_app. cbn [map snd filter pol_sel po_keep].
  rewrite Hs. cbn [andb map]. rewrite app_nil_r. exact C4.
Qed.
Lemma follows_sel r : sel r = true -> follows o pol r -> follows o pol_sel r.
Proof. intros Hs [F1 F2]. constructor; cbn [pol_sel po_keep po_meta]; rewrite Hs; [exact F1|exact F2]. Qed.

Notation lrq := (LReq seq_cmp (seq_fetch o rq g) None true).
Lemma tol_writes l : forall u, exists log, writes (st_f (cs_st u)) log (st_f (cs_st (snd (run_tol lrq l u)))).
Proof.
  induction l as [|[k w] l IH]; intros u; cbn [run_tol l_fetch fst snd]; [exists []; constructor|].
  destruct (seq_fetch o rq g k (Some w) u) as [y u1] eqn:Hf. destruct (fetch_writes Hf) as [l1 W1]. destruct (IH u1) as [l2 W2]. destruct (run_tol lrq l u1) as [b u2]. cbn [snd] in *.
  exists (l2 ++ l1). eapply writes_trans; eassumption.
Qed.
Lemma tol_scan l : forall qs qs' u, copied c pol_sel enc u qs qs' -> Forall (fun p => dok (fst p) /\ rep f (fst p) (snd p) /\ follows o pol (snd p)) l ->
  (forall p, In p l -> sel (snd p) = q (seq_entry (fst p)) && body_ok p) ->
  fin47 (st_f (cs_st (snd (run_tol lrq (filter q (map seq_entry (map fst l))) u)))) ->
  exists qs1, copied c pol_sel enc (snd (run_tol lrq (filter q (map seq_entry (map fst l))) u)) (qs ++ l) qs1 /\
    (fst (run_tol lrq (filter q (map seq_entry (map fst l))) u) = true -> forall p, In p l -> q (seq_entry (fst p)) = true -> body_ok p = true \/ po_keep pol (snd p) = false) /\
    ((forall p, In p l -> body_ok p = true) -> fst (run_tol lrq (filter q (map seq_entry (map fst l))) u) = true).
Proof.
  induction l as [|p l IH]; intros qs qs' u C Hl Hsel F.
  - cbn [map filter run_tol fst snd] in *. exists qs'. rewrite app_nil_r. split; [exact C|]. split; [intros _ p []|reflexivity].
  - inversion Hl as [|? ? (Hd & Hr & Hf) Hl']; subst. pose proof (Hsel p (or_introl eq_refl)) as Hp. assert (Hsel' := fun p0 H0 => Hsel p0 (or_intror H0)).
    replace (qs ++ p :: l) with ((qs ++ [p]) ++ l) by (rewrite <- app_assoc; reflexivity). cbn [map filter] in F |- *.
    destruct (q (seq_entry (fst p))) eqn:Hq; cbn [andb] in Hp.
    2:{ destruct (IH (qs ++ [p]) qs' u (copied_skip C Hp) Hl' Hsel' F) as (qs1 & A1 & A2 & A3). exists qs1. split; [exact A1|]. split; [|intros Hall; apply A3; intros p0 Hp0; apply Hall; now right].
        intros Hb p0 [<-|Hp0] Hq0; [congruence|exact (A2 Hb p0 Hp0 Hq0)]. }
    cbn [run_tol l_fetch] in F |- *. destruct p as [i r]. cbn [fst snd] in *.
    destruct (seq_fetch o rq g (fst (seq_entry i)) (Some (snd (seq_entry i))) u) as [y u1] eqn:Hft.
    pose proof (tol_writes (filter q (map seq_entry (map fst l))) u1) as [l2 W2]. specialize (IH (qs ++ [(i, r)])).
    destruct (run_tol lrq (filter q (map seq_entry (map fst l))) u1) as [b u2] eqn:Ert. cbn [fst snd] in *.
    destruct (body_ok (i, r)) eqn:Hbk.
    + rewrite (fetch_same u Hd Hr Hf Hbk) in Hft. destruct (@fetch_ok E EO easy_file no_error easy_okerr easy_body c o pol_sel f enc Gs Hsrc Hre qs qs' (i, r) u y u1 C Hd Hr (follows_sel Hp Hf) Hft) as [[l1 W1] Hc].
      pose proof (writes_le EO (cp_good C) W1) as L1. pose proof (writes_le EO (le_good L1) W2) as L2. specialize (Hc (fin47_le L2 F)). destruct y as [[]|e]; [|destruct Hc].
      destruct Hc as [new C1]. specialize (IH _ u1 C1 Hl' Hsel'). rewrite Ert in IH. cbn [fst snd] in IH. destruct (IH F) as (qs1 & A1 & A2 & A3). exists qs1. split; [exact A1|]. split.
      * intros Hb p0 [<-|Hp0] Hq0; [now left|exact (A2 Hb p0 Hp0 Hq0)].
      * intros Hall. apply A3. intros p0 Hp0. apply Hall. now right.
    + destruct (fetch_lost Hd Hr Hf Hbk Hft) as [-> Hx]. specialize (IH _ u (copied_skip (p := (i, r)) C Hp) Hl' Hsel'). rewrite Ert in IH. cbn [fst snd] in IH.
      destruct (IH F) as (qs1 & A1 & A2 & A3). exists qs1. split; [exact A1|]. split.
      * destruct y as [[]|e]; [|discriminate]. intros Hb p0 [<-|Hp0] Hq0; [right; now apply Hx|exact (A2 Hb p0 Hp0 Hq0)].
      * intros Hall. specialize (Hall (i, r) (or_introl eq_refl)). congruence.
Qed.
End Scan.

(** ** The whole copy *)

Section Recover.
Variable c : cfg.
Variable o : copts.
Variable pol : policy.
Variable src : db.
Variable g : file.
Variable v : contents.
Variable ps : list (doc_info * revision).
Hypothesis Gs : good (dbf src).
Hypothesis Sp : spoiled (dbf src) g.
Hypothesis Hd : dropped src = false.
Hypothesis S : stored (dbf src) (dbh src) v ps.
Hypothesis Hre : co_filter o = None -> co_rewrite o = None.
Hypothesis Hrec : co_recovery o = true.
Hypothesis Hfo : Forall (follows o pol) (v_docs v).
Hypothesis Henc : fkey (dbf src) = None.
Let srcg : db := Db g (dbh src) false.
Let K : list kv := map seq_entry (by_seq (map fst ps)).

Lemma same_depth : depth_fuel g = depth_fuel (dbf src).
Proof. unfold depth_fuel. now rewrite (proj1 Sp). Qed.
Lemma nodup_entries : NoDup K.
Proof.
  unfold K. apply (NoDup_map_inv fst). rewrite map_map.
  assert (Hn : NoDup (map di_db_seq (by_seq (map fst ps)))).
  { eapply Permutation_NoDup; [apply Permutation_map; apply isort_perm|exact (sd_seqs S)]. }
  assert (Hk : forall i, In i (by_seq (map fst ps)) -> di_db_seq i < 2^48) by (intros i Hi; rewrite in_by_seq in Hi; exact (dok_seq (in_ok S Hi))).
  revert Hn Hk. generalize (by_seq (map fst ps)). intros l Hn Hk. induction l as [|i l IH]; [constructor|]. cbn [map] in Hn |- *. inversion Hn as [|? ? H1 H2]; subst. constructor; [|apply IH; auto; intros j Hj; apply Hk; now right].
  intros Hin. apply H1. apply in_map_iff in Hin. destruct Hin as (j & Hj & Hjl). cbn [seq_entry fst] in Hj. apply in_map_iff. exists j. split; [|exact Hjl].
  apply (f_equal unbe) in Hj. rewrite !unbe_be_small in Hj; [exact Hj|apply Hk; now left|apply Hk; now right].
Qed.
Lemma seq_left : exists q : kv -> bool, forall p0, h_by_seq (dbh src) = Some p0 -> leaves seq_cmp (dbf src) g (depth_fuel g) (np_pointer p0) K (filter q K).
Proof.
  destruct (h_by_seq (dbh src)) as [p|] eqn:Hp; [|exists (fun _ => true); intros p0 H; discriminate].
  pose proof (sd_sq S) as T. rewrite Hp in T. destruct T as (d & p' & T & Hp' & _).
  assert (Hdp : (d < depth_fuel g)%nat) by (rewrite same_depth; exact (@depth_ok unit (LReq seq_cmp (fun _ _ u => (Ok tt, u)) None false) E _ _ _ _ _ _ _ T)).
  destruct (@left_over E EO (seq_request cfg0) seqP seq_redP HseqP Hseq_red seq_cmp (ord_lookup ord_seq) (dbf src) g Gs Sp d _ Hdp p' _ T (seq_sorted S)) as [k' L].
  destruct (part_filter (lv_part L) nodup_entries) as [q Hq]. exists q. intros p0 H. injection H as <-. rewrite Hp' in L. rewrite Hq in L. exact L.
Qed.

Variable q : kv -> bool.
Hypothesis Hq : forall p0, h_by_seq (dbh src) = Some p0 -> leaves seq_cmp (dbf src) g (depth_fuel g) (np_pointer p0) K (filter q K).
Definition sel (r : revision) : bool := existsb (fun p => (rv_seq (snd p) =? rv_seq r) && (q (seq_entry (fst p)) && body_ok g p)) ps.
Lemma pair_seq p : In p ps -> di_db_seq (fst p) = rv_seq (snd p).
Proof. intros Hp. pose proof (sd_rep S) as Hr. rewrite Forall_forall in Hr. exact (ab_seq (proj1 (Hr p Hp))). Qed.
Lemma sel_pair p : In p ps -> sel (snd p) = q (seq_entry (fst p)) && body_ok g p.
Proof.
  intros Hp. unfold sel. destruct (q (seq_entry (fst p)) && body_ok g p) eqn:Hb.
  - apply existsb_exists. exists p. split; [exact Hp|]. now rewrite N.eqb_refl, Hb.
  - destruct (existsb _ ps) eqn:He; [|reflexivity]. apply existsb_exists in He. destruct He as (p' & Hp' & He). apply andb_prop in He. destruct He as [He1 He2]. apply N.eqb_eq in He1.
    assert (p' = p); [|congruence]. rewrite <- (pair_seq Hp), <- (pair_seq Hp') in He1. pose proof (sd_seqs S) as Hn. rewrite map_map in Hn.
    eapply nodup_map_eq; [exact Hn|exact Hp'|exact Hp|exact He1].
Qed.
Notation pol_sel := (pol_sel pol sel).

Variable f : file.
Hypothesis Gf : good f.
Hypothesis Of : easy_file f.
Hypothesis Hpos : 1 <= fpos f.

Lemma recover0 : copied c pol_sel false (CState (St f [] false) new_btree_modres new_writer) [] [].
Proof.
  constructor; cbn [cs_st cs_mr cs_w st_f]; auto.
  - split; [reflexivity|]. intros _. apply Of.
  - constructor.
  - apply (mrok_new (seq_bulk c) seqP seq_redP).
Qed.
Lemma seq_entries : map seq_entry (map fst (ordered ps)) = K. Proof. unfold K. now rewrite ordered_fst. Qed.
Lemma above_zero x : In x K -> ge (lookup_compare seq_cmp (fst x) (be 6 0)) = true.
Proof.
  intros Hx. unfold K in Hx. apply in_map_iff in Hx. destruct Hx as (i & <- & Hi). rewrite in_by_seq in Hi. cbn [seq_entry fst].
  rewrite lookup_seq, seq_cmp_be; [|exact (dok_seq (in_ok S Hi))|reflexivity]. destruct (di_db_seq i); reflexivity.
Qed.
Lemma all_okf : Forall (fun p => dok (fst p) /\ rep (dbf src) (fst p) (snd p) /\ follows o pol (snd p)) (ordered ps).
Proof.
  eapply Permutation_Forall; [apply ordered_perm|]. pose proof (sd_rep S) as H1. pose proof (sd_ok S) as H2. pose proof Hfo as H3. rewrite <- (sd_docs S) in H3.
  rewrite Forall_map in H2, H3. rewrite Forall_forall in *. intros p Hp. auto.
Qed.
Lemma in_ordered p : In p (ordered ps) <-> In p ps.
Proof. split; apply Permutation_in; [apply Permutation_sym|]; apply ordered_perm. Qed.

Definition scan_fact (scan : res unit) : Prop :=
  (scan = Ok tt -> forall p, In p ps -> sel (snd p) = true \/ po_keep pol (snd p) = false) /\ ((forall p, In p ps -> sel (snd p) = true) -> scan = Ok tt).

Lemma docs_recover r f1 : copy_docs c o srcg f = (r, f1) ->
  (exists log, writes f log f1) /\
  (fin47 f1 -> match r with Ok (scan, ids, seqs) => scan_fact scan /\ exists qs, doc_copy pol_sel ps qs ids seqs f1 | Err e => no_error e end).
Proof.
  unfold copy_docs. rewrite Hrec. cbn [srcg dbh dbf]. destruct (h_by_seq (dbh src)) as [p0|] eqn:Hp.
  2:{ intros H; injection H as <- <-. split; [exists []; constructor|]. intros _. split; [|exists []; constructor; [now rewrite (no_seq S Hp)|constructor|constructor|reflexivity|reflexivity]].
      split; [|reflexivity]. intros _ p Hin. rewrite (no_seq S Hp) in Hin. destruct Hin. }
  assert (HKne : K <> []) by (pose proof (sd_sq S) as T; rewrite Hp in T; destruct T as (dd & p' & T & _); exact (tree_nonempty T)).
  unfold seq_tree_copy. rewrite Hrec.
  destruct (lv_enum (Hq eq_refl) HKne (rq := LReq seq_cmp (seq_fetch o (seq_bulk c) g) None true) eq_refl eq_refl eq_refl above_zero
    (CState (St f [] false) new_btree_modres new_writer) true) as (x & i' & Hlk & _ & Hx).
  rewrite Hlk. clear Hlk. set (l := Lst _ true i').
  destruct (tol_writes c o g (filter q K) (CState (St f [] false) new_btree_modres new_writer)) as [l1 W1]. cbn [cs_st st_f] in W1.
  change (snd (run_tol _ _ _)) with (l_u l) in W1.
  pose proof (writes_le EO Gf W1) as L1. pose proof (okf_le EO easy_okerr Gf Of W1) as O1.
  pose proof (@tol_scan c o pol (dbf src) g false Gs Sp (conj (fun _ => eq_refl) (fun _ => Henc)) Hre q sel (ordered ps) [] [] _ recover0 all_okf
    (fun p Hin => sel_pair (proj1 (in_ordered p) Hin))) as Hscan. rewrite seq_entries in Hscan. cbn [app] in Hscan.
  change (snd (run_tol _ _ _)) with (l_u l) in Hscan.
  set (bb := fst (run_tol _ _ _)) in Hscan, Hx.
  assert (Hsf : fin47 (st_f (cs_st (l_u l))) -> (exists qs, copied c pol_sel false (l_u l) (ordered ps) qs) /\ scan_fact x).
  { intros F. destruct (Hscan F) as (qs & A1 & A2 & A3). split; [exists qs; exact A1|]. split.
    - intros H. apply Hx in H. destruct H as [H1 H2]. intros p Hin. apply in_ordered in Hin.
      assert (Hqe : q (seq_entry (fst p)) = true).
      { rewrite filter_all in H1. apply H1. rewrite <- seq_entries. apply in_map, in_map. exact Hin. }
      destruct (A2 H2 p Hin Hqe) as [H|H]; [left|now right]. rewrite sel_pair by (now apply in_ordered). now rewrite Hqe, H.
    - intros Hall. assert (Hall' : forall p, In p (ordered ps) -> q (seq_entry (fst p)) = true /\ body_ok g p = true).
      { intros p Hin. apply in_ordered in Hin. specialize (Hall p Hin). rewrite sel_pair in Hall by exact Hin. now apply andb_prop. }
      apply Hx. split; [|apply A3; intros p Hin; exact (proj2 (Hall' p Hin))]. apply filter_all. intros y Hy. rewrite <- seq_entries in Hy. apply in_map_iff in Hy. destruct Hy as (i & <- & Hi).
      apply in_map_iff in Hi. destruct Hi as (p & <- & Hin). exact (proj1 (Hall' p Hin)). }
  clear Hscan. rewrite orb_true_r.
  destruct (complete_new_btree (seq_bulk c) (cs_mr (l_u l)) (cs_st (l_u l))) as [cr s1] eqn:Hc; destruct (@ow_complete E _ _ _ _ _ Hc) as [l2 W2].
  pose proof (writes_le EO (le_good L1) W2) as L2. pose proof (okf_le EO easy_okerr (le_good L1) O1 W2) as O2.
  assert (W12 : writes f (l2 ++ l1) (st_f s1)) by (eapply writes_trans; eassumption).
  assert (Hcp : fin47 (st_f s1) -> exists qs, copied c pol_sel false (l_u l) (ordered ps) qs /\
     match cr with Ok sr => toptree (seq_bulk c) seqP seq_redP (st_f s1) sr (map seq_entry (map fst qs)) | Err e => no_error e end).
  { intros F. destruct (Hsf (fin47_le L2 F)) as [[qs Cq] _].
    exists qs. split; [exact Cq|]. pose proof (@run_complete E EO (seq_bulk c) seqP seq_redP easy_file no_error (seq_bulk_ok easy_okerr c) _ _ _ (okst_good (cp_good Cq) (cp_okf Cq)) (cp_mr Cq) (cp_mod Cq)) as R.
    specialize (R _ _ Hc (fin47_fin F)). destruct cr; [exact (proj1 R)|exact R]. }
  destruct cr as [sr|e].
  2:{ assert (Hno : fin47 (st_f s1) -> False) by (intros F; destruct (Hcp F) as (_ & _ & H); exact H). clear Hcp Hsf Hx.
      destruct (tw_sort ebin_cmp (cs_w (l_u l))) as [w1|e1]; [|intros H; injection H as <- <-; split; [eauto|intros F; destruct (Hno F)]].
      destruct (tw_write (id_bulk (target_cfg c)) w1 (St (st_f s1) [] false)) as [wr s2] eqn:Hw; destruct (@ow_tw_write E _ _ _ _ _ Hw) as [l3 W3]; cbn [st_f] in W3;
        pose proof (writes_le EO (le_good L2) W3) as L3; assert (W13 : writes f (l3 ++ l2 ++ l1) (st_f s2)) by (eapply writes_trans; eassumption).
      destruct wr as [[ir w2]|e2]; [destruct (w_added w2 =? w_written w2)|]; intros H; injection H as <- <-; (split; [eauto|intros F; destruct (Hno (fin47_le L3 F))]). }
  assert (Hsort : fin47 (st_f s1) -> exists qs rs, copied c pol_sel false (l_u l) (ordered ps) qs /\ toptree (seq_bulk c) seqP seq_redP (st_f s1) sr (map seq_entry (map fst qs)) /\
     tw_sort ebin_cmp (cs_w (l_u l)) = Ok (Writer (serial rs) (lenN qs) 0) /\ lenN rs = lenN qs /\ Forall rec_ok rs /\ Forall idP rs /\ rs = map id_entry (by_id (map fst qs)) /\
     by_seq (map fst qs) = map fst qs).
  { intros F. destruct (Hcp F) as (qs & Cq & Tq). exists qs.
    assert (Ha : Forall (fun p => about (fst p) (snd p)) qs) by (generalize (cp_rep Cq); apply Forall_impl; intros p Hr; apply Hr).
    destruct (outs_ids S (cp_docs Cq) Ha) as (N1 & N2 & N3 & N4).
  pose proof (cp_ok Cq) as Hok. set (es := map id_entry (map fst qs)).
  assert (Hid : Forall idP es) by (unfold es; rewrite Forall_map; revert Hok; apply Forall_impl; intros i Hi; exists i; auto).
  assert (Hrk : Forall rec_ok es).
  { revert Hid. apply Forall_impl. intros y Hy. apply idP_ok in Hy. destruct Hy as [Y1 Y2]. change (2^12) with 4096 in Y1. change (2^28) with 268435456 in Y2.
    split; change (2^32) with 4294967296; lia. }
  assert (Hlen : lenN es < 2^63).
  { unfold es. rewrite !lenN_map. assert (Hb : lenN (map di_db_seq (map fst qs)) <= 2^48).
    { apply nodup_bound; [exact N2|]. intros n Hn'. apply in_map_iff in Hn'. destruct Hn' as (i & <- & Hi). rewrite Forall_forall in Hok. exact (dok_seq (Hok i Hi)). }
    rewrite !lenN_map in Hb. change (2^48) with 281474976710656 in Hb. change (2^63) with 9223372036854775808. lia. }
  assert (Hst : w_stream (cs_w (l_u l)) = serial es) by (rewrite (cp_w Cq); reflexivity).
  destruct (@tw_sort_ok ebin_cmp ord_ebin _ es Hst Hrk Hlen) as (rs & Hs1 & Hs2 & Hs3). exists rs.
  assert (Hrs : rs = map id_entry (by_id (map fst qs))).
  { apply (@sorted_ext ebin_cmp ord_ebin).
    - apply (@ss_strict kv fst ebin_cmp); [apply ord_ebin| | |].
      + eapply ss_impl; [|exact Hs3]. intros a b _ _ Hab. cbn beta in Hab. destruct (ebin_cmp (fst a) (fst b)); try reflexivity. congruence.
      + intros a b _ _. apply ebin_eq.
      + eapply Permutation_NoDup; [apply Permutation_map; exact Hs2|]. unfold es. rewrite !map_map. exact N1.
    - apply by_id_sorted. rewrite map_map. exact N1.
    - intros y. split; intros Hy.
      + apply Permutation_sym in Hs2. apply (Permutation_in _ Hs2) in Hy. unfold es in Hy. apply in_map_iff in Hy. destruct Hy as (i & <- & Hi). apply in_map. now rewrite in_by_id.
      + apply in_map_iff in Hy. destruct Hy as (i & <- & Hi). rewrite in_by_id in Hi. apply (Permutation_in _ Hs2). unfold es. now apply in_map. }
  assert (Hrk' : Forall rec_ok rs) by (eapply Permutation_Forall; eassumption).
  assert (Hid' : Forall idP rs) by (eapply Permutation_Forall; eassumption).
  split; [exact Cq|]. split; [exact Tq|]. split; [rewrite Hs1, (cp_w Cq); reflexivity|]. split; [|repeat (split; [assumption|])].
  - assert (Hl1 : lenN rs = lenN es) by (unfold lenN; now rewrite (Permutation_length Hs2)). rewrite Hl1. unfold es. now rewrite !lenN_map.
  - unfold by_seq; apply isort_id; apply (proj2 (@ss_map _ _ di_db_seq (fun a b => gtc (seq_cmp (be 6 a) (be 6 b)) = false) _)); exact N3. }
  destruct (tw_sort ebin_cmp (cs_w (l_u l))) as [w1|e] eqn:Hsrt.
  2:{ intros H; injection H as <- <-. split; [eauto|]. intros F. destruct (Hsort F) as (qs & rs & _ & _ & H & _). discriminate. }
  destruct (tw_write (id_bulk (target_cfg c)) w1 (St (st_f s1) [] false)) as [wr s2] eqn:Hw; destruct (@ow_tw_write E _ _ _ _ _ Hw) as [l3 W3]; cbn [st_f] in W3;
    pose proof (writes_le EO (le_good L2) W3) as L3; assert (W13 : writes f (l3 ++ l2 ++ l1) (st_f s2)) by (eapply writes_trans; eassumption).
  assert (Hwr : fin47 (st_f s2) -> exists qs rs, copied c pol_sel false (l_u l) (ordered ps) qs /\ toptree (seq_bulk c) seqP seq_redP (st_f s1) sr (map seq_entry (map fst qs)) /\
     rs = map id_entry (by_id (map fst qs)) /\ by_seq (map fst qs) = map fst qs /\
     match wr with Ok (ir, w2) => toptree (id_bulk (target_cfg c)) idP id_redP (st_f s2) ir rs /\ w_added w2 = w_written w2 | Err e => no_error e end).
  { intros F. destruct (Hsort (fin47_le L3 F)) as (qs & rs & Cq & Tq & Hs1 & Hn & Hrk & Hid & Hrs & Hb). exists qs, rs. do 4 (split; [assumption|]). injection Hs1 as ->.
    pose proof (@run_tw_write E EO (id_bulk (target_cfg c)) idP id_redP easy_file no_error (id_bulk_ok easy_okerr (target_cfg c)) (Writer (serial rs) (lenN qs) 0) rs (St (st_f s1) [] false)
      (okst_good (s := St (st_f s1) [] false) (le_good L2) O2) eq_refl Hrk Hid) as R.
    specialize (R _ _ Hw (fin47_fin F)). destruct wr as [[ir w2]|e]; [|exact R]. destruct R as (R1 & _ & R3). cbn [fst snd] in R1, R3. split; [exact R1|]. rewrite R3. cbn [w_added w_written]. lia. }
  destruct wr as [[ir w2]|e].
  2:{ intros H; injection H as <- <-. split; [eauto|]. intros F. destruct (Hwr F) as (_ & _ & _ & _ & _ & _ & H). exact H. }
  destruct (N.eqb_spec (w_added w2) (w_written w2)) as [Hn|Hn]; intros H; injection H as <- <-; (split; [eauto|]); intros F; destruct (Hwr F) as (qs & rs & Cq & Tq & Hrs & Hb & R1 & R2); [|congruence].
  split; [exact (proj2 (Hsf (fin47_le L2 (fin47_le L3 F))))|]. exists qs. constructor.
  - exact (cp_docs Cq).
  - generalize (cp_rep Cq). apply Forall_impl. intros p Hr. eapply rep_le; [|exact Hr]. eapply le_trans; eassumption.
  - exact (cp_ok Cq).
  - rewrite Hrs in R1. apply toptree_rtree in R1. exact R1.
  - rewrite Hb. apply toptree_rtree in Tq. eapply rtree_le in Tq; [|exact L3]. exact Tq.
Qed.

(** ** Local documents *)

Hypothesis Hloc : forall id, In id (map fst (v_locals v)) -> exists x, open_local_document srcg id = Ok x.
Lemma locals_same f1 : copy_locals c srcg f1 = copy_locals c src f1.
Proof.
  unfold copy_locals. cbn [srcg dbh dbf]. destruct (h_local (dbh src)) as [p|] eqn:Hp; [|reflexivity].
  pose proof (sd_loc S) as T. rewrite Hp in T. destruct T as (d & p' & T & Hp' & _).
  assert (Hdp : (d < depth_fuel g)%nat) by (rewrite same_depth; exact (@depth_ok unit (LReq ebin_cmp (fun _ _ u => (Ok tt, u)) None false) E _ _ _ _ _ _ _ T)).
  assert (Hs : sorted (lookup_compare ebin_cmp) (by_key (v_locals v))) by (apply sorted_lookup_ebin, by_key_sorted; exact (sd_lids S)).
  destruct (@left_over E EO (local_request cfg0) kv_ok loc_redP (fun _ H => H) Hloc_red ebin_cmp (ord_lookup ord_ebin) (dbf src) g Gs Sp d _ Hdp p' _ T Hs) as [k' L]. rewrite Hp' in L.
  assert (Hk : forall x, In x (by_key (v_locals v)) -> In x k').
  { intros x Hx. rewrite in_by_key in Hx. destruct (Hloc (id := fst x)) as [y Hy]; [apply in_map; exact Hx|]. unfold open_local_document in Hy. cbn [srcg dropped dbh dbf] in Hy. rewrite Hp in Hy.
    unfold btree_lookup in Hy. rewrite <- in_by_key in Hx.
    destruct (lv_find L (rq := LReq ebin_cmp local_doc_fetch None false) eq_refl eq_refl eq_refl Hx None) as [[Hi _]|[_ (e & He)]]; [exact Hi|]. rewrite He in Hy. discriminate. }
  assert (Hkk : k' = by_key (v_locals v)).
  { assert (Hn : NoDup (by_key (v_locals v))).
    { apply (NoDup_map_inv fst). eapply Permutation_NoDup; [apply Permutation_map; apply isort_perm|exact (sd_lids S)]. }
    destruct (part_filter (lv_part L) Hn) as [t ->]. apply filter_all. intros x Hx. specialize (Hk x Hx). apply filter_In in Hk. apply Hk. }
  unfold local_tree_copy. rewrite (lv_full L Hkk), same_depth. reflexivity.
Qed.

Theorem recover_stored r f1 y f2 : copy_docs c o srcg f = (r, f1) -> copy_locals c srcg f1 = (y, f2) ->
  (exists log, writes f log f2) /\ easy_file f2 /\
  (fin47 f2 -> exists scan ids seqs locs, r = Ok (scan, ids, seqs) /\ y = Ok locs /\ scan_fact scan /\
     forall h, h_update_seq h = h_update_seq (dbh src) -> h_by_id h = ids -> h_by_seq h = seqs -> h_local h = locs ->
       exists ps', stored f2 h (compacted pol_sel v) ps').
Proof.
  intros H1 H2. destruct (docs_recover H1) as [[l1 W1] D]. pose proof (writes_le EO Gf W1) as L1. rewrite locals_same in H2.
  pose proof (okf_le EO easy_okerr Gf Of W1) as O1.
  destruct (@locals_copy E EO easy_file no_error easy_okerr c src v ps Gs S f1 y f2 (le_good L1) O1 H2) as [[l2 W2] L]. pose proof (writes_le EO (le_good L1) W2) as L2.
  split; [exists (l2 ++ l1); eapply writes_trans; eassumption|]. split; [exact (okf_le EO easy_okerr (le_good L1) O1 W2)|].
  intros F. specialize (D (fin47_le L2 F)). destruct r as [[[scan ids] seqs]|e]; [|destruct D]. destruct D as (Hsc & qs & [Q1 Q2 Q3 Q4 Q5]). specialize (L F).
  destruct y as [locs|e]; [|destruct L]. exists scan, ids, seqs, locs. do 3 (split; [auto; exact Hsc|]). intros h A1 A2 A3 A4.
  assert (Ha : Forall (fun p => about (fst p) (snd p)) qs) by (revert Q2; apply Forall_impl; intros p Hr; apply Hr).
  destruct (outs_ids S Q1 Ha) as (N1 & N2 & N3 & N4). pose proof (le_keeps L2) as Kp.
  assert (S0 : stored f2 h (Contents (outs pol_sel (ordered ps)) (v_locals v) (v_seq v)) qs).
  { constructor; cbn [v_docs v_locals v_seq]; auto.
    - revert Q2. apply Forall_impl. intros p. now apply rep_keeps.
    - rewrite A1. exact (sd_seq S).
    - exact (sd_bound S).
    - rewrite A2. eapply rtree_le; eassumption.
    - rewrite A3. eapply rtree_le; eassumption.
    - exact (sd_lids S).
    - rewrite A4. exact L. }
  assert (P : Permutation (map (remeta pol_sel) (filter (po_keep pol_sel) (v_docs v))) (map snd qs)).
  { rewrite Q1. unfold outs. apply Permutation_map, perm_filter. rewrite <- (sd_docs S). apply Permutation_map, ordered_perm. }
  apply Permutation_map_inv in P. destruct P as (ps' & P1 & P2). exists ps'.
  unfold compacted. rewrite P1. exact (stored_perm P2 S0).
Qed.

(** The documents that are recovered are those that can be read. *)
Lemma sel_readable p : In p ps -> (sel (snd p) = true <-> readable_doc srcg (snd p)).
Proof.
  intros Hp. rewrite (sel_pair Hp). destruct p as [i r]. cbn [fst snd]. pose proof (pair_seq Hp) as Hsq. cbn [fst snd] in Hsq.
  pose proof (sd_rep S) as Hr. rewrite Forall_forall in Hr. specialize (Hr _ Hp). cbn [fst snd] in Hr. pose proof (sd_ok S) as Ho. rewrite Forall_forall in Ho. assert (Di : dok i) by (apply Ho; apply in_map_iff; exists (i, r); auto).
  assert (Hne : ps <> []) by (intros H0; rewrite H0 in Hp; destruct Hp).
  destruct (h_by_seq (dbh src)) as [p0|] eqn:Hp0; [|exfalso; apply Hne; exact (no_seq S Hp0)].
  destruct (h_by_id (dbh src)) as [p1|] eqn:Hp1; [|exfalso; apply Hne; exact (no_id S Hp1)].
  assert (Hx : In (seq_entry i) K) by (unfold K; apply in_map; rewrite in_by_seq; apply in_map_iff; exists (i, r); auto).
  pose proof (lv_find (Hq eq_refl) (rq := LReq seq_cmp (docinfo_fetch by_seq_read_docinfo) None false) eq_refl eq_refl eq_refl Hx None) as Hf.
  assert (Hin : In (seq_entry i) (filter q K) <-> q (seq_entry i) = true) by (rewrite filter_In; tauto).
  assert (Hdi : docinfo_by_sequence srcg (rv_seq r) = if q (seq_entry i) then Ok i else docinfo_by_sequence srcg (rv_seq r)).
  { destruct (q (seq_entry i)) eqn:Hqi; [|reflexivity]. unfold docinfo_by_sequence. cbn [srcg dropped dbh dbf]. rewrite Hp0, Hp1. unfold btree_lookup.
    destruct Hf as [[_ Hf]|[Hf _]]; [|tauto]. rewrite <- Hsq. cbn [seq_entry fst] in Hf. rewrite Hf. unfold out. cbn [run_calls found l_fetch docinfo_fetch fst snd seq_entry].
    rewrite (by_seq_roundtrip (proj1 Di)). reflexivity. }
  assert (Hder : q (seq_entry i) = false -> exists e, docinfo_by_sequence srcg (rv_seq r) = Err e).
  { intros Hqi. unfold docinfo_by_sequence. cbn [srcg dropped dbh dbf]. rewrite Hp0, Hp1. unfold btree_lookup.
    destruct Hf as [[Hf _]|[_ (e & Hf)]]; [apply Hin in Hf; congruence|]. rewrite <- Hsq. cbn [seq_entry fst] in Hf. rewrite Hf. exists e. reflexivity. }
  assert (Hop : rv_body r <> None -> ((exists b, open_doc_with_docinfo srcg i false = Ok b) <-> body_ok g (i, r) = true)).
  { intros Hb. unfold body_ok, open_doc_with_docinfo. cbn [fst snd srcg dropped dbf andb]. destruct Hr as [_ Rb]. destruct (rv_body r); [|congruence]. destruct Rb as [Hnz _].
    destruct (N.eqb_spec (di_bp i) 0); [contradiction|]. destruct (pread_bin g (di_bp i)); split; intros H; [reflexivity|eauto|destruct H; discriminate|discriminate]. }
  assert (Hnb : rv_body r = None -> body_ok g (i, r) = true) by (intros Hb; unfold body_ok; cbn [snd]; now rewrite Hb).
  split.
  - intros H. apply andb_prop in H. destruct H as [H1 H2]. rewrite H1 in Hdi. exists i. split; [exact Hdi|]. split; [apply Hr|]. intros Hb. now apply Hop.
  - intros (j & Hj & _ & Hb). destruct (q (seq_entry i)) eqn:Hqi.
    + rewrite Hdi in Hj. injection Hj as <-. cbn [andb]. destruct (rv_body r) as [ct|] eqn:Eb; [|now apply Hnb]. apply Hop; [discriminate|]. apply Hb. discriminate.
    + destruct (Hder eq_refl) as [e He]. rewrite He in Hj. discriminate.
Qed.
Lemma sel_contents : compacted pol_sel v = compacted pol (Contents (filter sel (v_docs v)) (v_locals v) (v_seq v)).
Proof. unfold compacted. cbn [v_docs v_locals v_seq]. rewrite filter_twice. reflexivity. Qed.
End Recover.
End WithEnv.
