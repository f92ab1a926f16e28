(** The counters of couch_dbck, and the database that it leaves. *)
From Coq Require Import Sorting.Permutation.
From Verif Require Import Base SpecOrder Codec CodecFacts File FileFacts ChunkFacts Header HeaderFacts History CrashFacts DataFacts SpecCrash NavFacts ReachNav OpenFacts CommitFacts SpecFile PropertiesCrash
  Btree BtreeRead TreeStore SpecMap MergeFacts ModifyFacts LookupFacts Db SpecDb SortFacts ReduceFacts DbFacts DbSave DbRead TreeWriter Compact SpecCompact CompactFacts Replay SpecReplay ReplayFacts
  SpecSession ShowFacts SessionFacts ReadFacts SaveFacts ErrorFacts Walk PropertiesCompact
  SpecRecover RecoverFacts RecoverCopy RecoverLink PropertiesTolerate Dbck SpecDbck DbckFacts.
Local Open Scope N_scope.
Unset Strict Implicit.

Lemma filter_len A B (f : A -> B) (p : A -> bool) (q : B -> bool) l : (forall x, In x l -> q (f x) = p x) -> lenN (filter q (map f l)) = lenN (filter p l).
Proof.
  induction l as [|x l IH]; intros H; [reflexivity|]. cbn [map filter]. rewrite (H x (or_introl eq_refl)). destruct (p x); rewrite ?lenN_cons, IH by (intros y Hy; apply H; now right); reflexivity.
Qed.
Lemma len_perm A (l l' : list A) : Permutation l l' -> lenN l = lenN l'.
Proof. intros H. unfold lenN. now rewrite (Permutation_length H). Qed.

Section Counts.
Context {E : Env} (EO : EnvOk E).
Variable src : db.
Variable g : file.
Variable v : contents.
Variable ps : list (doc_info * revision).
Hypothesis Gs : good (dbf src).
Hypothesis Sp : spoiled (dbf src) g.
Hypothesis S : stored (dbf src) (dbh src) v ps.
Notation d := (Db g (dbh src) false).

Lemma as_revision (A : doc_info * revision -> bool) : exists a : revision -> bool, forall p, In p ps -> a (snd p) = A p.
Proof.
  exists (fun r => existsb (fun p => (rv_seq (snd p) =? rv_seq r) && A p) ps). intros p Hp. destruct (A p) eqn:Hb.
  - apply existsb_exists. exists p. split; [exact Hp|]. now rewrite N.eqb_refl, Hb.
  - destruct (existsb _ ps) eqn:He; [|reflexivity]. apply existsb_exists in He. destruct He as (p' & Hp' & He). apply andb_prop in He. destruct He as [He1 He2]. apply N.eqb_eq in He1.
    assert (p' = p); [|congruence]. pose proof (sd_rep S) as Hr. rewrite Forall_forall in Hr. rewrite <- (ab_seq (proj1 (Hr p Hp))), <- (ab_seq (proj1 (Hr p' Hp'))) in He1.
    pose proof (sd_seqs S) as Hn. rewrite map_map in Hn. eapply nodup_map_eq; [exact Hn|exact Hp'|exact Hp|exact He1].
Qed.
Definition badb (i : doc_info) : bool := negb (di_deleted i) && match open_doc_with_docinfo d i false with Ok _ => false | Err _ => true end.
Lemma count_run (rq : lreq (N * N)) l : l_fetch rq = count_doc d -> (forall i, In i l -> dok i) -> forall x y, snd (run_tol rq (map seq_entry l) (x, y)) = (x + lenN l, y + lenN (filter badb l)).
Proof.
  intros Hrq. induction l as [|i l IH]; intros Hl x y; [cbn [map run_tol snd filter]; change (lenN (@nil doc_info)) with 0; rewrite !N.add_0_r; reflexivity|]. cbn [map run_tol]. rewrite Hrq. unfold count_doc, seq_entry at 1 2. cbn [fst snd].
  pose proof (by_seq_roundtrip (proj1 (Hl i (or_introl eq_refl)))) as Hr. rewrite Hr. cbn [fst snd].
  specialize (IH (fun j Hj => Hl j (or_intror Hj))).
  assert (Hy : (if di_deleted i then y else match open_doc_with_docinfo d i false with Ok _ => y | Err _ => y + 1 end) = y + lenN (filter badb [i])).
  { cbn [filter]. unfold badb. destruct (di_deleted i); cbn [negb andb]; [change (lenN (@nil doc_info)) with 0; lia|]. destruct (open_doc_with_docinfo _ _ _); [change (lenN (@nil doc_info)) with 0|change (lenN [i]) with 1]; lia. }
  rewrite Hy. specialize (IH (x + 1) (y + lenN (filter badb [i]))). destruct (run_tol rq (map seq_entry l) _) as [b u]. cbn [snd] in *. rewrite IH. rewrite lenN_cons.
  assert (Hf : lenN (filter badb (i :: l)) = lenN (filter badb [i]) + lenN (filter badb l)) by (cbn [filter]; destruct (badb i); rewrite ?lenN_cons; change (lenN (@nil doc_info)) with 0; lia).
  rewrite Hf. f_equal; lia.
Qed.

Theorem counts_ok : exists a b : revision -> bool,
  (forall r, In r (v_docs v) -> (a r = true <-> exists j, docinfo_by_sequence d (rv_seq r) = Ok j)) /\
  (forall r, In r (v_docs v) -> (b r = true <-> rv_deleted r = false /\ exists j e, docinfo_by_sequence d (rv_seq r) = Ok j /\ open_doc_with_docinfo d j false = Err e)) /\
  hook_counts d = (lenN (filter a (v_docs v)), lenN (filter b (v_docs v))).
Proof.
  unfold hook_counts. cbn [dbh dbf]. destruct (h_by_seq (dbh src)) as [p0|] eqn:Hp0.
  2:{ assert (Hps : ps = []) by exact (DbRead.no_seq S Hp0). exists (fun _ => true), (fun _ => true). rewrite <- (sd_docs S), Hps. cbn [map filter]. split; [intros r []|]. split; [intros r []|reflexivity]. }
  destruct (seq_left EO Gs Sp S) as [q Hq]. specialize (Hq p0 Hp0).
  set (A := fun p : doc_info * revision => q (seq_entry (fst p))). set (B := fun p : doc_info * revision => A p && badb (fst p)).
  destruct (as_revision A) as [a Ha]. destruct (as_revision B) as [b Hb]. exists a, b.
  assert (Hfind : forall p, In p ps -> A p = true -> docinfo_by_sequence d (rv_seq (snd p)) = Ok (fst p)).
  { intros [i r] Hp HA. cbn [fst snd]. unfold A in HA. cbn [fst] in HA.
    assert (Di : dok i) by (apply (in_ok S); apply in_map_iff; exists (i, r); auto).
    assert (Hne : ps <> []) by (intros H0; rewrite H0 in Hp; destruct Hp).
    destruct (h_by_id (dbh src)) as [p1|] eqn:Hp1; [|exfalso; apply Hne; exact (DbRead.no_id S Hp1)].
    assert (Hx : In (seq_entry i) (map seq_entry (by_seq (map fst ps)))) by (apply in_map; rewrite in_by_seq; apply in_map_iff; exists (i, r); auto).
    pose proof (lv_find Hq (rq := LReq seq_cmp (docinfo_fetch by_seq_read_docinfo) None false) eq_refl eq_refl eq_refl Hx None) as Hf.
    unfold docinfo_by_sequence. cbn [dropped dbh dbf]. rewrite Hp0, Hp1. unfold btree_lookup. rewrite <- (ab_seq (pair_about S Hp)). cbn [seq_entry fst] in Hf. rewrite filter_In in Hf.
    destruct Hf as [[_ Hf]|[Hi _]]; [|exfalso; apply Hi; split; [exact Hx|exact HA]].
    rewrite Hf. unfold out. cbn [run_calls found l_fetch docinfo_fetch fst snd seq_entry]. rewrite (by_seq_roundtrip (proj1 Di)). reflexivity. }
  pose proof (@seq_there E src g v ps S p0 q Hp0 Hq) as Hth.
  split; [|split].
  - intros r Hr. rewrite <- (sd_docs S) in Hr. apply in_map_iff in Hr. destruct Hr as ([i r'] & <- & Hp). rewrite (Ha _ Hp). exact (Hth i r' Hp).
  - intros r Hr. rewrite <- (sd_docs S) in Hr. apply in_map_iff in Hr. destruct Hr as ([i r'] & <- & Hp). rewrite (Hb _ Hp). cbn [snd fst]. unfold B, badb. cbn [fst]. rewrite !andb_true_iff, negb_true_iff.
    rewrite (ab_deleted (pair_about S Hp)). split.
    + intros (HA & Hd & Ho). split; [exact Hd|]. pose proof (Hfind _ Hp HA) as Hf. cbn [fst snd] in Hf. destruct (open_doc_with_docinfo d i false) as [z|e] eqn:Hz; [discriminate|]. exists i, e. split; [exact Hf|exact Hz].
    + intros (Hd & j & e & Hj & Ho). assert (HA : A (i, r') = true) by (apply (Hth i r' Hp); exists j; exact Hj). pose proof (Hfind _ Hp HA) as Hf. cbn [fst snd] in Hf. rewrite Hf in Hj. injection Hj as <-.
      rewrite Ho. auto.
  - unfold btree_lookup. set (rq := LReq seq_cmp (count_doc d) None true).
    destruct (lv_from Hq (rq := rq) eq_refl eq_refl eq_refl (be 6 0) (0, 0) false) as (x & i' & A1 & _). rewrite A1. cbn [snd l_u].
    set (L := filter (fun i => q (seq_entry i)) (by_seq (map fst ps))).
    assert (Hdok : forall i, In i (by_seq (map fst ps)) -> dok i) by (intros i Hi; apply (in_ok S); rewrite in_by_seq in Hi; exact Hi).
    assert (Hfr : from rq (be 6 0) (filter q (map seq_entry (by_seq (map fst ps)))) = map seq_entry L).
    { unfold from. rewrite filter_map. rewrite filter_map. unfold L. f_equal. apply filter_all. intros y Hy. apply filter_In in Hy. destruct Hy as [Hy _]. cbn [seq_entry fst rq l_cmp].
      rewrite lookup_seq, seq_cmp_be; [|exact (dok_seq (Hdok y Hy))|reflexivity]. destruct (di_db_seq y); reflexivity. }
    rewrite Hfr, (@count_run rq L eq_refl) by (intros i Hi; unfold L in Hi; apply filter_In in Hi; apply Hdok; apply Hi). rewrite !N.add_0_l.
    unfold L. rewrite <- ordered_fst. rewrite <- (sd_docs S).
    assert (H1 : lenN (filter (fun i => q (seq_entry i)) (map fst (ordered ps))) = lenN (filter a (map snd ps))).
    { rewrite (@filter_len _ _ fst A) by reflexivity. rewrite (@filter_len _ _ snd A) by (intros p Hp; apply Ha; exact Hp). apply len_perm, CompactFacts.perm_filter, Permutation_sym, ordered_perm. }
    assert (H2 : lenN (filter badb (filter (fun i => q (seq_entry i)) (map fst (ordered ps)))) = lenN (filter b (map snd ps))).
    { rewrite filter_and. rewrite (@filter_len _ _ fst B) by reflexivity. rewrite (@filter_len _ _ snd B) by (intros p Hp; apply Hb; exact Hp). apply len_perm, CompactFacts.perm_filter, Permutation_sym, ordered_perm. }
    rewrite H1, H2. reflexivity.
Qed.
End Counts.

Section Link.
Context {E : Env} (EO : EnvOk E).
Hypothesis Hcomp : forall b, compress b <> None.
Variable getkey : N -> bytes -> bytes -> res N.
Hypothesis KO : key_ok None getkey.

Lemma open_easy f d : calm f -> fkey (dbf d) = None -> open_existing f getkey false false = Ok d -> easy_file (dbf d).
Proof.
  intros Hc Hk. unfold open_existing. cbn zeta. set (f0 := set_fpos _ _). destruct (find_header f0 header0 _ false) as [[u|e] h]; [|discriminate].
  set (m := if h_version h <=? 11 then CRC32 else CRC32C). assert (Hm : m <> CRC_UNKNOWN) by (unfold m; destruct (_ <=? _); discriminate). clearbody m. cbn [andb].
  destruct (h_meta h); [destruct (read_encryption_key _ h getkey) as [k|e]; [|discriminate]; cbn [bind]|]; intros H; injection H as <-; (split; [exact Hc|split; [exact Hm|exact Hk]]).
Qed.

Theorem dbck_link s h v p g c pl pl2 : sessions None getkey s -> snapshot s h v -> h_purge_ptr h = 0 -> h_purge_seq h + 1 < 2^48 -> h_timestamp h < 2^64 ->
  fpos (dbf (ss_db s)) <= p <= size (dbf (ss_db s)) -> spoiled (dbf (reader s h p)) g ->
  (forall id, In id (map fst (v_locals v)) -> exists x, open_local_document (Db g h false) id = Ok x) ->
  2 <= c_kv c -> calm (empty_file pl) -> calm (empty_file pl2) -> forall r t, compact c dbck_options (Db g h false) (empty_file pl) None = (r, t) -> room t -> fpos (dbf t) + BLOCK < 2^47 ->
  forall hvs, older (Db g h false) (map fst hvs) -> Forall (fun hv => snapshot s (fst hv) (snd hv) /\ Forall storable (v_docs (snd hv))) hvs ->
  (let some := v :: map snd hvs in forall v1 v2 x y, In v1 some -> In v2 some -> In x (v_docs v1) -> In y (v_docs v2) -> rv_seq x = rv_seq y -> rv_id x = rv_id y) ->
  exists b rss, (forall rv, In rv (v_docs v) -> (b rv = true <-> readable_doc (Db g h false) rv)) /\
    Forall2 (fun hv rs => forall r, In r rs <-> In r (v_docs (snd hv)) /\ rescued (Db g (fst hv) false) r) hvs rss /\
    (r = Ok tt <-> forall rv, In rv (v_docs v) -> readable_doc (Db g h false) rv) /\
    forall stale ts retries, ts < 2^64 -> exists x, recover_file c getkey (Db g h false) pl pl2 stale ts retries = Ok x /\ (dk_detected x = true <-> (exists e, r = Err e) \/ 0 < dk_corrupted x) /\
      (dk_visited x, dk_corrupted x) = hook_counts (Db g h false) /\
      (room (dk_db x) -> fpos (dbf (dk_db x)) + BLOCK < 2^47 ->
       let w := Contents (filter b (v_docs v)) (v_locals v) (v_seq v) in
       let w' := if dk_detected x && stale then fold_left add_missing (concat rss) w else w in
       dk_res x = Ok tt /\ lenN (v_docs w') = lenN (v_docs w) + dk_stale x /\ exists q old t', linked None getkey (Session (dk_db x) w' (Some (Version q w')) old []) t').
Proof.
  intros H Sn Hpp Hps Hts Hp Sp Hloc Hc Hcalm Hcalm2 r t Hcmp Rm Hend hvs Hold Hf Huniq.
  destruct (sessions_linked EO KO H) as [t0 L]. destruct (linked_snapshot EO KO L Sn) as [ps S]. destruct (sessions_stored EO KO H) as (G & _).
  assert (Hkey : fkey (dbf (ss_db s)) = None). { destruct (link_inv EO KO L) as [B I]. rewrite <- (lk_db L), (inv_fkey KO I). reflexivity. }
  assert (Hfo : Forall (follows dbck_options keep_all) (v_docs v)).
  { apply Forall_forall. intros rv _. constructor; cbn [dbck_options co_filter co_rewrite keep_all po_keep po_meta]; [intros i _; left; reflexivity|reflexivity]. }
  destruct (@link_recover E EO Hcomp getkey KO s h v ps p g c dbck_options keep_all pl r t G S Hp Hkey Sp ltac:(discriminate) eq_refl Hfo ltac:(reflexivity) Hloc Hpp Hps Hts Hcalm Hcmp Rm Hend) as (b & Hb & Hok & Hall & Hlink).
  set (w := Contents (filter b (v_docs v)) (v_locals v) (v_seq v)) in *. destruct (Hlink w (eq_sym (compacted_all w))) as [t1 L1]. clear Hlink.
  set (f0 := dbf (reader s h p)) in *. assert (G0 : good f0) by (apply good_fpos; [exact G|apply Hp]).
  set (P := fun x => exists v1, In v1 (v :: map snd hvs) /\ In x (v_docs v1)).
  assert (HP : forall x y, P x -> P y -> rv_seq x = rv_seq y -> rv_id x = rv_id y).
  { intros x y (v1 & A1 & A2) (v2 & B1 & B2). cbn zeta in Huniq. exact (Huniq v1 v2 x y A1 B1 A2 B2). }
  destruct (link_inv EO KO L1) as [B1 I1]. pose proof (lk_db L1) as E1. cbn [ss_db] in E1.
  assert (Gt : good (dbf t)) by (rewrite <- E1; exact (i_good I1)).
  destruct (link_open EO KO pl2 false L1 eq_refl (image_now (proj1 Gt))) as (d & v' & s' & Ho & Hv & Hvp & Hs & _ & t2 & L2). cbn [ss_pend] in Hv. destruct Hv as [-> | []]. cbn [vn_contents vn_pos] in *.
  rewrite N.eqb_refl in Hs. cbn [ss_old] in Hs. rewrite Hs in L2. clear Hs s'.
  destruct (link_inv EO KO L2) as [B2 I2]. pose proof (lk_db L2) as E2. cbn [ss_db] in E2.
  assert (Ed : easy_file (dbf d)).
  { eapply open_easy; [|rewrite <- E2, (inv_fkey KO I2); reflexivity|exact Ho]. exact Hcalm2. }
  assert (Hd : dst (dbh d) d w).
  { constructor; unfold cxf; cbn [cx_db].
    - rewrite <- E2. exact (i_good I2).
    - exact Ed.
    - rewrite <- E2. exact (i_pos1 I2).
    - rewrite <- E2. exact (i_dropped I2).
    - exact (lk_now L2).
    - exists (h_by_id (dbh d)), (h_by_seq (dbh d)), (h_local (dbh d)), (h_update_seq (dbh d)). destruct (dbh d). reflexivity. }
  assert (HwP : forall x, In x (v_docs w) -> P x) by (intros x Hx; cbn [w v_docs] in Hx; apply filter_In in Hx; exists v; split; [now left|apply Hx]).
  destruct (@loop_ok E EO Hcomp c Hc (dbh d) f0 g G0 Sp P HP h hvs (Db g h false) (Datatypes.S (N.to_nat (h_position h))) Hold eq_refl eq_refl) as (rss & Hrss & Hloop).
  { pose proof (older_len Hold) as Hl. rewrite map_length in Hl. cbn [dbh] in Hl. lia. }
  { apply Forall_forall. intros hv Hhv. rewrite Forall_forall in Hf. destruct (Hf hv Hhv) as [A1 A2]. split; [|split; [exact A2|]].
    - destruct (linked_snapshot EO KO L A1) as [qs Sq]. exists qs. unfold f0. eapply stored_keeps; [apply set_fpos_keeps; apply Hp|exact Sq].
    - intros x Hx. exists (snd hv). split; [right; now apply in_map|exact Hx]. }
  exists b, rss. split; [exact Hb|]. split; [exact Hrss|]. split.
  { split.
    - intros Hr rv Hrv. apply Hb; [exact Hrv|]. destruct (Hok Hr rv Hrv) as [H1|H1]; [exact H1|discriminate].
    - intros Hr. apply Hall. intros rv Hrv. apply Hb; [exact Hrv|]. now apply Hr. }
  intros stale ts retries Hts2. unfold recover_file. rewrite Hcmp, Ho. destruct (hook_counts (Db g h false)) as [nv nc]. cbn zeta.
  set (det := (match r with Ok _ => false | Err _ => true end) || (0 <? nc)).
  assert (Hdet : det = true <-> (exists e, r = Err e) \/ 0 < nc).
  { unfold det. rewrite orb_true_iff, N.ltb_lt. destruct r as [u|e]; split; intros [A|A]; auto; try discriminate; [destruct A; discriminate|left; eexists; reflexivity]. }
  clearbody det. destruct (if det && stale then rewind_and_get_stale_data c (Db g h false) d else (d, 0)) as [d1 n] eqn:Hrun.
  destruct (if 0 <? n then commit_ex d1 ts retries else (Ok tt, d1)) as [x d2] eqn:Hcm.
  eexists. split; [reflexivity|]. cbn [dk_detected dk_corrupted dk_visited dk_db dk_res dk_stale]. split; [exact Hdet|]. split; [reflexivity|]. intros Rm2 Hend2.
  destruct (det && stale) eqn:Hds.
  2:{ injection Hrun as <- <-. cbn [N.ltb N.compare] in Hcm. injection Hcm as <- <-. split; [reflexivity|]. split; [lia|]. eexists _, _, _. exact L2. }
  unfold rewind_and_get_stale_data in Hrun. cbn [dbh] in Hrun. destruct (Hloop d 0 w d1 n Hd HwP Hrun) as ((log & W) & Hw').
  assert (Gd1 : good (dbf d1)) by exact (le_good (writes_le EO (ho_good Hd) W)).
  assert (A12 : appends (dbf d1) (dbf d2)) by (destruct (0 <? n); [exact (commit_appends Hcm)|injection Hcm as _ <-; constructor]).
  destruct (appends_mono EO A12 Gd1) as [M1 M2]. destruct (@appends_good E EO _ _ A12 Gd1) as (_ & Pc & _).
  assert (F1 : fin47 (dbf d1)) by (split; [exact (M2 (rm_big Rm2))|pose proof (rm_pos Rm2); lia]).
  destruct (Hw' F1) as (K1 & K2 & K3 & K4). clear Hw'. set (w' := fold_left add_missing (concat rss) w) in *.
  assert (Hn : lenN (v_docs w') = lenN (v_docs w) + n) by lia.
  destruct (N.ltb_spec 0 n) as [Hn0|Hn0].
  - destruct (ho_hdr K1) as (a1 & b1 & l1 & n1 & HE). cbn [cx_db] in HE.
    destruct (@commit_calm E d1 ts retries) as [d3 Hcm2].
    { apply (ho_okf K1). } { apply (ho_okf K1). }
    { rewrite HE. cbn [set_seq_num set_roots h_version]. pose proof (ho_version (i_hok I2)) as Hv. rewrite E2 in Hv. exact Hv. }
    rewrite Hcm2 in Hcm. injection Hcm as <- <-. destruct (commit_header_roots Hcm2) as (Hr1 & Hr2 & Hr3).
    assert (Rm1 : room (Db (dbf d1) (dbh d1) false)).
    { constructor; cbn [dbf dbh]; [apply F1|exact (M1 (rm_lost Rm2))|apply F1|rewrite <- Hr1; exact (rm_id Rm2)|rewrite <- Hr2; exact (rm_seq Rm2)|rewrite <- Hr3; exact (rm_local Rm2)]. }
    destruct (@link_set E EO None getkey KO _ _ (dbf d1) (dbh d1) w' log L2) as [t3 L3].
    { rewrite E2. exact W. } { exact (ho_stored K1). } { rewrite E2, HE. exists a1, b1, l1, n1. reflexivity. } { exact Rm1. }
    cbn [ss_ack ss_old ss_pend] in L3. rewrite (i_dropped I2) in L3.
    assert (Dd1 : Db (dbf d1) (dbh d1) false = d1). { pose proof (ho_drop K1) as Hdr. cbn [cx_db] in Hdr. rewrite <- Hdr. destruct d1; reflexivity. }
    rewrite Dd1 in L3.
    pose proof (@write_commit E (Session d1 w' (Some (Version (h_position (dbh t)) w)) [] []) ts retries (Ok tt) d3 Hts2) as Wc. cbn [ss_db dbf ss_now ss_ack ss_old opt_list app] in Wc.
    destruct (link_write EO KO L3 (Wc ltac:(lia) Hcm2 (rm_lost Rm2))) as [t4 L4].
    split; [reflexivity|]. split; [exact Hn|]. eexists _, _, _. exact L4.
  - assert (n = 0) by lia. subst n. injection Hcm as <- <-. assert (Hww : w' = w) by (apply K3; reflexivity).
    split; [reflexivity|]. split; [exact Hn|]. change (exists q old t', linked None getkey (Session d1 w' (Some (Version q w')) old []) t'). rewrite Hww in *.
    destruct (ho_hdr K1) as (a1 & b1 & l1 & n1 & HE). cbn [cx_db] in HE.
    destruct (@link_set E EO None getkey KO _ _ (dbf d1) (dbh d1) w log L2) as [t3 L3].
    { rewrite E2. exact W. } { exact (ho_stored K1). } { rewrite E2, HE. exists a1, b1, l1, n1. reflexivity. } { exact (room_drop Rm2). }
    cbn [ss_ack ss_old ss_pend] in L3. rewrite (i_dropped I2) in L3.
    assert (Dd1 : Db (dbf d1) (dbh d1) false = d1). { pose proof (ho_drop K1) as Hdr. cbn [cx_db] in Hdr. rewrite <- Hdr. destruct d1; reflexivity. }
    rewrite Dd1 in L3. eexists _, _, _. exact L3.
Qed.
End Link.
