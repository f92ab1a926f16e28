(** Facts on couch_compact with purging. *)
From Coq Require Import Sorting.Permutation.
From Verif Require Import Base SpecOrder Codec CodecFacts File FileFacts ChunkFacts Header HeaderFacts History CrashFacts DataFacts SpecCrash NavFacts ReachNav OpenFacts CommitFacts SpecFile
  Btree BtreeRead TreeStore SpecMap MergeFacts ModifyFacts LookupFacts Db SpecDb SortFacts ReduceFacts DbFacts DbSave DbRead TreeWriter Compact SpecCompact CompactFacts
  SpecSession ShowFacts SessionFacts SaveFacts ErrorFacts Compactor SpecCompactor.
Local Open Scope N_scope.
Unset Strict Implicit.

(** ** The hook *)

Lemma meta_time_read m : 16 <= lenN m -> rd_be 4 8 m = Ok (match m with _ :: _ :: _ :: _ :: _ :: _ :: _ :: _ :: a :: b :: c :: d :: _ => ((a * 256 + b) * 256 + c) * 256 + d | _ => 0 end).
Proof.
  intros H. do 12 (destruct m as [|? m]; [vm_compute in H; exfalso; apply H; reflexivity|]).
  unfold rd_be, getb. destruct (N.leb_spec (8 + 4) (lenN (n :: n0 :: n1 :: n2 :: n3 :: n4 :: n5 :: n6 :: n7 :: n8 :: n9 :: n10 :: m))) as [_|Hl]; [|lia]. cbn [bind]. f_equal.
Qed.
Lemma meta_time_long r : match meta_time r with Some t => 16 <= lenN (rv_rev_meta r) /\ rd_be 4 8 (rv_rev_meta r) = Ok t | None => lenN (rv_rev_meta r) < 16 end.
Proof.
  unfold meta_time. set (m := rv_rev_meta r). clearbody m. 
  do 16 (destruct m as [|? m]; [reflexivity|]). split; [|apply meta_time_read]; rewrite !lenN_cons; lia.
Qed.
Lemma time_purge_about ts upto mx i r : about i r ->
  time_purge (Purge ts upto mx) i = (verdict (negb (old_deletion ts upto r)), Purge ts upto (if old_deletion ts upto r then N.max mx (rv_seq r) else mx)).
Proof.
  intros [A1 A2 A3 A4 A5 A6]. unfold time_purge, old_deletion. rewrite A2, A4, A5. cbn [px_ts px_upto px_max]. pose proof (meta_time_long r) as H.
  destruct (rv_deleted r); cbn [andb]; [|reflexivity]. destruct (meta_time r) as [t|].
  - destruct H as [H1 H2]. apply N.leb_le in H1. rewrite H1, H2. cbn [andb]. destruct ((t <? ts) && ((upto =? 0) || (rv_seq r <=? upto))); cbn [negb verdict]; [|reflexivity].
    f_equal. destruct (N.ltb_spec mx (rv_seq r)); f_equal; lia.
  - destruct (N.leb_spec 16 (lenN (rv_rev_meta r))); [lia|]. reflexivity.
Qed.
Lemma time_purge_same ts upto m m' i : fst (time_purge (Purge ts upto m) i) = fst (time_purge (Purge ts upto m') i).
Proof.
  unfold time_purge. cbn [px_ts px_upto px_max]. destruct (di_deleted i && _); [|reflexivity]. destruct (rd_be 4 8 (di_rev_meta i)); [|reflexivity]. destruct (_ && _); reflexivity.
Qed.
Lemma highest_perm a b : Permutation a b -> highest a = highest b.
Proof. induction 1; cbn [highest fold_right] in *; unfold highest in *; lia. Qed.
Lemma highest_bound rs B : Forall (fun r => rv_seq r < B) rs -> 0 < B -> highest rs < B.
Proof. induction 1 as [|r rs H F IH]; intros HB; cbn [highest fold_right]; [exact HB|]. specialize (IH HB). unfold highest in IH. lia. Qed.

Section WithEnv.
Context {E : Env} (EO : EnvOk E).

Lemma purge_follows a ts upto mx r : follows (purge_opts a (Purge ts upto mx)) (keep_recent ts upto) r.
Proof.
  constructor; cbn [purge_opts co_filter co_rewrite keep_recent po_keep po_meta]; [|auto]. intros i Hi. left. rewrite (time_purge_about ts upto mx Hi). reflexivity.
Qed.
Lemma fetch_same a ts upto m m' rq src k v u : seq_fetch (purge_opts a (Purge ts upto m)) rq src k v u = seq_fetch (purge_opts a (Purge ts upto m')) rq src k v u.
Proof.
  unfold seq_fetch. destruct v as [v|]; [|reflexivity]. destruct (_ <? _); [reflexivity|]. destruct (rd_be 6 5 v) as [w|e]; [|reflexivity].
  cbn [purge_opts co_filter co_drop co_rewrite].
  assert (Ha : ask (purge_opts a (Purge ts upto m)) src k v (N.ldiff w BP_DELETED_FLAG) = ask (purge_opts a (Purge ts upto m')) src k v (N.ldiff w BP_DELETED_FLAG)).
  { unfold ask. cbn [purge_opts co_filter]. destruct (by_seq_read_docinfo k v) as [i|e]; cbn [bind]; [|reflexivity]. now rewrite (time_purge_same ts upto m m' i). }
  cbv zeta. now rewrite Ha.
Qed.

(** The scan does what it does with the hook in its first state, and finds the highest sequence number that is removed. *)
Lemma purge_calls a ts upto m0 rq src l : Forall (fun p => docinfo_ok (fst p) /\ about (fst p) (snd p)) l -> forall u m,
  exists m', run_calls (LReq seq_cmp (purge_fetch a rq src) None false) (map found (map seq_entry (map fst l))) (u, Purge ts upto m) =
    (let '(r, u') := run_calls (LReq seq_cmp (seq_fetch (purge_opts a (Purge ts upto m0)) rq src) None false) (map found (map seq_entry (map fst l))) u in (r, (u', Purge ts upto m'))) /\
    (fst (run_calls (LReq seq_cmp (seq_fetch (purge_opts a (Purge ts upto m0)) rq src) None false) (map found (map seq_entry (map fst l))) u) = Ok tt ->
     m' = N.max m (highest (filter (old_deletion ts upto) (map snd l)))).
Proof.
  induction 1 as [|p l (Hd & Ha) F IH]; intros u m.
  - exists m. cbn [map run_calls filter highest fold_right]. split; [reflexivity|]. lia.
  - cbn [map run_calls found l_fetch fst snd seq_entry]. unfold purge_fetch at 1. rewrite (fetch_same a ts upto m m0).
    rewrite lenN_seq_value. destruct (N.ltb_spec (18 + lenN (di_id (fst p)) + lenN (di_rev_meta (fst p))) 18); [lia|]. rewrite (by_seq_roundtrip Hd), (time_purge_about ts upto m Ha). cbn [snd].
    destruct (seq_fetch _ rq src _ _ u) as [[[]|e] u1].
    + destruct (IH u1 (if old_deletion ts upto (snd p) then N.max m (rv_seq (snd p)) else m)) as (m' & H1 & H2). exists m'. rewrite H1. split; [reflexivity|]. intros Hr. rewrite (H2 Hr). cbn [filter].
      destruct (old_deletion ts upto (snd p)); [|reflexivity]. cbn [highest fold_right]. unfold highest. lia.
    + exists (if old_deletion ts upto (snd p) then N.max m (rv_seq (snd p)) else m). cbn [fst]. split; [reflexivity|discriminate].
Qed.

Lemma purge_docs_copy c a ts upto m src v ps f r f1 : good (dbf src) -> stored (dbf src) (dbh src) v ps ->
  purge_docs c a (Purge ts upto m) src f = (r, f1) ->
  copy_docs c (purge_opts a (Purge ts upto m)) src f = (match r with Ok (ids, seqs, _) => Ok (Ok tt, ids, seqs) | Err e => Err e end, f1) /\
  match r with Ok (_, _, x) => px_max x = N.max m (highest (filter (old_deletion ts upto) (v_docs v))) | Err _ => True end.
Proof.
  intros Gs S. unfold purge_docs, copy_docs. destruct (h_by_seq (dbh src)) as [p0|] eqn:Hp.
  2:{ intros H; injection H as <- <-. split; [reflexivity|]. rewrite <- (sd_docs S), (no_seq S Hp). cbn [px_max map filter highest fold_right]. lia. }
  unfold purge_seq_tree, seq_tree_copy. cbn [purge_opts co_recovery]. fold (purge_opts a (Purge ts upto m)). set (u0 := CState (St f [] false) new_btree_modres new_writer).
  pose proof (@scan_lookup E EO src v ps Gs S _ (LReq seq_cmp (purge_fetch a (seq_bulk c) (dbf src)) None false) p0 (u0, Purge ts upto m) eq_refl eq_refl eq_refl Hp) as H1.
  pose proof (@scan_lookup E EO src v ps Gs S _ (LReq seq_cmp (seq_fetch (purge_opts a (Purge ts upto m)) (seq_bulk c) (dbf src)) None false) p0 u0 eq_refl eq_refl eq_refl Hp) as H2.
  assert (Fo : Forall (fun p => docinfo_ok (fst p) /\ about (fst p) (snd p)) (ordered ps)).
  { eapply Permutation_Forall; [apply ordered_perm|]. pose proof (sd_rep S) as Q1. pose proof (sd_ok S) as Q2. rewrite Forall_map in Q2. rewrite Forall_forall in *. intros p Hin. split; [exact (proj1 (Q2 p Hin))|exact (proj1 (Q1 p Hin))]. }
  destruct (purge_calls a ts upto m (seq_bulk c) (dbf src) Fo u0 m) as (m' & H3 & H4).
  destruct (lookup_inner (LReq seq_cmp (purge_fetch a (seq_bulk c) (dbf src)) None false) _ _ _ _ _) as [y l]. destruct (lookup_inner _ _ _ _ _ _) as [y' l'].
  rewrite H3, <- H2 in H1. rewrite <- H2 in H4. cbn [fst] in H4. injection H1 as -> Hl. rewrite Hl. destruct y' as [[]|e]; cbn [orb]; [|intros H; injection H as <- <-; auto].
  specialize (H4 eq_refl). destruct (complete_new_btree _ _ _) as [[r0|e] s1]; [|intros H; injection H as <- <-; auto]. destruct (tw_sort _ _) as [w1|e]; [|intros H; injection H as <- <-; auto].
  destruct (tw_write _ _ _) as [[[id_root w2]|e] s2]; [|intros H; injection H as <- <-; auto]. destruct (_ =? _); [|intros H; injection H as <- <-; auto].
  intros H; injection H as <- <-. split; [reflexivity|]. cbn [px_max]. rewrite H4. f_equal.
  apply highest_perm. apply perm_filter. rewrite <- (sd_docs S). apply Permutation_map. apply Permutation_sym, ordered_perm.
Qed.

Variable key : option keyinfo.
Variable getkey : N -> bytes -> bytes -> res N.
Hypothesis KO : key_ok key getkey.

Lemma link_purge ss h v p c a ts upto pl d ps : good (dbf (ss_db ss)) -> stored (dbf (ss_db ss)) h v ps -> fpos (dbf (ss_db ss)) <= p <= size (dbf (ss_db ss)) ->
  (fkey (dbf (ss_db ss)) = None <-> key = None) -> (key = None \/ 11 < h_version h \/ ca_upgrade a = true) ->
  h_purge_ptr h = 0 -> h_timestamp h < 2^64 ->
  compact_purge c a (Purge ts upto 0) (reader ss h p) (empty_file pl) key = (Ok tt, d) -> room d -> fpos (dbf d) + BLOCK < 2^47 ->
  h_purge_seq (dbh d) = highest (filter (old_deletion ts upto) (v_docs v)) /\
  let w := compacted (keep_recent ts upto) v in exists s, linked key getkey (Session d w (Some (Version (h_position (dbh d)) w)) [] []) s.
Proof.
  intros G S Hp Henc Hleg Hpp Hts Hc' Rm Hend. cbv zeta. set (pol := keep_recent ts upto). set (o := purge_opts a (Purge ts upto 0)).
  unfold compact_purge in Hc'. cbn [reader dropped dbh] in Hc'. cbn zeta in Hc'.
  destruct (open_new _ _ _ _) as [[[]|e] t] eqn:Ho; [|discriminate].
  set (src := reader ss h p) in *.
  assert (Gs : good (dbf src)) by (destruct G as [G1 G2]; split; [exact (ex_wf (set_fpos_ext 0 (fun _ _ => True) p G1))|cbn; lia]).
  assert (Ss : stored (dbf src) (dbh src) v ps) by (eapply stored_keeps; [apply set_fpos_keeps; apply Hp|exact S]).
  destruct (purge_docs _ _ _ _ _) as [[[[ids seqs] x]|e] f1] eqn:Hd0; [|discriminate].
  destruct (@purge_docs_copy c a ts upto 0 src v ps (dbf t) _ f1 Gs Ss Hd0) as [Hd Hx]. fold o in Hd. rewrite N.max_0_l in Hx.
  destruct (copy_locals _ _ _) as [[locs|e] f2] eqn:Hl; [|discriminate].
  set (h1 := Header _ _ _ _ _ _ _ _ _ _ _) in Hc'. rename Hc' into Hcm.
  assert (Hre : co_filter o = None -> co_rewrite o = None) by discriminate.
  assert (Hfo : Forall (follows o pol) (v_docs v)) by (apply Forall_forall; intros r _; apply purge_follows).
  assert (Hlegacy : key = None \/ (h_version h <=? 11) && negb (ca_upgrade a) = false).
  { destruct Hleg as [H|[H|H]]; [now left|right|right]; [|rewrite H; apply andb_false_r]. destruct (N.leb_spec (h_version h) 11); [lia|reflexivity]. }
  destruct (open_new_good EO KO Ho) as (Gt & Pt & Kt & Dt). pose proof (commit_appends Hcm) as Ac. cbn [dbf] in Ac.
  assert (Het : fkey (dbf src) = None <-> fkey (dbf t) = None).
  { rewrite Kt. unfold thekey. cbn [src reader dbf set_fpos fkey]. rewrite Henc. destruct key; split; congruence. }
  destruct (@copy_stored E EO anyf anye any_okerr (fun _ _ _ _ _ _ _ => I) c o pol src v ps Gs Ss Hre eq_refl Hfo (dbf t) Gt I Pt Het _ _ _ _ Hd Hl) as [[log W] Hst].
  pose proof (writes_le EO Gt W) as Lt. destruct (appends_mono EO Ac (le_good Lt)) as [M1 M2]. destruct (@appends_good E EO _ _ Ac (le_good Lt)) as (_ & Pc & _).
  assert (B2 : big f2 = false) by exact (M2 (rm_big Rm)). assert (L2 : lost f2 = false) by exact (M1 (rm_lost Rm)).
  assert (F2 : fin47 f2) by (split; [exact B2|pose proof (rm_pos Rm); lia]).
  destruct (Hst F2 _ _ _ _ eq_refl eq_refl) as [_ Hst']. destruct (Hst' h1 eq_refl eq_refl eq_refl eq_refl) as [ps' S2].
  assert (Lost : lost (dbf t) = false) by (destruct Lt as (X & _); exact (ex_lost X L2)).
  destruct (@link_new E key getkey pl _ true t Hlegacy Ho Lost) as [s0 L0]. pose proof (lk_db L0) as E0. cbn [ss_db] in E0.
  assert (Hpurge : px_max x < 2^48).
  { rewrite Hx. apply highest_bound; [|reflexivity]. rewrite Forall_forall. intros r Hr. apply filter_In in Hr. destruct Hr as [Hr _]. rewrite <- (sd_docs Ss) in Hr. apply in_map_iff in Hr. destruct Hr as (q & <- & Hq).
    pose proof (sd_rep Ss) as Q1. pose proof (sd_ok Ss) as Q2. rewrite Forall_map in Q2. rewrite Forall_forall in Q1, Q2. rewrite <- (ab_seq (proj1 (Q1 q Hq))). exact (dok_seq (Q2 q Hq)). }
  destruct (commit_header_roots Hcm) as (Hr1 & Hr2 & Hr3). cbn [dbh] in Hr1, Hr2, Hr3.
  assert (Rm1 : room (Db f2 h1 false)).
  { constructor; cbn [dbf dbh]; [exact B2|exact L2|apply F2|rewrite <- Hr1; exact (rm_id Rm)|rewrite <- Hr2; exact (rm_seq Rm)|rewrite <- Hr3; exact (rm_local Rm)]. }
  assert (L1 : exists s1, linked key getkey (Session (Db f2 h1 (dropped (s_db s0))) (compacted pol v) None [] []) s1).
  { eapply (@link_set_all E EO key getkey KO (Session t no_contents None [] []) s0 f2 h1 (compacted pol v)); [exact L0|rewrite E0; exact W|exists ps'; exact S2| | | | |exact Rm1].
    - rewrite E0. reflexivity.
    - exact Hpurge.
    - cbn [h1 h_purge_ptr]. rewrite Hpp. reflexivity.
    - cbn [h1 h_purge_ptr]. rewrite Hpp. apply N.le_0_l. }
  destruct L1 as [s1 L1]. rewrite E0, Dt in L1.
  assert (Wr : write (Session (Db f2 h1 false) (compacted pol v) None [] [])
     (Session d (compacted pol v) (Some (Version (align (fpos f2)) (compacted pol v))) [] [])).
  { pose proof (@write_commit E (Session (Db f2 h1 false) (compacted pol v) None [] []) (h_timestamp h) 0 (Ok tt) d Hts) as Wc. cbn [ss_db dbf ss_now ss_ack ss_old opt_list app] in Wc.
    apply Wc; [lia|exact Hcm|exact (rm_lost Rm)]. }
  split.
  - clear - Hcm Hx. rewrite <- Hx. change (px_max x) with (h_purge_seq h1). revert Hcm. unfold commit_ex, db_write_header. cbn [dbh dbf dropped]. cbv zeta. set (hh := if (h_version _ =? 11) || (h_version _ =? 12) || (h_version _ =? 13) then _ else _).
    assert (Hhh : h_purge_seq hh = h_purge_seq h1) by (subst hh; repeat match goal with |- context [if ?b then _ else _] => destruct b end; reflexivity).
    clearbody hh. destruct (_ || _ || _ || _); [|discriminate]. destruct (write_header _ _ _) as [[q|e] f3]; [|discriminate]. cbn [dbh dbf dropped].
    destruct (fsync f3) as [[]f4]; [|discriminate]. destruct (commit_flip _ _ _) as [[[]|e] f5]; [|discriminate]. intros Hd. injection Hd as <-. exact Hhh.
  - destruct (link_write EO KO L1 Wr) as [s2 L3]. exists s2.
    assert (Hpos : align (fpos f2) = h_position (dbh d)); [|rewrite <- Hpos; exact L3].
    destruct (link_inv EO KO L1) as [B1 I1]. pose proof (lk_db L1) as E1. cbn [ss_db] in E1. rewrite <- E1 in Hcm. destruct (@commit_header E EO key B1 s1 _ _ _ _ I1 Hcm) as [_ Hh].
    rewrite Hh, E1. reflexivity.
Qed.

(** Errors, as for compactions with hooks that are functions. *)
Lemma purge_io c a ts upto src v ps pl e d :
  good (dbf src) -> dropped src = false -> stored (dbf src) (dbh src) v ps ->
  Forall (fun s => match w_err s with Some e => e = E_WRITE | None => True end) pl -> key_fits key -> (fkey (dbf src) = None <-> key = None) ->
  compact_purge c a (Purge ts upto 0) src (empty_file pl) key = (Err e, d) -> fin47 (dbf d) -> io_error e.
Proof.
  intros Gs Hdr S Hp Hk Henc Hc' F. set (o := purge_opts a (Purge ts upto 0)). set (pol := keep_recent ts upto).
  assert (Hre : co_filter o = None -> co_rewrite o = None) by discriminate.
  assert (Hfo : Forall (follows o pol) (v_docs v)) by (apply Forall_forall; intros r _; apply purge_follows).
  unfold compact_purge in Hc'. rewrite Hdr in Hc'. destruct (open_new _ _ _ _) as [ro t] eqn:Ho. pose proof (open_new_io Hp Hk Ho) as So.
  destruct ro as [[]|e0]; [|injection Hc' as <- <-; auto]. cbn zeta in Hc'.
  destruct (open_new_good EO KO Ho) as (Gt & Pt & Kt & Dt).
  assert (Het : fkey (dbf src) = None <-> fkey (dbf t) = None) by (rewrite Kt; unfold thekey; rewrite Henc; destruct key; split; congruence).
  assert (OB : forall f b e f', sane f -> good f -> db_write_buf f b = (Err e, f') -> io_error e) by (intros f b e1 f' S1 _ Hw; exact (proj2 (write_buf_io S1 Hw))).
  destruct (purge_docs _ _ _ _ _) as [rd f1] eqn:Hd0. destruct (@purge_docs_copy c a ts upto 0 src v ps (dbf t) rd f1 Gs S Hd0) as [Hd _]. fold o in Hd.
  destruct (@docs_copy E EO sane io_error io_okerr OB c o pol src v ps Gs S Hre eq_refl Hfo (dbf t) Gt So Pt Het _ _ Hd) as [[l1 W1] D1]. pose proof (writes_le EO Gt W1) as L1.
  pose proof (@okf_le E EO sane io_error io_okerr _ _ _ Gt So W1) as S1.
  destruct rd as [[[ids seqs] x]|e1]; [|injection Hc' as <- <-; exact (D1 F)].
  destruct (copy_locals _ _ _) as [rl f2] eqn:Hl.
  destruct (@locals_copy E EO sane io_error io_okerr c src v ps Gs S f1 _ _ (le_good L1) S1 Hl) as [[l2 W2] D2]. pose proof (writes_le EO (le_good L1) W2) as L2.
  pose proof (@okf_le E EO sane io_error io_okerr _ _ _ (le_good L1) S1 W2) as S2.
  destruct rl as [locs|e2]; [|injection Hc' as <- <-; exact (D2 F)].
  set (d2 := Db f2 _ false) in Hc'.
  assert (Hv : known_version (h_version (dbh d2))).
  { cbn [d2 dbh h_version]. revert Ho. unfold open_new. destruct (create_metadata_header _ _) as [[meta|e4] f4]; [|discriminate]. unfold create_header. cbn [dbf dbh].
    destruct (fpos f4 =? 0); [destruct (write_disk_block_type f4 0 B_DATA) as [[u1|e4] f5]; [|discriminate]|]; intros H; injection H as <-; cbn [dbh h_version]; unfold known_version; destruct (crcm f4); auto. }
  destruct (@commit_io E d2 _ _ _ _ Hv S2 Hc') as [_ A]. exact A.
Qed.
End WithEnv.
