(** The file written by a compaction in recovery mode. *)
From Verif Require Import Base SpecOrder Codec CodecFacts File FileFacts ChunkFacts Header HeaderFacts History CrashFacts DataFacts SpecCrash NavFacts ReachNav OpenFacts CommitFacts SpecFile
  Btree BtreeRead TreeStore SpecMap MergeFacts ModifyFacts Db SpecDb SortFacts ReduceFacts DbFacts DbSave DbRead TreeWriter Compact SpecCompact CompactFacts
  SpecSession ShowFacts SessionFacts ReadFacts PropertiesSave SpecRecover RecoverFacts RecoverCopy.
Local Open Scope N_scope.
Unset Strict Implicit.

Section WithEnv.
Context {E : Env} (EO : EnvOk E).
Hypothesis Hcomp : forall b, compress b <> None.
Variable getkey : N -> bytes -> bytes -> res N.
Hypothesis KO : key_ok None getkey.


(** ** Without failures *)

Lemma fsync_calm f : calm f -> exists f', fsync f = (Ok tt, f') /\ calm f'.
Proof.
  intros [Hd Hc]. unfold fsync. rewrite Hd. unfold next_step. destruct (plan f) as [|s p] eqn:Ep.
  - eexists. split; [reflexivity|]. unfold calm. cbn. rewrite Ep. auto.
  - inversion Hc as [|? ? [H1 H2] H3]; subst. rewrite H1, H2. eexists. split; [reflexivity|]. unfold calm. cbn. auto.
Qed.
Lemma block_type_calm f pos t : calm f -> exists f', write_disk_block_type f pos t = (Ok tt, f') /\ calm f'.
Proof. intros H. unfold write_disk_block_type. destruct (@pwrite_calm f pos [t] H ltac:(discriminate)) as (n & f' & -> & H' & _). eauto. Qed.
Lemma write_header_calm f b t : calm f -> crcm f <> CRC_UNKNOWN -> exists p f', write_header f b t = (Ok p, f') /\ calm f'.
Proof.
  intros Hc Hm. unfold write_header. destruct (get_checksum (crcm f) b) as [c|e] eqn:Ec.
  2:{ destruct (crcm f); cbn in Ec; try discriminate; congruence. }
  destruct (@write_all_calm f (align (fpos f)) (t :: be 4 ((lenN b + 4) mod 2^32) ++ be 4 c) Hc) as (f1 & -> & H1).
  destruct (@raw_write_calm t f1 (align (fpos f) + 9) b H1) as (e & f2 & -> & H2). do 2 eexists. split; [reflexivity|]. exact H2.
Qed.
Lemma commit_calm d ts n : calm (dbf d) -> crcm (dbf d) <> CRC_UNKNOWN -> h_version (dbh d) = 11 \/ h_version (dbh d) = 12 \/ h_version (dbh d) = 13 \/ h_version (dbh d) = 14 -> exists d', commit_ex d ts n = (Ok tt, d').
Proof.
  intros Hc Hm Hv. unfold commit_ex. match goal with |- context [db_write_header ?x _] => set (d1 := x) end.
  assert (Hw : exists d2, db_write_header d1 B_DATA = (Ok tt, d2) /\ calm (dbf d2)).
  { unfold db_write_header. set (h1 := if (h_version (dbh d1) =? 11) || _ then _ else _). set (h2 := if _ || _ || _ then _ else h1).
    assert (H2 : h_version h2 = h_version (dbh d)) by (unfold h2, h1; repeat match goal with |- context [if ?b then _ else _] => destruct b end; reflexivity).
    clearbody h2. rewrite H2. assert (Hb : (h_version (dbh d) =? 11) || (h_version (dbh d) =? 12) || (h_version (dbh d) =? 13) || (h_version (dbh d) =? 14) = true) by (destruct Hv as [->|[->|[->| ->]]]; reflexivity).
    rewrite Hb. destruct (@write_header_calm (dbf d1) (encode_header h2) B_DATA Hc Hm) as (p & f' & -> & H'). eauto. }
  destruct Hw as (d2 & -> & H2). destruct (fsync_calm H2) as (f3 & -> & H3).
  assert (Hf : exists f4, commit_flip n f3 (align (fpos (dbf d))) = (Ok tt, f4)).
  { destruct n; cbn [commit_flip]; destruct (block_type_calm (align (fpos (dbf d))) B_HEADER H3) as (f4 & -> & H4); destruct (fsync_calm H4) as (f5 & -> & _); eauto. }
  destruct Hf as (f4 & ->). eauto.
Qed.
Lemma open_new_easy pl legacy : calm (empty_file pl) -> exists t, open_new (empty_file pl) None legacy true = (Ok tt, t) /\ easy_file (dbf t) /\ (h_version (dbh t) = 11 \/ h_version (dbh t) = 14).
Proof.
  intros Hc. unfold open_new. cbn [create_metadata_header create_header dbf]. set (f0 := set_fpos _ 0). change (fpos f0 =? 0) with true. cbv iota.
  assert (H0 : calm f0) by exact Hc. unfold write_disk_block_type. destruct (@pwrite_calm f0 0 [B_DATA] H0 ltac:(discriminate)) as (n & f1 & Hw & H1 & _).
  assert (W0 : wf f0). { unfold f0. apply (ex_wf (set_fpos_ext 0 (Tval 0) 0 (set_fkey_wf None (set_crcm_wf (if legacy then CRC32 else CRC32C) (proj1 (empty_good pl)))))). }
  pose proof (pwrite_ext W0 Hw) as X. rewrite Hw. eexists. split; [reflexivity|]. cbn [dbf dbh h_version]. split; [|destruct legacy; auto].
  split; [exact H1|]. change (crcm (set_fpos f1 1)) with (crcm f1). change (fkey (set_fpos f1 1)) with (fkey f1). rewrite (ex_crcm X), (ex_fkey X). split; [destruct legacy; discriminate|reflexivity].
Qed.

Theorem link_recover s h v ps p g c o pol pl r d : good (dbf (ss_db s)) -> stored (dbf (ss_db s)) h v ps -> fpos (dbf (ss_db s)) <= p <= size (dbf (ss_db s)) ->
  fkey (dbf (ss_db s)) = None -> spoiled (dbf (reader s h p)) g ->
  (co_filter o = None -> co_rewrite o = None) -> co_recovery o = true -> Forall (follows o pol) (v_docs v) -> (co_filter o <> None -> co_last o = Ok tt) ->
  (forall id, In id (map fst (v_locals v)) -> exists x, open_local_document (Db g h false) id = Ok x) ->
  h_purge_ptr h = 0 -> h_purge_seq h + 1 < 2^48 -> h_timestamp h < 2^64 ->
  calm (empty_file pl) -> compact c o (Db g h false) (empty_file pl) None = (r, d) -> room d -> fpos (dbf d) + BLOCK < 2^47 ->
  exists b, (forall rv, In rv (v_docs v) -> (b rv = true <-> readable_doc (Db g h false) rv)) /\
    (r = Ok tt -> forall rv, In rv (v_docs v) -> b rv = true \/ po_keep pol rv = false) /\ ((forall rv, In rv (v_docs v) -> b rv = true) -> r = Ok tt) /\
    forall w, w = compacted pol (Contents (filter b (v_docs v)) (v_locals v) (v_seq v)) ->
    exists t, linked None getkey (Session d w (Some (Version (h_position (dbh d)) w)) [] []) t.
Proof.
  intros G S Hp Henc Sp Hre Hrec Hfo Hlast Hloc Hpp Hps Hts Hcalm Hc Rm Hend. unfold compact in Hc.
  assert (Hc' : compact_body c o (Db g h false) (empty_file pl) None = (r, d)) by (destruct (co_filter o); [exact Hc|rewrite (Hre eq_refl) in Hc; exact Hc]).
  clear Hc. unfold compact_body in Hc'. cbn [dropped dbh] in Hc'. cbn zeta in Hc'.
  set (leg := (h_version h <=? 11) && negb (co_upgrade o)) in Hc'. destruct (open_new_easy leg Hcalm) as (t & Ho & Et & Vt). rewrite Ho in Hc'.
  set (src := reader s h p) in *.
  assert (Gs : good (dbf src)) by (destruct G as [G1 G2]; split; [exact (ex_wf (set_fpos_ext 0 (fun _ _ => True) p G1))|cbn; lia]).
  assert (Ss : stored (dbf src) (dbh src) v ps) by (eapply stored_keeps; [apply set_fpos_keeps; apply Hp|exact S]).
  destruct (open_new_good EO KO Ho) as (Gt & Pt & Kt & Dt).
  destruct (@seq_left E EO src g v ps Gs Sp Ss) as [q Hq].
  destruct (copy_docs c o (Db g h false) (dbf t)) as [rd f1] eqn:Hd. destruct (copy_locals c (Db g h false) f1) as [rl f2] eqn:Hl.
  destruct (@recover_stored E EO Hcomp c o pol src g v ps Gs Sp eq_refl Ss Hre Hrec Hfo Henc q Hq (dbf t) Gt Et Pt Hloc rd f1 rl f2 Hd Hl) as ([log W] & E2 & Hst).
  pose proof (writes_le EO Gt W) as Lt.
  destruct (@docs_recover E EO Hcomp c o pol src g v ps Gs Sp eq_refl Ss Hre Hrec Hfo Henc q Hq (dbf t) Gt Et Pt rd f1 Hd) as [[log1 W1] Hst1]. pose proof (writes_le EO Gt W1) as L1.
  destruct rd as [[[scan ids] seqs]|e].
  2:{ exfalso. injection Hc' as <- <-. apply (Hst1 (room_fin Rm)). }
  destruct rl as [locs|e].
  2:{ exfalso. injection Hc' as <- <-. destruct (Hst (room_fin Rm)) as (? & ? & ? & ? & _ & H & _). discriminate. }
  assert (Hfl : (match co_filter o with Some _ => co_last o | None => Ok tt end) = Ok tt) by (destruct (co_filter o); [apply Hlast; discriminate|reflexivity]). rewrite Hfl in Hc'.
  set (h1 := Header _ _ _ _ _ _ _ _ _ _ _) in Hc'.
  destruct (@commit_calm (Db f2 h1 false) (h_timestamp h) 0) as [d1 Hcm]; [apply E2|apply E2|cbn [dbh h_version]; tauto|]. rewrite Hcm in Hc'. injection Hc' as <- <-.
  pose proof (commit_appends Hcm) as Ac. cbn [dbf] in Ac.
  destruct (appends_mono EO Ac (le_good Lt)) as [M1 M2]. destruct (@appends_good E EO _ _ Ac (le_good Lt)) as (_ & Pc & _).
  assert (B2 : big f2 = false) by exact (M2 (rm_big Rm)). assert (L2 : lost f2 = false) by exact (M1 (rm_lost Rm)).
  assert (F2 : fin47 f2) by (split; [exact B2|pose proof (rm_pos Rm); lia]).
  destruct (Hst F2) as (scan' & ids' & seqs' & locs' & X1 & X2 & [Sc1 Sc2] & Hst'). injection X1 as <- <- <-. injection X2 as <-.
  destruct (Hst' h1 eq_refl eq_refl eq_refl eq_refl) as [ps' S2]. rewrite sel_contents in S2.
  exists (sel g ps q). split; [|split; [|split]].
  - intros rv Hrv. rewrite <- (sd_docs Ss) in Hrv. apply in_map_iff in Hrv. destruct Hrv as (pr & <- & Hpr). exact (@sel_readable E o src g v ps eq_refl Ss Hrec q Hq pr Hpr).
  - intros H rv Hrv. rewrite <- (sd_docs Ss) in Hrv. apply in_map_iff in Hrv. destruct Hrv as (pr & <- & Hpr). exact (Sc1 H pr Hpr).
  - intros H. apply Sc2. intros pr Hpr. apply H. rewrite <- (sd_docs Ss). now apply in_map.
  - intros w Hw. rewrite <- Hw in S2. clear Hw.
    assert (Lost : lost (dbf t) = false) by (destruct Lt as (X & _); exact (ex_lost X L2)).
    destruct (@link_new E None getkey pl leg true t (or_introl eq_refl) Ho Lost) as [s0 L0]. pose proof (lk_db L0) as E0. cbn [ss_db] in E0.
    assert (Hpurge : (if co_drop o then (h_purge_seq h + 1) mod 2^64 else h_purge_seq h) < 2^48).
    { destruct (co_drop o); [|lia]. rewrite N.mod_small; [exact Hps|]. change (2^64) with 18446744073709551616. change (2^48) with 281474976710656 in Hps. lia. }
    destruct (commit_header_roots Hcm) as (Hr1 & Hr2 & Hr3). cbn [dbh] in Hr1, Hr2, Hr3.
    assert (Rm1 : room (Db f2 h1 false)).
    { constructor; cbn [dbf dbh]; [exact B2|exact L2|apply F2|rewrite <- Hr1; exact (rm_id Rm)|rewrite <- Hr2; exact (rm_seq Rm)|rewrite <- Hr3; exact (rm_local Rm)]. }
    assert (K1 : exists s1, linked None getkey (Session (Db f2 h1 (dropped (s_db s0))) w None [] []) s1).
    { eapply (@link_set_all E EO None getkey KO (Session t no_contents None [] []) s0 f2 h1 w); [exact L0|rewrite E0; exact W|exists ps'; exact S2| | | | |exact Rm1].
      - rewrite E0. reflexivity.
      - exact Hpurge.
      - cbn [h1 h_purge_ptr]. rewrite Hpp. reflexivity.
      - cbn [h1 h_purge_ptr]. rewrite Hpp. apply N.le_0_l. }
    destruct K1 as [s1 K1]. rewrite E0, Dt in K1.
    assert (Wr : write (Session (Db f2 h1 false) w None [] []) (Session d1 w (Some (Version (align (fpos f2)) w)) [] [])).
    { pose proof (@write_commit E (Session (Db f2 h1 false) w None [] []) (h_timestamp h) 0 (Ok tt) d1 Hts) as Wc. cbn [ss_db dbf ss_now ss_ack ss_old opt_list app] in Wc.
      apply Wc; [lia|exact Hcm|exact (rm_lost Rm)]. }
    destruct (link_write EO KO K1 Wr) as [s2 L3]. exists s2.
    assert (Hpos : align (fpos f2) = h_position (dbh d1)); [|rewrite <- Hpos; exact L3].
    destruct (link_inv EO KO K1) as [B1 I1]. pose proof (lk_db K1) as E1. cbn [ss_db] in E1. rewrite <- E1 in Hcm. destruct (@commit_header E EO None B1 s1 _ _ _ _ I1 Hcm) as [_ Hh].
    rewrite Hh, E1. reflexivity.
Qed.
End WithEnv.
