(** The kinds of errors of commits, of creating files and of compaction. *)
From Verif Require Import Base Codec CodecFacts File FileFacts ChunkFacts Header HeaderFacts History CommitFacts SpecFile Btree BtreeRead TreeStore SpecMap ModifyFacts
  DataFacts Db SpecDb ReduceFacts DbFacts DbSave DbRead TreeWriter Compact SpecCompact CompactFacts SpecSession SessionFacts SaveFacts.
Local Open Scope N_scope.
Unset Strict Implicit.

Section WithEnv.
Context {E : Env} (EO : EnvOk E).

Lemma write_header_io f b t r f' : sane f -> write_header f b t = (r, f') -> sane f' /\ match r with Ok _ => True | Err e => io_error e end.
Proof.
  intros [M HP]. unfold write_header. destruct (get_checksum (crcm f) b) as [ck|e] eqn:Hg; [|unfold get_checksum in Hg; destruct (crcm f); congruence].
  destruct (write_all f _ _) as [[u|e] f1] eqn:Hw; destruct (write_all_io HP Hw) as (P1 & P2 & _ & P4).
  2:{ intros H; inv H. split; [split; [congruence|exact P1]|exact Logic.I]. }
  destruct (raw_write t f1 _ b) as [[e2|e] f2] eqn:Hr; destruct (raw_write_io P1 Hr) as (Q1 & Q2 & _ & Q4); intros H; inv H; (split; [split; [cbn; congruence|exact Q1]|exact Logic.I]).
Qed.
Lemma block_type_io f q t r f' : sane f -> write_disk_block_type f q t = (r, f') -> sane f' /\ match r with Ok _ => True | Err e => io_error e end.
Proof.
  intros [M HP]. unfold write_disk_block_type. destruct (pwrite f q [t]) as [[n|e] f1] eqn:Hw; destruct (pwrite_io (b := [t]) ltac:(discriminate) HP Hw) as (P1 & P2 & _ & P4); intros H; inv H;
    (split; [split; [congruence|exact P1]|exact Logic.I]).
Qed.
Lemma fsync_io f r f' : sane f -> fsync f = (r, f') -> sane f' /\ match r with Ok _ => True | Err e => io_error e end.
Proof.
  intros [M HP]. unfold fsync. destruct (dead f); [intros H; inv H; split; [split; assumption|exact Logic.I]|]. destruct (next_step f) as [s f1] eqn:Hs.
  destruct (plan_step HP Hs) as (P1 & P2 & _ & P4 & P5). assert (S1 : sane f1) by (split; [congruence|exact P1]). destruct s as [s|].
  - destruct (w_die s); [intros H; inv H; split; [|exact Logic.I]; destruct (w_sync s); exact S1|]. destruct (w_err s) as [e|]; intros H; inv H; (split; [|exact Logic.I]); [destruct (w_lossy s)|]; exact S1.
  - intros H; inv H. split; [exact S1|exact Logic.I].
Qed.
Lemma flip_io n : forall f q r f', sane f -> commit_flip n f q = (r, f') -> sane f' /\ match r with Ok _ => True | Err e => io_error e end.
Proof.
  induction n as [|n IH]; intros f q r f' S; cbn [commit_flip]; (destruct (write_disk_block_type f q B_HEADER) as [[u|e] f1] eqn:Hw; destruct (block_type_io S Hw) as [S1 A1]; [|intros H; inv H; auto]);
    (destruct (fsync f1) as [[u1|e1] f2] eqn:Hf; destruct (fsync_io S1 Hf) as [S2 A2]; [intros H; inv H; auto|]); [intros H; inv H; auto|eauto].
Qed.
Definition known_version (v : N) : Prop := v = 11 \/ v = 12 \/ v = 13 \/ v = 14.
Lemma db_write_header_io d t r d' : known_version (h_version (dbh d)) -> sane (dbf d) -> db_write_header d t = (r, d') -> sane (dbf d') /\ match r with Ok _ => True | Err e => io_error e end.
Proof.
  intros Hv S. unfold db_write_header. cbv zeta. set (hh := if (h_version _ =? 11) || (h_version _ =? 12) || (h_version _ =? 13) then _ else _).
  assert (Hh : h_version hh = h_version (dbh d)) by (subst hh; destruct ((h_version (dbh d) =? 11) || (h_version (dbh d) =? 12)); destruct (_ || _ || _); reflexivity). clearbody hh.
  assert (Hk : (h_version hh =? 11) || (h_version hh =? 12) || (h_version hh =? 13) || (h_version hh =? 14) = true) by (rewrite Hh; destruct Hv as [->|[->|[->| ->]]]; reflexivity).
  rewrite Hk. destruct (write_header _ _ _) as [[q|e] f1] eqn:Hw; destruct (write_header_io S Hw) as [S1 A1]; intros H; inv H; auto.
Qed.
Lemma commit_io d ts n r d' : known_version (h_version (dbh d)) -> sane (dbf d) -> commit_ex d ts n = (r, d') -> sane (dbf d') /\ match r with Ok _ => True | Err e => io_error e end.
Proof.
  intros Hv S. unfold commit_ex. cbv zeta. set (d1 := Db (dbf d) _ _). destruct (db_write_header d1 B_DATA) as [r2 d2] eqn:Hw.
  destruct (@db_write_header_io d1 _ _ _ Hv S Hw) as [S2 A2]. destruct r2 as [u|e]; [|intros H; inv H; auto].
  destruct (fsync (dbf d2)) as [r3 f3] eqn:Hf. destruct (fsync_io S2 Hf) as [S3 A3]. destruct r3 as [u3|e]; [|intros H; inv H; auto].
  destruct (commit_flip _ _ _) as [r4 f4] eqn:Hl. destruct (flip_io S3 Hl) as [S4 A4]. destruct r4; intros H; inv H; auto.
Qed.

(** A key that can be stored in the metadata header. *)
Definition key_fits (key : option keyinfo) : Prop := match key with None => True | Some k => 0 < lenN (ki_id k) <= 255 end.
Lemma open_new_io pl key legacy r d : Forall (fun s => match w_err s with Some e => e = E_WRITE | None => True end) pl -> key_fits key ->
  open_new (empty_file pl) key legacy true = (r, d) -> match r with Ok _ => sane (dbf d) | Err e => io_error e end.
Proof.
  intros Hp Hk. unfold open_new. set (f0 := set_fpos _ 0). assert (S0 : sane f0) by (split; [subst f0; cbn; destruct legacy; discriminate|exact Hp]). clearbody f0.
  assert (S1 : forall r f1, create_metadata_header f0 key = (r, f1) -> match r with Ok _ => sane f1 | Err e => io_error e end).
  { intros r1 f1. unfold create_metadata_header. destruct key as [k|]; [|intros H; inv H; exact S0]. cbn [key_fits] in Hk. destruct (N.eqb_spec (lenN (ki_id k)) 0); [lia|]. destruct (N.ltb_spec 255 (lenN (ki_id k))); [lia|]. cbn [orb].
    destruct (write_header _ _ _) as [[q|e] f2] eqn:Hw; destruct (@write_header_io (set_fkey f0 (Some (ki_key k))) _ _ _ _ S0 Hw) as [S2 A2]; intros Hx; inv Hx; auto. }
  destruct (create_metadata_header f0 key) as [[meta|e] f1] eqn:Em; specialize (S1 _ _ eq_refl); [|intros H; inv H; exact S1].
  unfold create_header. cbn [dbf dbh dropped]. destruct (fpos f1 =? 0); [|intros H; inv H; exact S1].
  destruct (write_disk_block_type f1 0 B_DATA) as [[u|e] f2] eqn:Hw; destruct (block_type_io S1 Hw) as [S2 A2]; intros H; inv H; auto.
Qed.

(** Compaction of stored contents. *)
Lemma compact_io getkey c o pol src v ps pl key e d :
  good (dbf src) -> dropped src = false -> stored (dbf src) (dbh src) v ps -> (co_filter o = None -> co_rewrite o = None) -> co_recovery o = false -> Forall (follows o pol) (v_docs v) ->
  Forall (fun s => match w_err s with Some e => e = E_WRITE | None => True end) pl -> key_fits key -> key_ok key getkey -> (fkey (dbf src) = None <-> key = None) ->
  compact c o src (empty_file pl) key = (Err e, d) -> fin47 (dbf d) ->
  io_error e \/ (co_filter o <> None /\ co_last o = Err e).
Proof.
  intros Gs Hdr S Hre Hrec Hfo Hp Hk KO Henc Hc F.
  assert (Hc' : compact_body c o src (empty_file pl) key = (Err e, d)) by (unfold compact in Hc; destruct (co_filter o); [exact Hc|rewrite (Hre eq_refl) in Hc; exact Hc]).
  clear Hc. unfold compact_body in Hc'. rewrite Hdr in Hc'. destruct (open_new _ _ _ _) as [ro t] eqn:Ho. pose proof (open_new_io Hp Hk Ho) as So.
  destruct ro as [[]|e0]; [|injection Hc' as <- <-; auto]. cbn zeta in Hc'.
  destruct (open_new_good EO KO Ho) as (Gt & Pt & Kt & Dt).
  assert (Het : fkey (dbf src) = None <-> fkey (dbf t) = None) by (rewrite Kt; unfold thekey; rewrite Henc; destruct key; split; congruence).
  assert (OB : forall f b e f', sane f -> good f -> db_write_buf f b = (Err e, f') -> io_error e) by (intros f b e1 f' S1 _ Hw; exact (proj2 (write_buf_io S1 Hw))).
  destruct (copy_docs _ _ _ _) as [rd f1] eqn:Hd.
  destruct (@docs_copy E EO sane io_error io_okerr OB c o pol src v ps Gs S Hre Hrec Hfo (dbf t) Gt So Pt Het _ _ Hd) as [[l1 W1] D1]. pose proof (writes_le EO Gt W1) as L1.
  pose proof (@okf_le E EO sane io_error io_okerr _ _ _ Gt So W1) as S1.
  destruct rd as [[[scan ids] seqs]|e1]; [|injection Hc' as <- <-; left; exact (D1 F)].
  destruct (copy_locals _ _ _) as [rl f2] eqn:Hl.
  destruct (@locals_copy E EO sane io_error io_okerr c src v ps Gs S f1 _ _ (le_good L1) S1 Hl) as [[l2 W2] D2]. pose proof (writes_le EO (le_good L1) W2) as L2.
  pose proof (@okf_le E EO sane io_error io_okerr _ _ _ (le_good L1) S1 W2) as S2.
  destruct rl as [locs|e2]; [|injection Hc' as <- <-; left; exact (D2 F)].
  destruct (match co_filter o with Some _ => co_last o | None => Ok tt end) as [u|e3] eqn:Hlast.
  2:{ injection Hc' as <- <-. right. destruct (co_filter o); [|discriminate]. split; [discriminate|exact Hlast]. }
  set (d2 := Db f2 _ false) in Hc'. destruct (commit_ex d2 _ _) as [rc d3] eqn:Hcm.
  assert (Hv : known_version (h_version (dbh d2))).
  { cbn [d2 dbh h_version]. revert Ho. unfold open_new. destruct (create_metadata_header _ _) as [[meta|e4] f4]; [|discriminate]. unfold create_header. cbn [dbf dbh].
    destruct (fpos f4 =? 0); [destruct (write_disk_block_type f4 0 B_DATA) as [[u1|e4] f5]; [|discriminate]|]; intros H; inv H; cbn [dbh h_version]; unfold known_version; destruct (crcm f4); auto. }
  destruct (@commit_io d2 _ _ _ _ Hv S2 Hcm) as [_ A]. destruct rc as [u1|e4]; [|injection Hc' as <- <-; left; exact A].
  injection Hc' as -> ->. assert (F2 : fin47 f2).
  { destruct F as [F1 F2]. destruct (appends_mono EO (commit_appends Hcm) (le_good L2)) as [_ M2]. destruct (@appends_good E EO _ _ (commit_appends Hcm) (le_good L2)) as (_ & Pc & _). cbn [d2 dbf] in *.
    split; [exact (M2 F1)|lia]. }
  destruct (D1 (fin47_le L2 F2)) as [Hx _]. discriminate.
Qed.
End WithEnv.
