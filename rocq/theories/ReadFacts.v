(** Consequences for readers: what two handles on one file have in common, snapshots, the events of a save. *)
From Verif Require Import Base SpecOrder Codec CodecFacts File FileFacts ChunkFacts Header HeaderFacts SpecFile DataFacts History CrashFacts OpenFacts NavFacts ReachNav
  SpecCrash CommitFacts Btree TreeStore SpecMap MergeFacts ModifyFacts BtreeRead LookupFacts Db SortFacts ReduceFacts SpecDb DbFacts DbSave DbRead SpecSession
  ShowFacts SessionFacts.
Local Open Scope N_scope.
Unset Strict Implicit.

Section WithEnv.
Context {E : Env} (EO : EnvOk E).

Lemma keeps_trans f1 f2 f3 : keeps f1 f2 -> keeps f2 f3 -> keeps f1 f3.
Proof. intros [A B] [C D]. split; [auto|congruence]. Qed.
Lemma keeps_refl f : keeps f f.
Proof. split; auto. Qed.
Lemma keeps_fpos f p : fpos f <= p -> keeps f (set_fpos f p).
Proof. intros H. split; [|reflexivity]. intros q z Hz. apply (has_frame f); auto. Qed.
Lemma good_fpos f p : good f -> p <= size f -> good (set_fpos f p).
Proof. intros [W _] H. split; [|exact H]. exact (ex_wf (set_fpos_ext 0 (fun _ _ => True) p W)). Qed.

Section Same.
Variables a b : db.
Variable f : file.
Variable h : header.
Variable v : contents.
Variable ps : list (doc_info * revision).
Hypothesis Ga : good (dbf a).
Hypothesis Gb : good (dbf b).
Hypothesis Da : dropped a = false.
Hypothesis Db : dropped b = false.
Hypothesis Ka : keeps f (dbf a).
Hypothesis Kb : keeps f (dbf b).
Hypothesis S : stored f h v ps.

Lemma same_open i dec : In i (map fst ps) -> open_doc_with_docinfo a i dec = open_doc_with_docinfo b i dec.
Proof.
  intros Hi. apply in_map_iff in Hi. destruct Hi as ([i' r] & <- & Hi). cbn [fst].
  pose proof (sd_rep S) as R. rewrite Forall_forall in R. destruct (R _ Hi) as [_ Hr]. cbn [fst snd] in Hr.
  unfold open_doc_with_docinfo. destruct (rv_body r) as [c|].
  - destruct Hr as (_ & z & Hz & _). rewrite Da, Db. destruct (di_bp i' =? 0); [reflexivity|].
    pose proof (@has_read E EO _ _ _ Ga (proj1 Ka _ _ Hz)) as Ra. pose proof (@has_read E EO _ _ _ Gb (proj1 Kb _ _ Hz)) as Rb.
    unfold pread_compressed, pread_bin in *. rewrite Ra, Rb. reflexivity.
  - destruct Hr as [-> _]. reflexivity.
Qed.

Lemma same_docs_stored v' : dbh a = h -> h_by_id (dbh b) = h_by_id h -> h_by_seq (dbh b) = h_by_seq h -> stored (dbf b) (dbh b) v' ps -> lenN (v_docs v) < 2^40 -> same_docs a b.
Proof.
  intros Ha Hid Hsq Sb Hn. assert (Sa : stored (dbf a) (dbh a) v ps) by (rewrite Ha; exact (stored_keeps Ka S)).
  assert (Hl : lenN ps < 2^40) by (rewrite <- (sd_docs S) in Hn; unfold lenN in *; rewrite map_length in Hn; exact Hn).
  constructor.
  - intros id. rewrite (docinfo_by_id_eq EO Ga Da Sa), (docinfo_by_id_eq EO Gb Db Sb). reflexivity.
  - intros n H. rewrite (docinfo_by_sequence_eq EO Ga Da Sa), (docinfo_by_sequence_eq EO Gb Db Sb); auto.
  - intros id dec. rewrite (open_document_eq EO Ga Da Sa), (open_document_eq EO Gb Db Sb).
    destruct (old_of (map fst ps) id) as [i|] eqn:Ho; [|reflexivity]. apply same_open. apply (proj1 (@old_of_some _ (ids_nodup Sa) id _)) in Ho. tauto.
  - intros id i dec H. rewrite (docinfo_by_id_eq EO Ga Da Sa) in H. destruct (old_of (map fst ps) id) as [j|] eqn:Ho; [|discriminate].
    injection H as <-. apply same_open. apply (proj1 (@old_of_some _ (ids_nodup Sa) id _)) in Ho. tauto.
  - intros start o U cb u H. rewrite (all_docs_eq EO Ga Da Sa), (all_docs_eq EO Gb Db Sb); auto.
  - intros n o U cb u H H'. rewrite (changes_since_eq EO Ga Da Sa), (changes_since_eq EO Gb Db Sb); auto.
  - intros ids U cb u. destruct ids as [|k ids].
    + unfold docinfos_by_id, iterate_docinfos. rewrite Da, Db, Hid, Ha. destruct (h_by_id h); reflexivity.
    + rewrite (docinfos_by_id_eq EO Ga Da Sa), (docinfos_by_id_eq EO Gb Db Sb); auto; left; discriminate.
  - intros ns U cb u H. destruct ns as [|k ns].
    + unfold docinfos_by_sequence, iterate_docinfos. rewrite Da, Db, Hsq, Ha. destruct (h_by_seq h); reflexivity.
    + rewrite (docinfos_by_sequence_eq EO Ga Da Sa), (docinfos_by_sequence_eq EO Gb Db Sb); auto; left; discriminate.
  - intros lo hi U cb u. rewrite (docinfos_range_id_eq EO Ga Da Sa), (docinfos_range_id_eq EO Gb Db Sb); auto.
  - intros lo hi U cb u H1 H2. rewrite (docinfos_range_seq_eq EO Ga Da Sa), (docinfos_range_seq_eq EO Gb Db Sb); auto.
  - intros x y H1 H2. rewrite (changes_count_eq EO Ga Sa), (changes_count_eq EO Gb Sb); auto.
Qed.

Lemma same_reads_stored : dbh a = h -> dbh b = h -> lenN (v_docs v) < 2^40 -> same_reads a b.
Proof.
  intros Ha Hb Hn. assert (Sa : stored (dbf a) (dbh a) v ps) by (rewrite Ha; exact (stored_keeps Ka S)).
  assert (Sb : stored (dbf b) (dbh b) v ps) by (rewrite Hb; exact (stored_keeps Kb S)).
  constructor.
  - apply (@same_docs_stored v); auto; now rewrite Hb.
  - intros id. rewrite (open_local_eq EO Ga Da Sa), (open_local_eq EO Gb Db Sb). reflexivity.
  - rewrite (db_info_eq Sa), (db_info_eq Sb). cbn [but_size in_seq in_purge in_docs in_deleted in_space in_pos]. now rewrite Ha, Hb.
Qed.
End Same.

(** ** Later states of the file *)

Lemma appends_size f f' : appends f f' -> good f -> size f <= size f'.
Proof.
  induction 1 as [f|f f1 b r f2 A IH Hw|f f1 b t r f2 A IH Hw|f f1 r f2 A IH Hw|f f1 q t r f2 A IH Hq Hw|f f1 A IH];
    intros G; [lia|..]; specialize (IH G); destruct (@appends_good E EO _ _ A G) as (G1 & _).
  - destruct (@db_write_buf_spec _ EO _ _ _ _ G1 Hw) as [(X & _) _]. pose proof (ex_size X). lia.
  - destruct (@write_header_spec _ EO _ _ _ _ _ G1 Hw) as (X & _). pose proof (ex_size X). lia.
  - pose proof (ex_size (@fsync_ext 0 (fun _ _ => True) _ _ _ (proj1 G1) Hw)). lia.
  - unfold write_disk_block_type in Hw. destruct (pwrite f1 q [t]) as [r' f2'] eqn:Ew.
    assert (f2' = f2) as -> by (destruct r'; inv Hw; reflexivity).
    pose proof (ex_size (@pwrite_ext f1 q [t] r' f2 (proj1 G1) Ew)). lia.
  - exact IH.
Qed.
Lemma appends_trans f1 f2 f3 : appends f1 f2 -> appends f2 f3 -> appends f1 f3.
Proof. intros A B. revert f1 A. induction B; intros f1' A; [exact A|eapply app_chunk|eapply app_header|eapply app_sync|eapply app_type|eapply app_end]; try (apply IHB; exact A); eassumption. Qed.

Section Sessions.
Variable key : option keyinfo.
Variable getkey : N -> bytes -> bytes -> res N.
Hypothesis KO : key_ok key getkey.

Lemma sessions_stored s : sessions key getkey s ->
  good (dbf (ss_db s)) /\ dropped (ss_db s) = false /\ 1 <= fpos (dbf (ss_db s)) /\ exists ps, stored (dbf (ss_db s)) (dbh (ss_db s)) (ss_now s) ps.
Proof.
  intros H. destruct (sessions_linked EO KO H) as [t L]. destruct (link_inv EO KO L) as [B I]. rewrite <- (lk_db L) at 1 2 3.
  split; [exact (i_good I)|]. split; [exact (i_dropped I)|]. split; [exact (i_pos1 I)|exact (lk_now L)].
Qed.

Lemma write_appends s s' : sessions key getkey s -> write s s' -> appends (dbf (ss_db s)) (dbf (ss_db s')).
Proof.
  intros H W. destruct (sessions_stored H) as (G & D & P & ps & S). destruct W as [s c o cb l R Hc HR Hb Hr|s c x r d Hc HR Hb Hr|s c l r d Hc HR Hb Hn Hr|s ts n r d Ht Hp Hcm Hl v].
  - assert (F : fin47 (dbf (sv_db R))) by exact (conj (rm_big Hr) (rm_pos Hr)).
    destruct (@save_documents_ok E EO anyf anye (any_okerr) c Hc cb o l _ _ ps R HR G Logic.I P D S Hb F) as ((log & W) & _). exact (writes_appends W).
  - assert (F : fin (dbf d)) by (apply fin47_fin; exact (conj (rm_big Hr) (rm_pos Hr))).
    destruct (@save_local_document_ok E EO anyf anye any_okerr c Hc x _ _ ps r d G Logic.I D S Hb HR F) as ((log & W) & _). exact (writes_appends W).
  - assert (F : fin (dbf d)) by (apply fin47_fin; exact (conj (rm_big Hr) (rm_pos Hr))).
    destruct (@save_local_documents_ok E EO anyf anye any_okerr c Hc l _ _ ps r d G Logic.I D S Hn Hb HR F) as ((log & W) & _). exact (writes_appends W).
  - pose proof (commit_appends Hcm) as A. destruct r; [exact A|]. destruct (fpos (dbf d) =? fpos (dbf (ss_db s))); exact A.
Qed.
Lemma writing_sessions s s' : sessions key getkey s -> writing s s' -> sessions key getkey s'.
Proof. intros H. induction 1 as [s|s s1 s2 _ IH W]; [exact H|]. eapply sess_write; [exact (IH H)|exact W]. Qed.
Lemma writing_appends s s' : sessions key getkey s -> writing s s' -> appends (dbf (ss_db s)) (dbf (ss_db s')).
Proof.
  intros H. induction 1 as [s|s s1 s2 X IH W]; [constructor|]. eapply appends_trans; [exact (IH H)|]. eapply write_appends; [|exact W].
  exact (writing_sessions H X).
Qed.

(** ** Snapshots *)

Lemma linked_reads ss s p h : linked key getkey ss s -> fpos (dbf (ss_db ss)) <= p <= size (dbf (ss_db ss)) -> reads s (reader ss h p).
Proof. intros L Hp. rewrite <- (lk_db L) in *. unfold reader. constructor; cbn; rewrite <- ?(lk_db L); auto. Qed.

Lemma snapshot_stored s h v : sessions key getkey s -> snapshot s h v -> exists ps, stored (dbf (ss_db s)) h v ps.
Proof. intros H Sn. destruct (sessions_linked EO KO H) as [t L]. exact (linked_snapshot EO KO L Sn). Qed.

Lemma reader_keeps s s' p : sessions key getkey s -> writing s s' -> fpos (dbf (ss_db s)) <= p -> keeps (dbf (ss_db s)) (set_fpos (dbf (ss_db s')) p).
Proof.
  intros H W Hp. destruct (sessions_stored H) as (G & _). pose proof (writing_appends H W) as A.
  destruct (@appends_good E EO _ _ A G) as (_ & _ & M & K & C). split; [|exact K]. intros q z Hz. now apply (has_frame (dbf (ss_db s))).
Qed.

Theorem snapshot_reads s h v s' p : sessions key getkey s -> snapshot s h v -> lenN (v_docs v) < 2^40 -> writing s s' ->
  fpos (dbf (ss_db s)) <= p <= size (dbf (ss_db s)) -> same_reads (reader s h p) (reader s' h p) /\ shows_contents (reader s' h p) v.
Proof.
  intros H Sn Hn W Hp. destruct (snapshot_stored H Sn) as [ps S]. destruct (sessions_stored H) as (G & D & _).
  destruct (sessions_stored (writing_sessions H W)) as (G' & _).
  assert (K : keeps (dbf (ss_db s)) (dbf (reader s h p))) by (apply (reader_keeps H (wg_refl s)); lia).
  assert (K' : keeps (dbf (ss_db s)) (dbf (reader s' h p))) by (apply (reader_keeps H W); lia).
  assert (Ga : good (dbf (reader s h p))) by (apply good_fpos; [exact G|lia]).
  assert (Gb : good (dbf (reader s' h p))).
  { apply good_fpos; [exact G'|]. pose proof (appends_size (writing_appends H W) G). lia. }
  split.
  - exact (@same_reads_stored (reader s h p) (reader s' h p) (dbf (ss_db s)) h v ps Ga Gb eq_refl eq_refl K K' S eq_refl eq_refl Hn).
  - apply (@stored_shows E EO (reader s' h p) v ps); auto. exact (stored_keeps K' S).
Qed.
End Sessions.
End WithEnv.
