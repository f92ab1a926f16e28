(** Every session keeps its contents in the file: the link between sessions and executions. *)
From Verif Require Import Base Codec CodecFacts File FileFacts ChunkFacts Header HeaderFacts History CrashFacts OpenFacts SpecFile DataFacts SpecCrash NavFacts
  ReachNav CommitFacts Btree TreeStore BtreeRead SpecMap MergeFacts ModifyFacts LookupFacts Db SortFacts ReduceFacts SpecDb DbFacts DbSave DbRead Compact SpecCompact CompactFacts Replay SpecReplay ReplayFacts SpecSession ShowFacts.
Local Open Scope N_scope.
Unset Strict Implicit.

Section WithEnv.
Context {E : Env} (EO : EnvOk E).

(** Without restriction on errors. *)
Definition anyf (f : file) : Prop := True.
Definition anye (e : err) : Prop := True.
Lemma any_okerr : okerr anyf anye.
Proof. constructor; intros; exact I. Qed.

(** ** Stored contents depend on the roots and the last sequence number only *)

Lemma rtree_same rq kvP redP f r r' l : same_root r r' -> rtree rq kvP redP f r l -> rtree rq kvP redP f r' l.
Proof.
  destruct r as [p|], r' as [p'|]; cbn; try tauto. intros (H1 & H2 & H3) (k & x & T & T1 & T2 & T3). exists k, x. split; [exact T|]. rewrite <- H1, <- H2, <- H3. auto.
Qed.
Lemma stored_header f h h' v ps : same_root (h_by_id h) (h_by_id h') -> same_root (h_by_seq h) (h_by_seq h') -> same_root (h_local h) (h_local h') ->
  h_update_seq h' = h_update_seq h -> stored f h v ps -> stored f h' v ps.
Proof.
  intros H1 H2 H3 H4 [A1 A2 A3 A4 A5 A6 A7 A8 A9 A10 A11 A12]. constructor; auto.
  - congruence.
  - eapply rtree_same; eassumption.
  - eapply rtree_same; eassumption.
  - eapply rtree_same; eassumption.
Qed.
Lemma stored_committed f h v ps ts p : stored f h v ps -> stored f (committed h ts p) v ps.
Proof. apply stored_header; cbn; auto using same_root_refl. Qed.
Lemma stored_strip f h v ps : stored f h v ps -> stored f (strip h) v ps.
Proof. intros S. pose proof (strip_same h) as H. eapply stored_header; [..|exact S]; try (apply same_root_sym; apply H). symmetry. apply H. Qed.

(** ** Commits append *)

Lemma flip_appends n : forall f f0 q r f', appends f f0 -> q mod 4096 = 0 -> commit_flip n f0 q = (r, f') -> appends f f'.
Proof.
  induction n as [|n IH]; intros f f0 q r f' A Hq; cbn [commit_flip];
  destruct (write_disk_block_type f0 q B_HEADER) as [[u|e] f1] eqn:Ew; try (intros H; inv H; eapply app_type; eassumption);
  (destruct (fsync f1) as [[u2|e2] f2] eqn:Es; [intros H; inv H; eapply app_sync; [eapply app_type; eassumption|exact Es]|]).
  - intros H; inv H. eapply app_sync; [eapply app_type; eassumption|exact Es].
  - apply IH; [|exact Hq]. eapply app_sync; [eapply app_type; eassumption|exact Es].
Qed.
Lemma commit_appends d ts n r d' : commit_ex d ts n = (r, d') -> appends (dbf d) (dbf d').
Proof.
  unfold commit_ex. set (d1 := Db (dbf d) _ (dropped d)).
  assert (Hh : forall r1 d2, db_write_header d1 B_DATA = (r1, d2) -> appends (dbf d) (dbf d2)).
  { intros r1 d2. unfold db_write_header. match goal with |- context [if ?x then _ else _] => match x with (_ || (_ =? 14))%bool => destruct x end end.
    - match goal with |- context [write_header (dbf d1) ?b ?t] => destruct (write_header (dbf d1) b t) as [[p|e] f1] eqn:Ew end;
      intros H; inv H; cbn [dbf]; eapply app_header; [constructor|exact Ew|constructor|exact Ew].
    - intros H; inv H. constructor. }
  destruct (db_write_header d1 B_DATA) as [[u|e] d2] eqn:Eh; [|intros H; inv H; cbn [dbf]; exact (Hh _ _ eq_refl)].
  specialize (Hh _ _ eq_refl). destruct (fsync (dbf d2)) as [[u2|e] f3] eqn:Es; [|intros H; inv H; cbn [dbf]; eapply app_sync; eassumption].
  assert (A3 : appends (dbf d) f3) by (eapply app_sync; eassumption).
  destruct (commit_flip n f3 (align (fpos (dbf d)))) as [[u4|e] f4] eqn:Ef; intros H; inv H; cbn [dbf]; (eapply flip_appends; [exact A3| |exact Ef]); apply align_mod.
Qed.
Lemma writes_appends f l f' : writes f l f' -> appends f f'.
Proof. induction 1 as [f|f l f1 b r f2 H IH Hw]; [constructor|]. eapply app_chunk; eassumption. Qed.
Lemma appends_keeps f f' : good f -> appends f f' -> keeps f f'.
Proof. intros G A. split; [intros q z; exact (@appends_has E EO f f' q z A G)|]. now destruct (@appends_good E EO f f' A G) as (_ & _ & _ & H & _). Qed.

(** ** Linking *)

Variable key : option keyinfo.
Variable getkey : N -> bytes -> bytes -> res N.
Hypothesis KO : key_ok key getkey.

Definition thekey : option N := match key with Some k => Some (ki_key k) | None => None end.
Lemma inv_fkey B s : inv key B s -> fkey (dbf (s_db s)) = thekey.
Proof. intros I. pose proof (i_meta I) as M. unfold meta_inv, thekey in *. destruct key; [exact (proj1 M)|exact M]. Qed.

(** The commit [c] stores the version [v]. *)
Definition ver (c : commit) (v : version) : Prop :=
  h_position (c_hdr c) = vn_pos v /\
  exists ps, forall f, (forall q z, has (c_file c) q z -> has f q z) -> fkey f = thekey -> stored f (c_hdr c) (vn_contents v) ps.

Record linked (ss : session) (s : state) : Prop := {
  lk_reach : reach key getkey s;
  lk_db : s_db s = ss_db ss;
  lk_now : exists ps, stored (dbf (ss_db ss)) (dbh (ss_db ss)) (ss_now ss) ps;
  lk_ack : Forall2 ver (opt_list (s_ack s)) (opt_list (ss_ack ss));
  lk_old : Forall2 ver (s_old s) (ss_old ss);
  lk_pend : Forall2 ver (s_pend s) (ss_pend ss)
}.

(** Writing chunks, then setting new roots. *)
Lemma reach_writes l f' : forall s, reach key getkey s -> writes (dbf (s_db s)) l f' -> big f' = false -> lost f' = false ->
  exists log, reach key getkey (State (Db f' (dbh (s_db s)) (dropped (s_db s))) log (s_ack s) (s_old s) (s_pend s) (s_fail s)).
Proof.
  intros s R W. remember (dbf (s_db s)) as f eqn:Hf. revert s R Hf. induction W as [f|f l f1 b r f2 W IH Hw]; intros s R Hf Hb Hl.
  - exists (s_log s). subst f. destruct s as [[? ? ?] ? ? ? ? ?]. exact R.
  - destruct (@reach_inv E EO key getkey KO s R) as [B I]. pose proof (i_good I) as G. rewrite <- Hf in G.
    pose proof (writes_le EO G W) as L1. destruct (db_write_buf_spec EO _ (le_good L1) Hw) as [(X & _) _].
    destruct (IH s R Hf (ex_big X Hb) (ex_lost X Hl)) as [log R1].
    eexists. eapply reach_step; [exact R1|]. exact (@step_write E getkey (State (Db f1 (dbh (s_db s)) (dropped (s_db s))) log (s_ack s) (s_old s) (s_pend s) (s_fail s)) b r f2 Hw Hb Hl).
Qed.

Lemma rtree_bound rq kvP (redP : bytes -> Prop) f r l n : (forall x, redP x -> lenN x <= n) -> rtree rq kvP redP f r l -> small_root r -> root_ok r (fpos f) /\ root_size r <= 12 + n.
Proof.
  intros Hn. destruct r as [p|]; cbn; [|intros; split; [exact I|lia]]. intros (k & p' & T & H1 & H2 & _) Hs.
  pose proof (tree_pos T) as Hp. assert (Hb : np_pointer p' < 2^48 /\ redP (np_reduce p')) by (destruct k; destruct T as (T1 & _ & T3 & _); auto).
  destruct Hb as [Hb Hr]. rewrite H1 in *. rewrite H2 in *. specialize (Hn _ Hr). split; [auto|lia].
Qed.

Lemma link_set_all ss s f' h' v l : linked ss s -> writes (dbf (s_db s)) l f' -> (exists ps, stored f' h' v ps) ->
  (let h := dbh (s_db s) in
   h' = Header (h_version h) (h_update_seq h') (h_by_id h') (h_by_seq h') (h_local h') (h_purge_seq h') (h_purge_ptr h') (h_position h) (h_timestamp h) (h_prev h) (h_meta h)) ->
  h_purge_seq h' < 2^48 -> h_purge_ptr h' < 2^48 -> h_purge_ptr h' <= fpos f' -> room (Db f' h' false) ->
  exists s', linked (Session (Db f' h' (dropped (s_db s))) v (ss_ack ss) (ss_old ss) (ss_pend ss)) s'.
Proof.
  intros Lk W [ps S] Hh Hps Hpp Hpf Rm. cbn zeta in Hh. destruct (reach_writes (lk_reach Lk) W (rm_big Rm) (rm_lost Rm)) as [log R1].
  assert (Bi : root_ok (h_by_id h') (fpos f') /\ root_size (h_by_id h') <= 12 + 16).
  { eapply rtree_bound; [|exact (sd_id S)|exact (rm_id Rm)]. intros x Hx. unfold id_redP in Hx. cbn beta in Hx. rewrite Hx. lia. }
  assert (Bs : root_ok (h_by_seq h') (fpos f') /\ root_size (h_by_seq h') <= 12 + 5).
  { eapply rtree_bound; [|exact (sd_sq S)|exact (rm_seq Rm)]. intros x Hx. unfold seq_redP in Hx. cbn beta in Hx. rewrite Hx. lia. }
  assert (Bl : root_ok (h_local h') (fpos f') /\ root_size (h_local h') <= 12 + 0).
  { eapply rtree_bound; [|exact (sd_loc S)|exact (rm_local Rm)]. intros x Hx. unfold loc_redP in Hx. cbn beta in Hx. rewrite Hx. apply N.le_refl. }
  eexists. constructor.
  - eapply reach_step; [exact R1|]. eapply (@step_set E getkey) with (us := h_update_seq h') (id := h_by_id h') (sq := h_by_seq h') (loc := h_local h') (ps := h_purge_seq h') (pp := h_purge_ptr h').
    + rewrite (sd_seq S). exact (sd_bound S).
    + exact Hps.
    + exact Hpp.
    + exact Hpf.
    + apply Bi.
    + apply Bs.
    + apply Bl.
    + lia.
  - cbn [s_db ss_db dbh dbf dropped]. rewrite <- Hh. reflexivity.
  - exists ps. exact S.
  - exact (lk_ack Lk).
  - exact (lk_old Lk).
  - exact (lk_pend Lk).
Qed.
Lemma link_set ss s f' h' v l : linked ss s -> writes (dbf (s_db s)) l f' -> (exists ps, stored f' h' v ps) ->
  (exists a b c n, h' = set_seq_num (set_roots (dbh (s_db s)) a b c) n) -> room (Db f' h' false) ->
  exists s', linked (Session (Db f' h' (dropped (s_db s))) v (ss_ack ss) (ss_old ss) (ss_pend ss)) s'.
Proof.
  intros Lk W S (a & b & c & n & Hh) Rm. destruct (reach_writes (lk_reach Lk) W (rm_big Rm) (rm_lost Rm)) as [log R1].
  destruct (@reach_inv E EO key getkey KO _ R1) as [B I]. pose proof (i_hok I) as K. cbn [s_db dbf dbh] in K.
  eapply link_set_all; [exact Lk|exact W|exact S| | | | |exact Rm]; subst h'.
  - reflexivity.
  - apply K.
  - apply (ho_pp K).
  - apply (ho_pp K).
Qed.

Lemma link_inv ss s : linked ss s -> exists B, inv key B s.
Proof. intros L. exact (@reach_inv E EO key getkey KO s (lk_reach L)). Qed.

Lemma room_drop d : room d -> room (Db (dbf d) (dbh d) false).
Proof. intros [? ? ? ? ? ?]. constructor; assumption. Qed.

Lemma link_write ss s ss' : linked ss s -> write ss ss' -> exists s', linked ss' s'.
Proof.
  intros L W. destruct (link_inv L) as [B I]. pose proof (lk_db L) as Hdb. destruct (lk_now L) as [ps S].
  pose proof (i_good I) as G. pose proof (i_pos1 I) as P1. pose proof (i_dropped I) as Hd. rewrite Hdb in G, P1, Hd.
  destruct W as [ss c o cb l R Hc HR Hb Hr|ss c x r d Hc HR Hb Hr|ss c l r d Hc HR Hb Hn Hr|ss ts n r d Ht Hp Hcm Hl v].
  - destruct (@save_documents_ok E EO anyf anye any_okerr c Hc cb o l (ss_db ss) (ss_now ss) ps R HR G I0 P1 Hd S Hb) as ((log & W) & Le & _ & Hd' & H) || idtac.
    destruct (@save_documents_ok E EO anyf anye any_okerr c Hc cb o l (ss_db ss) (ss_now ss) ps R HR G Logic.I P1 Hd S Hb (conj (rm_big Hr) (rm_pos Hr))) as ((log & W) & Le & _ & Hd' & H).
    assert (Hs : exists s', linked (Session (Db (dbf (sv_db R)) (dbh (sv_db R)) (dropped (s_db s))) (outcome (sv_res R) (save o l (ss_now ss)) (ss_now ss)) (ss_ack ss) (ss_old ss) (ss_pend ss)) s').
    { eapply link_set; [exact L|rewrite Hdb; exact W| | |exact (room_drop Hr)].
      - destruct (sv_res R) as [u|e]; cbn [outcome].
        + destruct H as (a & b & ds & _ & _ & _ & HS & _). eexists; exact HS.
        + destruct H as [_ Hh]. rewrite Hh. exists ps. exact (stored_keeps (le_keeps Le) S).
      - rewrite Hdb. destruct (sv_res R) as [u|e].
        + destruct H as (a & b & ds & Hh & _). rewrite Hh. eexists _, _, _, _. reflexivity.
        + destruct H as [_ Hh]. rewrite Hh. exists (h_by_id (dbh (ss_db ss))), (h_by_seq (dbh (ss_db ss))), (h_local (dbh (ss_db ss))), (h_update_seq (dbh (ss_db ss))).
          destruct (dbh (ss_db ss)); reflexivity. }
    rewrite Hdb, Hd, <- Hd' in Hs. destruct (sv_db R). exact Hs.
  - assert (Fin : fin (dbf d)) by (apply fin47_fin; exact (conj (rm_big Hr) (rm_pos Hr))).
    destruct (@save_local_document_ok E EO anyf anye any_okerr c Hc x (ss_db ss) (ss_now ss) ps r d G Logic.I Hd S Hb HR Fin) as ((log & W) & Le & _ & Hd' & H).
    assert (Hs : exists s', linked (Session (Db (dbf d) (dbh d) (dropped (s_db s))) (outcome r (save_locals [x] (ss_now ss)) (ss_now ss)) (ss_ack ss) (ss_old ss) (ss_pend ss)) s').
    { eapply link_set; [exact L|rewrite Hdb; exact W| | |exact (room_drop Hr)].
      - destruct r as [u|e]; cbn [outcome].
        + destruct H as (a & _ & HS). eexists; exact HS.
        + destruct H as [_ Hh]. rewrite Hh. exists ps. exact (stored_keeps (le_keeps Le) S).
      - rewrite Hdb. destruct r as [u|e].
        + destruct H as (a & Hh & _). rewrite Hh. eexists _, _, _, (h_update_seq (dbh (ss_db ss))). reflexivity.
        + destruct H as [_ Hh]. rewrite Hh. exists (h_by_id (dbh (ss_db ss))), (h_by_seq (dbh (ss_db ss))), (h_local (dbh (ss_db ss))), (h_update_seq (dbh (ss_db ss))).
          destruct (dbh (ss_db ss)); reflexivity. }
    rewrite Hdb, Hd, <- Hd' in Hs. destruct d. exact Hs.
  - assert (Fin : fin (dbf d)) by (apply fin47_fin; exact (conj (rm_big Hr) (rm_pos Hr))).
    destruct (@save_local_documents_ok E EO anyf anye any_okerr c Hc l (ss_db ss) (ss_now ss) ps r d G Logic.I Hd S Hn Hb HR Fin) as ((log & W) & Le & _ & Hd' & H).
    assert (Hs : exists s', linked (Session (Db (dbf d) (dbh d) (dropped (s_db s))) (outcome r (save_locals l (ss_now ss)) (ss_now ss)) (ss_ack ss) (ss_old ss) (ss_pend ss)) s').
    { eapply link_set; [exact L|rewrite Hdb; exact W| | |exact (room_drop Hr)].
      - destruct r as [u|e]; cbn [outcome].
        + destruct H as (a & _ & HS). eexists; exact HS.
        + destruct H as [_ Hh]. rewrite Hh. exists ps. exact (stored_keeps (le_keeps Le) S).
      - rewrite Hdb. destruct r as [u|e].
        + destruct H as (a & Hh & _). rewrite Hh. eexists _, _, _, (h_update_seq (dbh (ss_db ss))). reflexivity.
        + destruct H as [_ Hh]. rewrite Hh. exists (h_by_id (dbh (ss_db ss))), (h_by_seq (dbh (ss_db ss))), (h_local (dbh (ss_db ss))), (h_update_seq (dbh (ss_db ss))).
          destruct (dbh (ss_db ss)); reflexivity. }
    rewrite Hdb, Hd, <- Hd' in Hs. destruct d. exact Hs.
  - rewrite <- Hdb in Hcm, Hp. destruct (@commit_header E EO key B s ts n r d I Hcm) as [Hd' Hh].
    pose proof (appends_keeps (i_good I) (commit_appends Hcm)) as Kp. rewrite Hdb in Kp.
    set (c := Commit (committed (dbh (s_db s)) ts (align (fpos (dbf (s_db s))))) (s_log s) (dbf (s_db s))).
    assert (V : ver c v).
    { split; [cbn; rewrite Hdb; reflexivity|]. exists ps. intros f Hf Hk. cbn [c c_hdr c_file] in *. apply stored_committed. rewrite Hdb in *.
      eapply stored_keeps; [|exact S]. split; [exact Hf|]. rewrite Hk, <- Hdb. symmetry. exact (inv_fkey I). }
    pose proof (@step_commit E getkey s ts n r d Ht Hp Hcm Hl) as St. fold c in St.
    assert (Sd : exists ps, stored (dbf d) (dbh d) (ss_now ss) ps).
    { exists ps. rewrite Hh. pose proof (stored_keeps Kp S) as S'. destruct r; [rewrite Hdb; apply stored_committed|rewrite Hdb]; exact S'. }
    rewrite Hdb in St. destruct r as [u|e].
    + eexists. constructor; [eapply reach_step; [exact (lk_reach L)|exact St]|..]; cbn [s_db s_ack s_old s_pend ss_db ss_ack ss_old ss_pend ss_now opt_list].
      * reflexivity.
      * exact Sd.
      * constructor; [exact V|constructor].
      * apply Forall2_app; [exact (lk_ack L)|exact (lk_old L)].
      * constructor.
    + destruct (fpos (dbf d) =? fpos (dbf (ss_db ss))).
      * eexists. constructor; [eapply reach_step; [exact (lk_reach L)|exact St]|..]; cbn [s_db s_ack s_old s_pend ss_db ss_ack ss_old ss_pend ss_now]; try apply L; [reflexivity|exact Sd].
      * eexists. constructor; [eapply reach_step; [exact (lk_reach L)|exact St]|..]; cbn [s_db s_ack s_old s_pend ss_db ss_ack ss_old ss_pend ss_now]; try apply L; [reflexivity|exact Sd|].
        constructor; [exact V|exact (lk_pend L)].
Qed.

Lemma ver_in cs vs v : Forall2 ver cs vs -> In v vs -> exists c, In c cs /\ ver c v.
Proof.
  induction 1 as [|c w cs vs H F IH]; intros Hi; [destruct Hi|]. destruct Hi as [->|Hi]; [exists c; split; [now left|exact H]|].
  destruct (IH Hi) as (c' & H1 & H2). exists c'. split; [now right|exact H2].
Qed.
Lemma in_ver cs vs c : Forall2 ver cs vs -> In c cs -> exists v, In v vs /\ ver c v.
Proof.
  induction 1 as [|c' w cs vs H F IH]; intros Hi; [destruct Hi|]. destruct Hi as [->|Hi]; [exists w; split; [now left|exact H]|].
  destruct (IH Hi) as (c1 & H1 & H2). exists c1. split; [now right|exact H2].
Qed.

(** What an opened image holds. *)
Lemma opened_stored B s c v g gsz pl : inv key B s -> cw key (dbf (s_db s)) c -> stable (dbf (s_db s)) (hend c) -> crash_image (dbf (s_db s)) g gsz -> ver c v ->
  exists ps, stored (opened (dbf (s_db s)) g gsz pl) (strip (c_hdr c)) (vn_contents v) ps.
Proof.
  intros I C St G [_ [ps V]]. exists ps. apply stored_strip. destruct (hdr_image C St G) as (A1 & A2 & A3). apply V.
  - intros q z H. unfold has. cbn [opened cur crcm fkey fpos]. pose proof (hend_pos c). eapply chunk_at_mono; [exact (cw_has C q z H)| |lia].
    intros i Hi Hm. apply A3; [lia|exact Hm].
  - cbn [opened fkey]. exact (inv_fkey I).
Qed.

(** Opening after a crash. *)
Lemma link_open ss s v0 g gsz pl recovery : linked ss s -> ss_ack ss = Some v0 -> crash_image (dbf (ss_db ss)) g gsz ->
  exists d v ss', open_existing (image g gsz pl) getkey recovery false = Ok d /\ (v = v0 \/ In v (ss_pend ss)) /\ vn_pos v = h_position (dbh d) /\
    ss' = Session d (vn_contents v) (Some v) (if vn_pos v =? vn_pos v0 then ss_old ss else v0 :: ss_old ss) [] /\ reopen getkey ss ss' /\ exists s', linked ss' s'.
Proof.
  intros L Ha G. destruct (link_inv L) as [B I]. pose proof (lk_ack L) as LA. rewrite Ha in LA. cbn [opt_list] in LA.
  destruct (s_ack s) as [c0|] eqn:Hc0; [|inversion LA]. inversion LA as [|? ? ? ? V0 _]; subst. rewrite <- (lk_db L) in G.
  destruct (@open_image E key getkey KO B s c0 g gsz pl recovery I Hc0 G) as (c & H1 & H2 & C & St & _).
  assert (Hv : exists v, ver c v /\ (c = c0 /\ v = v0 \/ In c (s_pend s) /\ In v (ss_pend ss))).
  { destruct H1 as [->|H1]; [exists v0; auto|]. destruct (in_ver (lk_pend L) H1) as (v & Hv & V). exists v. auto. }
  destruct Hv as (v & V & Hcv). set (d := Db (opened (dbf (s_db s)) g gsz pl) (strip (c_hdr c)) false) in *.
  assert (Hp : vn_pos v = h_position (dbh d)) by (symmetry; exact (proj1 V)).
  assert (Sd : exists ps, stored (dbf d) (dbh d) (vn_contents v) ps) by exact (opened_stored pl I C St G V).
  exists d, v. eexists. split; [exact H2|]. split; [destruct Hcv as [[_ ->]|[_ Hv]]; auto|]. split; [exact Hp|]. split; [reflexivity|].
  destruct Hcv as [[-> ->]|[Hc Hv]].
  - rewrite N.eqb_refl. split.
    + rewrite (lk_db L) in G. eapply reopen_same; eassumption.
    + eexists. constructor; [eapply reach_step; [exact (lk_reach L)|eapply (@step_reopen_same E getkey s g gsz pl recovery d c0); [exact G|exact H2|exact Hc0|reflexivity]]|..];
        cbn [s_db s_ack s_old s_pend ss_db ss_ack ss_old ss_pend ss_now opt_list].
      * reflexivity.
      * exact Sd.
      * constructor; [exact V0|constructor].
      * exact (lk_old L).
      * constructor.
  - assert (Hne : vn_pos v =? vn_pos v0 = false).
    { apply N.eqb_neq. destruct (i_ackB I Hc0) as [HB _]. pose proof (i_pendB I c Hc) as HP. unfold cpos in *. rewrite <- (proj1 V), <- (proj1 V0). lia. }
    rewrite Hne. split.
    + rewrite (lk_db L) in G. eapply reopen_newer; eassumption.
    + eexists. constructor; [eapply reach_step; [exact (lk_reach L)|eapply (@step_reopen_newer E getkey s g gsz pl recovery d c0 c); [exact G|exact H2|exact Hc0|exact Hc|reflexivity]]|..];
        cbn [s_db s_ack s_old s_pend ss_db ss_ack ss_old ss_pend ss_now opt_list].
      * reflexivity.
      * exact Sd.
      * constructor; [exact V|constructor].
      * constructor; [exact V0|exact (lk_old L)].
      * constructor.
Qed.

Lemma link_reopen ss s ss' : linked ss s -> reopen getkey ss ss' -> exists s', linked ss' s'.
Proof.
  intros L Ro. assert (Hu : forall v1 v2, ss_ack ss = Some v1 \/ In v1 (ss_pend ss) -> ss_ack ss = Some v2 \/ In v2 (ss_pend ss) -> vn_pos v1 = vn_pos v2 ->
      (exists v, ss_ack ss = Some v) -> v1 = v2 /\ (ss_ack ss = Some v1 -> ~ In v1 (ss_pend ss))) .
  { destruct (link_inv L) as [B I]. intros v1 v2 H1 H2 He [v0 Hv0]. pose proof (lk_ack L) as LA. rewrite Hv0 in LA, H1, H2. cbn [opt_list] in LA.
    destruct (s_ack s) as [c0|] eqn:Hc0; [|inversion LA]. inversion LA as [|? ? ? ? V0 _]; subst.
    destruct (i_ackB I Hc0) as [HB _].
    assert (Hp : forall v, In v (ss_pend ss) -> vn_pos v0 < vn_pos v).
    { intros v Hv. destruct (ver_in (lk_pend L) Hv) as (c & Hc & V). pose proof (i_pendB I c Hc) as HP. unfold cpos in *. rewrite <- (proj1 V), <- (proj1 V0). lia. }
    assert (Hn : NoDup (map vn_pos (ss_pend ss))).
    { pose proof (i_nodup I) as Hn. clear - L Hn. assert (Hm : map vn_pos (ss_pend ss) = map cpos (s_pend s)).
      { generalize (lk_pend L). generalize (s_pend s) (ss_pend ss). intros cs vs F. induction F as [|c v cs vs V F IH]; [reflexivity|]. cbn [map]. rewrite IH. f_equal. symmetry. exact (proj1 V). }
      now rewrite Hm. }
    split.
    - destruct H1 as [H1|H1], H2 as [H2|H2]; try congruence.
      + injection H1 as ->. specialize (Hp _ H2). lia.
      + injection H2 as ->. specialize (Hp _ H1). lia.
      + eapply nodup_map_eq; eassumption.
    - rewrite Hv0. intros [= ->] Hin. specialize (Hp _ Hin). lia. }
  destruct Ro as [ss g gsz pl recovery d v G Ho Ha Hp|ss g gsz pl recovery d v0 v G Ho Ha Hin Hp].
  - destruct (link_open pl recovery L Ha G) as (d1 & v1 & ss1 & O1 & V1 & P1 & -> & _ & s' & L').
    assert (d1 = d) by congruence. subst d1. assert (v1 = v).
    { apply (Hu v1 v); [destruct V1 as [->|]; auto|auto|congruence|eauto]. }
    subst v1. rewrite N.eqb_refl in L'. eauto.
  - destruct (link_open pl recovery L Ha G) as (d1 & v1 & ss1 & O1 & V1 & P1 & -> & _ & s' & L').
    assert (d1 = d) by congruence. subst d1. assert (v1 = v).
    { apply (Hu v1 v); [destruct V1 as [->|]; auto|auto|congruence|eauto]. }
    subst v1. assert (Hne : vn_pos v =? vn_pos v0 = false).
    { apply N.eqb_neq. intros He. destruct (Hu v0 v) as [Hx Hy]; [auto|auto|congruence|eauto|]. subst v. exact (Hy Ha Hin). }
    rewrite Hne in L'. eauto.
Qed.

Lemma header_blank d t d' : db_write_header d t = (Ok tt, d') -> h_by_id (dbh d') = h_by_id (dbh d) /\ h_by_seq (dbh d') = h_by_seq (dbh d) /\ h_local (dbh d') = h_local (dbh d) /\
  h_update_seq (dbh d') = h_update_seq (dbh d).
Proof.
  unfold db_write_header. set (h1 := if (h_version (dbh d) =? 11) || (h_version (dbh d) =? 12) then set_timestamp (dbh d) 0 else dbh d).
  assert (H1 : h_by_id h1 = h_by_id (dbh d) /\ h_by_seq h1 = h_by_seq (dbh d) /\ h_local h1 = h_local (dbh d) /\ h_update_seq h1 = h_update_seq (dbh d))
    by (unfold h1; destruct ((h_version (dbh d) =? 11) || (h_version (dbh d) =? 12)); auto).
  clearbody h1. set (h2 := if (h_version h1 =? 11) || (h_version h1 =? 12) || (h_version h1 =? 13) then set_meta (set_prev h1 UNKNOWN_PREV) false else h1).
  assert (H2 : h_by_id h2 = h_by_id h1 /\ h_by_seq h2 = h_by_seq h1 /\ h_local h2 = h_local h1 /\ h_update_seq h2 = h_update_seq h1)
    by (unfold h2; destruct ((h_version h1 =? 11) || (h_version h1 =? 12) || (h_version h1 =? 13)); auto).
  clearbody h2. destruct ((h_version h2 =? 11) || (h_version h2 =? 12) || (h_version h2 =? 13) || (h_version h2 =? 14)); [|discriminate].
  destruct (write_header (dbf d) (encode_header h2) t) as [[p|e] f1]; [|discriminate]. intros H. injection H as <-. cbn.
  intuition congruence.
Qed.

Lemma link_new pl legacy nc d : (key = None \/ legacy = false) -> open_new (empty_file pl) key legacy nc = (Ok tt, d) -> lost (dbf d) = false ->
  exists s, linked (Session d no_contents None (if nc then [] else [Version (h_position (dbh d)) no_contents]) []) s.
Proof.
  intros Hk Ho Hl.
  assert (Hh : h_by_id (dbh d) = None /\ h_by_seq (dbh d) = None /\ h_local (dbh d) = None /\ h_update_seq (dbh d) = 0).
  { clear Hl. unfold open_new in Ho. destruct (create_metadata_header _ key) as [[meta|e] f1]; [|discriminate].
    assert (Hc : forall d0, create_header f1 meta nc = (Ok tt, d0) -> h_by_id (dbh d0) = None /\ h_by_seq (dbh d0) = None /\ h_local (dbh d0) = None /\ h_update_seq (dbh d0) = 0).
    { intros d0. unfold create_header. destruct nc; [intros H; injection H as <-; cbn; auto|]. intros H. apply header_blank in H. cbn [dbh h_by_id h_by_seq h_local h_update_seq] in H. exact H. }
    destruct (create_header f1 meta nc) as [[u|e] d0]; [|discriminate]. destruct u. specialize (Hc d0 eq_refl).
    destruct (fpos (dbf d0) =? 0); [destruct (write_disk_block_type (dbf d0) 0 B_DATA) as [[u|e] f']; [|discriminate]|]; injection Ho as <-; exact Hc. }
  destruct Hh as (H1 & H2 & H3 & H4).
  eexists. constructor; [eapply (@reach_new E key getkey pl legacy nc d); eassumption|..]; cbn [s_db s_ack s_old s_pend ss_db ss_ack ss_old ss_pend ss_now opt_list].
  - reflexivity.
  - exists []. now apply stored_new.
  - constructor.
  - destruct nc; constructor; [|constructor]. split; [reflexivity|]. exists []. intros f _ _. now apply stored_new.
  - constructor.
Qed.
Lemma link_old pl v d : (v = 12 \/ v = 13) -> key = None ->
  db_write_header (Db (set_crcm (empty_file pl) CRC32C) (Header v 0 None None None 0 0 0 0 NO_PREV false) false) B_HEADER = (Ok tt, d) -> lost (dbf d) = false ->
  exists s, linked (Session d no_contents None [Version (h_position (dbh d)) no_contents] []) s.
Proof.
  intros Hv Hk Ho Hl.
  assert (Hh : h_by_id (dbh d) = None /\ h_by_seq (dbh d) = None /\ h_local (dbh d) = None /\ h_update_seq (dbh d) = 0) by (apply header_blank in Ho; exact Ho).
  destruct Hh as (H1 & H2 & H3 & H4).
  eexists. constructor; [eapply (@reach_old E key getkey pl v d); eassumption|..]; cbn [s_db s_ack s_old s_pend ss_db ss_ack ss_old ss_pend ss_now opt_list].
  - reflexivity.
  - exists []. now apply stored_new.
  - constructor.
  - constructor; [|constructor]. split; [reflexivity|]. exists []. intros f _ _. now apply stored_new.
  - constructor.
Qed.

(** ** Snapshots *)

Lemma ver_stored ss s x : linked ss s -> In x (opt_list (ss_ack ss) ++ ss_old ss) ->
  exists c, In c (effective s) /\ ver c x /\ exists ps, stored (dbf (ss_db ss)) (strip (c_hdr c)) (vn_contents x) ps.
Proof.
  intros L Hx. destruct (link_inv L) as [B I].
  assert (F : Forall2 ver (opt_list (s_ack s) ++ s_old s) (opt_list (ss_ack ss) ++ ss_old ss)) by (apply Forall2_app; [exact (lk_ack L)|exact (lk_old L)]).
  destruct (ver_in F Hx) as (c & Hc & V). exists c. split; [exact Hc|]. split; [exact V|]. destruct V as [_ [ps V]]. exists ps. apply stored_strip.
  pose proof (chain_cw I c Hc) as C. rewrite <- (lk_db L). apply V; [|exact (inv_fkey I)].
  intros q z Hz. pose proof (cw_has C q z Hz) as H. unfold has. eapply chunk_at_mono; [exact H|auto|]. pose proof (cw_end C). pose proof (hend_pos c). lia.
Qed.
Lemma linked_snapshot ss s h v : linked ss s -> snapshot ss h v -> exists ps, stored (dbf (ss_db ss)) h v ps.
Proof.
  intros L [[-> ->]|(x & Hx & Hf & ->)].
  - exact (lk_now L).
  - destruct (link_inv L) as [B I]. destruct (ver_stored L Hx) as (c & Hc & V & ps & S).
    exists ps. assert (Hh : h = strip (c_hdr c)).
    { assert (Hr : reads s (ss_db ss)).
      { rewrite <- (lk_db L). constructor; auto; [|exact (i_dropped I)]. pose proof (proj2 (i_good I)). lia. }
      pose proof (chain_header I c Hr Hc) as Hat. apply header_at_find with (h0 := header0) in Hat. unfold cpos in Hat. rewrite (proj1 V) in Hat. congruence. }
    rewrite Hh. exact S.
Qed.

Lemma snapshot_fits ss s h v : linked ss s -> snapshot ss h v -> h_purge_seq h < 2^48.
Proof.
  intros L [[-> ->]|(x & Hx & Hf & ->)]; destruct (link_inv L) as [B I].
  - rewrite <- (lk_db L). exact (ho_ps (i_hok I)).
  - destruct (ver_stored L Hx) as (c & Hc & V & _).
    assert (Hr : reads s (ss_db ss)).
    { rewrite <- (lk_db L). constructor; auto; [|exact (i_dropped I)]. pose proof (proj2 (i_good I)). lia. }
    pose proof (chain_header I c Hr Hc) as Hat. apply header_at_find with (h0 := header0) in Hat. unfold cpos in Hat. rewrite (proj1 V), Hf in Hat. injection Hat as ->.
    exact (hf_ps (cw_fits (chain_cw I c Hc))).
Qed.

(** ** Compaction *)

Lemma appends_mono f f' : appends f f' -> good f -> (lost f' = false -> lost f = false) /\ (big f' = false -> big f = false).
Proof.
  induction 1 as [f|f f1 b r f2 A IH Hw|f f1 b t r f2 A IH Hw|f f1 r f2 A IH Hw|f f1 q t r f2 A IH Hq Hw|f f1 A IH]; intros G; [auto|..];
    destruct (IH G) as [I1 I2]; destruct (@appends_good E EO _ _ A G) as (G1 & _); clear IH.
  - destruct (@db_write_buf_spec _ EO _ _ _ _ G1 Hw) as [(X & _) _]. split; intros H; [apply I1, (ex_lost X)|apply I2, (ex_big X)]; exact H.
  - destruct (@write_header_spec _ EO _ _ _ _ _ G1 Hw) as (X & _). split; intros H; [apply I1, (ex_lost X)|apply I2, (ex_big X)]; exact H.
  - destruct G1 as [W1 S1]. pose proof (@fsync_ext 0 (fun _ _ => True) _ _ _ W1 Hw) as X. split; intros H; [apply I1, (ex_lost X)|apply I2, (ex_big X)]; exact H.
  - destruct G1 as [W1 S1]. unfold write_disk_block_type in Hw. destruct (pwrite f1 q [t]) as [r' f2'] eqn:Ew.
    assert (f2' = f2) as -> by (destruct r'; inv Hw; reflexivity).
    pose proof (@pwrite_ext f1 q [t] r' f2 W1 Ew) as X. split; intros H; [apply I1, (ex_lost X)|apply I2, (ex_big X)]; exact H.
  - auto.
Qed.

Lemma open_new_good pl legacy t : open_new (empty_file pl) key legacy true = (Ok tt, t) ->
  good (dbf t) /\ 1 <= fpos (dbf t) /\ fkey (dbf t) = thekey /\ dropped t = false.
Proof.
  unfold open_new. set (f0 := set_fpos (set_fkey (set_crcm (empty_file pl) (if legacy then CRC32 else CRC32C)) None) 0).
  assert (G0 : good f0).
  { split; [|cbn; lia]. unfold f0.
    apply (ex_wf (set_fpos_ext 0 (Tval 0) 0 (set_fkey_wf None (set_crcm_wf (if legacy then CRC32 else CRC32C) (proj1 (empty_good pl)))))). }
  unfold create_metadata_header, thekey. destruct key as [ki|].
  - destruct ((lenN (ki_id ki) =? 0) || (255 <? lenN (ki_id ki))); [discriminate|]. set (f1 := set_fkey f0 (Some (ki_key ki))).
    assert (G1 : good f1) by (split; [apply set_fkey_wf, G0|cbn; lia]).
    destruct (write_header f1 (encode_metadata ki) B_META) as [[p|e] f2] eqn:Ew; [|discriminate].
    destruct (@write_header_spec _ EO _ _ _ _ _ G1 Ew) as (X & Hp & Hok & _). destruct (Hok p eq_refl) as (Hpq & Hhd & He1 & _).
    change (align (fpos f1)) with 0 in *. subst p. 
    assert (H1 : 1 <= fpos f2) by (rewrite He1; match goal with |- _ <= adv ?a ?b => pose proof (adv_ge a b) end; lia).
    cbn [create_header dbf]. destruct (N.eqb_spec (fpos f2) 0); [lia|]. intros H; injection H as <-. cbn [dbf dropped].
    split; [split; [exact (ex_wf X)|lia]|]. split; [exact H1|]. split; [rewrite (ex_fkey X); reflexivity|reflexivity].
  - cbn [create_header dbf]. change (fpos f0 =? 0) with true. cbv iota. unfold write_disk_block_type.
    destruct (pwrite f0 0 [B_DATA]) as [[m|e] f2] eqn:Ew; [|discriminate]. intros H; injection H as <-. cbn [dbf dropped].
    pose proof (pwrite_ext (proj1 G0) Ew) as X. assert (Hne : [B_DATA] <> []) by discriminate.
    destruct (pwrite_ok Hne Ew) as (Hn1 & Hcur & Hsz & Hfp). rewrite lenN_cons, lenN_nil in Hn1.
    split; [split; [apply (ex_wf (set_fpos_ext 0 (Tval 0) 1 (ex_wf X)))|cbn [fpos size set_fpos]; lia]|]. split; [cbn; lia|].
    split; [exact (ex_fkey X)|reflexivity].
Qed.

Lemma commit_header_roots d ts n d' : commit_ex d ts n = (Ok tt, d') ->
  h_by_id (dbh d') = h_by_id (dbh d) /\ h_by_seq (dbh d') = h_by_seq (dbh d) /\ h_local (dbh d') = h_local (dbh d).
Proof.
  unfold commit_ex. match goal with |- context [db_write_header ?x _] => set (d1 := x) end.
  destruct (db_write_header d1 B_DATA) as [[[]|e] d2] eqn:Eh; [|discriminate]. apply header_blank in Eh. destruct Eh as (H1 & H2 & H3 & _).
  destruct (fsync (dbf d2)) as [[u2|e] f3]; [|discriminate]. destruct (commit_flip n f3 _) as [[u4|e] f4]; [|discriminate]. intros H; injection H as <-. cbn [dbh].
  rewrite H1, H2, H3. auto.
Qed.

Lemma set_fpos_keeps f p : fpos f <= p -> keeps f (set_fpos f p).
Proof. intros H. split; [|reflexivity]. intros q z Hz. unfold has in *. eapply chunk_at_mono; [exact Hz|auto|exact H]. Qed.

Lemma link_compact ss h v p c o pol pl d ps : good (dbf (ss_db ss)) -> stored (dbf (ss_db ss)) h v ps -> fpos (dbf (ss_db ss)) <= p <= size (dbf (ss_db ss)) ->
  (fkey (dbf (ss_db ss)) = None <-> key = None) -> (key = None \/ 11 < h_version h \/ co_upgrade o = true) ->
  co_recovery o = false -> Forall (follows o pol) (v_docs v) ->
  h_purge_ptr h = 0 -> h_purge_seq h + 1 < 2^48 -> h_timestamp h < 2^64 ->
  compact c o (reader ss h p) (empty_file pl) key = (Ok tt, d) -> room d -> fpos (dbf d) + BLOCK < 2^47 ->
  exists s, linked (Session d (compacted pol v) (Some (Version (h_position (dbh d)) (compacted pol v))) [] []) s.
Proof.
  intros G S Hp Henc Hleg Hrec Hfo Hpp Hps Hts Hc Rm Hend. unfold compact in Hc.
  assert (Hre : co_filter o = None -> co_rewrite o = None) by (intros H; rewrite H in Hc; destruct (co_rewrite o); [discriminate|reflexivity]).
  assert (Hc' : compact_body c o (reader ss h p) (empty_file pl) key = (Ok tt, d)) by (destruct (co_filter o); [exact Hc|rewrite (Hre eq_refl) in Hc; exact Hc]).
  clear Hc. unfold compact_body in Hc'. cbn [reader dropped dbh] in Hc'. cbn zeta in Hc'.
  destruct (open_new _ _ _ _) as [[[]|e] t] eqn:Ho; [|discriminate].
  destruct (copy_docs _ _ _ _) as [[[[scan ids] seqs]|e] f1] eqn:Hd; [|discriminate].
  destruct (copy_locals _ _ _) as [[locs|e] f2] eqn:Hl; [|discriminate].
  destruct (match co_filter o with Some _ => _ | None => _ end); [|discriminate].
  set (h1 := Header _ _ _ _ _ _ _ _ _ _ _) in Hc'. destruct (commit_ex _ _ _) as [[[]|e] d1] eqn:Hcm; [|discriminate]. injection Hc' as -> ->.
  set (src := reader ss h p) in *.
  assert (Gs : good (dbf src)) by (destruct G as [G1 G2]; split; [exact (ex_wf (set_fpos_ext 0 (fun _ _ => True) p G1))|cbn; lia]).
  assert (Ss : stored (dbf src) (dbh src) v ps) by (eapply stored_keeps; [apply set_fpos_keeps; apply Hp|exact S]).
  assert (Hlegacy : key = None \/ (h_version h <=? 11) && negb (co_upgrade o) = false).
  { destruct Hleg as [H|[H|H]]; [now left|right|right]; [|rewrite H; apply andb_false_r]. destruct (N.leb_spec (h_version h) 11); [lia|reflexivity]. }
  destruct (open_new_good Ho) as (Gt & Pt & Kt & Dt). pose proof (commit_appends Hcm) as Ac. cbn [dbf] in Ac.
  assert (Het : fkey (dbf src) = None <-> fkey (dbf t) = None).
  { rewrite Kt. unfold thekey. cbn [src reader dbf set_fpos fkey]. rewrite Henc. destruct key; split; congruence. }
  destruct (@copy_stored E EO anyf anye any_okerr (fun _ _ _ _ _ _ _ => I) c o pol src v ps Gs Ss Hre Hrec Hfo (dbf t) Gt I Pt Het _ _ _ _ Hd Hl) as [[log W] Hst].
  pose proof (writes_le EO Gt W) as Lt. destruct (appends_mono Ac (le_good Lt)) as [M1 M2]. destruct (@appends_good E EO _ _ Ac (le_good Lt)) as (_ & Pc & _).
  assert (B2 : big f2 = false) by exact (M2 (rm_big Rm)). assert (L2 : lost f2 = false) by exact (M1 (rm_lost Rm)).
  assert (F2 : fin47 f2) by (split; [exact B2|pose proof (rm_pos Rm); lia]).
  destruct (Hst F2 _ _ _ _ eq_refl eq_refl) as [_ Hst']. destruct (Hst' h1 eq_refl eq_refl eq_refl eq_refl) as [ps' S2].
  assert (Lost : lost (dbf t) = false) by (destruct Lt as (X & _); exact (ex_lost X L2)).
  destruct (@link_new pl _ true t Hlegacy Ho Lost) as [s0 L0]. pose proof (lk_db L0) as E0. cbn [ss_db] in E0.
  assert (Hpurge : (if co_drop o then (h_purge_seq h + 1) mod 2^64 else h_purge_seq h) < 2^48).
  { destruct (co_drop o); [|lia]. rewrite N.mod_small; [exact Hps|]. change (2^64) with 18446744073709551616. change (2^48) with 281474976710656 in Hps. lia. }
  destruct (commit_header_roots Hcm) as (Hr1 & Hr2 & Hr3). cbn [dbh] in Hr1, Hr2, Hr3.
  assert (Rm1 : room (Db f2 h1 false)).
  { constructor; cbn [dbf dbh]; [exact B2|exact L2|apply F2|rewrite <- Hr1; exact (rm_id Rm)|rewrite <- Hr2; exact (rm_seq Rm)|rewrite <- Hr3; exact (rm_local Rm)]. }
  assert (L1 : exists s1, linked (Session (Db f2 h1 (dropped (s_db s0))) (compacted pol v) None [] []) s1).
  { eapply (@link_set_all (Session t no_contents None [] []) s0 f2 h1 (compacted pol v)); [exact L0|rewrite E0; exact W|exists ps'; exact S2| | | | |exact Rm1].
    - rewrite E0. reflexivity.
    - exact Hpurge.
    - cbn [h1 h_purge_ptr]. rewrite Hpp. reflexivity.
    - cbn [h1 h_purge_ptr]. rewrite Hpp. apply N.le_0_l. }
  destruct L1 as [s1 L1]. rewrite E0, Dt in L1.
  assert (Wr : write (Session (Db f2 h1 false) (compacted pol v) None [] [])
     (Session d (compacted pol v) (Some (Version (align (fpos f2)) (compacted pol v))) [] [])).
  { pose proof (@write_commit E (Session (Db f2 h1 false) (compacted pol v) None [] []) (h_timestamp h) 0 (Ok tt) d Hts) as Wc. cbn [ss_db dbf ss_now ss_ack ss_old opt_list app] in Wc.
    apply Wc; [lia|exact Hcm|exact (rm_lost Rm)]. }
  destruct (link_write L1 Wr) as [s2 L3]. exists s2.
  assert (Hpos : align (fpos f2) = h_position (dbh d)); [|rewrite <- Hpos; exact L3].
  destruct (link_inv L1) as [B1 I1]. pose proof (lk_db L1) as E1. cbn [ss_db] in E1. rewrite <- E1 in Hcm. destruct (@commit_header E EO key B1 s1 _ _ _ _ I1 Hcm) as [_ Hh].
  rewrite Hh, E1. reflexivity.
Qed.

(** ** Replay *)

Lemma link_replay ss s src v1 ps1 c limit hook since d : linked ss s -> good (dbf src) -> dropped src = false -> stored (dbf src) (dbh src) v1 ps1 -> h_purge_seq (dbh src) < 2^48 ->
  2 <= c_kv c -> v_seq (ss_now ss) <= since -> since + 1 < 2^48 -> Forall storable (v_docs v1) ->
  replay_changes c limit hook src since (ss_db ss) = (Ok tt, d) -> room d ->
  exists s', linked (Session d (caught_up since v1 (ss_now ss)) (ss_ack ss) (ss_old ss) (ss_pend ss)) s'.
Proof.
  intros L Gs Ds S1 Hps Hc Hsq Hsi Hst Hr Rm. destruct (link_inv L) as [B I]. pose proof (lk_db L) as Hdb. destruct (lk_now L) as [ps S].
  pose proof (i_good I) as G. pose proof (i_pos1 I) as P1. pose proof (i_dropped I) as Hd. rewrite Hdb in G, P1, Hd.
  destruct (@replay_changes_writes E EO c Hc limit hook src Gs Ds v1 ps1 S1 since Hsi (ss_db ss) (Ok tt) d Hr) as [log W].
  destruct (@replay_changes_ok E EO anyf anye any_okerr c Hc limit hook (dbh (ss_db ss)) src Gs Ds v1 ps1 S1 since Hsi Hst (ss_db ss) (ss_now ss) ps (Ok tt) d G Logic.I P1 Hd eq_refl S Hsq Hr
    (conj (rm_big Rm) (rm_pos Rm))) as (_ & D' & (a & b & l & n & Hh) & Sd).
  destruct (reach_writes (lk_reach L) (eq_ind_r (fun x => writes (dbf x) log (dbf d)) W Hdb) (rm_big Rm) (rm_lost Rm)) as [log' R1].
  destruct (@reach_inv E EO key getkey KO _ R1) as [B' I']. pose proof (i_hok I') as K. cbn [s_db dbf dbh] in K. rewrite Hdb in K.
  assert (Hs : exists s', linked (Session (Db (dbf d) (dbh d) (dropped (s_db s))) (caught_up since v1 (ss_now ss)) (ss_ack ss) (ss_old ss) (ss_pend ss)) s').
  { eapply link_set_all; [exact L|rewrite Hdb; exact W|exact Sd| | | | |exact (room_drop Rm)]; rewrite ?Hdb, Hh; cbn [set_purge_seq dbh h_purge_seq h_purge_ptr].
    - reflexivity.
    - exact Hps.
    - apply (ho_pp K).
    - apply (ho_pp K). }
  rewrite Hdb, Hd, <- D' in Hs. destruct d. exact Hs.
Qed.
End WithEnv.

Theorem sessions_linked0 (E : Env) (EO : EnvOk E) key getkey ss : sessions key getkey ss -> key_ok key getkey -> exists s, linked key getkey ss s.
Proof.
  induction 1 as [key getkey pl legacy nc d Hk Ho Hl|key getkey pl v d Hv Hk Ho Hl|key getkey ss ss' H IH W|key getkey ss ss' H IH W
    |key getkey key0 getkey0 s h v p c o pol pl d K0 H IH Sn Hp He Hleg Hrec Hfo Hpp Hps Hts Hc Rm Hend
    |key getkey key0 getkey0 s0 h1 v1 p c limit hook since s d K0 H0 IH0 H IH Sn Hp Hc Hsq Hsi Hst Hr Rm]; intros KO.
  - exact (link_new getkey Hk Ho Hl).
  - exact (link_old getkey Hv Hk Ho Hl).
  - destruct (IH KO) as [s L]. exact (link_write EO KO L W).
  - destruct (IH KO) as [s L]. exact (link_reopen EO KO L W).
  - destruct (IH K0) as [s0 L]. destruct (linked_snapshot EO K0 L Sn) as [ps S]. destruct (link_inv EO K0 L) as [B I].
    assert (G : good (dbf (ss_db s))) by (rewrite <- (lk_db L); exact (i_good I)).
    eapply (@link_compact E EO key getkey KO s h v p c o pol pl d ps); eauto.
    rewrite <- He. rewrite <- (lk_db L), (inv_fkey K0 I). unfold thekey. destruct key0; split; congruence.
  - destruct (IH0 K0) as [t0 L0]. destruct (IH KO) as [t L]. destruct (linked_snapshot EO K0 L0 Sn) as [ps S]. destruct (link_inv EO K0 L0) as [B I].
    assert (G : good (dbf (ss_db s0))) by (rewrite <- (lk_db L0); exact (i_good I)).
    eapply (@link_replay E EO key getkey KO s t (reader s0 h1 p) v1 ps c limit hook since d L); auto; cbn [reader dbf dbh].
    + split; [exact (ex_wf (set_fpos_ext 0 (Tval 0) p (proj1 G)))|]. cbn [fpos set_fpos size]. apply Hp.
    + exact (stored_keeps (set_fpos_keeps (proj1 Hp)) S).
    + exact (snapshot_fits EO K0 L0 Sn).
Qed.
Theorem sessions_linked (E : Env) (EO : EnvOk E) key getkey (KO : key_ok key getkey) ss : sessions key getkey ss -> exists s, linked key getkey ss s.
Proof. intros H. exact (sessions_linked0 EO H KO). Qed.
