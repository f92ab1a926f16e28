(** The invariant of executions, and what opening finds after a crash. *)
From Verif Require Import Base Codec CodecFacts File FileFacts ChunkFacts Header HeaderFacts History.
Local Open Scope N_scope.

Definition mode_of (v : N) : crc_mode := if v <=? 11 then CRC32 else CRC32C.

(** The in-memory header can be committed. *)
Record hok (h : header) (f : file) : Prop := {
  ho_version : h_version h = 11 \/ h_version h = 12 \/ h_version h = 13 \/ h_version h = 14;
  ho_us : h_update_seq h < 2^48;
  ho_ps : h_purge_seq h < 2^48;
  ho_pp : h_purge_ptr h < 2^48 /\ h_purge_ptr h <= fpos f;
  ho_id : root_fits (h_by_id h) (fpos f);
  ho_seq : root_fits (h_by_seq h) (fpos f);
  ho_local : root_fits (h_local h) (fpos f);
  ho_len : hsize (h_version h) + root_size (h_by_seq h) + root_size (h_by_id h) + root_size (h_local h) <= 1020;
  ho_meta : h_version h < 14 -> h_meta h = false;
  ho_pos : h_position h <= fpos f;
  ho_mode : crcm f = mode_of (h_version h)
}.

Lemma root_fits_mono r p p' : p <= p' -> root_fits r p -> root_fits r p'.
Proof. destruct r; cbn; [|auto]. intros H (A & B & C). repeat split; auto; lia. Qed.

Lemma hok_mono h f f' : hok h f -> fpos f <= fpos f' -> crcm f' = crcm f -> hok h f'.
Proof.
  intros H Hp Hm. destruct H. constructor; auto; try (eapply root_fits_mono; eassumption); try lia.
  congruence.
Qed.

Lemma committed_fits h f ts p : hok h f -> fpos f <= p -> ts < 2^64 -> fpos f < 2^47 ->
  hdr_fits (committed h ts p) p.
Proof.
  intros H Hp Hts Hpos. pose proof (ho_version H) as Hv. pose proof (ho_len H) as HL.
  pose proof (ho_pos H) as HP. destruct (ho_pp H) as [Hpp1 Hpp2].
  constructor; cbn [committed h_version h_update_seq h_by_id h_by_seq h_local h_purge_seq h_purge_ptr h_position h_timestamp h_prev h_meta].
  - exact Hv.
  - apply H.
  - apply H.
  - split; lia.
  - eapply root_fits_mono; [exact Hp|apply H].
  - eapply root_fits_mono; [exact Hp|apply H].
  - eapply root_fits_mono; [exact Hp|apply H].
  - rewrite lenN_encode_header by exact Hv. cbn [committed h_version h_by_id h_by_seq h_local].
    exact HL.
  - destruct (h_version h <=? 12); [reflexivity|exact Hts].
  - intros Hv13. destruct (N.leb_spec (h_version h) 12); [reflexivity|lia].
  - intros Hv14. rewrite Hv14. change (14 <=? 13) with false. cbv iota. lia.
  - intros Hv14. destruct (N.leb_spec (h_version h) 13); [auto|lia].
  - reflexivity.
Qed.

Section WithEnv.
Context {E : Env} (EO : EnvOk E).

Lemma db_write_header_spec d ts p0 t r d' :
  h_version (dbh d) = 11 \/ h_version (dbh d) = 12 \/ h_version (dbh d) = 13 \/ h_version (dbh d) = 14 ->
  db_write_header (Db (dbf d) (set_prev (set_timestamp (dbh d) ts) (h_position (dbh d))) (dropped d)) t = (r, d') ->
  exists w f', write_header (dbf d) (encode_header (committed (dbh d) ts p0)) t = (w, f') /\ dbf d' = f' /\
    dropped d' = dropped d /\
    match w with
    | Ok p => r = Ok tt /\ dbh d' = committed (dbh d) ts p
    | Err e => r = Err e /\ dbh d' = committed (dbh d) ts (h_position (dbh d))
    end.
Proof.
  destruct d as [f h dr]. cbn [dbh dbf dropped].
  intros Hv. unfold db_write_header. destruct h as [v us i s l ps pp pos tm pv mt]. cbn [h_version] in Hv.
  destruct Hv as [Hv|[Hv|[Hv|Hv]]]; subst v;
  cbv [dbh dbf dropped set_prev set_timestamp set_meta set_position h_version h_update_seq h_by_id h_by_seq h_local
       h_purge_seq h_purge_ptr h_position h_timestamp h_prev h_meta N.eqb Pos.eqb orb];
  (match goal with |- context [write_header f (encode_header ?x) t] =>
     change (encode_header x) with (encode_header (committed (Header (h_version x) us i s l ps pp pos tm pv mt) ts p0)) end);
  cbn [h_version];
  destruct (write_header f _ t) as [[p|e] f'] eqn:Ew;
  intros H; inv H; eexists; eexists; (split; [reflexivity|]); repeat split.
Qed.

(** Turning the block into a header block. *)
Lemma commit_flip_spec n : forall f q r f', wf f -> q mod BLOCK = 0 -> commit_flip n f q = (r, f') -> q < size f ->
  wf f' /\ dsize f <= dsize f' /\ size f <= size f' /\ fpos f' = fpos f /\ crcm f' = crcm f /\ fkey f' = fkey f /\
  (forall i, i <> q -> same_at i f f') /\
  (cur f' q = cur f q \/ cur f' q = 1) /\
  (forall v, In v (vals f' q) -> In v (vals f q) \/ v = 1) /\
  (r = Ok tt -> cur f' q = 1 /\ forall v, In v (vals f' q) -> v = 1) /\
  (lost f' = false -> lost f = false) /\
  (size f' = size f).
Proof.
  induction n as [|n IH]; intros f q r f' W Hq; cbn [commit_flip]; unfold write_disk_block_type;
  destruct (pwrite f q [B_HEADER]) as [[m|e] f1] eqn:Ew;
  pose proof (pwrite_ext W Ew) as X;
  (assert (Fr : forall i, i <> q -> same_at i f f1)
     by (intros i Hi; apply (pwrite_frame i W Ew); apply inr_false; rewrite lenN_cons, lenN_nil; lia));
  pose proof (pwrite_fpos Ew) as P1;
  (assert (C1 : cur f1 q = cur f q \/ cur f1 q = 1)
     by (destruct (@ex_bcur _ _ _ _ X q) as [?|[_ Hv]]; [lia|exact Hq|auto|rewrite N.sub_diag in Hv; auto]));
  (assert (V1 : forall v, In v (vals f1 q) -> In v (vals f q) \/ v = 1)
     by (intros v Hv; destruct (ex_bvals X v (N.le_refl q) Hq Hv) as [?|[_ Hv']]; [auto|rewrite N.sub_diag in Hv'; auto])).
  all: intros H Hsz;
    assert (Hsize1 : size f1 = size f) by
     (clear -Ew Hsz; unfold pwrite in Ew; destruct (dead f); [now inv Ew|];
      destruct (next_step f) as [s f2] eqn:En; destruct (next_step_eq _ En) as [l ->];
      assert (Pz : forall b, lenN b <= 1 -> size (put (set_plan f l) q b) = size f)
        by (intros b Hb; unfold put; destruct (lenN b =? 0); cbn; [reflexivity|lia]);
      destruct s as [s|];
       [destruct (w_die s); [|destruct (w_err s)]; inv Ew; try destruct (w_lossy s); destruct (w_sync s); cbn;
         apply Pz; rewrite lenN_take; rewrite lenN_cons, lenN_nil; lia
       |inv Ew; apply Pz; rewrite lenN_cons, lenN_nil; lia]).
  (* helper for a finished attempt *)
  - destruct (fsync f1) as [[u|e] f2] eqn:Es;
    pose proof (fsync_ext q (Tval 1) (ex_wf X) Es) as X2;
    (assert (Fr2 : forall i, same_at i f1 f2) by (intros i; apply (fsync_frame i (ex_wf X) Es)));
    pose proof (fsync_fpos Es) as P2;
    (assert (Hsize2 : size f2 = size f1) by
      (clear -Es; unfold fsync in Es; destruct (dead f1); [now inv Es|];
       destruct (next_step f1) as [s f3] eqn:En; destruct (next_step_eq _ En) as [l ->];
       destruct s as [s|]; [destruct (w_die s); [destruct (w_sync s)|destruct (w_err s); [destruct (w_lossy s)|]]|];
       now inv Es)); inv H.
    + destruct u. destruct (fsync_ok _ Es) as [l El].
      assert (D : cur f' q = 1 /\ forall v, In v (vals f' q) -> v = 1).
      { subst f'. cbn. destruct (pwrite1_ok Ew) as [D1 [D2|D2]].
        - rewrite D2. split; [exact D1|]. intros v [<-|[]]. exact D1.
        - rewrite D2, D1. split; [reflexivity|]. destruct (dirty f1 q); intros v [<-|[]]; reflexivity. }
      refine (conj (ex_wf X2) (conj _ (conj _ (conj _ (conj _ (conj _ (conj _ (conj _ (conj _ (conj _ (conj _ _))))))))))).
      * pose proof (ex_dsize X); pose proof (ex_dsize X2); lia.
      * lia.
      * congruence.
      * now rewrite (ex_crcm X2), (ex_crcm X).
      * now rewrite (ex_fkey X2), (ex_fkey X).
      * intros i Hi. eapply same_at_trans; [apply Fr, Hi|apply Fr2].
      * right. exact (proj1 D).
      * intros v Hv. right. exact (proj2 D v Hv).
      * intros _. exact D.
      * intros Hl. apply (ex_lost X), (ex_lost X2), Hl.
      * lia.
    + refine (conj (ex_wf X2) (conj _ (conj _ (conj _ (conj _ (conj _ (conj _ (conj _ (conj _ (conj _ (conj _ _))))))))))).
      * pose proof (ex_dsize X); pose proof (ex_dsize X2); lia.
      * lia.
      * congruence.
      * now rewrite (ex_crcm X2), (ex_crcm X).
      * now rewrite (ex_fkey X2), (ex_fkey X).
      * intros i Hi. eapply same_at_trans; [apply Fr, Hi|apply Fr2].
      * rewrite (proj1 (Fr2 q)). exact C1.
      * intros v Hv. apply V1, (proj2 (Fr2 q)), Hv.
      * discriminate.
      * intros Hl. apply (ex_lost X), (ex_lost X2), Hl.
      * lia.
  - inv H. refine (conj (ex_wf X) (conj _ (conj _ (conj _ (conj _ (conj _ (conj _ (conj _ (conj _ (conj _ (conj _ _))))))))))); auto.
    + apply (ex_dsize X). + lia. + apply (ex_crcm X). + apply (ex_fkey X). + discriminate. + apply (ex_lost X).
  - destruct (fsync f1) as [[u|e] f2] eqn:Es;
    pose proof (fsync_ext q (Tval 1) (ex_wf X) Es) as X2;
    (assert (Fr2 : forall i, same_at i f1 f2) by (intros i; apply (fsync_frame i (ex_wf X) Es)));
    pose proof (fsync_fpos Es) as P2;
    (assert (Hsize2 : size f2 = size f1) by
      (clear -Es; unfold fsync in Es; destruct (dead f1); [now inv Es|];
       destruct (next_step f1) as [s f3] eqn:En; destruct (next_step_eq _ En) as [l ->];
       destruct s as [s|]; [destruct (w_die s); [destruct (w_sync s)|destruct (w_err s); [destruct (w_lossy s)|]]|];
       now inv Es)).
    + inv H. destruct u. destruct (fsync_ok _ Es) as [l El].
      assert (D : cur f' q = 1 /\ forall v, In v (vals f' q) -> v = 1).
      { subst f'. cbn. destruct (pwrite1_ok Ew) as [D1 [D2|D2]].
        - rewrite D2. split; [exact D1|]. intros v [<-|[]]. exact D1.
        - rewrite D2, D1. split; [reflexivity|]. destruct (dirty f1 q); intros v [<-|[]]; reflexivity. }
      refine (conj (ex_wf X2) (conj _ (conj _ (conj _ (conj _ (conj _ (conj _ (conj _ (conj _ (conj _ (conj _ _))))))))))).
      * pose proof (ex_dsize X); pose proof (ex_dsize X2); lia.
      * lia.
      * congruence.
      * now rewrite (ex_crcm X2), (ex_crcm X).
      * now rewrite (ex_fkey X2), (ex_fkey X).
      * intros i Hi. eapply same_at_trans; [apply Fr, Hi|apply Fr2].
      * right. exact (proj1 D).
      * intros v Hv. right. exact (proj2 D v Hv).
      * intros _. exact D.
      * intros Hl. apply (ex_lost X), (ex_lost X2), Hl.
      * lia.
    + destruct (IH _ _ _ _ (ex_wf X2) Hq H) as (I1 & I2 & I3 & I4 & I5 & I6 & I7 & I8 & I9 & I10 & I11 & I12); [lia|].
      refine (conj I1 (conj _ (conj _ (conj _ (conj _ (conj _ (conj _ (conj _ (conj _ (conj _ (conj _ _))))))))))).
      * pose proof (ex_dsize X); pose proof (ex_dsize X2); lia.
      * lia.
      * congruence.
      * now rewrite I5, (ex_crcm X2), (ex_crcm X).
      * now rewrite I6, (ex_fkey X2), (ex_fkey X).
      * intros i Hi. eapply same_at_trans; [apply Fr, Hi|]. eapply same_at_trans; [apply Fr2|apply I7, Hi].
      * destruct I8 as [I8|I8]; [rewrite I8, (proj1 (Fr2 q)); exact C1|now right].
      * intros v Hv. destruct (I9 v Hv) as [I9'|I9']; [|now right]. apply V1, (proj2 (Fr2 q)), I9'.
      * exact I10.
      * intros Hl. apply (ex_lost X), (ex_lost X2), I11, Hl.
      * lia.
  - inv H. refine (conj (ex_wf X) (conj _ (conj _ (conj _ (conj _ (conj _ (conj _ (conj _ (conj _ (conj _ (conj _ _))))))))))); auto.
    + apply (ex_dsize X). + lia. + apply (ex_crcm X). + apply (ex_fkey X). + discriminate. + apply (ex_lost X).
Qed.

(** ** The invariant *)

Variable key : option keyinfo.
Variable getkey : N -> bytes -> bytes -> res N.
Hypothesis KO : key_ok key getkey.

Definition cpos (c : commit) : N := h_position (c_hdr c).
Definition hend (c : commit) : N := adv (cpos c + 1) (8 + length (encode_header (c_hdr c))).

(** The header of [c] is completely in the file, and everything below it as well. *)
Record cw (f : file) (c : commit) : Prop := {
  cw_fits : hdr_fits (c_hdr c) (cpos c);
  cw_end : hend c <= fpos f;
  cw_hdr : hdr_at (cur f) (crcm f) (cpos c) (encode_header (c_hdr c)) (hend c);
  cw_mode : crcm f = mode_of (h_version (c_hdr c));
  cw_meta : h_meta (c_hdr c) = match key with Some _ => true | None => false end;
  cw_log : forall p b, In (p, b) (c_log c) -> chunk_at (cur f) (crcm f) (fkey f) p b (cpos c);
  cw_has : forall p b, has (c_file c) p b -> chunk_at (cur f) (crcm f) (fkey f) p b (cpos c)
}.

Lemma cw_mono f f' c : cw f c -> (forall i, i < hend c -> i mod BLOCK <> 0 -> cur f' i = cur f i) ->
  hend c <= fpos f' -> crcm f' = crcm f -> fkey f' = fkey f -> cw f' c.
Proof.
  intros [H1 H2 H3 H4 H5 H6 H7] Hc Hp Hm Hk.
  assert (cpos c <= hend c).
  { unfold hend. pose proof (adv_ge (cpos c + 1) (8 + length (encode_header (c_hdr c)))). lia. }
  constructor; auto; rewrite ?Hm, ?Hk; auto.
  - eapply hdr_at_mono; [exact H3|exact Hc|lia].
  - intros p b Hin. eapply chunk_at_mono; [apply H6, Hin| |lia]. intros i Hi. apply Hc. lia.
  - intros p b Hin. eapply chunk_at_mono; [apply H7, Hin| |lia]. intros i Hi. apply Hc. lia.
Qed.

Definition all_coms (s : state) : list commit := opt_list (s_ack s) ++ s_old s ++ s_fail s.
Definition live (s : state) : list commit := opt_list (s_ack s) ++ s_old s ++ s_pend s.

(** The older headers are linked by the previous-header field. [p0] is the position stored in the handle before the first
    commit. *)
Definition link_ok (f : file) (c : commit) (r : list commit) : Prop :=
  match r with
  | [] => h_version (c_hdr c) = 14 -> h_prev (c_hdr c) = NO_PREV \/ (h_prev (c_hdr c) = 0 /\ cur f 0 <> 1 /\ 0 < cpos c)
  | c' :: _ => cpos c' < cpos c /\ hend c' <= cpos c /\ (h_version (c_hdr c) = 14 -> h_prev (c_hdr c) = cpos c')
  end.
Fixpoint chain_ok (f : file) (cs : list commit) : Prop :=
  match cs with
  | [] => True
  | c :: r => link_ok f c r /\ chain_ok f r
  end.

Definition meta_end (ki : keyinfo) : N := adv 1 (8 + length (encode_metadata ki)).

Definition meta_inv (f : file) (acked : bool) : Prop :=
  match key with
  | None => fkey f = None
  | Some ki =>
      fkey f = Some (ki_key ki) /\ crcm f = CRC32C /\ lenN (ki_id ki) <> 0 /\
      hdr_at (cur f) (crcm f) 0 (encode_metadata ki) (meta_end ki) /\ meta_end ki <= fpos f /\
      cur f 0 = 2 /\ settled f 0 /\
      (acked = true -> stable f (meta_end ki) /\ forall v, In v (vals f 0) -> v = 2)
  end.

Definition acked (s : state) : bool := match s_ack s with Some _ => true | None => false end.

(** [B]: position of the last acknowledged header (or of the header written at creation). *)
Record inv (B : N) (s : state) : Prop := {
  i_good : good (dbf (s_db s));
  i_pos1 : 1 <= fpos (dbf (s_db s));
  i_lost : lost (dbf (s_db s)) = false;
  i_hok : hok (dbh (s_db s)) (dbf (s_db s));
  i_hmeta : h_meta (dbh (s_db s)) = match key with Some _ => true | None => false end;
  i_meta : meta_inv (dbf (s_db s)) (acked s);
  i_log : forall p b, In (p, b) (s_log s) -> has (dbf (s_db s)) p b;
  i_cw : forall c, In c (live s) -> cw (dbf (s_db s)) c;
  i_ver : forall c, In c (all_coms s) -> h_version (c_hdr c) = h_version (dbh (s_db s));
  i_dropped : dropped (s_db s) = false;
  i_chain : chain_ok (dbf (s_db s)) (opt_list (s_ack s) ++ s_old s);
  i_chain1 : forall c, In c (opt_list (s_ack s) ++ s_old s) ->
     cur (dbf (s_db s)) (cpos c) = 1 /\ settled (dbf (s_db s)) (cpos c) /\
     (acked s = true -> forall v, In v (vals (dbf (s_db s)) (cpos c)) -> v = 1);
  i_hpos : match opt_list (s_ack s) ++ s_old s with
           | c :: _ => h_position (dbh (s_db s)) = cpos c
           | [] => h_position (dbh (s_db s)) = 0 /\ cur (dbf (s_db s)) 0 <> 1
           end;
  i_B : B < fpos (dbf (s_db s)) /\ B mod BLOCK = 0;
  i_ackB : forall c, s_ack s = Some c -> B = cpos c /\ stable (dbf (s_db s)) (hend c);
  i_chainB : forall c, In c (opt_list (s_ack s) ++ s_old s) -> cpos c <= B;
  i_blocks : forall q v, q mod BLOCK = 0 -> In v (vals (dbf (s_db s)) q) ->
        v = 0 \/ (v = 2 /\ q = 0) \/
        (v = 1 /\ exists c, In c (all_coms s) /\ cpos c = q /\ cw (dbf (s_db s)) c /\
           (acked s = true \/ B < q -> stable (dbf (s_db s)) (hend c)) /\ (B < q -> In c (s_pend s)));
  i_pendB : forall c, In c (s_pend s) -> B < cpos c;
  i_pend : forall c, In c (s_pend s) -> In c (s_fail s);
  i_plink : forall c, In c (s_pend s) -> link_ok (dbf (s_db s)) c (opt_list (s_ack s) ++ s_old s);
  i_nodup : NoDup (map cpos (s_pend s));
  i_zero : cur (dbf (s_db s)) 0 <> 1 -> ~ In 1 (vals (dbf (s_db s)) 0)
}.

Lemma stable_ext p T f f' e : ext p T f f' -> stable f e -> e <= p -> stable f' e.
Proof.
  intros X S He. eapply stable_same; [exact S|apply (ex_dsize X)|].
  intros i Hi _. split; [apply (ex_cur X); lia|apply (ex_vals X); lia].
Qed.

Lemma link_ok_ext f f' c cs : cur f' 0 = cur f 0 -> link_ok f c cs -> link_ok f' c cs.
Proof.
  intros H0. destruct cs; cbn [link_ok]; auto.
  intros H1 Hv. destruct (H1 Hv) as [?|(A & B & C)]; [auto|]. right. rewrite H0. auto.
Qed.
Lemma chain_ok_ext f f' cs : cur f' 0 = cur f 0 -> chain_ok f cs -> chain_ok f' cs.
Proof.
  intros H0. induction cs as [|c r IH]; cbn [chain_ok]; auto.
  intros [H1 H2]. split; [|auto]. eapply link_ok_ext; eassumption.
Qed.

(** Writes of data above the append position keep the invariant. *)
Lemma inv_ext B s f' log' : inv B s -> ext (fpos (dbf (s_db s))) (Tval 0) (dbf (s_db s)) f' ->
  fpos (dbf (s_db s)) <= fpos f' <= size f' -> lost f' = false ->
  (forall p b, In (p, b) log' -> has f' p b) ->
  inv B (State (Db f' (dbh (s_db s)) (dropped (s_db s))) log' (s_ack s) (s_old s) (s_pend s) (s_fail s)).
Proof.
  intros I X Hp Hl Hlog. set (f := dbf (s_db s)) in *. pose proof (i_pos1 I) as P1. fold f in P1.
  assert (C0 : cur f' 0 = cur f 0) by (apply (ex_cur X); lia).
  assert (Hend : forall c, cw f c -> hend c <= fpos f /\ cpos c < fpos f).
  { intros c Hc. pose proof (cw_end Hc) as He. split; [exact He|].
    unfold hend in He. pose proof (adv_ge (cpos c + 1) (8 + length (encode_header (c_hdr c)))). lia. }
  assert (Hcw : forall c, cw f c -> cw f' c).
  { intros c Hc. destruct (Hend c Hc) as [He _]. apply cw_mono with (f := f); auto.
    + intros i Hi _. apply (ex_cur X). lia.
    + lia.
    + apply (ex_crcm X).
    + apply (ex_fkey X). }
  constructor; cbn [s_db s_log s_ack s_old s_pend s_fail dbf dbh dropped]; unfold acked; cbn [s_ack]; fold (acked s).
  - split; [exact (ex_wf X)|lia].
  - lia.
  - exact Hl.
  - eapply hok_mono; [exact (i_hok I)|fold f; lia|exact (ex_crcm X)].
  - exact (i_hmeta I).
  - pose proof (i_meta I) as M. unfold meta_inv in *. fold f in M. destruct key as [ki|]; rewrite (ex_fkey X); [|exact M].
    destruct M as (M1 & M2 & M3 & M4 & M5 & M6 & M7 & M8). rewrite (ex_crcm X).
    refine (conj M1 (conj M2 (conj M3 (conj _ (conj _ (conj _ (conj _ _))))))).
    + eapply hdr_at_mono; [exact M4| |lia]. intros i Hi _. apply (ex_cur X). lia.
    + lia.
    + congruence.
    + apply (ex_settled X); [lia|exact Hl|exact M7].
    + intros Ha. destruct (M8 Ha) as [S V]. split; [eapply stable_ext; eauto|].
      intros v Hv. apply V. apply (ex_vals X) with (i := 0); [lia|exact Hv].
  - exact Hlog.
  - intros c Hc. now apply Hcw, (i_cw I).
  - exact (i_ver I).
  - exact (i_dropped I).
  - eapply chain_ok_ext; [exact C0|exact (i_chain I)].
  - intros c Hc. destruct (i_chain1 I c Hc) as (A1 & A2 & A3). fold f in A1, A2, A3.
    assert (Hlt : cpos c < fpos f).
    { apply Hend, (i_cw I). unfold live. rewrite app_assoc. apply in_or_app. now left. }
    split; [rewrite (ex_cur X) by lia; exact A1|]. split; [apply (ex_settled X); auto|].
    intros Ha v Hv. apply A3; auto. apply (ex_vals X) with (i := cpos c); [lia|exact Hv].
  - pose proof (i_hpos I) as HP. fold f in HP. destruct (opt_list (s_ack s) ++ s_old s); [|exact HP]. now rewrite C0.
  - pose proof (i_B I). fold f in H. lia.
  - intros c Hc. destruct (i_ackB I Hc) as [B3a B3b]. split; [exact B3a|]. eapply stable_ext; [exact X|exact B3b|].
    apply Hend, (i_cw I). unfold live. rewrite Hc. now left.
  - exact (i_chainB I).
  - intros q v Hq Hv.
      assert (Hold : In v (vals f q) \/ v = 0).
      { destruct (N.lt_ge_cases q (fpos f)) as [L|L].
        - left. apply (ex_vals X) with (i := q); auto.
        - destruct (ex_bvals X v L Hq Hv) as [H|H]; [now left|]. right. exact H. }
      destruct Hold as [Hold| ->]; [|now left].
      destruct (i_blocks I q v Hq Hold) as [?|[?|(V1 & c & C1 & C2 & C0' & C3 & C4)]]; auto. right; right. split; [exact V1|].
      exists c. refine (conj C1 (conj C2 (conj (Hcw _ C0') (conj _ C4)))). intros Hs. eapply stable_ext; [exact X|auto|].
      now apply Hend.
  - exact (i_pendB I).
  - exact (i_pend I).
  - intros c Hc. eapply link_ok_ext; [exact C0|now apply (i_plink I)].
  - exact (i_nodup I).
  - rewrite C0. intros H0 H1. apply (i_zero I H0). apply (ex_vals X) with (i := 0); [lia|exact H1].
Qed.

Lemma restore_header h p ts : (h_version h < 14 -> h_meta h = false) ->
  (h_version h = 11 \/ h_version h = 12 \/ h_version h = 13 \/ h_version h = 14) ->
  set_prev (set_timestamp (set_position (committed h ts p) (h_position h)) (h_timestamp h)) (h_prev h) = h.
Proof.
  destruct h as [v us i sq l ps pp pos tm pv mt]. cbn. intros H Hv. unfold set_prev, set_timestamp, set_position, committed; cbn.
  f_equal. destruct Hv as [->|[->|[->| ->]]]; cbn; auto; now rewrite H.
Qed.

Lemma hdr_at_exact g m pos b e : hdr_at g m pos b e ->
  hdr_at g m pos b (adv (pos + 1) (8 + length b)) /\ adv (pos + 1) (8 + length b) <= e.
Proof.
  intros (H1 & H2 & c & Hc & Hi & Hu & Hb & He). split; [|exact He].
  split; [exact H1|]. split; [exact H2|]. exists c.
  split; [exact Hc|]. split; [exact Hi|]. split; [exact Hu|]. split; [exact Hb|lia].
Qed.

Lemma hend_pos c : cpos c + 9 <= hend c.
Proof. unfold hend. pose proof (adv_ge (cpos c + 1) (8 + length (encode_header (c_hdr c)))). lia. Qed.

Lemma inv_add_pend B s c : inv B s -> cw (dbf (s_db s)) c -> h_version (c_hdr c) = h_version (dbh (s_db s)) ->
  B < cpos c -> ~ In (cpos c) (map cpos (s_pend s)) ->
  link_ok (dbf (s_db s)) c (opt_list (s_ack s) ++ s_old s) ->
  inv B (State (s_db s) (s_log s) (s_ack s) (s_old s) (c :: s_pend s) (c :: s_fail s)).
Proof.
  intros I C V HB Hnd Hlk.
  assert (Hall : forall x, In x (all_coms (State (s_db s) (s_log s) (s_ack s) (s_old s) (c :: s_pend s) (c :: s_fail s))) <->
                 x = c \/ In x (all_coms s)).
  { intros x. unfold all_coms. cbn [s_ack s_old s_fail]. rewrite !in_app_iff. cbn [In]. intuition congruence. }
  constructor; try (apply I); cbn [s_db s_log s_ack s_old s_pend s_fail].
  - intros x Hx. unfold live in Hx. cbn [s_ack s_old s_pend] in Hx. rewrite !in_app_iff in Hx. cbn [In] in Hx.
    assert (Hx' : x = c \/ In x (live s)) by (unfold live; rewrite !in_app_iff; intuition congruence).
    destruct Hx' as [->|Hx']; [exact C|]. now apply (i_cw I).
  - intros x Hx. apply Hall in Hx. destruct Hx as [->|Hx]; [exact V|]. now apply (i_ver I).
  - intros q v Hq Hv. destruct (i_blocks I q v Hq Hv) as [?|[?|(V1 & x & C1 & C2 & C0' & C3 & C4)]]; auto.
    right; right. split; [exact V1|]. exists x. refine (conj _ (conj C2 (conj C0' (conj C3 _)))).
    + apply Hall. now right.
    + intros HBq. right. auto.
  - intros x [<-|Hx]; [exact HB|]. now apply (i_pendB I).
  - intros x [<-|Hx]; [now left|]. right. now apply (i_pend I).
  - intros x [<-|Hx]; [exact Hlk|]. now apply (i_plink I).
  - cbn [map]. constructor; [exact Hnd|]. apply (i_nodup I).
Qed.

Definition synced (f : file) : Prop := forall i, settled f i -> forall v, In v (vals f i) -> v = cur f i.

Lemma flip_common B s c n r f' : inv B s -> In c (s_pend s) -> cpos c <> 0 -> synced (dbf (s_db s)) ->
  commit_flip n (dbf (s_db s)) (cpos c) = (r, f') ->
  wf f' /\ dsize (dbf (s_db s)) <= dsize f' /\ size (dbf (s_db s)) <= size f' /\ fpos f' = fpos (dbf (s_db s)) /\
  crcm f' = crcm (dbf (s_db s)) /\ fkey f' = fkey (dbf (s_db s)) /\
  (forall i, i <> cpos c -> same_at i (dbf (s_db s)) f') /\
  (cur f' (cpos c) = cur (dbf (s_db s)) (cpos c) \/ cur f' (cpos c) = 1) /\
  (forall v, In v (vals f' (cpos c)) -> In v (vals (dbf (s_db s)) (cpos c)) \/ v = 1) /\
  (r = Ok tt -> cur f' (cpos c) = 1 /\ forall v, In v (vals f' (cpos c)) -> v = 1) /\
  (forall x, cw (dbf (s_db s)) x -> cw f' x) /\
  (forall e, stable (dbf (s_db s)) e -> stable f' e) /\
  cpos c mod BLOCK = 0 /\
  (forall a, meta_inv (dbf (s_db s)) a -> meta_inv f' a) /\
  (forall i, i <> cpos c -> settled (dbf (s_db s)) i -> forall v, In v (vals f' i) -> v = cur f' i).
Proof.
  intros I Hc H0 Sy H.
  assert (Hall : In c (live s)) by (unfold live; rewrite !in_app_iff; now right; right).
  pose proof (i_cw I c Hall) as C.
  assert (Hq : cpos c mod BLOCK = 0) by apply (cw_hdr C).
  assert (Hlt : cpos c < size (dbf (s_db s))).
  { pose proof (cw_end C). pose proof (hend_pos c). pose proof (proj2 (i_good I)). lia. }
  destruct (@commit_flip_spec n _ _ _ _ (proj1 (i_good I)) Hq H Hlt)
    as (S1 & S2 & S3 & S4 & S5 & S6 & S7 & S8 & S9 & S10 & S11 & S12).
  assert (Snb : forall i, i mod BLOCK <> 0 -> same_at i (dbf (s_db s)) f').
  { intros i Hi. apply S7. intros ->. auto. }
  assert (Sst : forall e, stable (dbf (s_db s)) e -> stable f' e).
  { intros e He. eapply stable_same; [exact He|exact S2|]. intros i _ Hi. now apply Snb. }
  assert (Sse : forall i, i <> cpos c -> settled (dbf (s_db s)) i -> forall v, In v (vals f' i) -> v = cur f' i).
  { intros i Hi Hs v Hv. destruct (S7 i Hi) as [E1 E2]. rewrite E1. apply (Sy i Hs). now apply E2. }
  refine (conj S1 (conj S2 (conj S3 (conj S4 (conj S5 (conj S6 (conj S7 (conj S8 (conj S9 (conj S10
          (conj _ (conj Sst (conj Hq (conj _ Sse)))))))))))))).
  - intros x Hx. apply cw_mono with (f := dbf (s_db s)); auto.
    + intros i _ Hi. apply (proj1 (Snb i Hi)).
    + rewrite S4. apply (cw_end Hx).
  - intros a. unfold meta_inv. rewrite S5, S6, S4. destruct key as [ki|]; auto.
    intros (M1 & M2 & M3 & M4 & M5 & M6 & M7 & M8).
    assert (S0 : same_at 0 (dbf (s_db s)) f') by (apply S7; lia).
    refine (conj M1 (conj M2 (conj M3 (conj _ (conj M5 (conj _ (conj _ _))))))).
    + eapply hdr_at_mono; [exact M4| |lia]. intros i _ Hi. apply (proj1 (Snb i Hi)).
    + now rewrite (proj1 S0).
    + right. apply Sse; auto.
    + intros Ha. destruct (M8 Ha) as [A1 A2]. split; [auto|]. intros v Hv. apply A2. now apply (proj2 S0).
Qed.

Lemma inv_flip_err B s c n r f' : inv B s -> In c (s_pend s) -> cpos c <> 0 -> synced (dbf (s_db s)) ->
  stable (dbf (s_db s)) (hend c) ->
  commit_flip n (dbf (s_db s)) (cpos c) = (r, f') -> lost f' = false ->
  inv B (State (Db f' (dbh (s_db s)) (dropped (s_db s))) (s_log s) (s_ack s) (s_old s) (s_pend s) (s_fail s)).
Proof.
  intros I Hc H0 Sy Hst H Hl.
  destruct (flip_common c n I Hc H0 Sy H)
    as (S1 & S2 & S3 & S4 & S5 & S6 & S7 & S8 & S9 & S10 & S11 & S12 & S13 & S14 & S15).
  pose proof (i_pendB I c Hc) as HB.
  assert (Hlive : In c (live s)) by (unfold live; rewrite !in_app_iff; now right; right).
  constructor; cbn [s_db s_log s_ack s_old s_pend s_fail dbf dbh dropped]; unfold acked; cbn [s_ack]; fold (acked s);
    try (apply I).
  - split; [exact S1|]. rewrite S4. pose proof (proj2 (i_good I)). lia.
  - rewrite S4. apply I.
  - exact Hl.
  - eapply hok_mono; [apply I|rewrite S4; lia|exact S5].
  - apply S14, (i_meta I).
  - intros p b Hin. pose proof (i_log I p b Hin) as Hh. unfold has in *. rewrite S4, S5, S6.
    eapply chunk_at_mono; [exact Hh| |lia]. intros i _ Hi. apply S7. intros ->. auto.
  - intros x Hx. now apply S11, (i_cw I).
  - eapply chain_ok_ext; [apply S7; lia|apply I].
  - intros x Hx. destruct (i_chain1 I x Hx) as (A1 & A2 & A3).
    assert (Hne : cpos x <> cpos c) by (pose proof (i_chainB I x Hx); lia).
    destruct (S7 _ Hne) as [E1 E2]. split; [congruence|]. split; [right; now apply S15|].
    intros Ha v Hv. apply A3; auto.
  - pose proof (i_hpos I) as HP. destruct (opt_list (s_ack s) ++ s_old s); [|exact HP].
    destruct (S7 0) as [E1 _]; [lia|]. now rewrite E1.
  - rewrite S4. apply (i_B I).
  - intros x Hx. destruct (i_ackB I Hx) as [A1 A2]. auto.
  - intros q v Hq Hv. destruct (N.eq_dec q (cpos c)) as [->|Hne].
    + destruct (S9 v Hv) as [Hold| ->].
      * destruct (i_blocks I _ v Hq Hold) as [?|[?|(V1 & x & C1 & C2 & C0' & C3 & C4)]]; auto.
        right; right. split; [exact V1|]. exists x.
        exact (conj C1 (conj C2 (conj (S11 _ C0') (conj (fun Hd => S12 _ (C3 Hd)) C4)))).
      * right; right. split; [reflexivity|]. exists c.
        split; [unfold all_coms; rewrite !in_app_iff; right; right; now apply (i_pend I)|].
        split; [reflexivity|]. split; [exact (S11 c (i_cw I c Hlive))|]. split; [intros _; now apply S12|intros _; exact Hc].
    + apply (proj2 (S7 q Hne)) in Hv. destruct (i_blocks I q v Hq Hv) as [?|[?|(V1 & x & C1 & C2 & C0' & C3 & C4)]]; auto.
      right; right. split; [exact V1|]. exists x.
        exact (conj C1 (conj C2 (conj (S11 _ C0') (conj (fun Hd => S12 _ (C3 Hd)) C4)))).
  - intros x Hx. eapply link_ok_ext; [apply S7; lia|now apply (i_plink I)].
  - destruct (S7 0) as [E1 E2]; [lia|]. rewrite E1. intros Hz0 Hz1. apply (i_zero I Hz0). now apply E2.
Qed.

Lemma inv_flip_ok B s c n f' ts fl : inv B s -> In c (s_pend s) -> cpos c <> 0 -> synced (dbf (s_db s)) ->
  stable (dbf (s_db s)) (fpos (dbf (s_db s))) ->
  (forall q v, cpos c < q -> q mod BLOCK = 0 -> In v (vals (dbf (s_db s)) q) -> v = 0) ->
  c_hdr c = committed (dbh (s_db s)) ts (cpos c) ->
  commit_flip n (dbf (s_db s)) (cpos c) = (Ok tt, f') -> lost f' = false ->
  (forall x, In x (s_fail s) -> x = c \/ In x fl) -> (forall x, In x fl -> In x (s_fail s)) ->
  inv (cpos c) (State (Db f' (c_hdr c) (dropped (s_db s))) (s_log s) (Some c) (opt_list (s_ack s) ++ s_old s) [] fl).
Proof.
  intros I Hc H0 Sy Hst Hmax Hhdr H Hl Hfl1 Hfl2.
  destruct (flip_common c n I Hc H0 Sy H)
    as (S1 & S2 & S3 & S4 & S5 & S6 & S7 & S8 & S9 & S10 & S11 & S12 & S13 & S14 & S15).
  destruct (S10 eq_refl) as [S10a S10b].
  pose proof (i_pendB I c Hc) as HB.
  assert (Hall : In c (all_coms s)) by (unfold all_coms; rewrite !in_app_iff; right; right; now apply (i_pend I)).
  assert (Hlive : In c (live s)) by (unfold live; rewrite !in_app_iff; now right; right).
  pose proof (i_cw I c Hlive) as C. pose proof (cw_fits C) as F.
  assert (Hall2 : forall x, In x (all_coms (State (Db f' (c_hdr c) (dropped (s_db s))) (s_log s) (Some c) (opt_list (s_ack s) ++ s_old s) [] fl)) ->
            In x (all_coms s)).
  { intros x. unfold all_coms. cbn [s_ack s_old s_fail opt_list]. rewrite !in_app_iff. cbn [In].
    intros [[<-|[]]|[[Hx|Hx]|Hx]]; auto. unfold all_coms in Hall. rewrite !in_app_iff in Hall. exact Hall. }
  assert (Sfull : forall x, cw (dbf (s_db s)) x -> stable f' (hend x)).
  { intros x Hx. apply S12. destruct Hst as [A1 A2]. pose proof (cw_end Hx). split; [lia|].
    intros i Hi. apply A2. lia. }
  assert (Vc : h_version (c_hdr c) = h_version (dbh (s_db s))) by (now apply (i_ver I)).
  constructor; cbn [s_db s_log s_ack s_old s_pend s_fail dbf dbh dropped]; unfold acked; cbn [s_ack].
  - split; [exact S1|]. rewrite S4. pose proof (proj2 (i_good I)). lia.
  - rewrite S4. apply I.
  - exact Hl.
  - pose proof (i_hok I) as K. pose proof (cw_end C). pose proof (hend_pos c).
    rewrite Hhdr. constructor; cbn [committed h_version h_update_seq h_by_id h_by_seq h_local h_purge_seq h_purge_ptr h_position h_timestamp h_prev h_meta];
      rewrite ?S4, ?S5; try (apply K).
    + intros Hv. destruct (N.leb_spec (h_version (dbh (s_db s))) 13); [reflexivity|lia].
    + lia.
  - apply (cw_meta C).
  - pose proof (i_meta I) as MI. pose proof (S14 _ MI) as MJ. revert MI MJ. unfold meta_inv. destruct key as [ki|]; auto.
    intros (_ & _ & _ & _ & _ & _ & MI7 & _) (M1 & M2 & M3 & M4 & M5 & M6 & M7 & M8).
    refine (conj M1 (conj M2 (conj M3 (conj M4 (conj M5 (conj M6 (conj M7 _))))))). intros _.
    split.
    + apply S12. destruct Hst as [A1 A2]. rewrite S4 in M5. split; [lia|]. intros i Hi. apply A2. lia.
    + intros v Hv. rewrite <- M6. apply S15; [lia| exact MI7|exact Hv].
  - intros p b Hin. pose proof (i_log I p b Hin) as Hh. unfold has in *. rewrite S4, S5, S6.
    eapply chunk_at_mono; [exact Hh| |lia]. intros i _ Hi. apply S7. intros ->. auto.
  - intros x Hx. apply S11. unfold live in Hx. cbn [s_ack s_old s_pend opt_list] in Hx. rewrite !in_app_iff in Hx. cbn [In] in Hx.
    destruct Hx as [[<-|[]]|[Hx|[]]]; [exact C|]. apply (i_cw I). unfold live. rewrite !in_app_iff. tauto.
  - intros x Hx. rewrite Vc. now apply (i_ver I), Hall2.
  - apply (i_dropped I).
  - cbn [opt_list app chain_ok]. split; [|eapply chain_ok_ext; [apply S7; lia|apply I]].
    eapply link_ok_ext; [apply S7; lia|now apply (i_plink I)].
  - intros x Hx. cbn [opt_list app In] in Hx. destruct Hx as [<-|Hx].
    + split; [exact S10a|]. split; [right; intros v Hv; rewrite S10a; auto|auto].
    + destruct (i_chain1 I x Hx) as (A1 & A2 & A3).
      assert (Hne : cpos x <> cpos c) by (pose proof (i_chainB I x Hx); lia).
      destruct (S7 _ Hne) as [E1 E2]. split; [congruence|]. split; [right; now apply S15|].
      intros _ v Hv. rewrite <- A1, <- E1. now apply S15.
  - reflexivity.
  - rewrite S4. pose proof (cw_end C). pose proof (hend_pos c). split; [lia|exact S13].
  - intros x Hx. inv Hx. split; [reflexivity|]. now apply Sfull.
  - intros x Hx. cbn [opt_list app In] in Hx. destruct Hx as [<-|Hx]; [lia|].
    pose proof (i_chainB I x Hx). lia.
  - intros q v Hq Hv. destruct (N.eq_dec q (cpos c)) as [->|Hne].
    + right; right. split; [now apply S10b|]. exists c.
      split; [unfold all_coms; cbn [s_ack opt_list app In]; now left|]. split; [reflexivity|].
      split; [now apply S11|]. split; [intros _; now apply Sfull|lia].
    + apply (proj2 (S7 q Hne)) in Hv. destruct (i_blocks I q v Hq Hv) as [?|[?|(V1 & x & C1 & C2 & C0' & C3 & C4)]]; auto.
      right; right. split; [exact V1|]. exists x.
      split; [|split; [exact C2|split; [now apply S11|split; [intros _; now apply Sfull|]]]].
      * unfold all_coms in *. cbn [s_ack s_old s_fail opt_list]. rewrite !in_app_iff in *. cbn [In].
        destruct C1 as [C1|[C1|C1]]; [tauto|tauto|]. destruct (Hfl1 x C1) as [->|Hx]; auto.
      * intros Hlt. specialize (Hmax q v Hlt Hq Hv). lia.
  - intros x [].
  - intros x [].
  - intros x [].
  - constructor.
  - destruct (S7 0) as [E1 E2]; [lia|]. rewrite E1. intros Hz0 Hz1. apply (i_zero I Hz0). now apply E2.
Qed.

Lemma fsync_synced f f' : fsync f = (Ok tt, f') -> synced f'.
Proof.
  intros H i. destruct (fsync_ok _ H) as [l ->]. intros [[Hd _]|Hs]; [discriminate|exact Hs].
Qed.

Lemma inv_write B s b r f' : inv B s -> db_write_buf (dbf (s_db s)) b = (r, f') -> big f' = false -> lost f' = false ->
  inv B (State (Db f' (dbh (s_db s)) (dropped (s_db s)))
              (match r with Ok (p, _) => (p, b) :: s_log s | Err _ => s_log s end)
              (s_ack s) (s_old s) (s_pend s) (s_fail s)).
Proof.
  intros I H Hb Hl. destruct (db_write_buf_spec EO b (i_good I) H) as (L & Hr).
  apply inv_ext; auto.
  - apply L.
  - destruct L as (_ & L1 & L2). lia.
  - intros p c Hin.
    assert (Hold : In (p, c) (s_log s) -> has f' p c) by (intros Hi; eapply has_le; [exact L|now apply (i_log I)]).
    destruct r as [[p0 sz]|e]; [|auto]. destruct Hin as [Hin|Hin]; [|auto].
    inv Hin. destruct (Hr p sz eq_refl) as (_ & _ & Hh & _). auto.
Qed.

Lemma root_ok_fits r pos : root_ok r pos -> root_fits r pos.
Proof. destruct r; auto. Qed.

Lemma inv_set B s us id sq loc ps pp : inv B s ->
    let h := dbh (s_db s) in
    let f := dbf (s_db s) in
    us < 2^48 -> ps < 2^48 -> pp < 2^48 -> pp <= fpos f ->
    root_ok id (fpos f) -> root_ok sq (fpos f) -> root_ok loc (fpos f) ->
    39 + root_size id + root_size sq + root_size loc <= 1020 ->
    inv B (State (Db f (Header (h_version h) us id sq loc ps pp (h_position h) (h_timestamp h) (h_prev h) (h_meta h))
                     (dropped (s_db s))) (s_log s) (s_ack s) (s_old s) (s_pend s) (s_fail s)).
Proof.
  intros I h f H1 H2 H3 H4 H5 H6 H7 H8.
  constructor; cbn [s_db s_log s_ack s_old s_pend s_fail dbf dbh dropped h_meta h_version h_position]; try (apply I).
  pose proof (i_hok I) as K. fold h f in K.
  constructor; cbn [h_version h_update_seq h_by_id h_by_seq h_local h_purge_seq h_purge_ptr h_position h_timestamp h_prev h_meta];
    auto using root_ok_fits; try (apply K).
  pose proof (ho_version K) as V. unfold hsize. destruct V as [->|[->|[->| ->]]];
    cbv [N.leb N.compare N.eqb Pos.eqb Pos.compare Pos.compare_cont]; lia.
Qed.

Lemma inv_commit B s ts n r d' : inv B s ->
    ts < 2^64 -> fpos (dbf (s_db s)) + BLOCK < 2^47 ->
    commit_ex (s_db s) ts n = (r, d') -> lost (dbf d') = false ->
    let c := Commit (committed (dbh (s_db s)) ts (align (fpos (dbf (s_db s))))) (s_log s) (dbf (s_db s)) in
    exists B', inv B' (match r with
            | Ok _ => State d' (s_log s) (Some c) (opt_list (s_ack s) ++ s_old s) [] (s_fail s)
            | Err _ =>
                if fpos (dbf d') =? fpos (dbf (s_db s))
                then State d' (s_log s) (s_ack s) (s_old s) (s_pend s) (s_fail s)
                else State d' (s_log s) (s_ack s) (s_old s) (c :: s_pend s) (c :: s_fail s)
            end).
Proof.
  intros I Hts Hbig H Hl c. pose proof (i_hok I) as K.
  set (f := dbf (s_db s)) in *. set (h := dbh (s_db s)) in *. set (q := align (fpos f)) in *.
  pose proof (align_ge (fpos f)) as Ha. fold q in Ha. pose proof (align_mod (fpos f)) as Hm. fold q in Hm.
  pose proof (i_pos1 I) as P1. fold f in P1.
  assert (Fits : hdr_fits (committed h ts q) q) by (apply (committed_fits K); lia).
  assert (Hq0 : q <> 0) by (intros E0; rewrite E0 in *; lia).
  unfold commit_ex in H.
  destruct (db_write_header (Db (dbf (s_db s)) (set_prev (set_timestamp (dbh (s_db s)) ts) (h_position (dbh (s_db s))))
              (dropped (s_db s))) B_DATA) as [r1 d1] eqn:Ew.
  destruct (@db_write_header_spec (s_db s) ts q B_DATA r1 d1 (ho_version K) Ew) as (w & f1 & Hw & Hf1 & Hd1 & Hr1).
  fold f h in Hw, Hr1, H. fold q in H.
  destruct (@write_header_spec _ EO _ _ _ _ _ (i_good I) Hw) as (X & Hp & Hok & Herr). fold f in X, Hp, Hok, Herr. fold q in X.
  assert (X0 : ext (fpos f) (Tval 0) f f1) by (eapply ext_weaken; [exact X|lia|auto]).
  assert (Rst : forall p, set_prev (set_timestamp (set_position (committed h ts p) (h_position h)) (h_timestamp h)) (h_prev h) = h)
    by (intros p; apply restore_header; [apply (ho_meta K)|apply (ho_version K)]).
  assert (Hlog1 : forall p b, In (p, b) (s_log s) -> has f1 p b).
  { intros p b Hin. pose proof (i_log I p b Hin) as Hh. unfold has in *. fold f in Hh. rewrite (ex_crcm X), (ex_fkey X).
    eapply chunk_at_mono; [exact Hh| |lia]. intros i Hi _. apply (ex_cur X). lia. }
  assert (DB : forall g, Db g h (dropped d1) = Db g (dbh (s_db s)) (dropped (s_db s))) by (intros g; now rewrite Hd1).
  destruct w as [p|e].
  2:{ destruct Hr1 as [-> Hh1]. inv H. cbn [dbf]. rewrite Hh1, Rst, DB. rewrite (Herr e eq_refl).
      rewrite N.eqb_refl. exists B. apply inv_ext; auto. }
  destruct Hr1 as [-> Hh1]. destruct (Hok p eq_refl) as (Hpq & Hhd & He1 & Hc1 & Hout & Hsz). fold q in Hpq. subst p.
  assert (Hl1 : lost (dbf d') = false -> lost f1 = false).
  { subst f1. intros Hx. destruct (fsync (dbf d1)) as [[u|e] f3] eqn:Es;
      pose proof (fsync_ext 0 (Tval 0) (ex_wf X) Es) as X2; [|inv H; cbn in Hx; exact (ex_lost X2 Hx)].
    apply (ex_lost X2). destruct (commit_flip n f3 q) as [[u2|e] f4] eqn:Ef; inv H; cbn [dbf] in Hx.
    - eapply (commit_flip_spec n (ex_wf X2) Hm Ef); [|exact Hx].
      pose proof (ex_size X2). pose proof (adv_ge (q + 9) (length (encode_header (committed h ts q)))). lia.
    - eapply (commit_flip_spec n (ex_wf X2) Hm Ef); [|exact Hx].
      pose proof (ex_size X2). pose proof (adv_ge (q + 9) (length (encode_header (committed h ts q)))). lia. }
  specialize (Hl1 Hl).
  assert (Hq : cpos c = q) by reflexivity.
  assert (Eend : hend c = fpos f1).
  { unfold hend. rewrite Hq. rewrite He1. change (c_hdr c) with (committed h ts q).
    rewrite (adv_add (q + 1) 8). f_equal. rewrite adv_in_block.
    - lia. - rewrite BLOCK_val in *. lia. - rewrite BLOCK_val in *. lia. }
  assert (HQ : hdr_at (cur f1) (crcm f) q (encode_header (committed h ts q)) (fpos f1)) by apply Hhd, Fits.
  pose proof (hend_pos c) as Hep. rewrite Hq in Hep.
  assert (Hallold : forall x, cw f x -> hend x <= q /\ cpos x < q).
  { intros x Hx. pose proof (cw_end Hx). pose proof (hend_pos x). lia. }
  (* the state with the header written *)
  assert (I1 : inv B (State (Db f1 h (dropped (s_db s))) (s_log s) (s_ack s) (s_old s) (c :: s_pend s) (c :: s_fail s))).
  { assert (I0 : inv B (State (Db f1 h (dropped (s_db s))) (s_log s) (s_ack s) (s_old s) (s_pend s) (s_fail s)))
      by (apply inv_ext; auto; lia).
    apply (@inv_add_pend B _ c I0); cbn [s_db s_log s_pend dbf dbh].
    - constructor.
      + exact Fits.
      + lia.
      + rewrite (ex_crcm X), Eend. exact HQ.
      + rewrite (ex_crcm X). apply (ho_mode K).
      + cbn. destruct (N.leb_spec (h_version h) 13) as [L|L]; [|apply (i_hmeta I)].
        rewrite <- (i_hmeta I). fold h. symmetry. apply (ho_meta K). lia.
      + cbn [c_log c]. intros p b Hin. pose proof (i_log I p b Hin) as Hh. unfold has in Hh. fold f in Hh.
        rewrite (ex_crcm X), (ex_fkey X). eapply chunk_at_mono; [exact Hh| |rewrite Hq; lia].
        intros i Hi _. apply (ex_cur X). lia.
      + cbn [c_file c]. intros p b Hh. unfold has in Hh.
        rewrite (ex_crcm X), (ex_fkey X). eapply chunk_at_mono; [exact Hh| |rewrite Hq; lia].
        intros i Hi _. apply (ex_cur X). lia.
    - reflexivity.
    - rewrite Hq. pose proof (i_B I). fold f in H0. lia.
    - intros Hin. apply in_map_iff in Hin. destruct Hin as (x & Hx1 & Hx2).
      assert (Hx : cw f x) by (apply (i_cw I); unfold live; rewrite !in_app_iff; now right; right).
      apply Hallold in Hx. lia.
    - cbn [s_ack s_old].
      assert (Hpv : h_version (c_hdr c) = 14 -> h_prev (c_hdr c) = h_position h).
      { cbn [c c_hdr committed h_version h_prev]. intros Hv. now rewrite Hv. }
      pose proof (i_hpos I) as HP. fold f h in HP. pose proof (i_cw I) as HC. unfold live in HC. rewrite app_assoc in HC.
      destruct (opt_list (s_ack s) ++ s_old s) as [|x rr] eqn:Ech.
      + intros Hv. rewrite (Hpv Hv). right. destruct HP as [HP1 HP2]. rewrite (ex_cur X) by lia.
        repeat split; auto. rewrite Hq. lia.
      + specialize (HC x (or_introl eq_refl)). apply Hallold in HC. cbn [link_ok]. rewrite Hq. split; [lia|]. split; [lia|].
        intros Hv. rewrite (Hpv Hv). exact HP. }
  destruct (fsync (dbf d1)) as [r3 f3] eqn:Es. rewrite Hf1 in Es.
  pose proof (fsync_ext (fpos f1) (Tval 0) (ex_wf X) Es) as X3. pose proof (fsync_fpos Es) as P3.
  pose proof (ex_size X3) as Sz3.
  assert (Hl3 : lost (dbf d') = false -> lost f3 = false).
  { intros Hx. destruct r3 as [u|e]; [|inv H; exact Hx].
    destruct (commit_flip n f3 q) as [[u2|e] f4] eqn:Ef; inv H; cbn [dbf] in Hx;
    (eapply (commit_flip_spec n (ex_wf X3) Hm Ef); [lia|exact Hx]). }
  specialize (Hl3 Hl).
  assert (I3 : inv B (State (Db f3 h (dropped (s_db s))) (s_log s) (s_ack s) (s_old s) (c :: s_pend s) (c :: s_fail s))).
  { apply (@inv_ext B _ f3 (s_log s) I1); cbn [s_db dbf]; auto.
    - lia.
    - intros p b Hin. pose proof (Hlog1 p b Hin) as Hh. unfold has in *. rewrite (ex_crcm X3), (ex_fkey X3).
      eapply chunk_at_mono; [exact Hh| |lia]. intros i Hi _. apply (ex_cur X3). lia. }
  assert (Hfp : (fpos f3 =? fpos f) = false) by (apply N.eqb_neq; lia).
  destruct r3 as [u|e].
  2:{ inv H. cbn [dbf dbh dropped]. rewrite Hh1, Rst, Hfp, Hd1. exists B. exact I3. }
  destruct u. pose proof (fsync_synced _ Es) as Sy. pose proof (fsync_stable (ex_wf X) Es Hl3) as St.
  assert (Stf : stable f3 (fpos f3)).
  { destruct St as [A1 A2]. split; [lia|]. intros i Hi. apply A2. lia. }
  destruct (commit_flip n f3 q) as [[u2|e] f4] eqn:Ef; inv H; cbn [dbf dbh dropped] in *.
  - rewrite Hh1, Hd1. exists q. destruct u2.
    apply (@inv_flip_ok B _ c n f4 ts (s_fail s) I3); cbn [s_db s_pend s_ack s_old s_fail dbf dbh]; auto.
    + now left.
    + rewrite Hq. intros q' v Hlt Hq' Hv.
      assert (Hv1 : In v (vals (dbf d1) q')).
      { exact (proj2 (fsync_frame q' (ex_wf X) Es) v Hv). }
      destruct (ex_bvals X v (N.lt_le_incl _ _ Hlt) Hq' Hv1) as [Hv0|Hv0]; [|exact Hv0].
      destruct (i_blocks I q' v Hq' Hv0) as [?|[[_ ?]|(V1 & x & C1 & C2 & C0' & C3 & C4)]]; [auto|lia|].
      apply Hallold in C0'. lia.
    + intros x [<-|Hx]; auto.
    + intros x Hx. now right.
  - assert (Hp4 : fpos f4 = fpos f3) by (eapply (commit_flip_spec n (ex_wf X3) Hm Ef); lia).
    rewrite Hh1, Rst, Hd1. rewrite Hp4, Hfp. exists B.
    apply (@inv_flip_err B _ c n (Err e) f4 I3); cbn [s_db s_pend dbf]; auto.
    + now left.
    + rewrite Eend, <- P3. exact Stf.
Qed.
End WithEnv.
