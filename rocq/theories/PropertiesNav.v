(** Properties C21, C22, C23: moving between headers. *)
From Verif Require Import Base Codec File FileFacts ChunkFacts Header HeaderFacts History CrashFacts OpenFacts NavFacts SpecFile DataFacts
  SpecCrash ReachNav CommitFacts EnvExample PropertiesCrash.
Local Open Scope N_scope.

(** The handle is on the commit [c]. *)
Definition on (d : db) (c : commit) : Prop := same_header (dbh d) (c_hdr c).

Lemma split_nth {A} (l : list A) k c : nth_error l k = Some c -> exists pre r, l = pre ++ c :: r /\ length pre = k.
Proof.
  intros H. destruct (nth_error_split l k H) as (pre & r & H1 & H2). eauto.
Qed.
Lemma nth_app {A} (pre : list A) x r k : length pre = k -> nth_error (pre ++ x :: r) k = Some x.
Proof. intros <-. rewrite nth_error_app2 by lia. now rewrite Nat.sub_diag. Qed.

Section WithEnv.
Context {E : Env} (EO : EnvOk E).

(** Everything written before a commit in effect can be read. *)
Lemma chain_reads key B s d c p b : inv key B s -> reads s d -> In c (effective s) -> In (p, b) (c_log c) -> pread_bin (dbf d) p = Ok b.
Proof.
  intros I V Hc Hin. pose proof (chain_cw I c Hc) as C. pose proof (cw_log C p b Hin) as H.
  pose proof (hend_pos c). pose proof (cw_end C). pose proof (proj2 (i_good I)).
  rewrite <- (r_crcm V), <- (r_fkey V) in H.
  eapply (@chunk_at_read E EO _ (dbf d)); [exact H| |rewrite (r_size V); lia].
  intros i _ _. now rewrite (r_cur V).
Qed.

Lemma reads_hdr s d h : reads s d -> reads s (Db (dbf d) h false).
Proof. intros []. constructor; auto. Qed.

Lemma rewind_back key B s : inv key B s -> forall k d i c c', reads s d ->
  nth_error (effective s) i = Some c -> on d c -> nth_error (effective s) (i + k) = Some c' ->
  h_version (dbh (s_db s)) = 14 \/ s_fail s = [] ->
  exists d', rewinds k d = Ok d' /\ reads s d' /\ on d' c' /\ dbf d' = dbf d.
Proof.
  intros I k. induction k as [|k IH]; intros d i c c' V Hi On Hk HF; cbn [rewinds].
  - rewrite Nat.add_0_r in Hk. assert (c' = c) by congruence. subst c'. eauto 6.
  - destruct (split_nth _ _ Hi) as (pre & r & Ech & Hl).
    destruct r as [|c1 r].
    { exfalso. assert (nth_error (effective s) (i + S k) = None); [|congruence].
      apply nth_error_None. rewrite Ech, app_length. cbn. lia. }
    assert (Hver : h_version (c_hdr c) = h_version (dbh (s_db s))).
    { apply (i_ver I). unfold all_coms. assert (In c (effective s)) as Hx by (rewrite Ech, in_app_iff; right; now left).
      unfold effective in Hx. rewrite in_app_iff in Hx. rewrite !in_app_iff. tauto. }
    unfold rewind_db_header.
    rewrite (@rewind_step E key B s I d pre c c1 r V Ech (sh_position On) (sh_prev On) (sh_version On)) by (rewrite Hver; exact HF).
    assert (Hi1 : nth_error (effective s) (S i) = Some c1).
    { rewrite Ech. replace (pre ++ c :: c1 :: r) with ((pre ++ [c]) ++ c1 :: r) by (rewrite <- app_assoc; reflexivity).
      apply nth_app. rewrite app_length. cbn. lia. }
    destruct (IH (Db (dbf d) (strip (c_hdr c1)) false) (S i) c1 c') as (d' & H1 & H2 & H3 & H4); auto.
    + apply reads_hdr. exact V.
    + apply strip_same.
    + replace (S i + k)%nat with (i + S k)%nat by lia. exact Hk.
    + exists d'. auto.
Qed.

Lemma rewind_out key B s : inv key B s -> forall k d i c, reads s d ->
  nth_error (effective s) i = Some c -> on d c -> (length (effective s) <= i + k)%nat -> s_fail s = [] ->
  rewinds k d = Err E_DB_NO_LONGER_VALID.
Proof.
  intros I k. induction k as [|k IH]; intros d i c V Hi On Hk HF.
  { exfalso. assert (i < length (effective s))%nat by (apply nth_error_Some; congruence). lia. }
  cbn [rewinds]. unfold rewind_db_header.
  destruct (split_nth _ _ Hi) as (pre & r & Ech & Hl). destruct r as [|c1 r].
  - destruct (@rewind_end E key B s I d pre c V Ech (sh_position On) (sh_prev On) (sh_version On) (or_intror HF)) as (e & d' & -> & _).
    reflexivity.
  - rewrite (@rewind_step E key B s I d pre c c1 r V Ech (sh_position On) (sh_prev On) (sh_version On)) by auto.
    eapply (IH _ (S i) c1); auto.
    + apply reads_hdr. exact V.
    + rewrite Ech. replace (pre ++ c :: c1 :: r) with ((pre ++ [c]) ++ c1 :: r) by (rewrite <- app_assoc; reflexivity).
      apply nth_app. rewrite app_length. cbn. lia.
    + apply strip_same.
    + lia.
Qed.
End WithEnv.

(** ** C21 *)

(** Rewinding [k] times from a handle on the newest commit shows the [k]-th last one, with everything that had been
    written before it. Files of version 14: also after commits that failed. *)
Theorem C21_rewind : forall (E : Env), EnvOk E ->
  forall key getkey, key_ok key getkey -> forall s, reach key getkey s ->
  h_version (dbh (s_db s)) = 14 \/ s_fail s = [] ->
  forall d c0 k c, reads s d -> nth_error (effective s) 0 = Some c0 -> same_header (dbh d) (c_hdr c0) ->
  nth_error (effective s) k = Some c ->
  exists d', rewinds k d = Ok d' /\ shows d' c.
Proof.
  intros E EO key getkey KO s R HF d c0 k c V H0 On Hk. destruct (@reach_inv E EO key getkey KO s R) as [B I].
  destruct (@rewind_back E key B s I k d 0%nat c0 c V H0 On Hk HF) as (d' & H1 & H2 & H3 & H4). exists d'. split; [exact H1|]. split; [exact H3|].
  intros p b Hin. eapply chain_reads; eauto. eapply nth_error_In; eauto.
Qed.
Print Assumptions C21_rewind.

(** Once more than the number of commits: reported as an error. *)
Theorem C21_end : forall (E : Env), EnvOk E ->
  forall key getkey, key_ok key getkey -> forall s, reach key getkey s -> s_fail s = [] ->
  forall d c0 k, reads s d -> nth_error (effective s) 0 = Some c0 -> same_header (dbh d) (c_hdr c0) ->
  (length (effective s) <= k)%nat -> rewinds k d = Err E_DB_NO_LONGER_VALID.
Proof.
  intros E EO key getkey KO s R HF d c0 k V H0 On Hk. destruct (@reach_inv E EO key getkey KO s R) as [B I].
  eapply rewind_out; eauto.
Qed.
Print Assumptions C21_end.

(** The writer's own handle and a handle opened on the file are such handles. *)
Theorem C21_handles : forall (E : Env), EnvOk E ->
  forall key getkey, key_ok key getkey -> forall s, reach key getkey s ->
  reads s (s_db s) /\
  forall c0 d pl, s_ack s = Some c0 -> s_pend s = [] ->
    open_existing (image (cur (dbf (s_db s))) (size (dbf (s_db s))) pl) getkey false false = Ok d ->
    reads s d /\ nth_error (effective s) 0 = Some c0 /\ same_header (dbh d) (c_hdr c0).
Proof.
  intros E EO key getkey KO s R. destruct (@reach_inv E EO key getkey KO s R) as [B I].
  pose proof (proj2 (i_good I)) as Hg. split.
  - constructor; auto; [lia|]. exact (i_dropped I).
  - intros c0 d pl Ha Hp Ho. pose proof (image_now (proj1 (i_good I))) as G.
    destruct (@open_image E key getkey KO B s c0 _ _ pl false I Ha G) as (c & H1 & H2 & H3 & _).
    rewrite Hp in H1. destruct H1 as [->|[]]. rewrite H2 in Ho. injection Ho as <-. split; [|split].
    + constructor; cbn; auto. lia.
    + unfold effective. rewrite Ha. reflexivity.
    + apply strip_same.
Qed.
Print Assumptions C21_handles.

(** In files without the link to the previous header, a commit that failed at its last step can be met as well: three commits,
    the second one failed, rewinding the third once shows the second. *)
Definition ex_r0 : state :=
  let d := snd (@open_new env0 (empty_file (repeat ok_step 11 ++ [bad_step])) None true false) in
  State d [] None [Commit (dbh d) [] (empty_file (repeat ok_step 11 ++ [bad_step]))] [] [].
Definition ex_r1 : state := after_commit ex_r0 (@commit_ex env0 (s_db ex_r0) 1 0) 1.
Definition ex_r2 : state := after_commit ex_r1 (@commit_ex env0 (s_db ex_r1) 2 0) 2.
Definition ex_r3 : state := after_commit ex_r2 (@commit_ex env0 (s_db ex_r2) 3 0) 3.
Theorem C21_failed_refuted : exists (E : Env) key getkey s c0 c d',
  EnvOk E /\ key_ok key getkey /\ reach key getkey s /\
  effective s = c0 :: c :: tl (tl (effective s)) /\ same_header (dbh (s_db s)) (c_hdr c0) /\
  rewinds 1 (s_db s) = Ok d' /\ h_position (dbh d') <> h_position (c_hdr c).
Proof.
  assert (X : match @rewinds env0 1 (s_db ex_r3) with Ok d' => h_position (dbh d') = 8192 | Err _ => False end) by (vm_compute; reflexivity).
  destruct (@rewinds env0 1 (s_db ex_r3)) as [d'|] eqn:Er; [|destruct X].
  assert (Y : match effective ex_r3 with c0 :: c :: _ => dbh (s_db ex_r3) = c_hdr c0 /\ h_position (c_hdr c) = 4096 | _ => False end)
    by (vm_compute; auto).
  destruct (effective ex_r3) as [|c0 [|c r]] eqn:Ee; [destruct Y|destruct Y|]. destruct Y as [Y1 Y2].
  exists env0, None, gk0, ex_r3, c0, c, d'. split; [exact env0_ok|]. split; [exact I|]. split.
  { apply (@reach_commit env0 None gk0 ex_r2); [|vm_compute; reflexivity..].
    apply (@reach_commit env0 None gk0 ex_r1); [|vm_compute; reflexivity..].
    apply (@reach_commit env0 None gk0 ex_r0); [|vm_compute; reflexivity..].
    apply (@reach_new env0 None gk0 _ true false); [now left| |vm_compute; reflexivity]. apply pair_eq. vm_compute. reflexivity. }
  rewrite Ee. split; [reflexivity|]. split; [rewrite Y1; constructor; auto using same_root_refl|]. split; [exact Er|].
  rewrite X, Y2. discriminate.
Qed.
Print Assumptions C21_failed_refuted.

(** Three headers: at creation, and two commits. *)
Definition ex_n0 : state :=
  let d := snd (@open_new env0 (empty_file []) None false false) in State d [] None [Commit (dbh d) [] (empty_file [])] [] [].
Definition set_seq (s : state) (n : N) : state :=
  let h := dbh (s_db s) in
  State (Db (dbf (s_db s)) (Header (h_version h) n (h_by_id h) (h_by_seq h) (h_local h) (h_purge_seq h) (h_purge_ptr h) (h_position h)
    (h_timestamp h) (h_prev h) (h_meta h)) (dropped (s_db s))) (s_log s) (s_ack s) (s_old s) (s_pend s) (s_fail s).
Definition ex_n1 : state := set_seq ex_n0 1.
Definition ex_n2 : state := after_commit ex_n1 (@commit_ex env0 (s_db ex_n1) 10 0) 10.
Definition ex_n3 : state := after_write ex_n2 (@db_write_buf env0 (dbf (s_db ex_n2)) (repeat 9 (N.to_nat 36000))) (repeat 9 (N.to_nat 36000)).
Definition ex_n4 : state := set_seq ex_n3 2.
Definition ex_n5 : state := after_commit ex_n4 (@commit_ex env0 (s_db ex_n4) 20 0) 20.
Lemma set_seq_reach : forall s n, @reach env0 None gk0 s -> n < 2^48 ->
     (h_by_id (dbh (s_db s)), h_by_seq (dbh (s_db s)), h_local (dbh (s_db s)), h_purge_seq (dbh (s_db s)), h_purge_ptr (dbh (s_db s)))
       = (None, None, None, 0, 0) -> @reach env0 None gk0 (set_seq s n).
Proof.
  intros s n R Hn H. injection H as H1 H2 H3 H4 H5. eapply reach_step; [exact R|]. unfold set_seq. rewrite H1, H2, H3, H4, H5.
  apply (@step_set env0 gk0 s n None None None 0 0); cbn; auto; lia.
Qed.
Lemma ex_n2_reach : @reach env0 None gk0 ex_n2.
Proof.
  apply (@reach_commit env0 None gk0 ex_n1); [|vm_compute; reflexivity..].
  apply set_seq_reach; [|vm_compute; reflexivity..].
  apply (@reach_new env0 None gk0 [] false false); [now left| |vm_compute; reflexivity]. apply pair_eq. vm_compute. reflexivity.
Qed.
Lemma ex_n_reach : @reach env0 None gk0 ex_n5.
Proof.
  apply (@reach_commit env0 None gk0 ex_n4); [|vm_compute; reflexivity..].
  apply set_seq_reach; [|vm_compute; reflexivity..].
  apply (@reach_write env0 None gk0 ex_n2); [|vm_compute; reflexivity..].
  exact ex_n2_reach.
Qed.
Example C21_ex :
  @reach env0 None gk0 ex_n5 /\ s_fail ex_n5 = [] /\ map cpos (effective ex_n5) = [40960; 4096; 0] /\
  match @rewinds env0 2 (s_db ex_n5) with Ok d => h_position (dbh d) = 0 | Err _ => False end /\
  match @rewinds env0 3 (s_db ex_n5) with Ok _ => False | Err e => e = E_DB_NO_LONGER_VALID end.
Proof. split; [exact ex_n_reach|]. vm_compute. auto. Qed.

(** ** C22 *)

(** Any file, any offset: the seek succeeds exactly when the offset is a block start before the handle's append
    position with a valid header, which is then the current one; else the handle keeps its header. *)
Theorem C22_offset : forall (E : Env) d off, dropped d = false -> valid_header (dbf d) (h_position (dbh d)) (dbh d) ->
  match seek d off with
  | (Ok _, d') => off mod 4096 = 0 /\ off < fpos (dbf d) /\ valid_header (dbf d) off (dbh d') /\ dbf d' = dbf d /\ dropped d' = false
  | (Err _, d') => (off mod 4096 <> 0 \/ fpos (dbf d) <= off \/ forall h, ~ valid_header (dbf d) off h) /\ d' = d
  end.
Proof.
  intros E d off Hd H. pose proof (@seek_spec E d off (dbh d) Hd H) as S.
  destruct (seek d off) as [[u|e] d']; [exact S|]. destruct S as (S1 & S2 & S3 & S4). split; [exact S1|].
  destruct d as [f h dr], d' as [f' h' dr']. cbn in *. subst. f_equal. destruct S4; auto.
Qed.
Print Assumptions C22_offset.

(** Any file: seeking forward goes to the lowest valid header above the current one, passing only blocks without headers. *)
Theorem C22_forward_any : forall (E : Env) d u d', dropped d = false -> h_position (dbh d) mod 4096 = 0 ->
  seek_dir d DForward = (Ok u, d') ->
  let p := h_position (dbh d) in let p' := h_position (dbh d') in
  p < p' < fpos (dbf d) /\ p' mod 4096 = 0 /\ valid_header (dbf d) p' (dbh d') /\ dbf d' = dbf d /\
  forall q h, q mod 4096 = 0 -> p < q < p' -> ~ valid_header (dbf d) q h.
Proof.
  intros E d u d' Hd Hm. unfold seek_dir, fastforward_impl. rewrite Hd.
  set (fuel := S _). generalize fuel. clear fuel. intros fuel.
  destruct (ff_loop fuel (dbf d) (reset_roots (dbh d)) (h_position (reset_roots (dbh d)) + BLOCK)) as [[x|e] h1] eqn:Ef.
  2:{ destruct e; try discriminate; unfold reopen_current;
      match goal with |- context [find_header_at_pos ?a ?b ?c] => destruct (find_header_at_pos a b c) as [[]] end; discriminate. }
  intros H. injection H as <- <-. cbn [dbh dbf].
  assert (F : forall fuel h pos h1 x, pos mod BLOCK = 0 -> ff_loop fuel (dbf d) h pos = (Ok x, h1) ->
     pos <= h_position h1 < fpos (dbf d) /\ h_position h1 mod BLOCK = 0 /\ header_at (dbf d) (h_position h1) h1 /\
     forall q hq, q mod BLOCK = 0 -> pos <= q < h_position h1 -> ~ header_at (dbf d) q hq).
  { clear. induction fuel as [|fuel IH]; intros h pos h1 x Hp; cbn [ff_loop]; [discriminate|].
    destruct (N.ltb_spec pos (fpos (dbf d))) as [Hl|]; [|discriminate].
    destruct (find_header_at_pos (dbf d) h pos) as [[u|e] h2] eqn:Ef.
    - intros H. injection H as _ <-. destruct u. pose proof (find_pos _ _ _ Ef) as P. rewrite P.
      refine (conj _ (conj Hp (conj (find_indep _ _ _ _ Ef) _))); [lia|]. intros q hq _ Hq. lia.
    - assert (No : forall hq, ~ header_at (dbf d) pos hq).
      { intros hq Hh. rewrite (header_at_find _ Hh) in Ef. discriminate. }
      destruct e; try discriminate. intros H. destruct (IH _ _ _ _ (bl_add _ Hp) H) as (A1 & A2 & A3 & A4).
      refine (conj _ (conj A2 (conj A3 _))).
      + rewrite BLOCK_val in A1. lia.
      + intros q hq Hq Hr. destruct (N.eq_dec q pos) as [->|Hne]; [apply No|]. apply A4; auto.
        split; [|tauto]. apply bl_next; auto. lia. }
  cbn [reset_roots set_roots h_position] in Ef. destruct (F _ _ _ _ _ (bl_add _ Hm) Ef) as (A1 & A2 & A3 & A4).
  refine (conj _ (conj A2 (conj A3 (conj eq_refl _)))).
  - rewrite BLOCK_val in A1. lia.
  - intros q hq Hq Hr. apply A4; auto. split; [|tauto]. apply bl_next; auto. tauto.
Qed.
Print Assumptions C22_forward_any.

(** Any file, any direction: a failed seek leaves the handle on its header. *)
Theorem C22_stay : forall (E : Env) d dir e d', dropped d = false -> valid_header (dbf d) (h_position (dbh d)) (dbh d) ->
  seek_dir d dir = (Err e, d') ->
  dropped d' = false /\ dbh d' = dbh d /\ cur (dbf d') = cur (dbf d) /\ size (dbf d') = size (dbf d) /\ fpos (dbf d') = fpos (dbf d).
Proof.
  intros E d dir e d' Hd H Hs. destruct (@seek_dir_stay E d dir e d' _ Hd H Hs) as (A1 & [A2|A2] & A3 & A4 & A5); auto.
Qed.
Print Assumptions C22_stay.

(** Files built by any operations (without failed commits): forward and backward move to the neighbours in the order of
    commits, and report an error at the two ends. *)
Theorem C22_neighbours : forall (E : Env), EnvOk E ->
  forall key getkey, key_ok key getkey -> forall s, reach key getkey s -> s_fail s = [] ->
  forall d i c, reads s d -> nth_error (effective s) i = Some c -> same_header (dbh d) (c_hdr c) ->
  (forall c', nth_error (effective s) (S i) = Some c' -> exists d', seek_dir d DBackward = (Ok tt, d') /\ shows d' c') /\
  (nth_error (effective s) (S i) = None -> exists e d', seek_dir d DBackward = (Err e, d')) /\
  (forall j c', i = S j -> nth_error (effective s) j = Some c' -> exists d', seek_dir d DForward = (Ok tt, d') /\ shows d' c') /\
  (i = 0%nat -> exists d', seek_dir d DForward = (Err E_NO_HEADER, d')).
Proof.
  intros E EO key getkey KO s R HF d i c V Hi On. destruct (@reach_inv E EO key getkey KO s R) as [B I].
  destruct (split_nth _ _ Hi) as (pre & r & Ech & Hl). assert (Hin : In c (effective s)) by (eapply nth_error_In; eauto).
  destruct (chain_size I c Hin) as (P1 & P2 & P3).
  assert (Hp : h_position (dbh d) = cpos c) by exact (sh_position On).
  assert (Hat : header_at (dbf d) (h_position (dbh d)) (strip (c_hdr c))) by (rewrite Hp; now apply (chain_header I)).
  assert (Sh : forall f0 c', f0 = dbf d -> In c' (effective s) -> shows (Db f0 (strip (c_hdr c')) false) c').
  { intros f0 c' -> Hc'. split; [apply strip_same|]. intros p b Hb. eapply (@chain_reads E EO key B s d); eauto. }
  split; [|split; [|split]].
  - intros c' Hc'. destruct r as [|c1 r].
    { exfalso. assert (nth_error (effective s) (S i) = None); [|congruence]. apply nth_error_None. rewrite Ech, app_length. cbn. lia. }
    assert (c1 = c').
    { assert (nth_error (effective s) (S i) = Some c1); [|congruence].
      rewrite Ech. replace (pre ++ c :: c1 :: r) with ((pre ++ [c]) ++ c1 :: r) by (rewrite <- app_assoc; reflexivity).
      apply nth_app. rewrite app_length. cbn. lia. }
    subst c1. unfold seek_dir. rewrite (r_open V).
    assert (Hn0 : (h_position (dbh d) =? 0) = false).
    { apply N.eqb_neq. rewrite Hp. destruct (@chain_link E key B s I pre c (c' :: r) Ech) as (L1 & _). lia. }
    rewrite Hn0. rewrite (@rewind_step E key B s I d pre c c' r V Ech (sh_position On) (sh_prev On) (sh_version On)) by auto.
    eexists. split; [reflexivity|]. apply Sh; auto. eapply nth_error_In; eauto.
  - intros Hn. destruct r as [|c1 r].
    2:{ exfalso. assert (nth_error (effective s) (S i) = Some c1); [|congruence].
        rewrite Ech. replace (pre ++ c :: c1 :: r) with ((pre ++ [c]) ++ c1 :: r) by (rewrite <- app_assoc; reflexivity).
        apply nth_app. rewrite app_length. cbn. lia. }
    unfold seek_dir. rewrite (r_open V). destruct (h_position (dbh d) =? 0); [eauto|].
    destruct (@rewind_end E key B s I d pre c V Ech (sh_position On) (sh_prev On) (sh_version On) (or_intror HF)) as (e & d' & -> & _).
    destruct e; unfold reopen_current; try (eexists _, _; reflexivity);
    match goal with |- context [find_header_at_pos ?a ?b ?c] => destruct (find_header_at_pos a b c) as [[]] end; eexists _, _; reflexivity.
  - intros j c' -> Hj. destruct (split_nth _ _ Hj) as (pre' & r' & Ech' & Hl').
    assert (exists r2, r' = c :: r2) as [r2 ->].
    { assert (nth_error (effective s) (S j) = nth_error r' 0) as Hx.
      { rewrite Ech'. rewrite nth_error_app2 by lia. replace (S j - length pre')%nat with 1%nat by lia. reflexivity. }
      rewrite Hi in Hx. destruct r' as [|y r2]; [discriminate|]. cbn in Hx. injection Hx as ->. eauto. }
    assert (Hin' : In c' (effective s)) by (eapply nth_error_In; eauto).
    destruct (chain_size I c' Hin') as (Q1 & Q2 & Q3).
    destruct (@chain_link E key B s I pre' c' (c :: r2) Ech') as (L1 & _).
    eexists. split; [apply (@forward_ok E d (cpos c') (strip (c_hdr c')))|apply Sh; auto].
    + exact (r_open V).
    + now rewrite Hp.
    + exact Q3.
    + rewrite Hp. pose proof (r_fpos V). lia.
    + intros q Hq Hr. apply (@gap E key B s I d pre' c' c r2); auto. rewrite <- Hp. exact Hr.
    + now apply (chain_header I).
  - intros ->. destruct pre; [|discriminate]. cbn [app] in Ech.
    destruct (@forward_none E d (strip (c_hdr c)) (r_open V)) as (d' & H1 & _); auto.
    + now rewrite Hp.
    + intros q Hq Hr. apply (@gap_high E key B s I d c r); auto. rewrite <- Hp. pose proof (r_fpos V). rewrite <- (r_size V). lia.
    + eauto.
Qed.
Print Assumptions C22_neighbours.

(** Seeking to the end, when the file is longer than one block. *)
Theorem C22_end_partial : forall (E : Env), EnvOk E ->
  forall key getkey, key_ok key getkey -> forall s, reach key getkey s -> s_fail s = [] ->
  forall d c, reads s d -> nth_error (effective s) 0 = Some c -> 4098 <= size (dbf d) ->
  exists d', seek_dir d DEnd = (Ok tt, d') /\ shows d' c.
Proof.
  intros E EO key getkey KO s R HF d c V H0 Hz. destruct (@reach_inv E EO key getkey KO s R) as [B I].
  destruct (effective s) as [|c1 r] eqn:Ech; [discriminate|]. cbn in H0. injection H0 as ->.
  eexists. split; [apply (@seek_end E key B s d c r I V HF Ech Hz)|]. split; [apply strip_same|].
  intros p b Hb. apply (@chain_reads E EO key B s (Db (set_fpos (dbf d) (size (dbf d))) (strip (c_hdr c)) false) c p b I).
  - destruct V. constructor; cbn [dbf dropped set_fpos cur size crcm fpos fkey]; auto. lia.
  - rewrite Ech. now left.
  - exact Hb.
Qed.
Print Assumptions C22_end_partial.

(** In a file of less than one block the newest header is not found (the header is at position 0, the search gives up below
    position 4096). *)
Theorem C22_end_refuted : exists (E : Env) pl d, EnvOk E /\ open_new (empty_file pl) None false false = (Ok tt, d) /\
  valid_header (dbf d) 0 (dbh d) /\ fst (seek_dir d DEnd) = Err E_DB_NO_LONGER_VALID.
Proof.
  exists env0, [], (s_db ex_n0). split; [exact env0_ok|]. split; [apply pair_eq; vm_compute; reflexivity|].
  split; vm_compute; reflexivity.
Qed.
Print Assumptions C22_end_refuted.

Example C22_ex :
  let d := s_db ex_n5 in
  @valid_header env0 (dbf d) (h_position (dbh d)) (dbh d) /\ dropped d = false /\
  fst (@seek env0 d 4096) = Ok tt /\ h_position (dbh (snd (@seek env0 d 4096))) = 4096 /\
  fst (@seek env0 d 8192) = Err E_NO_HEADER /\ h_position (dbh (snd (@seek env0 d 8192))) = 40960 /\
  h_position (dbh (snd (@seek_dir env0 d DBackward))) = 4096 /\
  h_position (dbh (snd (@seek_dir env0 (snd (@seek_dir env0 d DBackward)) DForward))) = 40960.
Proof. vm_compute. auto 10. Qed.

(** ** C23 *)

Section C23.
Context {E : Env} (EO : EnvOk E).

Lemma chain_layout key B s d c pre r : inv key B s -> reads s d -> s_fail s = [] -> effective s = pre ++ c :: r ->
  layout (dbf d) (cpos c).
Proof.
  intros I V F Ech q Hq Hle.
  assert (Hin : In c (effective s)) by (rewrite Ech, in_app_iff; right; now left).
  destruct (chain_size I c Hin) as (P1 & _).
  destruct (in_dec N.eq_dec q (map cpos (effective s))) as [Hm|Hm].
  - left. apply in_map_iff in Hm. destruct Hm as (x & <- & Hx). exists (strip (c_hdr x)). now apply (chain_header I).
  - right. apply (@other_block E key B s I); auto; [lia|]. intros x Hx Ex. apply Hm. rewrite <- Ex. now apply in_map.
Qed.
End C23.

(** The commits in effect have strictly increasing sequence numbers (newest first: decreasing). *)
Definition seqs_increase (s : state) : Prop :=
  forall c c', In c (effective s) -> In c' (effective s) ->
  h_position (c_hdr c) < h_position (c_hdr c') -> h_update_seq (c_hdr c) < h_update_seq (c_hdr c').

(** Partial: the search succeeds and ends on a commit that contains the sequence number, not above the tip. Missing: that it is the
    first one. It is the first one unless there is a block without a header just below it. *)
Theorem C23_search_partial : forall (E : Env), EnvOk E ->
  forall key getkey, key_ok key getkey -> forall s, reach key getkey s -> s_fail s = [] -> seqs_increase s ->
  forall d c seqno, reads s d -> In c (effective s) -> same_header (dbh d) (c_hdr c) -> seqno <= h_update_seq (c_hdr c) ->
  forall fuel, h_position (c_hdr c) / 4096 < N.of_nat fuel ->
  exists d' c', seek_first fuel d seqno = (Ok tt, d') /\ In c' (effective s) /\ shows d' c' /\
    seqno <= h_update_seq (c_hdr c') /\ h_position (c_hdr c') <= h_position (c_hdr c) /\
    ((forall x, In x (effective s) -> h_position (c_hdr x) < h_position (c_hdr c') -> h_update_seq (c_hdr x) < seqno) \/
     (4096 <= h_position (c_hdr c') /\ forall x, In x (effective s) -> h_position (c_hdr x) <> h_position (c_hdr c') - 4096)).
Proof.
  intros E EO key getkey KO s R HF Inc d c seqno V Hin On Hs fuel Hfuel. destruct (@reach_inv E EO key getkey KO s R) as [B I].
  destruct (in_split _ _ Hin) as (pre & r & Ech). destruct (chain_size I c Hin) as (P1 & P2 & P3).
  assert (Hp : h_position (dbh d) = cpos c) by exact (sh_position On).
  assert (Hat : header_at (dbf d) (cpos c) (strip (c_hdr c))) by now apply (chain_header I).
  pose proof (@chain_layout E key B s d c pre r I V HF Ech) as L.
  assert (Inv : forall q hq, q mod BLOCK = 0 -> q < size (dbf d) -> header_at (dbf d) q hq -> exists x, In x (effective s) /\ cpos x = q /\ hq = strip (c_hdr x)).
  { intros q hq Hq Hz Hh. destruct (in_dec N.eq_dec q (map cpos (effective s))) as [Hm|Hm].
    - apply in_map_iff in Hm. destruct Hm as (x & <- & Hx). exists x. split; [auto|]. split; [auto|].
      exact (header_at_fun Hh (@chain_header E key B s I d x V Hx)).
    - exfalso. apply (header_at_not Hh). apply (@other_block E key B s I); auto; [rewrite <- (r_size V); exact Hz|].
      intros x Hx Ex. apply Hm. rewrite <- Ex. now apply in_map. }
  assert (Small : forall q hq, header_at (dbf d) q hq -> q < size (dbf d)).
  { intros q hq Hh. unfold header_at, find_header_at_pos, pread in Hh. destruct (N.lt_ge_cases q (size (dbf d))); [auto|].
    replace (N.min 1 (size (dbf d) - q)) with 0 in Hh by lia. discriminate Hh. }
  unfold seek_first. rewrite Hp.
  destruct (@search_spec E (S (N.to_nat (fpos (dbf d) / BLOCK + 1))) fuel d (strip (c_hdr c)) seqno 0 (cpos c) (strip (c_hdr c)))
    as (h' & S1 & S2 & S3 & S4 & S5); auto.
  - exact (r_open V).
  - now rewrite Hp.
  - lia.
  - pose proof (r_fpos V). lia.
  - now rewrite N.sub_0_r.
  - pose proof (r_fpos V). assert (cpos c < fpos (dbf d)) by lia. clear - H0. rewrite BLOCK_val. lia.
  - intros q hq _ Hq. lia.
  - intros q q' hq hq' Hq Hq' Hlt H1 H2.
    destruct (Inv _ _ Hq (Small _ _ H1) H1) as (x & X1 & X2 & ->). destruct (Inv _ _ Hq' (Small _ _ H2) H2) as (y & Y1 & Y2 & ->).
    cbn. apply Inc; auto. unfold cpos in *. lia.
  - destruct S4 as [S4 Hm].
    destruct (Inv _ _ Hm (Small _ _ S2) S2) as (x & X1 & X2 & ->). exists (Db (dbf d) (strip (c_hdr x)) false), x.
    change (h_position (strip (c_hdr x))) with (h_position (c_hdr x)) in *. change (h_update_seq (strip (c_hdr x))) with (h_update_seq (c_hdr x)) in *.
    refine (conj S1 (conj X1 (conj _ (conj S3 (conj S4 _))))).
    + split; [apply strip_same|]. intros p b Hb. eapply (@chain_reads E EO key B s d); eauto.
    + destruct S5 as [S5|(m & M1 & M2 & M3)].
      * left. intros y Hy Hlt. destruct (chain_size I y Hy) as (_ & _ & Ym).
        pose proof (S5 (cpos y) (strip (c_hdr y)) Ym Hlt (@chain_header E key B s I d y V Hy)) as Z. exact Z.
      * right. pose proof (bl_next M1 Hm M2) as Hge. rewrite BLOCK_val in Hge. split; [lia|].
        intros y Hy Ey. destruct (chain_size I y Hy) as (_ & _ & Ym).
        apply (header_at_not (@chain_header E key B s I d y V Hy)). apply M3; auto. unfold cpos. rewrite Ey. lia.
Qed.
Print Assumptions C23_search_partial.

(** When every block up to the tip holds a commit, it is the first one. *)
Theorem C23_dense : forall (E : Env), EnvOk E ->
  forall key getkey, key_ok key getkey -> forall s, reach key getkey s -> s_fail s = [] -> seqs_increase s ->
  forall d c seqno, reads s d -> In c (effective s) -> same_header (dbh d) (c_hdr c) -> seqno <= h_update_seq (c_hdr c) ->
  (forall q, q mod 4096 = 0 -> q <= h_position (c_hdr c) -> exists x, In x (effective s) /\ h_position (c_hdr x) = q) ->
  forall fuel, h_position (c_hdr c) / 4096 < N.of_nat fuel ->
  exists d' c', seek_first fuel d seqno = (Ok tt, d') /\ In c' (effective s) /\ shows d' c' /\ seqno <= h_update_seq (c_hdr c') /\
    forall x, In x (effective s) -> h_position (c_hdr x) < h_position (c_hdr c') -> h_update_seq (c_hdr x) < seqno.
Proof.
  intros E EO key getkey KO s R HF Inc d c seqno V Hin On Hs Dense fuel Hfuel.
  destruct (@C23_search_partial E EO key getkey KO s R HF Inc d c seqno V Hin On Hs fuel Hfuel)
    as (d' & c' & A1 & A2 & A3 & A4 & A5 & A6). exists d', c'. refine (conj A1 (conj A2 (conj A3 (conj A4 _)))).
  destruct A6 as [A6|[A6 A7]]; [exact A6|]. exfalso.
  destruct (@reach_inv E EO key getkey KO s R) as [B I]. destruct (chain_size I c' A2) as (_ & _ & M). unfold cpos in M.
  destruct (Dense (h_position (c_hdr c') - 4096)) as (x & X1 & X2).
  - rewrite BLOCK_val in M. clear - M A6. lia.
  - lia.
  - exact (A7 x X1 X2).
Qed.
Print Assumptions C23_dense.

(** Not the first one in general: commits at blocks 0, 1 and 10, with sequence numbers 0, 1 and 2. The search for 1 ends on
    the one with number 2. *)
Theorem C23_refuted : exists (E : Env) key getkey s c c1 fuel d',
  EnvOk E /\ key_ok key getkey /\ reach key getkey s /\ s_fail s = [] /\ seqs_increase s /\
  effective s = c :: c1 :: tl (tl (effective s)) /\ same_header (dbh (s_db s)) (c_hdr c) /\
  h_position (c_hdr c) / 4096 < N.of_nat fuel /\
  h_update_seq (c_hdr c) = 2 /\ h_update_seq (c_hdr c1) = 1 /\
  seek_first fuel (s_db s) 1 = (Ok tt, d') /\ h_position (dbh d') = h_position (c_hdr c).
Proof.
  assert (X : match @seek_first env0 20 (s_db ex_n5) 1 with (Ok tt, d') => h_position (dbh d') = 40960 | _ => False end) by (vm_compute; reflexivity).
  destruct (@seek_first env0 20 (s_db ex_n5) 1) as [[[]|] d'] eqn:Er; [|destruct X].
  assert (Y : match effective ex_n5 with c0 :: c :: c2 :: nil => dbh (s_db ex_n5) = c_hdr c0 /\
      (h_position (c_hdr c0), h_position (c_hdr c), h_position (c_hdr c2)) = (40960, 4096, 0) /\
      (h_update_seq (c_hdr c0), h_update_seq (c_hdr c), h_update_seq (c_hdr c2)) = (2, 1, 0) | _ => False end)
    by (vm_compute; auto).
  destruct (effective ex_n5) as [|c0 [|c1 [|c2 [|]]]] eqn:Ee; [destruct Y..| |destruct Y].
  destruct Y as (Y1 & Y2 & Y3). injection Y2 as P0 P1 P2. injection Y3 as Q0 Q1 Q2.
  exists env0, None, gk0, ex_n5, c0, c1, 20%nat, d'. rewrite Ee. unfold seqs_increase. rewrite Ee.
  split; [exact env0_ok|]. split; [exact I|]. split; [exact ex_n_reach|]. split; [vm_compute; reflexivity|]. split.
  { intros x y [<-|[<-|[<-|[]]]] [<-|[<-|[<-|[]]]]; rewrite ?P0, ?P1, ?P2, ?Q0, ?Q1, ?Q2; lia. }
  split; [reflexivity|]. split; [rewrite Y1; constructor; auto using same_root_refl|]. split; [rewrite P0; vm_compute; reflexivity|].
  rewrite Q0, Q1, P0, Er. auto.
Qed.
Print Assumptions C23_refuted.

(** The hypotheses are met; the search for number 2 ends on the last commit, and in the file as it was after the first commit
    (blocks 0 and 1) the searches for 0 and 1 end on the right ones. *)
Example C23_ex :
  @reach env0 None gk0 ex_n5 /\ s_fail ex_n5 = [] /\
  map (fun c => (h_position (c_hdr c), h_update_seq (c_hdr c))) (effective ex_n5) = [(40960, 2); (4096, 1); (0, 0)] /\
  map (fun c => (h_position (c_hdr c), h_update_seq (c_hdr c))) (effective ex_n2) = [(4096, 1); (0, 0)] /\
  (let look s n := match @seek_first env0 20 (s_db s) n with (Ok tt, d') => Some (h_position (dbh d')) | _ => None end in
   look ex_n5 2 = Some 40960 /\ look ex_n2 0 = Some 0 /\ look ex_n2 1 = Some 4096).
Proof. split; [exact ex_n_reach|]. vm_compute. auto 10. Qed.

(** Beyond the tip: the search for a number above the newest one reports success on a header that does not contain it. *)
Theorem C23_beyond_refuted : exists (E : Env) key getkey s fuel d',
  EnvOk E /\ key_ok key getkey /\ reach key getkey s /\ s_fail s = [] /\
  seek_first fuel (s_db s) 2 = (Ok tt, d') /\ h_update_seq (dbh d') = 1.
Proof.
  set (s := ex_n2).
  assert (X : match @seek_first env0 20 (s_db s) 2 with (Ok tt, d') => h_update_seq (dbh d') = 1 | _ => False end)
    by (vm_compute; reflexivity).
  destruct (@seek_first env0 20 (s_db s) 2) as [[[]|] d'] eqn:Er; [|destruct X].
  exists env0, None, gk0, s, 20%nat, d'. split; [exact env0_ok|]. split; [exact I|]. split; [exact ex_n2_reach|].
  split; [vm_compute; reflexivity|]. auto.
Qed.
Print Assumptions C23_beyond_refuted.
