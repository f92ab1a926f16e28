(** Facts about the model of couch_dbinfo. *)
From Verif Require Import Base Codec File FileFacts ChunkFacts Header HeaderFacts History CrashFacts DataFacts SpecCrash NavFacts ReachNav OpenFacts CommitFacts SpecFile PropertiesCrash PropertiesNav
  Btree BtreeRead SpecMap Db Dbinfo.
Local Open Scope N_scope.
Unset Strict Implicit.

Lemma report_file f f' h b b' : report_header (Db f h b) = report_header (Db f' h b').
Proof. unfold report_header, db_info. cbn [dbh dbf]. destruct (h_by_id h) as [p|]; [|reflexivity]. destruct (lenN (np_reduce p) <? 16); [reflexivity|].
  destruct (rd_be 5 0 (np_reduce p)); [|reflexivity]. cbn [bind]. destruct (rd_be 5 5 (np_reduce p)); [|reflexivity]. cbn [bind]. destruct (rd_be 6 10 (np_reduce p)); reflexivity.
Qed.

Section WithEnv.
Context {E : Env}.

Lemma loop_position f skip n : forall h last u h', find_header_loop f h n skip last = (Ok u, h') -> h_position h' <= N.of_nat n * BLOCK.
Proof.
  induction n as [|n IH]; intros h last u h'; cbn [find_header_loop].
  - destruct (find_header_at_pos f h (N.of_nat 0 * BLOCK)) as [[[]|e] h1] eqn:Ef.
    + intros X. injection X as _ <-. rewrite (find_pos _ _ _ Ef). lia.
    + destruct e; try discriminate; destruct skip; discriminate.
  - destruct (find_header_at_pos f h (N.of_nat (S n) * BLOCK)) as [[[]|e] h1] eqn:Ef.
    + intros X. injection X as _ <-. rewrite (find_pos _ _ _ Ef). lia.
    + assert (Up : forall x, x <= N.of_nat n * BLOCK -> x <= N.of_nat (S n) * BLOCK) by (intros x Hx; rewrite BLOCK_val in *; lia).
      destruct e; try discriminate; try (destruct skip; [|discriminate]); intros X; apply Up; exact (IH _ _ _ _ X).
Qed.
Lemma find_position f h p skip u h' : find_header f h (Z.of_N p - 2) skip = (Ok u, h') -> h_position h' + 2 <= p.
Proof.
  unfold find_header. destruct (Z.ltb_spec (Z.of_N p - 2) 0); [discriminate|]. intros X. apply loop_position in X. rewrite N2Nat.id in X.
  replace (Z.to_N (Z.of_N p - 2)) with (p - 2) in X by lia. rewrite BLOCK_val in X. lia.
Qed.

Lemma parse_position h pos buf r h1 : parse_header h pos buf = (r, h1) -> h_position h1 = pos.
Proof.
  unfold parse_header. destruct buf as [|v b]; [intros X; injection X as _ <-; reflexivity|]. set (buf := v :: b).
  destruct (raw_header_size v) as [hs|]; [|intros X; injection X as _ <-; reflexivity].
  destruct (lenN buf <? hs); [intros X; injection X as _ <-; reflexivity|].
  destruct (raw_to_internal (set_version (set_position h pos) v) v buf) as [[h2 [[s1 s2] s3]]|] eqn:Er; [|intros X; injection X as _ <-; reflexivity].
  assert (Hp : h_position h2 = pos) by (unfold raw_to_internal in Er; repeat bind_inv Er; inv Er; reflexivity).
  destruct (pos <? h_purge_ptr h2); [intros X; injection X as _ <-; exact Hp|].
  destruct (negb (lenN buf =? hs + s1 + s2 + s3)); [intros X; injection X as _ <-; exact Hp|].
  destruct (getb hs s1 buf) as [d1|], (getb (hs + s1) s2 buf) as [d2|], (getb (hs + s1 + s2) s3 buf) as [d3|]; try (intros X; injection X as _ <-; exact Hp).
  destruct (read_db_root pos d1) as [[u1|e1] r1]; [|intros X; injection X as _ <-; exact Hp].
  destruct (read_db_root pos d2) as [[u2|e2] r2]; [|intros X; injection X as _ <-; exact Hp].
  destruct (read_db_root pos d3) as [[u3|e3] r3]; intros X; injection X as _ <-; exact Hp.
Qed.
Lemma header_position f h pos r h1 : find_header_at_pos f h pos = (r, h1) -> h_position h1 = pos \/ h1 = h.
Proof.
  unfold find_header_at_pos. destruct (pread f pos 1) as [|t [|? ?]]; try (intros X; injection X as _ <-; now right).
  destruct ((t =? B_DATA) || (t =? B_META)); [intros X; injection X as _ <-; now right|].
  destruct (negb (t =? B_HEADER)); [intros X; injection X as _ <-; now right|].
  destruct (pread_header f pos MAX_DB_HEADER_SIZE) as [buf|e]; [|destruct (pos =? 0); intros X; injection X as _ <-; now right].
  intros X. left. exact (parse_position X).
Qed.

Lemma rewind_lower d u0 d1 : dropped d = false -> rewind_impl d = (Ok u0, d1) -> h_position (dbh d1) < h_position (dbh d).
Proof.
  intros Hd. unfold rewind_impl. rewrite Hd. cbv zeta.
  assert (Bk : forall h, h_position h <= h_position (dbh d) ->
    (if h_position h <? BLOCK then (Err E_DB_NO_LONGER_VALID, Db (dbf d) h false) else let '(r, h') := find_header (dbf d) h (Z.of_N (h_position h) - 2) false in (r, Db (dbf d) h' false)) = (Ok u0, d1) ->
    h_position (dbh d1) < h_position (dbh d)).
  { intros h Eh. destruct (h_position h <? BLOCK); [discriminate|]. destruct (find_header (dbf d) h (Z.of_N (h_position h) - 2) false) as [[[]|] h'] eqn:Ef; [|discriminate].
    intros X. injection X as _ <-. cbn [dbh]. apply find_position in Ef. lia. }
  change (h_version (reset_roots (dbh d))) with (h_version (dbh d)). change (h_prev (reset_roots (dbh d))) with (h_prev (dbh d)).
  change (h_position (reset_roots (dbh d))) with (h_position (dbh d)) at 1.
  assert (B0 : h_position (reset_roots (dbh d)) <= h_position (dbh d)) by apply N.le_refl.
  destruct (14 <=? h_version (dbh d)); [|exact (Bk _ B0)]. destruct (h_prev (dbh d) =? NO_PREV); [discriminate|].
  destruct (negb (h_prev (dbh d) =? UNKNOWN_PREV) && (h_prev (dbh d) <? h_position (dbh d))) eqn:Hc; [|exact (Bk _ B0)].
  apply andb_true_iff in Hc. destruct Hc as [_ Hc]. apply N.ltb_lt in Hc.
  destruct (find_header_at_pos (dbf d) (reset_roots (dbh d)) (h_prev (dbh d))) as [[[]|e] h'] eqn:Ef.
  - intros X. injection X as _ <-. cbn [dbh]. rewrite (find_pos _ _ _ Ef). exact Hc.
  - assert (B1 : h_position h' <= h_position (dbh d)) by (destruct (header_position Ef) as [-> | ->]; [lia|exact B0]).
    destruct e; try exact (Bk _ B1). discriminate.
Qed.
Lemma back_lower d u d' : seek_dir d DBackward = (Ok u, d') -> h_position (dbh d') < h_position (dbh d).
Proof.
  unfold seek_dir. destruct (dropped d) eqn:Hd; [discriminate|]. destruct (h_position (dbh d) =? 0); [discriminate|].
  destruct (rewind_impl d) as [[x|e] d1] eqn:Er.
  - intros X. injection X as _ <-. exact (rewind_lower Hd Er).
  - intros X. destruct e; try discriminate X; unfold reopen_current in X; match type of X with context [find_header_at_pos ?a ?b ?c] => destruct (find_header_at_pos a b c) as [[]] end; discriminate X.
Qed.

Lemma ff_higher fuel : forall f h pos u h', ff_loop fuel f h pos = (Ok u, h') -> pos <= h_position h' < fpos f.
Proof.
  induction fuel as [|n IH]; intros f h pos u h'; cbn [ff_loop]; [discriminate|]. destruct (N.ltb_spec pos (fpos f)) as [Hl|]; [|discriminate].
  destruct (find_header_at_pos f h pos) as [[[]|e] h1] eqn:Ef.
  - intros X. injection X as _ <-. rewrite (find_pos _ _ _ Ef). lia.
  - destruct e; try discriminate. intros X. apply IH in X. rewrite BLOCK_val in X. lia.
Qed.
Lemma forward_higher d u d' : seek_dir d DForward = (Ok u, d') -> h_position (dbh d) < h_position (dbh d') < fpos (dbf d) /\ dbf d' = dbf d.
Proof.
  unfold seek_dir, fastforward_impl. destruct (dropped d) eqn:Hd; [discriminate|].
  destruct (ff_loop (S (N.to_nat (fpos (dbf d) / BLOCK + 1))) (dbf d) (reset_roots (dbh d)) (h_position (reset_roots (dbh d)) + BLOCK)) as [[x|e] h1] eqn:Ef.
  - intros X. injection X as _ <-. apply ff_higher in Ef. cbn [dbh dbf]. cbn [reset_roots set_roots h_position] in Ef. rewrite BLOCK_val in Ef. split; [lia|reflexivity].
  - intros X. destruct e; try discriminate X; unfold reopen_current in X; match type of X with context [find_header_at_pos ?a ?b ?c] => destruct (find_header_at_pos a b c) as [[]] end; discriminate X.
Qed.

Lemma list_back_ends fuel : forall d, (N.to_nat (h_position (dbh d)) < fuel)%nat -> exists l, list_headers fuel d DBackward = Ok l.
Proof.
  induction fuel as [|n IH]; intros d Hf; [lia|]. cbn [list_headers]. destruct (seek_dir d DBackward) as [[u|e] d'] eqn:Es; [|eauto].
  apply back_lower in Es. destruct (IH d') as [l ->]; [lia|]. cbn [bind]. eauto.
Qed.
Lemma list_forward_ends fuel : forall d, (N.to_nat (fpos (dbf d) - h_position (dbh d)) < fuel)%nat -> exists l, list_headers fuel d DForward = Ok l.
Proof.
  induction fuel as [|n IH]; intros d Hf; [lia|]. cbn [list_headers]. destruct (seek_dir d DForward) as [[u|e] d'] eqn:Es; [|eauto].
  destruct (forward_higher Es) as [H1 H2]. destruct (IH d') as [l ->]; [rewrite H2; lia|]. cbn [bind]. eauto.
Qed.

Lemma open_at_bound f getkey offset d : open_at f getkey offset = Ok d -> h_position (dbh d) < size f /\ fpos (dbf d) = size f /\ dropped d = false.
Proof.
  unfold open_at. destruct (open_existing f getkey false false) as [d0|] eqn:Eo; [|discriminate]. cbn [bind].
  assert (H0 : h_position (dbh d0) < size f /\ fpos (dbf d0) = size f /\ dropped d0 = false).
  { unfold open_existing in Eo. destruct (find_header _ header0 (Z.of_N (size f) - 2) false) as [[[]|] h] eqn:Ef; [|discriminate Eo]. apply find_position in Ef.
    rewrite andb_false_l in Eo. destruct (h_meta h).
    - destruct (read_encryption_key _ h getkey) as [k|]; [|discriminate Eo]. cbn [bind] in Eo. injection Eo as <-. cbn. repeat split; auto. lia.
    - injection Eo as <-. cbn. repeat split; auto. lia. }
  destruct offset as [o|]; [|intros X; injection X as <-; exact H0]. destruct H0 as (H1 & H2 & H3).
  unfold seek. rewrite H3. destruct (negb (o mod BLOCK =? 0)); [discriminate|]. destruct (N.leb_spec (fpos (dbf d0)) o) as [|Hl]; [discriminate|].
  destruct (find_header_at_pos (dbf d0) (reset_roots (dbh d0)) o) as [[[]|e] h] eqn:Ef.
  - intros X. injection X as <-. cbn [dbh dbf dropped]. rewrite (find_pos _ _ _ Ef). repeat split; auto. lia.
  - clear Ef. unfold reopen_current. destruct (find_header_at_pos _ _ _) as [[x|x] y]; intros X; discriminate X.
Qed.
Lemma process_ends f getkey offset iterate : (exists d, open_at f getkey offset = Ok d) -> iterate <> Some DEnd -> exists l, process_file f getkey offset iterate = Ok l.
Proof.
  intros [d Ho] Hi. unfold process_file. rewrite Ho. cbn [bind]. destruct (open_at_bound Ho) as (H1 & H2 & H3). destruct iterate as [[]|]; [destruct (Hi eq_refl)| | |eauto].
  - apply list_forward_ends. rewrite H2. lia.
  - apply list_back_ends. lia.
Qed.

(** *** Files with a history *)
Section State.
Context {key : option keyinfo} {B : N} {s : state} (I : inv key B s).

Definition chain_reports (l : list commit) : list report := map (fun c => report_header (Db (dbf (s_db s)) (strip (c_hdr c)) false)) l.

Lemma list_back fuel : forall r pre c d l, effective s = pre ++ c :: r -> reads s d -> dbh d = strip (c_hdr c) ->
  (h_version (dbh (s_db s)) = 14 /\ (forall pre' c', effective s = pre' ++ [c'] -> h_prev (c_hdr c') = NO_PREV)) \/ s_fail s = [] ->
  list_headers fuel d DBackward = Ok l -> l = chain_reports (c :: r).
Proof.
  induction fuel as [|n IH]; intros r pre c d l Hc V Hh HF; cbn [list_headers]; [discriminate|].
  assert (On : on d c) by (unfold on; rewrite Hh; apply strip_same).
  assert (Hin : In c (effective s)) by (rewrite Hc, in_app_iff; right; now left).
  assert (Hver : h_version (c_hdr c) = h_version (dbh (s_db s))).
  { apply (i_ver I). unfold all_coms. unfold effective in Hin. rewrite in_app_iff in Hin. rewrite !in_app_iff. tauto. }
  assert (Hrep : report_header d = report_header (Db (dbf (s_db s)) (strip (c_hdr c)) false)) by (destruct d as [f h b]; cbn [dbh] in Hh; subst h; apply report_file).
  unfold seek_dir. rewrite (r_open V). destruct r as [|c' r].
  - assert (X : (h_version (c_hdr c) = 14 /\ h_prev (c_hdr c) = NO_PREV) \/ s_fail s = []) by (destruct HF as [[H1 H2]|HF]; [left; split; [congruence|exact (H2 pre c Hc)]|now right]).
    destruct (@rewind_end E key B s I d pre c V Hc (sh_position On) (sh_prev On) (sh_version On) X) as (e & d' & -> & _). clear X.
    intros X. cbn [chain_reports map]. assert (Ok [report_header d] = Ok l) as Y.
    { destruct (h_position (dbh d) =? 0); [exact X|]. destruct e; try exact X; unfold reopen_current in X; destruct (find_header_at_pos _ _ _) as [[]] in X; exact X. }
    injection Y as <-. now rewrite Hrep.
  - destruct (@chain_link E key B s I pre c (c' :: r) Hc) as (L1 & _).
    assert (Hn0 : (h_position (dbh d) =? 0) = false) by (apply N.eqb_neq; rewrite (sh_position On); unfold cpos in L1; lia). rewrite Hn0.
    rewrite (@rewind_step E key B s I d pre c c' r V Hc (sh_position On) (sh_prev On) (sh_version On)) by (destruct HF as [[H1 _]|HF]; [left; congruence|now right]).
    destruct (list_headers n (Db (dbf d) (strip (c_hdr c')) false) DBackward) as [l'|] eqn:El; [|discriminate]. cbn [bind]. intros X. injection X as <-.
    rewrite Hrep. cbn [chain_reports map]. f_equal. apply (IH r (pre ++ [c]) c' (Db (dbf d) (strip (c_hdr c')) false)); auto; [rewrite <- app_assoc; exact Hc|now apply reads_hdr].
Qed.

Lemma list_forward fuel : s_fail s = [] -> forall q r c d l, effective s = rev q ++ c :: r -> reads s d -> dbh d = strip (c_hdr c) ->
  list_headers fuel d DForward = Ok l -> l = chain_reports (c :: q).
Proof.
  intros HF. induction fuel as [|n IH]; intros q r c d l Hc V Hh; cbn [list_headers]; [discriminate|].
  assert (On : on d c) by (unfold on; rewrite Hh; apply strip_same).
  assert (Hin : In c (effective s)) by (rewrite Hc, in_app_iff; right; now left).
  assert (Hrep : report_header d = report_header (Db (dbf (s_db s)) (strip (c_hdr c)) false)) by (destruct d as [f h b]; cbn [dbh] in Hh; subst h; apply report_file).
  assert (Hp : h_position (dbh d) = cpos c) by exact (sh_position On). destruct (chain_size I c Hin) as (P1 & P2 & P3).
  assert (Hat : header_at (dbf d) (h_position (dbh d)) (strip (c_hdr c))) by (rewrite Hp; now apply (chain_header I)).
  destruct q as [|c' q]; cbn [rev app] in Hc.
  - destruct (@forward_none E d (strip (c_hdr c)) (r_open V)) as (d' & -> & _); auto.
    + now rewrite Hp.
    + intros q Hq Hr. apply (@gap_high E key B s I d c r); auto. rewrite <- Hp. pose proof (r_fpos V). rewrite <- (r_size V). lia.
    + intros X. injection X as <-. cbn [chain_reports map]. now rewrite Hrep.
  - rewrite <- app_assoc in Hc. cbn [app] in Hc. assert (Hin' : In c' (effective s)) by (rewrite Hc, in_app_iff; right; now left).
    destruct (chain_size I c' Hin') as (Q1 & Q2 & Q3). destruct (@chain_link E key B s I (rev q) c' (c :: r) Hc) as (L1 & _).
    rewrite (@forward_ok E d (cpos c') (strip (c_hdr c'))); auto.
    + destruct (list_headers n (Db (dbf d) (strip (c_hdr c')) false) DForward) as [l'|] eqn:El; [|discriminate]. cbn [bind]. intros X. injection X as <-.
      rewrite Hrep. cbn [chain_reports map]. f_equal. apply (IH q (c :: r) c' (Db (dbf d) (strip (c_hdr c')) false)); auto. now apply reads_hdr.
    + exact (r_open V).
    + now rewrite Hp.
    + rewrite Hp. pose proof (r_fpos V). lia.
    + intros x Hx Hr. apply (@gap E key B s I d (rev q) c' c r); auto. rewrite <- Hp. exact Hr.
    + now apply (chain_header I).
Qed.
End State.
End WithEnv.
