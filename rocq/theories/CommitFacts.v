(** What a commit does to the handle; the header that opening finds; headers in arbitrary files. *)
From Verif Require Import Base Codec CodecFacts File FileFacts ChunkFacts Header HeaderFacts History CrashFacts OpenFacts NavFacts
  SpecFile DataFacts SpecCrash ReachNav.
Local Open Scope N_scope.

Lemma strip_same h : same_header (strip h) h.
Proof.
  assert (R : forall r, same_root (strip_root r) r) by (intros [p|]; cbn; auto).
  constructor; cbn; auto.
Qed.
Lemma same_root_refl r : same_root r r.
Proof. destruct r; cbn; auto. Qed.
Lemma same_root_sym a b : same_root a b -> same_root b a.
Proof. destruct a, b; cbn; intuition. Qed.
Lemma same_root_trans a b c : same_root a b -> same_root b c -> same_root a c.
Proof. destruct a, b, c; cbn; intuition congruence. Qed.
Lemma same_header_trans a b c : same_header a b -> same_header b c -> same_header a c.
Proof. intros [] []. constructor; try congruence; eapply same_root_trans; eassumption. Qed.

Section WithEnv.
Context {E : Env} (EO : EnvOk E).
Variable key : option keyinfo.

Lemma commit_header B s ts n r d' : inv key B s ->
  commit_ex (s_db s) ts n = (r, d') -> dropped d' = dropped (s_db s) /\
  dbh d' = match r with
           | Ok _ => committed (dbh (s_db s)) ts (align (fpos (dbf (s_db s))))
           | Err _ => dbh (s_db s)
           end.
Proof.
  intros I H. pose proof (i_hok I) as K.
  set (f := dbf (s_db s)) in *. set (h := dbh (s_db s)) in *. set (q := align (fpos f)) in *.
  unfold commit_ex in H.
  destruct (db_write_header (Db (dbf (s_db s)) (set_prev (set_timestamp (dbh (s_db s)) ts) (h_position (dbh (s_db s))))
              (dropped (s_db s))) B_DATA) as [r1 d1] eqn:Ew.
  destruct (@db_write_header_spec E (s_db s) ts q B_DATA r1 d1 (ho_version K) Ew) as (w & f1 & Hw & Hf1 & Hd1 & Hr1).
  fold f h in Hw, Hr1, H. fold q in H.
  destruct (@write_header_spec _ EO _ _ _ _ _ (i_good I) Hw) as (X & Hp & Hok & Herr). fold f in X, Hp, Hok, Herr. fold q in X.
  assert (Rst : forall p, set_prev (set_timestamp (set_position (committed h ts p) (h_position h)) (h_timestamp h)) (h_prev h) = h)
    by (intros p; apply restore_header; [apply (ho_meta K)|apply (ho_version K)]).
  destruct w as [p|e].
  2:{ destruct Hr1 as [-> Hh1]. inv H. cbn [dbh dropped]. rewrite Hh1, Rst. auto. }
  destruct Hr1 as [-> Hh1]. destruct (Hok p eq_refl) as (Hpq & _). fold q in Hpq. subst p.
  destruct (fsync (dbf d1)) as [[u|e] f3].
  2:{ inv H. cbn [dbh dropped]. rewrite Hh1, Rst. auto. }
  destruct (commit_flip n f3 q) as [[u2|e] f4]; inv H; cbn [dbh dropped]; rewrite Hh1, ?Rst; auto.
Qed.

(** The commit taken by opening shows its chunks. *)
Lemma opened_shows f c g gsz pl : cw key f c -> stable f (hend c) -> crash_image f g gsz ->
  shows (Db (opened f g gsz pl) (strip (c_hdr c)) false) c.
Proof.
  intros C S G. destruct (hdr_image C S G) as (A1 & A2 & A3). split; [apply strip_same|].
  intros p b Hin. pose proof (cw_log C p b Hin) as H. pose proof (hend_pos c).
  eapply (@chunk_at_read E EO (cur f) (opened f g gsz pl)); [exact H| |cbn; lia].
  intros i Hi Hm. cbn. apply A3; auto. lia.
Qed.

(** ** Seeking to the end *)

Lemma seek_end B s d c r : inv key B s -> reads s d -> s_fail s = [] -> effective s = c :: r -> BLOCK + 2 <= size (dbf d) ->
  seek_dir d DEnd = (Ok tt, Db (set_fpos (dbf d) (size (dbf d))) (strip (c_hdr c)) false).
Proof.
  intros I V F Hc Hz. unfold seek_dir, rewind_impl. rewrite (r_open V). cbn [dropped dbh dbf].
  set (sz := size (dbf d)) in *.
  assert (Hs2 : (if sz <? 2 then 2 ^ 64 + sz - 2 else sz - 2) = sz - 2).
  { destruct (N.ltb_spec sz 2); [rewrite BLOCK_val in Hz; lia|reflexivity]. }
  rewrite Hs2. cbn [set_prev set_position reset_roots set_roots h_version h_prev h_position].
  set (d0 := Db (set_fpos (dbf d) sz) (dbh d) false).
  assert (V0 : reads s d0).
  { destruct V. constructor; cbn [d0 dbf dropped set_fpos cur size crcm fpos fkey]; auto. subst sz. lia. }
  assert (Hin : In c (effective s)) by (rewrite Hc; now left).
  destruct (chain_size I c Hin) as (P1 & P2 & Hm). pose proof (hend_pos c) as Hep.
  pose proof (cw_end (chain_cw I c Hin)) as Hce. pose proof (proj2 (i_good I)) as G.
  assert (Esz : size (dbf (s_db s)) = sz) by (symmetry; apply V).
  assert (Back : forall h, h_position h = sz - 2 ->
    (if h_position h <? BLOCK then (Err E_DB_NO_LONGER_VALID, Db (set_fpos (dbf d) sz) h false)
     else let '(r0, h') := find_header (set_fpos (dbf d) sz) h (Z.of_N (h_position h) - 2) false in
          (r0, Db (set_fpos (dbf d) sz) h' false))
    = (Ok tt, Db (set_fpos (dbf d) sz) (strip (c_hdr c)) false)).
  { intros h Eh. rewrite Eh. destruct (N.ltb_spec (sz - 2) BLOCK) as [|_]; [lia|].
    unfold find_header. destruct (Z.ltb_spec (Z.of_N (sz - 2) - 2) 0) as [Hx|_]; [rewrite BLOCK_val in Hz; lia|].
    replace (Z.to_N (Z.of_N (sz - 2) - 2)) with (sz - 4) by (rewrite BLOCK_val in Hz; lia).
    change (set_fpos (dbf d) sz) with (dbf d0).
    assert (Hn : N.of_nat (N.to_nat ((sz - 4) / BLOCK)) * BLOCK <= sz - 4 /\ sz - 4 < N.of_nat (N.to_nat ((sz - 4) / BLOCK)) * BLOCK + BLOCK)
      by (rewrite N2Nat.id; clear; rewrite BLOCK_val; lia).
    rewrite (@find_down E key B s I d0 h _ c); auto.
    - assert (cpos c <= sz - 4) by lia. clear - Hn H Hm. rewrite BLOCK_val in *. lia.
    - intros q Hq Hr. apply (@gap_high E key B s I d0 c r); auto. rewrite Esz. rewrite BLOCK_val in *. lia. }
  specialize (Back (reset_roots (set_prev (set_position (dbh d) (sz - 2)) UNKNOWN_PREV)) eq_refl).
  cbn [set_prev set_position reset_roots set_roots h_version h_prev h_position] in Back.
  destruct (N.leb_spec 14 (h_version (dbh d))) as [Hv|Hv].
  - change (UNKNOWN_PREV =? NO_PREV) with false. change (negb (UNKNOWN_PREV =? UNKNOWN_PREV)) with false. cbn [andb].
    rewrite Back; reflexivity.
  - rewrite Back; reflexivity.
Qed.

(** ** Any file: which header is opened *)

Lemma find_loop_ok f skip n : forall h last h1, find_header_loop f h n skip last = (Ok tt, h1) ->
  exists k, (k <= n)%nat /\ header_at f (N.of_nat k * BLOCK) h1 /\
    forall j, (k < j <= n)%nat -> forall hj, ~ header_at f (N.of_nat j * BLOCK) hj.
Proof.
  induction n as [|n IH]; intros h last h1.
  - cbn [find_header_loop]. destruct (find_header_at_pos f h (N.of_nat 0 * BLOCK)) as [[u|e] h'] eqn:Ef.
    + intros H. exists 0%nat. split; [lia|]. split; [|intros; lia]. injection H as <-. destruct u. exact (find_indep _ _ _ _ Ef).
    + destruct e; try discriminate; destruct skip; discriminate.
  - cbn [find_header_loop]. destruct (find_header_at_pos f h (N.of_nat (S n) * BLOCK)) as [[u|e] h'] eqn:Ef.
    + intros H. exists (S n). split; [lia|]. split; [|intros; lia]. injection H as <-. destruct u. exact (find_indep _ _ _ _ Ef).
    + assert (No : forall hj, ~ header_at f (N.of_nat (S n) * BLOCK) hj).
      { intros hj Hj. rewrite (header_at_find _ Hj) in Ef. discriminate. }
      assert (Next : forall l, find_header_loop f h' n skip l = (Ok tt, h1) -> exists k, (k <= S n)%nat /\ header_at f (N.of_nat k * BLOCK) h1 /\
        forall j, (k < j <= S n)%nat -> forall hj, ~ header_at f (N.of_nat j * BLOCK) hj).
      { intros l H. destruct (IH _ _ _ H) as (k & K1 & K2 & K3). exists k. split; [lia|]. split; [exact K2|].
        intros j Hj. destruct (Nat.eq_dec j (S n)) as [->|]; [exact No|]. apply K3. lia. }
      destruct e; try discriminate; try (intros H; exact (Next _ H)); destruct skip; try discriminate; intros H; exact (Next _ H).
Qed.

(** The file as the header scan of couchstore_open_db_ex sees it. *)
Definition unopened (f : file) : file := set_fpos (set_fkey (set_crcm f CRC_UNKNOWN) None) (size f).

Lemma open_newest f getkey recovery legacy d : open_existing f getkey recovery legacy = Ok d ->
  let p := h_position (dbh d) in
  p mod BLOCK = 0 /\ p + 2 <= size f /\ header_at (unopened f) p (dbh d) /\
  forall q hq, q mod BLOCK = 0 -> p < q -> q + 2 <= size f -> ~ header_at (unopened f) q hq.
Proof.
  unfold open_existing. fold (unopened f). destruct (find_header (unopened f) header0 (Z.of_N (size f) - 2) recovery) as [[u|e] h] eqn:Ef; [|discriminate].
  intros H. assert (Hd : dbh d = h).
  { destruct (legacy && _); [discriminate|]. destruct (h_meta h); [|inv H; reflexivity].
    bind_inv H. inv H. reflexivity. }
  cbv zeta. rewrite Hd. clear H Hd. unfold find_header in Ef.
  destruct (Z.ltb_spec (Z.of_N (size f) - 2) 0) as [|Hz]; [discriminate|]. destruct u.
  destruct (find_loop_ok _ _ _ _ _ Ef) as (k & K1 & K2 & K3).
  pose proof (header_at_pos K2) as Hp. rewrite Hp.
  assert (Hn : N.of_nat (N.to_nat (Z.to_N (Z.of_N (size f) - 2) / BLOCK)) * BLOCK <= size f - 2 /\
     size f - 2 < N.of_nat (N.to_nat (Z.to_N (Z.of_N (size f) - 2) / BLOCK)) * BLOCK + BLOCK).
  { rewrite N2Nat.id. replace (Z.to_N (Z.of_N (size f) - 2)) with (size f - 2) by lia. clear. rewrite BLOCK_val. lia. }
  set (n := N.to_nat (Z.to_N (Z.of_N (size f) - 2) / BLOCK)) in *. clearbody n.
  split; [clear; rewrite BLOCK_val; lia|]. split; [clear - K1 Hn Hz; rewrite BLOCK_val in *; lia|]. split; [exact K2|].
  intros q hq Hq Hlt Hle. assert (Eq : N.of_nat (N.to_nat (q / BLOCK)) * BLOCK = q) by (clear - Hq; rewrite BLOCK_val in *; lia).
  rewrite <- Eq. apply K3. clear - Eq Hlt Hle Hn Hz. rewrite BLOCK_val in *. lia.
Qed.

(** ** Any bytes: parsing a header *)

Lemma getb_in (off len : N) (l : bytes) : off + len <= lenN l -> exists x, getb off len l = Ok x /\ lenN x = len.
Proof.
  intros H. unfold getb. destruct (N.leb_spec (off + len) (lenN l)) as [_|]; [|lia].
  eexists. split; [reflexivity|]. unfold take, drop, lenN in *. rewrite firstn_length, skipn_length. lia.
Qed.
Lemma rd_be_in (n off : N) l : off + n <= lenN l -> exists v, rd_be n off l = Ok v.
Proof.
  intros H. unfold rd_be. destruct (@getb_in off n l H) as (x & -> & _). cbn. eauto.
Qed.

Lemma read_root_before pos d r : read_db_root pos d = (Ok tt, r) ->
  match r with Some p => np_pointer p < pos | None => True end.
Proof.
  unfold read_db_root. destruct (0 <? lenN d); [|intros H; inv H; exact I].
  destruct (lenN d <? 12); [discriminate|]. destruct (read_root d) as [[p|]|]; try discriminate.
  destruct (N.ltb_spec (np_pointer p) pos); [|discriminate]. intros H1; inv H1. exact H.
Qed.

Lemma parse_safe h pos buf h1 r : parse_header h pos buf = (r, h1) -> buf <> [] -> r <> Err E_UB.
Proof.
  unfold parse_header. destruct buf as [|v b]; [congruence|]. set (buf := v :: b). intros H _.
  unfold raw_header_size in H.
  set (hs := if v =? 14 then Some 39 else if v =? 13 then Some 33 else if (v =? 12) || (v =? 11) then Some 25 else None) in *.
  destruct hs as [hs'|] eqn:Ehs; [|inv H; discriminate].
  destruct (N.ltb_spec (lenN buf) hs') as [Hl|Hl]; [inv H; discriminate|].
  assert (Hv : (v = 14 /\ hs' = 39) \/ (v = 13 /\ hs' = 33) \/ ((v = 12 \/ v = 11) /\ hs' = 25)).
  { subst hs. destruct (N.eqb_spec v 14); [inv Ehs; auto|]. destruct (N.eqb_spec v 13); [inv Ehs; auto|].
    destruct (N.eqb_spec v 12); [inv Ehs; auto|]. destruct (N.eqb_spec v 11); [inv Ehs; auto|]. discriminate. }
  assert (H25 : 25 <= lenN buf) by lia.
  unfold raw_to_internal in H.
  destruct (@rd_be_in 6 1 buf) as [x1 E1]; [lia|]. destruct (@rd_be_in 6 7 buf) as [x2 E2]; [lia|].
  destruct (@rd_be_in 6 13 buf) as [x3 E3]; [lia|]. destruct (@rd_be_in 2 19 buf) as [x4 E4]; [lia|].
  destruct (@rd_be_in 2 21 buf) as [x5 E5]; [lia|]. destruct (@rd_be_in 2 23 buf) as [x6 E6]; [lia|].
  rewrite E1, E2, E3, E4, E5, E6 in H. cbn [bind] in H.
  assert (E7 : exists ts, (if (v =? 13) || (v =? 14) then rd_be 8 25 buf else Ok 0) = Ok ts).
  { destruct ((v =? 13) || (v =? 14)) eqn:Ev; [|eauto]. apply rd_be_in. lia. }
  assert (E8 : exists pv, (if v =? 14 then rd_be 6 33 buf else Ok 0) = Ok pv).
  { destruct (N.eqb_spec v 14); [|eauto]. apply rd_be_in. lia. }
  destruct E7 as [ts E7], E8 as [pv E8]. rewrite E7, E8 in H. cbn [bind h_purge_ptr] in H.
  destruct (pos <? x3); [inv H; discriminate|].
  destruct (N.eqb_spec (lenN buf) (hs' + x4 + x5 + x6)) as [El|]; cbn [negb] in H; [|inv H; discriminate].
  destruct (@getb_in hs' x4 buf) as (y1 & F1 & _); [lia|]. destruct (@getb_in (hs' + x4) x5 buf) as (y2 & F2 & _); [lia|].
  destruct (@getb_in (hs' + x4 + x5) x6 buf) as (y3 & F3 & _); [lia|]. rewrite F1, F2, F3 in H.
  assert (NB : forall p d r0 x, read_db_root p d = (r0, x) -> r0 <> Err E_UB).
  { intros p d r0 x. unfold read_db_root. destruct (0 <? lenN d); [|intros H0; inv H0; discriminate].
    destruct (lenN d <? 12); [intros H0; inv H0; discriminate|].
    destruct (read_root d) as [[pp|]|]; intros H0; inv H0; try discriminate. destruct (np_pointer pp <? p); discriminate. }
  destruct (read_db_root pos y1) as [[u1|e1] r1] eqn:R1; [|injection H as <- _; exact (NB _ _ _ _ R1)].
  destruct (read_db_root pos y2) as [[u2|e2] r2] eqn:R2; [|injection H as <- _; exact (NB _ _ _ _ R2)].
  destruct (read_db_root pos y3) as [r0 r3] eqn:R3. injection H as <- _. exact (NB _ _ _ _ R3).
Qed.

Lemma parse_roots h pos buf h1 : parse_header h pos buf = (Ok tt, h1) ->
  (match h_by_id h1 with Some p => np_pointer p < pos | None => True end) /\
  (match h_by_seq h1 with Some p => np_pointer p < pos | None => True end) /\
  (match h_local h1 with Some p => np_pointer p < pos | None => True end) /\
  (h_version h1 = 11 \/ h_version h1 = 12 \/ h_version h1 = 13 \/ h_version h1 = 14) /\ h_purge_ptr h1 <= pos.
Proof.
  unfold parse_header. destruct buf as [|v b]; [discriminate|]. set (buf := v :: b).
  destruct (raw_header_size v) as [hs|] eqn:Ehs; [|discriminate].
  assert (Hv : v = 11 \/ v = 12 \/ v = 13 \/ v = 14).
  { unfold raw_header_size in Ehs. destruct (N.eqb_spec v 14); [auto|]. destruct (N.eqb_spec v 13); [auto|].
    destruct (N.eqb_spec v 12); [auto|]. destruct (N.eqb_spec v 11); [auto|]. discriminate. }
  destruct (lenN buf <? hs); [discriminate|].
  destruct (raw_to_internal (set_version (set_position h pos) v) v buf) as [[h2 [[s1 s2] s3]]|] eqn:Er; [|discriminate].
  assert (Hv2 : h_version h2 = v).
  { unfold raw_to_internal in Er. repeat bind_inv Er. inv Er. reflexivity. }
  destruct (N.ltb_spec pos (h_purge_ptr h2)); [discriminate|].
  destruct (negb (lenN buf =? hs + s1 + s2 + s3)); [discriminate|].
  destruct (getb hs s1 buf) as [d1|]; [|discriminate].
  destruct (getb (hs + s1) s2 buf) as [d2|]; [|discriminate].
  destruct (getb (hs + s1 + s2) s3 buf) as [d3|]; [|discriminate].
  destruct (read_db_root pos d1) as [[[]|e1] r1] eqn:R1; [|discriminate].
  destruct (read_db_root pos d2) as [[[]|e2] r2] eqn:R2; [|discriminate].
  destruct (read_db_root pos d3) as [[[]|e3] r3] eqn:R3; [|discriminate].
  intros X. injection X as <-. cbn. apply read_root_before in R1, R2, R3. rewrite Hv2. auto.
Qed.
End WithEnv.

(** ** A failed seek keeps the handle *)

Section Stay.
Context {E : Env}.

Local Notation scan_err e := (e <> E_INVALID_ARGUMENTS).

Lemma find_err f h p e h' : find_header_at_pos f h p = (Err e, h') -> scan_err e.
Proof.
  unfold find_header_at_pos. destruct (pread f p 1) as [|t [|? ?]]; try (intros H; inv H; discriminate).
  destruct ((t =? B_DATA) || (t =? B_META)); [intros H; inv H; discriminate|].
  destruct (negb (t =? B_HEADER)); [intros H; inv H; discriminate|].
  destruct (pread_header f p MAX_DB_HEADER_SIZE) as [buf|e0] eqn:Er.
  - intros H. unfold parse_header in H. destruct buf as [|v b]; [inv H; discriminate|]. set (buf := v :: b) in *.
    destruct (raw_header_size v) as [hs|]; [|inv H; discriminate]. destruct (lenN buf <? hs); [inv H; discriminate|].
    destruct (raw_to_internal (set_version (set_position h p) v) v buf) as [[h2 [[s1 s2] s3]]|e2] eqn:Ei.
    + destruct (p <? h_purge_ptr h2); [inv H; discriminate|]. destruct (negb _); [inv H; discriminate|].
      assert (NB : forall p d e0 x, read_db_root p d = (Err e0, x) -> scan_err e0).
      { intros p0 d e1 x. unfold read_db_root. destruct (0 <? lenN d); [|intros H0; inv H0].
        destruct (lenN d <? 12); [intros H0; inv H0; discriminate|].
        destruct (read_root d) as [[pp|]|]; intros H0; inv H0; try discriminate. destruct (np_pointer pp <? p0); inv H2; discriminate. }
      destruct (getb hs s1 buf) as [d1|]; [|inv H; discriminate].
      destruct (getb (hs + s1) s2 buf) as [d2|]; [|inv H; discriminate].
      destruct (getb (hs + s1 + s2) s3 buf) as [d3|]; [|inv H; discriminate].
      destruct (read_db_root p d1) as [[u1|e1] r1] eqn:R1; [|injection H as <- _; exact (NB _ _ _ _ R1)].
      destruct (read_db_root p d2) as [[u2|e2] r2] eqn:R2; [|injection H as <- _; exact (NB _ _ _ _ R2)].
      destruct (read_db_root p d3) as [r0 r3] eqn:R3. injection H as -> _. exact (NB _ _ _ _ R3).
    + injection H as <- _. revert Ei. unfold raw_to_internal.
      assert (RB : forall n o e0, rd_be n o buf = Err e0 -> scan_err e0).
      { intros n o e0. unfold rd_be, getb. destruct (o + n <=? lenN buf); cbn; intros X; inv X; discriminate. }
      destruct (rd_be 6 1 buf) eqn:?; cbn [bind]; [|intros X; inv X; eauto].
      destruct (rd_be 6 7 buf) eqn:?; cbn [bind]; [|intros X; inv X; eauto].
      destruct (rd_be 6 13 buf) eqn:?; cbn [bind]; [|intros X; inv X; eauto].
      destruct (rd_be 2 19 buf) eqn:?; cbn [bind]; [|intros X; inv X; eauto].
      destruct (rd_be 2 21 buf) eqn:?; cbn [bind]; [|intros X; inv X; eauto].
      destruct (rd_be 2 23 buf) eqn:?; cbn [bind]; [|intros X; inv X; eauto].
      destruct ((v =? 13) || (v =? 14)); [destruct (rd_be 8 25 buf) eqn:?; cbn [bind]; [|intros X; inv X; eauto]|cbn [bind]];
      (destruct (v =? 14); [destruct (rd_be 6 33 buf) eqn:?; cbn [bind]; [|intros X; inv X; eauto]|cbn [bind]]; discriminate).
  - assert (scan_err e0).
    { unfold pread_header in Er. change (MAX_DB_HEADER_SIZE =? 0) with false in Er. cbv iota in Er.
      destruct (bin_internal_err _ _ _ Er) as [->|[->| ->]]; discriminate. }
    intros X. destruct (p =? 0); inv X; [discriminate|assumption].
Qed.

Lemma find_loop_err f skip n : forall h last e h', last <> E_INVALID_ARGUMENTS ->
  find_header_loop f h n skip last = (Err e, h') -> scan_err e.
Proof.
  induction n as [|n IH]; intros h last e h' Hl; cbn [find_header_loop];
  destruct (find_header_at_pos f h _) as [[u|e1] h1] eqn:Ef; try discriminate; pose proof (find_err _ _ _ Ef) as S1.
  - destruct e1; try (intros H; inv H; exact S1); try (intros H; inv H; exact Hl);
    destruct skip; intros H; inv H; exact S1.
  - destruct e1; try (intros H; inv H; exact S1); try (apply IH; exact Hl);
    destruct skip; try (intros H; inv H; exact S1); apply IH; exact S1.
Qed.

Lemma rewind_err d e d' : dropped d = false -> rewind_impl d = (Err e, d') ->
  scan_err e /\ dbf d' = dbf d /\ dropped d' = false.
Proof.
  intros Hd. unfold rewind_impl. rewrite Hd.
  assert (Back : forall h e d', (if h_position h <? BLOCK then (Err E_DB_NO_LONGER_VALID, Db (dbf d) h false)
     else let '(r0, h') := find_header (dbf d) h (Z.of_N (h_position h) - 2) false in (r0, Db (dbf d) h' false)) = (Err e, d') ->
     scan_err e /\ dbf d' = dbf d /\ dropped d' = false).
  { intros h e0 d0. destruct (h_position h <? BLOCK); [intros H; inv H; repeat split; discriminate|].
    destruct (find_header (dbf d) h (Z.of_N (h_position h) - 2) false) as [r0 h0] eqn:Ef.
    intros H; inv H. cbn. repeat split. unfold find_header in Ef. destruct (_ <? 0)%Z; [inv Ef; discriminate|].
    eapply find_loop_err; [|exact Ef]. discriminate. }
  cbv zeta. destruct (14 <=? _); [|apply Back].
  destruct (h_prev _ =? NO_PREV); [intros H; inv H; repeat split; discriminate|].
  destruct (negb _ && _); [|apply Back].
  destruct (find_header_at_pos (dbf d) (reset_roots (dbh d)) (h_prev (reset_roots (dbh d)))) as [[u|e1] h1] eqn:Ef; [discriminate|].
  destruct e1; try apply Back. intros H; inv H. repeat split; discriminate.
Qed.

Lemma ff_err fuel f : forall h pos e h', ff_loop fuel f h pos = (Err e, h') -> scan_err e.
Proof.
  induction fuel as [|fuel IH]; intros h pos e h'; cbn [ff_loop]; [intros H; inv H; discriminate|].
  destruct (pos <? fpos f); [|intros H; inv H; discriminate].
  destruct (find_header_at_pos f h pos) as [[u|e1] h1] eqn:Ef; [discriminate|]. pose proof (find_err _ _ _ Ef) as S1.
  destruct e1; try (intros H; inv H; exact S1). apply IH.
Qed.

Lemma seek_dir_stay d dir e d' h : dropped d = false -> header_at (dbf d) (h_position (dbh d)) h ->
  seek_dir d dir = (Err e, d') ->
  dropped d' = false /\ (dbh d' = dbh d \/ dbh d' = h) /\
  cur (dbf d') = cur (dbf d) /\ size (dbf d') = size (dbf d) /\ fpos (dbf d') = fpos (dbf d).
Proof.
  intros Hd Hh. unfold seek_dir. rewrite Hd.
  assert (R : forall f1 h1 e1, cur f1 = cur (dbf d) -> size f1 = size (dbf d) -> crcm f1 = crcm (dbf d) -> fpos f1 = fpos (dbf d) ->
    reopen_current (Db f1 h1 false) (h_position (dbh d)) e1 = (Err e, d') ->
    dropped d' = false /\ (dbh d' = dbh d \/ dbh d' = h) /\
    cur (dbf d') = cur (dbf d) /\ size (dbf d') = size (dbf d) /\ fpos (dbf d') = fpos (dbf d)).
  { intros f1 h1 e1 A1 A2 A3 A4. rewrite (@reopen_ok E (Db f1 h1 false) _ h).
    - cbn [dbf dropped]. intros H; inv H. cbn. auto.
    - cbn [dbf]. eapply header_at_cong; eauto. }
  destruct dir.
  - match goal with |- context [rewind_impl ?x] => set (d0 := x) end.
    assert (D0 : dropped d0 = false) by reflexivity.
    destruct (rewind_impl d0) as [[u|e1] d1] eqn:Er; [discriminate|].
    destruct (@rewind_err d0 _ _ D0 Er) as (S1 & S2 & S3). rewrite S2, S3.
    destruct e1; try (apply R; reflexivity). exfalso; apply S1; reflexivity.
  - destruct (fastforward_impl d) as [[u|e1] d1] eqn:Er; [discriminate|].
    unfold fastforward_impl in Er. rewrite Hd in Er.
    destruct (ff_loop _ (dbf d) _ _) as [r0 h0] eqn:Ef. inv Er. cbn [dbf dbh dropped].
    pose proof (ff_err _ _ _ _ Ef) as S1. destruct e1; try (apply R; reflexivity). exfalso; apply S1; reflexivity.
  - destruct (h_position (dbh d) =? 0); [intros H; inv H; auto|].
    destruct (rewind_impl d) as [[u|e1] d1] eqn:Er; [discriminate|].
    destruct (@rewind_err d _ _ Hd Er) as (S1 & S2 & S3). rewrite S2, S3.
    destruct e1; try (apply R; reflexivity). exfalso; apply S1; reflexivity.
Qed.
End Stay.
