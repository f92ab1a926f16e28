(** Property C53: opening a file with a damaged header, with and without recovery mode. *)
From Verif Require Import Base Codec File FileFacts ChunkFacts Header HeaderFacts History CrashFacts OpenFacts NavFacts SpecFile DataFacts
  SpecCrash ReachNav CommitFacts EnvExample PropertiesFile PropertiesCrash.
Local Open Scope N_scope.
Unset Strict Implicit.

Section Scan.
Context {E : Env}.

Lemma parse_err h p buf e h' : parse_header h p buf = (Err e, h') -> e <> E_NO_HEADER.
Proof.
  intros H. unfold parse_header in H. destruct buf as [|v b]; [inv H; discriminate|]. set (buf := v :: b) in *.
  destruct (raw_header_size v) as [hs|]; [|inv H; discriminate]. destruct (lenN buf <? hs); [inv H; discriminate|].
  destruct (raw_to_internal (set_version (set_position h p) v) v buf) as [[h2 [[s1 s2] s3]]|e2] eqn:Ei.
  + destruct (p <? h_purge_ptr h2); [inv H; discriminate|]. destruct (negb _); [inv H; discriminate|].
    assert (NB : forall p d e0 x, read_db_root p d = (Err e0, x) -> e0 <> E_NO_HEADER).
    { intros p0 d e1 x. unfold read_db_root. destruct (0 <? lenN d); [|intros H0; inv H0].
      destruct (lenN d <? 12); [intros H0; inv H0; discriminate|].
      destruct (read_root d) as [[pp|]|]; intros H0; inv H0; try discriminate. destruct (np_pointer pp <? p0); inv H2; discriminate. }
    destruct (getb hs s1 buf) as [d1|]; [|inv H; discriminate].
    destruct (getb (hs + s1) s2 buf) as [d2|]; [|inv H; discriminate].
    destruct (getb (hs + s1 + s2) s3 buf) as [d3|]; [|inv H; discriminate].
    destruct (read_db_root p d1) as [[u1|e1] r1] eqn:R1; [|injection H as <- _; exact (NB _ _ _ _ R1)].
    destruct (read_db_root p d2) as [[u2|e2] r2] eqn:R2; [|injection H as <- _; exact (NB _ _ _ _ R2)].
    destruct (read_db_root p d3) as [r0 r3] eqn:R3. injection H as -> _. exact (NB _ _ _ _ R3).
  + injection H as <- _. revert Ei. unfold raw_to_internal.
    assert (RB : forall n o e0, rd_be n o buf = Err e0 -> e0 <> E_NO_HEADER).
    { intros n o e0. unfold rd_be, getb. destruct (o + n <=? lenN buf); cbn; intros X; inv X; discriminate. }
    destruct (rd_be 6 1 buf) eqn:?; cbn [bind]; [|intros X; inv X; eauto].
    destruct (rd_be 6 7 buf) eqn:?; cbn [bind]; [|intros X; inv X; eauto].
    destruct (rd_be 6 13 buf) eqn:?; cbn [bind]; [|intros X; inv X; eauto].
    destruct (rd_be 2 19 buf) eqn:?; cbn [bind]; [|intros X; inv X; eauto].
    destruct (rd_be 2 21 buf) eqn:?; cbn [bind]; [|intros X; inv X; eauto].
    destruct (rd_be 2 23 buf) eqn:?; cbn [bind]; [|intros X; inv X; eauto].
    destruct ((v =? 13) || (v =? 14)); [destruct (rd_be 8 25 buf) eqn:?; cbn [bind]; [|intros X; inv X; eauto]|cbn [bind]];
    (destruct (v =? 14); [destruct (rd_be 6 33 buf) eqn:?; cbn [bind]; [|intros X; inv X; eauto]|cbn [bind]]; discriminate).
Qed.

Lemma at_none f h p h1 : p < size f -> p <> 0 -> find_header_at_pos f h p = (Err E_NO_HEADER, h1) -> cur f p = 0 \/ cur f p = 2.
Proof.
  intros Hp H0. unfold find_header_at_pos. rewrite (@pread1 f p Hp). change B_DATA with 0. change B_META with 2. change B_HEADER with 1.
  destruct (N.eqb_spec (cur f p) 0) as [A|A]; [auto|]. destruct (N.eqb_spec (cur f p) 2) as [B|B]; [auto|]. cbn [orb].
  destruct (negb (cur f p =? 1)); [intros H; discriminate H|].
  destruct (pread_header f p MAX_DB_HEADER_SIZE) as [b|e] eqn:Ep.
  - intros H. destruct (parse_err H). reflexivity.
  - destruct (N.eqb_spec p 0) as [|_]; [contradiction|]. intros H. injection H as -> _.
    destruct (@C30_errors E f p MAX_DB_HEADER_SIZE E_NO_HEADER) as [X|[X|X]]; try discriminate X. right. right. split; [reflexivity|exact Ep].
Qed.
Lemma at_mark f h p h1 : p < size f -> find_header_at_pos f h p = (Ok tt, h1) -> cur f p = 1.
Proof.
  intros Hp. unfold find_header_at_pos. rewrite (@pread1 f p Hp). change B_HEADER with 1.
  destruct ((cur f p =? B_DATA) || (cur f p =? B_META)); [intros H; discriminate H|].
  destruct (N.eqb_spec (cur f p) 1) as [A|A]; [auto|intros H; discriminate H].
Qed.

(** Without recovery mode the scan passes over blocks of the two other kinds only. *)
Lemma scan_strict f n : N.of_nat n * BLOCK < size f -> forall h last h1, find_header_loop f h n false last = (Ok tt, h1) ->
  forall j, (j <= n)%nat -> h_position h1 < N.of_nat j * BLOCK -> cur f (N.of_nat j * BLOCK) = 0 \/ cur f (N.of_nat j * BLOCK) = 2.
Proof.
  induction n as [|n IH]; intros Hn h last h1.
  - cbn [find_header_loop]. intros _ j Hj Hp. replace j with 0%nat in Hp by lia. lia.
  - cbn [find_header_loop]. destruct (find_header_at_pos f h (N.of_nat (S n) * BLOCK)) as [[u|e] h'] eqn:Ef.
    + intros H j Hj Hp. injection H as <-. destruct u. rewrite (@find_pos E _ _ _ _ Ef) in Hp. exfalso. clear - Hp Hj. rewrite BLOCK_val in Hp. lia.
    + destruct e; try discriminate. intros H j Hj Hp. destruct (Nat.eq_dec j (S n)) as [->|Hne].
      * apply (at_none Hn) in Ef; [exact Ef|]. clear. rewrite BLOCK_val. lia.
      * apply (IH ltac:(clear - Hn; rewrite BLOCK_val in *; lia) _ _ _ H); [lia|exact Hp].
Qed.

(** In recovery mode everything unreadable is passed over. *)
Lemma at_skipped f h q : q < size f ->
  (cur f q <> 1 \/ forall b, pread_header f q 1024 <> Ok b) ->
  find_header_at_pos f h q = (Err E_NO_HEADER, h) \/ find_header_at_pos f h q = (Err E_CHECKSUM, h) \/
  find_header_at_pos f h q = (Err E_CORRUPT, h) \/ find_header_at_pos f h q = (Err E_READ, h).
Proof.
  intros Hq H. unfold find_header_at_pos. rewrite (@pread1 f q Hq). change B_HEADER with 1. change MAX_DB_HEADER_SIZE with 1024.
  destruct ((cur f q =? B_DATA) || (cur f q =? B_META)); [auto|].
  destruct (N.eqb_spec (cur f q) 1) as [A|A]; cbn [negb]; [|auto]. destruct H as [H|H]; [contradiction|].
  destruct (pread_header f q 1024) as [b|e] eqn:Ep; [destruct (H b eq_refl)|].
  destruct (q =? 0); [auto|].
  destruct (@C30_errors E f q 1024 e) as [->|[->| ->]]; auto. right. right. split; [reflexivity|exact Ep].
Qed.
Lemma scan_recovery f hk k n : N.of_nat n * BLOCK < size f -> (k <= n)%nat -> header_at f (N.of_nat k * BLOCK) hk ->
  (forall j, (k < j <= n)%nat -> cur f (N.of_nat j * BLOCK) <> 1 \/ forall b, pread_header f (N.of_nat j * BLOCK) 1024 <> Ok b) ->
  forall h last, find_header_loop f h n true last = (Ok tt, hk).
Proof.
  induction n as [|n IH]; intros Hn Hk HK Hd h last.
  - replace k with 0%nat in HK by lia. cbn [find_header_loop]. rewrite (header_at_find h HK). reflexivity.
  - cbn [find_header_loop]. destruct (Nat.eq_dec k (S n)) as [->|Hne]; [rewrite (header_at_find h HK); reflexivity|].
    assert (N1 : forall l, find_header_loop f h n true l = (Ok tt, hk)).
    { intros l. apply IH; [clear - Hn; rewrite BLOCK_val in *; lia|lia|exact HK|]. intros j Hj. apply Hd. lia. }
    destruct (at_skipped h Hn (Hd (S n) ltac:(lia))) as [X|[X|[X|X]]]; rewrite X; apply N1.
Qed.
End Scan.

(** ** C53 *)

(** Any file at all. If opening without recovery mode succeeds, then the header it took is the one in the last block
    that is marked as anything else than data (0) or metadata (2): no damaged header lies above it. *)
Theorem C53_strict : forall (E : Env) f getkey legacy d, open_existing f getkey false legacy = Ok d ->
  let p := h_position (dbh d) in
  cur f p = 1 /\ forall q, q mod 4096 = 0 -> p < q -> q + 2 <= size f -> cur f q = 0 \/ cur f q = 2.
Proof.
  intros E f getkey legacy d H. destruct (@open_newest E f getkey false legacy d H) as (P1 & P2 & P3 & _). cbv zeta in *.
  split; [change (cur f (h_position (dbh d))) with (cur (unopened f) (h_position (dbh d))); apply (@at_mark E (unopened f) header0 (h_position (dbh d)) (dbh d)); [change (size (unopened f)) with (size f); lia|exact P3]|].
  intros q Hq Hlt Hle. revert H. unfold open_existing. fold (unopened f).
  destruct (find_header (unopened f) header0 (Z.of_N (size f) - 2) false) as [[u|e] h] eqn:Ef; [|discriminate]. intros H.
  assert (Hd : dbh d = h).
  { destruct (legacy && _); [discriminate|]. destruct (h_meta h); [|inv H; reflexivity]. bind_inv H. inv H. reflexivity. }
  rewrite Hd in *. clear H Hd. unfold find_header in Ef.
  destruct (Z.ltb_spec (Z.of_N (size f) - 2) 0) as [|Hz]; [discriminate|]. destruct u.
  assert (Hn : N.of_nat (N.to_nat (Z.to_N (Z.of_N (size f) - 2) / BLOCK)) * BLOCK <= size f - 2 /\
     size f - 2 < N.of_nat (N.to_nat (Z.to_N (Z.of_N (size f) - 2) / BLOCK)) * BLOCK + BLOCK).
  { rewrite N2Nat.id. replace (Z.to_N (Z.of_N (size f) - 2)) with (size f - 2) by lia. clear. rewrite BLOCK_val. lia. }
  set (n := N.to_nat (Z.to_N (Z.of_N (size f) - 2) / BLOCK)) in *. clearbody n.
  assert (Eq : N.of_nat (N.to_nat (q / BLOCK)) * BLOCK = q) by (clear - Hq; rewrite BLOCK_val in *; lia).
  change (cur f q) with (cur (unopened f) q). rewrite <- Eq.
  assert (Hsz : N.of_nat n * BLOCK < size (unopened f)) by (change (size (unopened f)) with (size f); lia).
  apply (@scan_strict E (unopened f) n Hsz _ _ _ Ef).
  - clear - Eq Hle Hn Hz. rewrite BLOCK_val in *. lia.
  - rewrite Eq. exact Hlt.
Qed.
Print Assumptions C53_strict.

(** Hence a block marked as a header that cannot be read, with no valid header above it, makes opening fail: the
    handle never shows an older version in its place. *)
Theorem C53_refuses : forall (E : Env) f getkey legacy q, q mod 4096 = 0 -> q + 2 <= size f -> cur f q = 1 ->
  let f0 := set_fpos (set_fkey (set_crcm f CRC_UNKNOWN) None) (size f) in
  (forall p h, q <= p -> ~ valid_header f0 p h) -> exists e, open_existing f getkey false legacy = Err e.
Proof.
  intros E f getkey legacy q Hq Hs H1 f0 Hv. destruct (open_existing f getkey false legacy) as [d|e] eqn:Ho; [exfalso|eauto].
  destruct (@open_newest E f getkey false legacy d Ho) as (P1 & P2 & P3 & _). cbv zeta in *.
  destruct (@C53_strict E f getkey legacy d Ho) as (_ & S). cbv zeta in S.
  destruct (N.le_gt_cases q (h_position (dbh d))) as [L|L]; [exact (Hv _ _ L P3)|].
  destruct (S q Hq L Hs) as [X|X]; rewrite H1 in X; discriminate X.
Qed.
Print Assumptions C53_refuses.

(** With recovery mode the same file opens at the newest header that is still good, whatever bytes stand in the
    blocks above it, as long as none of these is marked as a header and passes the check of its length and checksum. *)
Theorem C53_recovery : forall (E : Env) f getkey p h, p mod 4096 = 0 -> p + 2 <= size f ->
  let f0 := set_fpos (set_fkey (set_crcm f CRC_UNKNOWN) None) (size f) in
  valid_header f0 p h -> h_meta h = false ->
  (forall q, q mod 4096 = 0 -> p < q -> q + 2 <= size f -> cur f q <> 1 \/ forall b, pread_header f0 q 1024 <> Ok b) ->
  exists d, open_existing f getkey true false = Ok d /\ dbh d = h.
Proof.
  intros E f getkey p h Hp Hs f0 Hv Hm Hd. unfold open_existing. fold f0.
  assert (Hn : N.of_nat (N.to_nat (Z.to_N (Z.of_N (size f) - 2) / BLOCK)) * BLOCK <= size f - 2 /\
     size f - 2 < N.of_nat (N.to_nat (Z.to_N (Z.of_N (size f) - 2) / BLOCK)) * BLOCK + BLOCK).
  { rewrite N2Nat.id. replace (Z.to_N (Z.of_N (size f) - 2)) with (size f - 2) by lia. clear. rewrite BLOCK_val. lia. }
  assert (F : find_header f0 header0 (Z.of_N (size f) - 2) true = (Ok tt, h)).
  { unfold find_header. destruct (Z.ltb_spec (Z.of_N (size f) - 2) 0) as [|Hz]; [lia|].
    set (n := N.to_nat (Z.to_N (Z.of_N (size f) - 2) / BLOCK)) in *. clearbody n.
    assert (Ep : N.of_nat (N.to_nat (p / BLOCK)) * BLOCK = p) by (clear - Hp; rewrite BLOCK_val in *; lia).
    apply (@scan_recovery E f0 h (N.to_nat (p / BLOCK)) n).
    - change (size f0) with (size f). lia.
    - clear - Ep Hs Hn. rewrite BLOCK_val in *. lia.
    - rewrite Ep. exact Hv.
    - intros j Hj. change (cur f0 (N.of_nat j * BLOCK)) with (cur f (N.of_nat j * BLOCK)). apply Hd.
      + clear. rewrite BLOCK_val. lia.
      + clear - Hj Ep. rewrite BLOCK_val in *. lia.
      + clear - Hj Hn Hs. rewrite BLOCK_val in *. lia. }
  rewrite F. cbn [andb]. rewrite Hm. eexists. split; reflexivity.
Qed.
Print Assumptions C53_recovery.

(** The last state of the example execution with one byte of its newest header changed: opening reports the failed
    checksum; in recovery mode it goes back to the header before. *)
Definition ex_damaged : file :=
  image (fun i => if i =? 4110 then (cur (dbf (s_db ex_s3)) i + 1) mod 256 else cur (dbf (s_db ex_s3)) i) 9153 [].
Example C53_ex :
  match @open_existing env0 ex_damaged gk0 false false with Ok _ => False | Err e => e = E_CHECKSUM end /\
  match @open_existing env0 ex_damaged gk0 true false with Ok d => h_position (dbh d) = 0 | Err _ => False end /\
  cur ex_damaged 4096 = 1 /\ size ex_damaged = 9153.
Proof. vm_compute. auto. Qed.
