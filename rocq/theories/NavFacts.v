(** Moving between headers. *)
From Verif Require Import Base Codec CodecFacts File FileFacts ChunkFacts Header HeaderFacts History CrashFacts OpenFacts.
Local Open Scope N_scope.

Section WithEnv.
Context {E : Env}.


(** Linear arithmetic without the facts about blocks. *)
Ltac nl := repeat match goal with H : context [N.modulo] |- _ => clear H | H : context [N.div] |- _ => clear H end; lia.

(** Block arithmetic. *)
Lemma bl_next m r : m mod BLOCK = 0 -> r mod BLOCK = 0 -> m < r -> m + BLOCK <= r.
Proof. rewrite BLOCK_val. lia. Qed.
Lemma bl_add m : m mod BLOCK = 0 -> (m + BLOCK) mod BLOCK = 0.
Proof. rewrite BLOCK_val. lia. Qed.
Lemma bl_dec m r n : m mod BLOCK = 0 -> r mod BLOCK = 0 -> m < r -> (r - m) / BLOCK < N.of_nat (S n) ->
  (r - (m + BLOCK)) / BLOCK < N.of_nat n.
Proof. rewrite BLOCK_val. lia. Qed.
Lemma bl_pos x n : x / BLOCK < N.of_nat n -> (0 < n)%nat.
Proof. rewrite BLOCK_val. lia. Qed.
Lemma bl_mono a b n : a <= b -> b / BLOCK < n -> a / BLOCK < n.
Proof. rewrite BLOCK_val. lia. Qed.
Lemma bl_dec2 a b n : a mod BLOCK = 0 -> b mod BLOCK = 0 -> a < b -> b / BLOCK < N.of_nat (S n) -> a / BLOCK < N.of_nat n.
Proof. rewrite BLOCK_val. lia. Qed.
Lemma bl_sub a b : a mod BLOCK = 0 -> b mod BLOCK = 0 -> (a - b) mod BLOCK = 0.
Proof. rewrite BLOCK_val. lia. Qed.
Lemma bl_between l q : l mod BLOCK = 0 -> q mod BLOCK = 0 -> l < q -> q < l + BLOCK -> False.
Proof. rewrite BLOCK_val. lia. Qed.
Lemma bl_mid l r : l mod BLOCK = 0 -> r mod BLOCK = 0 -> l <= r ->
  let mid := (l + r) / 2 - ((l + r) / 2) mod BLOCK in
  mid mod BLOCK = 0 /\ l <= mid <= r /\ (mid = r -> l = r) /\ (mid = l -> r <= l + BLOCK).
Proof. rewrite BLOCK_val. intros. cbv zeta in mid. unfold mid. repeat split; lia. Qed.
Lemma bl_succ a b : a mod BLOCK = 0 -> b mod BLOCK = 0 -> b <= a + BLOCK -> a <= b -> b <> a -> b = a + BLOCK.
Proof. rewrite BLOCK_val. lia. Qed.

(** ** Any file *)

(** The header that is found does not depend on the header that was current before. *)
Lemma parse_indep h h' pos buf h1 : parse_header h pos buf = (Ok tt, h1) -> parse_header h' pos buf = (Ok tt, h1).
Proof.
  unfold parse_header. destruct buf as [|v b]; [discriminate|]. set (buf := v :: b).
  destruct (raw_header_size v) as [hs|]; [|discriminate].
  destruct (lenN buf <? hs); [discriminate|].
  unfold raw_to_internal. cbn [set_version set_position h_by_id h_by_seq h_local h_position].
  destruct (rd_be 6 1 buf) as [us|]; cbn [bind]; [|discriminate].
  destruct (rd_be 6 7 buf) as [ps|]; cbn [bind]; [|discriminate].
  destruct (rd_be 6 13 buf) as [pp|]; cbn [bind]; [|discriminate].
  destruct (rd_be 2 19 buf) as [s1|]; cbn [bind]; [|discriminate].
  destruct (rd_be 2 21 buf) as [s2|]; cbn [bind]; [|discriminate].
  destruct (rd_be 2 23 buf) as [s3|]; cbn [bind]; [|discriminate].
  destruct (if (v =? 13) || (v =? 14) then rd_be 8 25 buf else Ok 0) as [ts|]; cbn [bind]; [|discriminate].
  destruct (if v =? 14 then rd_be 6 33 buf else Ok 0) as [pv|]; cbn [bind]; [|discriminate].
  cbn [h_purge_ptr]. destruct (pos <? pp); [discriminate|].
  destruct (negb (lenN buf =? hs + s1 + s2 + s3)); [discriminate|].
  destruct (getb hs s1 buf) as [d1|]; [|discriminate].
  destruct (getb (hs + s1) s2 buf) as [d2|]; [|discriminate].
  destruct (getb (hs + s1 + s2) s3 buf) as [d3|]; [|discriminate].
  destruct (read_db_root pos d1) as [[u1|e1] r1]; [|discriminate].
  destruct (read_db_root pos d2) as [[u2|e2] r2]; [|discriminate].
  destruct (read_db_root pos d3) as [[u3|e3] r3]; [|discriminate].
  cbn. auto.
Qed.

Lemma find_indep f h h' pos h1 : find_header_at_pos f h pos = (Ok tt, h1) -> find_header_at_pos f h' pos = (Ok tt, h1).
Proof.
  unfold find_header_at_pos. destruct (pread f pos 1) as [|t [|? ?]]; try discriminate.
  destruct ((t =? B_DATA) || (t =? B_META)); [discriminate|].
  destruct (negb (t =? B_HEADER)); [discriminate|].
  destruct (pread_header f pos MAX_DB_HEADER_SIZE) as [buf|e]; [|destruct (pos =? 0); discriminate].
  apply parse_indep.
Qed.

Lemma parse_pos h pos buf h1 : parse_header h pos buf = (Ok tt, h1) -> h_position h1 = pos.
Proof.
  unfold parse_header. destruct buf as [|v b]; [discriminate|]. set (buf := v :: b).
  destruct (raw_header_size v) as [hs|]; [|discriminate].
  destruct (lenN buf <? hs); [discriminate|].
  destruct (raw_to_internal (set_version (set_position h pos) v) v buf) as [[h2 [[s1 s2] s3]]|] eqn:Er; [|discriminate].
  assert (Hp : h_position h2 = pos).
  { unfold raw_to_internal in Er. repeat bind_inv Er. inv Er. reflexivity. }
  destruct (pos <? h_purge_ptr h2); [discriminate|].
  destruct (negb (lenN buf =? hs + s1 + s2 + s3)); [discriminate|].
  destruct (getb hs s1 buf) as [d1|]; [|discriminate].
  destruct (getb (hs + s1) s2 buf) as [d2|]; [|discriminate].
  destruct (getb (hs + s1 + s2) s3 buf) as [d3|]; [|discriminate].
  destruct (read_db_root pos d1) as [[u1|e1] r1]; [|discriminate].
  destruct (read_db_root pos d2) as [[u2|e2] r2]; [|discriminate].
  destruct (read_db_root pos d3) as [[u3|e3] r3]; [|discriminate].
  destruct u3. intros H. injection H as <-. cbn. exact Hp.
Qed.
Lemma find_pos f h pos h1 : find_header_at_pos f h pos = (Ok tt, h1) -> h_position h1 = pos.
Proof.
  unfold find_header_at_pos. destruct (pread f pos 1) as [|t [|? ?]]; try discriminate.
  destruct ((t =? B_DATA) || (t =? B_META)); [discriminate|].
  destruct (negb (t =? B_HEADER)); [discriminate|].
  destruct (pread_header f pos MAX_DB_HEADER_SIZE) as [buf|e]; [|destruct (pos =? 0); discriminate].
  apply parse_pos.
Qed.

(** A valid header [h] stands at [pos]. *)
Definition header_at (f : file) (pos : N) (h : header) : Prop := find_header_at_pos f header0 pos = (Ok tt, h).
(** No header and no damage at [pos]. *)
Definition no_header_at (f : file) (pos : N) : Prop := forall h, find_header_at_pos f h pos = (Err E_NO_HEADER, h).

Lemma header_at_find f pos h h0 : header_at f pos h -> find_header_at_pos f h0 pos = (Ok tt, h).
Proof. apply find_indep. Qed.
Lemma header_at_pos f pos h : header_at f pos h -> h_position h = pos.
Proof. apply find_pos. Qed.
Lemma header_at_not f pos h : header_at f pos h -> ~ no_header_at f pos.
Proof. intros H N. unfold header_at in H. rewrite N in H. discriminate. Qed.
Lemma header_at_fun f pos h h' : header_at f pos h -> header_at f pos h' -> h = h'.
Proof. unfold header_at. congruence. Qed.

(** The file part of the handle that header searches look at. *)
Lemma find_cong f f' h p : cur f' = cur f -> size f' = size f -> crcm f' = crcm f ->
  find_header_at_pos f' h p = find_header_at_pos f h p.
Proof.
  intros Hc Hz Hm.
  assert (P : forall o n, pread f' o n = pread f o n) by (intros; unfold pread; now rewrite Hc, Hz).
  assert (R : forall o n, read_skip f' o n = read_skip f o n) by (intros; rewrite !read_skip_eq, Hc, Hz; reflexivity).
  unfold find_header_at_pos, pread_header. rewrite P. change (MAX_DB_HEADER_SIZE =? 0) with false. cbv iota.
  assert (B : pread_bin_internal f' (p + 1) MAX_DB_HEADER_SIZE = pread_bin_internal f (p + 1) MAX_DB_HEADER_SIZE).
  { unfold pread_bin_internal, MAX_DB_HEADER_SIZE. rewrite R, Hm.
    assert (X : forall (x y : res bytes) (k k' : option N), x = y ->
      match k with Some _ => x | None => x end = match k' with Some _ => y | None => y end)
      by (intros x y [|] [|] ->; reflexivity).
    apply X. destruct (read_skip f (p + 1) 8) as [[info p1]|]; cbn [bind]; auto.
    destruct (getb 0 4 info); cbn [bind]; auto. destruct (getb 4 4 info); cbn [bind]; auto.
    cbv zeta. now rewrite R. }
  rewrite B. reflexivity.
Qed.
Lemma header_at_cong f f' p h : cur f' = cur f -> size f' = size f -> crcm f' = crcm f -> header_at f p h -> header_at f' p h.
Proof. unfold header_at. intros. erewrite find_cong; eauto. Qed.
Lemma no_header_cong f f' p : cur f' = cur f -> size f' = size f -> crcm f' = crcm f -> no_header_at f p -> no_header_at f' p.
Proof. unfold no_header_at. intros A B C D h. erewrite find_cong; eauto. Qed.

(** ** Seek to an offset *)

Lemma reopen_ok d p h e : header_at (dbf d) p h -> reopen_current d p e = (Err e, Db (dbf d) h (dropped d)).
Proof. intros H. unfold reopen_current. now rewrite (header_at_find _ H). Qed.

Lemma seek_spec d off h : dropped d = false -> header_at (dbf d) (h_position (dbh d)) h ->
  match seek d off with
  | (Ok _, d') => off mod BLOCK = 0 /\ off < fpos (dbf d) /\ header_at (dbf d) off (dbh d') /\ dbf d' = dbf d /\ dropped d' = false
  | (Err e, d') => (off mod BLOCK <> 0 \/ fpos (dbf d) <= off \/ forall h', ~ header_at (dbf d) off h') /\
                   dbf d' = dbf d /\ dropped d' = false /\ (dbh d' = dbh d \/ dbh d' = h)
  end.
Proof.
  intros Hd H. unfold seek. rewrite Hd.
  destruct (N.eqb_spec (off mod BLOCK) 0) as [Hm|Hm]; cbn [negb].
  2:{ split; [auto|]. auto. }
  destruct (N.leb_spec (fpos (dbf d)) off) as [Hf|Hf].
  { split; [auto|]. auto. }
  destruct (find_header_at_pos (dbf d) (reset_roots (dbh d)) off) as [[u|e] h1] eqn:Ef.
  - destruct u. cbn [dbf dbh dropped]. repeat split; auto. exact (find_indep _ _ _ _ Ef).
  - rewrite (@reopen_ok (Db (dbf d) h1 false) _ h e H). cbn [dbf dbh dropped]. split; [|auto].
    right; right. intros h' Hh. rewrite (header_at_find _ Hh) in Ef. discriminate.
Qed.

Lemma seek_no_header d off h : dropped d = false -> header_at (dbf d) (h_position (dbh d)) h -> off mod BLOCK = 0 ->
  off < fpos (dbf d) -> no_header_at (dbf d) off -> seek d off = (Err E_NO_HEADER, Db (dbf d) h false).
Proof.
  intros Hd H Hm Hf N. unfold seek. rewrite Hd, Hm. cbn [negb N.eqb]. rewrite N.eqb_refl. cbn [negb].
  destruct (N.leb_spec (fpos (dbf d)) off) as [|_]; [lia|]. rewrite N.
  apply (@reopen_ok (Db (dbf d) _ false) _ h E_NO_HEADER H).
Qed.
Lemma seek_header d off h1 : dropped d = false -> off mod BLOCK = 0 ->
  off < fpos (dbf d) -> header_at (dbf d) off h1 -> seek d off = (Ok tt, Db (dbf d) h1 false).
Proof.
  intros Hd Hm Hf N. unfold seek. rewrite Hd, Hm. cbn [negb N.eqb]. rewrite N.eqb_refl. cbn [negb].
  destruct (N.leb_spec (fpos (dbf d)) off) as [|_]; [lia|]. now rewrite (header_at_find _ N).
Qed.

(** ** Scanning down *)

Lemma find_loop_down f skip last n : forall h k h1, (k <= n)%nat ->
  (forall j, (k < j <= n)%nat -> no_header_at f (N.of_nat j * BLOCK)) -> header_at f (N.of_nat k * BLOCK) h1 ->
  find_header_loop f h n skip last = (Ok tt, h1).
Proof.
  induction n as [|n IH]; intros h k h1 Hk Hno Hat; cbn [find_header_loop].
  - assert (k = 0%nat) by lia. subst k. now rewrite (header_at_find _ Hat).
  - destruct (Nat.eq_dec k (S n)) as [->|Hne].
    + now rewrite (header_at_find _ Hat).
    + rewrite Hno by lia. apply (IH h k h1); auto; [lia|]. intros j Hj. apply Hno. lia.
Qed.
Lemma find_loop_none f skip last n : forall h,
  (forall j, (j <= n)%nat -> no_header_at f (N.of_nat j * BLOCK)) ->
  find_header_loop f h n skip last = (Err last, h).
Proof.
  induction n as [|n IH]; intros h Hno; cbn [find_header_loop].
  - now rewrite Hno by lia.
  - rewrite Hno by lia. apply IH. intros j Hj. apply Hno. lia.
Qed.

(** ** Scanning up *)

Lemma bl_div a : (a + BLOCK) / BLOCK = a / BLOCK + 1.
Proof. rewrite <- (N.mul_1_l BLOCK) at 1. apply N.div_add. rewrite BLOCK_val. discriminate. Qed.
Lemma bl_div_lt a b : a mod BLOCK = 0 -> b mod BLOCK = 0 -> a < b -> a / BLOCK < b / BLOCK.
Proof.
  intros Ha Hb H. pose proof (bl_next Ha Hb H) as H1. apply (N.div_le_mono _ _ BLOCK) in H1; [|rewrite BLOCK_val; discriminate].
  rewrite bl_div in H1. lia.
Qed.
Lemma ff_loop_up f fuel : forall h pos q h1, pos mod BLOCK = 0 -> q mod BLOCK = 0 -> pos <= q -> q < fpos f ->
  (forall j, j mod BLOCK = 0 -> pos <= j < q -> no_header_at f j) -> header_at f q h1 ->
  q / BLOCK - pos / BLOCK < N.of_nat fuel ->
  ff_loop fuel f h pos = (Ok tt, h1).
Proof.
  induction fuel as [|fuel IH]; intros h pos q h1 Hp Hq Hpq Hqf Hno Hat Hf; [exfalso; clear - Hf; lia|]. cbn [ff_loop].
  destruct (N.ltb_spec pos (fpos f)) as [_|Hx]; [|exfalso; clear - Hpq Hqf Hx; lia].
  destruct (N.eq_dec pos q) as [->|Hne].
  - now rewrite (header_at_find _ Hat).
  - assert (Hlt : pos < q) by (clear - Hpq Hne; lia).
    rewrite (Hno pos Hp) by (split; [apply N.le_refl|exact Hlt]). pose proof (bl_div_lt Hp Hq Hlt) as Hd. apply (IH _ _ q); auto.
    + now apply bl_add.
    + now apply bl_next.
    + intros j Hj [Hr1 Hr2]. apply Hno; auto. split; [|exact Hr2]. rewrite BLOCK_val in Hr1. clear - Hr1. lia.
    + rewrite bl_div. clear - Hd Hf. lia.
Qed.
Lemma ff_loop_none f fuel : forall h pos, pos mod BLOCK = 0 ->
  (forall j, j mod BLOCK = 0 -> pos <= j < fpos f -> no_header_at f j) ->
  fpos f / BLOCK + 1 - pos / BLOCK < N.of_nat fuel ->
  ff_loop fuel f h pos = (Err E_NO_HEADER, h).
Proof.
  induction fuel as [|fuel IH]; intros h pos Hp Hno Hf; [exfalso; clear - Hf; lia|]. cbn [ff_loop].
  destruct (N.ltb_spec pos (fpos f)) as [Hl|]; [|reflexivity].
  rewrite (Hno pos Hp) by (split; [apply N.le_refl|exact Hl]). apply IH.
  - now apply bl_add.
  - intros j Hj [Hr1 Hr2]. apply Hno; auto. split; [|exact Hr2]. rewrite BLOCK_val in Hr1. clear - Hr1. lia.
  - rewrite bl_div. assert (pos / BLOCK <= fpos f / BLOCK) by (apply N.div_le_mono; [rewrite BLOCK_val; discriminate|apply N.lt_le_incl, Hl]).
    clear - H Hf. lia.
Qed.

(** Seeking forward on any file: goes to the next header when everything in between is free of headers; stays otherwise. *)
Lemma forward_ok d q h1 : dropped d = false -> h_position (dbh d) mod BLOCK = 0 -> q mod BLOCK = 0 ->
  h_position (dbh d) < q < fpos (dbf d) ->
  (forall j, j mod BLOCK = 0 -> h_position (dbh d) < j < q -> no_header_at (dbf d) j) -> header_at (dbf d) q h1 ->
  seek_dir d DForward = (Ok tt, Db (dbf d) h1 false).
Proof.
  intros Hd Hm Hqm Hq Hno Hat. unfold seek_dir, fastforward_impl. rewrite Hd.
  rewrite (@ff_loop_up _ _ _ _ q h1); auto.
  - cbn [reset_roots set_roots h_position]. rewrite BLOCK_val in *. lia.
  - cbn [reset_roots set_roots h_position]. rewrite BLOCK_val in *. lia.
  - lia.
  - intros j Hj Hr. apply Hno; auto. cbn [reset_roots set_roots h_position] in Hr. rewrite BLOCK_val in *. lia.
  - cbn [reset_roots set_roots h_position]. rewrite BLOCK_val in *. lia.
Qed.
Lemma forward_none d h : dropped d = false -> h_position (dbh d) mod BLOCK = 0 ->
  (forall j, j mod BLOCK = 0 -> h_position (dbh d) < j < fpos (dbf d) -> no_header_at (dbf d) j) ->
  header_at (dbf d) (h_position (dbh d)) h ->
  exists d', seek_dir d DForward = (Err E_NO_HEADER, d') /\ dbh d' = h /\ dropped d' = false /\
    dbf d' = set_fpos (dbf d) (fpos (dbf d)).
Proof.
  intros Hd Hm Hno Hat. unfold seek_dir, fastforward_impl. rewrite Hd.
  rewrite ff_loop_none.
  - eexists. split; [apply reopen_ok; cbn [dbf]; eapply header_at_cong; [| | |exact Hat]; reflexivity|].
    cbn. auto.
  - cbn [reset_roots set_roots h_position]. rewrite BLOCK_val in *. lia.
  - intros j Hj Hr. apply Hno; auto. cbn [reset_roots set_roots h_position] in Hr. rewrite BLOCK_val in *. lia.
  - cbn [reset_roots set_roots h_position]. rewrite BLOCK_val in *. lia.
Qed.

(** ** Searching for a sequence number *)

(** Every block start up to [tip] is a valid header or free of headers. *)
Definition layout (f : file) (tip : N) : Prop :=
  forall q, q mod BLOCK = 0 -> q <= tip -> (exists h, header_at f q h) \/ no_header_at f q.

Lemma seek_up_spec fuel : forall d m h right hr, dropped d = false -> header_at (dbf d) (h_position (dbh d)) h ->
  m mod BLOCK = 0 -> right mod BLOCK = 0 -> m <= right -> right < fpos (dbf d) -> layout (dbf d) right ->
  header_at (dbf d) right hr -> (right - m) / BLOCK < N.of_nat fuel ->
  exists m' h', seek_up fuel d m = (Ok m', Db (dbf d) h' false) /\ m <= m' <= right /\ m' mod BLOCK = 0 /\
    header_at (dbf d) m' h' /\ (forall j, j mod BLOCK = 0 -> m <= j < m' -> no_header_at (dbf d) j).
Proof.
  induction fuel as [|fuel IH]; intros d m h right hr Hd H Hm Hr Hmr Hrf L Hat Hf.
  { apply bl_pos in Hf. inversion Hf. }
  cbn [seek_up].
  destruct (L m Hm Hmr) as [[h1 H1]|N].
  - rewrite (@seek_header d m h1) by (auto; lia). exists m, h1. repeat split; auto; lia.
  - rewrite (@seek_no_header d m h) by (auto; lia).
    assert (Hne : m <> right). { intros ->. exact (header_at_not Hat N). }
    assert (Hlt : m < right) by lia.
    destruct (IH (Db (dbf d) h false) (m + BLOCK) h right hr) as (m' & h' & E1 & E2 & E3 & E4 & E5); cbn [dbf dbh dropped]; auto.
    + rewrite (header_at_pos H). exact H.
    + now apply bl_add.
    + now apply bl_next.
    + now apply bl_dec.
    + exists m', h'. cbn [dbf] in *. clear - E1 E2 E3 E4 E5 N Hm. refine (conj E1 (conj _ (conj E3 (conj E4 _)))); [lia|].
      intros j Hj Hjr. destruct (N.eq_dec j m) as [->|]; [exact N|]. apply E5; auto.
      split; [|tauto]. apply bl_next; auto. lia.
Qed.

(** The result of the search contains the sequence number, is exact in two of the three ways to end, and there is
    enough fuel. *)
Lemma search_spec fuel2 : forall fuel d h seqno left right hr, dropped d = false ->
  header_at (dbf d) (h_position (dbh d)) h ->
  left mod BLOCK = 0 -> right mod BLOCK = 0 -> left <= right -> right < fpos (dbf d) -> layout (dbf d) right ->
  header_at (dbf d) right hr -> seqno <= h_update_seq hr ->
  (right - left) / BLOCK < N.of_nat fuel -> right / BLOCK < N.of_nat fuel2 ->
  (forall q hq, q mod BLOCK = 0 -> q < left -> header_at (dbf d) q hq -> h_update_seq hq < seqno) ->
  (forall q q' hq hq', q mod BLOCK = 0 -> q' mod BLOCK = 0 -> q < q' -> header_at (dbf d) q hq -> header_at (dbf d) q' hq' ->
     h_update_seq hq < h_update_seq hq') ->
  exists h', search_loop fuel fuel2 d seqno left right = (Ok tt, Db (dbf d) h' false) /\
    header_at (dbf d) (h_position h') h' /\ seqno <= h_update_seq h' /\ (h_position h' <= right /\ h_position h' mod BLOCK = 0) /\
    ((forall q hq, q mod BLOCK = 0 -> q < h_position h' -> header_at (dbf d) q hq -> h_update_seq hq < seqno) \/
     exists m, m mod BLOCK = 0 /\ m < h_position h' /\ forall j, j mod BLOCK = 0 -> m <= j < h_position h' -> no_header_at (dbf d) j).
Proof.
  induction fuel as [|fuel IH]; intros d h seqno left right hr Hd H Hlm Hrm Hlr Hrf L Hat Hs Hf Hf2 Hlow Mono.
  { apply bl_pos in Hf. inversion Hf. }
  cbn [search_loop]. destruct (N.ltb_spec right left) as [|_]; [nl|].
  destruct (bl_mid Hlm Hrm Hlr) as (Hm1 & Hm2 & Hm3 & Hm4).
  cbv zeta. set (mid := (left + right) / 2 - ((left + right) / 2) mod BLOCK) in *. clearbody mid.
  destruct (@seek_up_spec fuel2 d mid h right hr) as (m & hm & E1 & E2 & E3 & E4 & E5); auto; try tauto.
  { eapply bl_mono; [|exact Hf2]. nl. }
  rewrite E1. clear E1.
  assert (Ho : (m <? left) = false /\ (right <? m) = false) by nl. destruct Ho as [-> ->]. cbn [orb dbh].
  assert (Em : h_position hm = m) by exact (header_at_pos E4).
  destruct (N.ltb_spec seqno (h_update_seq hm)) as [Hgt|Hle].
  - destruct (N.eqb_spec right m) as [Erm|Erm].
    + rewrite <- Erm in E2, E3, E4, E5, Em. exists hm. rewrite Em. refine (conj eq_refl (conj E4 (conj _ (conj (conj _ E3) _)))); [nl|nl|].
      destruct (N.eq_dec mid right) as [Emr|Emr].
      * left. intros q hq Hqm Hq Hhq. rewrite <- (Hm3 Emr) in Hq. eauto.
      * right. exists mid. split; [exact Hm1|]. split; [nl|]. exact E5.
    + destruct (IH (Db (dbf d) hm false) hm seqno left m hm) as (h' & F1 & F2 & F3 & F4 & F5); cbn [dbf dbh dropped]; auto.
      * now rewrite Em.
      * nl.
      * nl.
      * intros q Hq Hqm. apply L; auto. nl.
      * nl.
      * apply bl_dec2 with (b := right - left); auto using bl_sub. nl.
      * eapply bl_mono; [|exact Hf2]. nl.
      * exists h'. cbn [dbf] in *. destruct F4 as [F4 F6]. refine (conj F1 (conj F2 (conj F3 (conj (conj _ F6) F5)))). nl.
  - destruct (N.ltb_spec (h_update_seq hm) seqno) as [Hlt|Heq].
    + destruct (N.eqb_spec left m) as [Elm|Elm].
      * assert (R : right = left + BLOCK).
        { apply bl_succ; auto; [apply Hm4; nl|].
          intros ->. rewrite <- Elm in E4. rewrite (header_at_fun Hat E4) in Hs. nl. }
        rewrite (@forward_ok (Db (dbf d) hm false) right hr); cbn [dbf dbh dropped]; rewrite ?Em; auto.
        -- exists hr. rewrite (header_at_pos Hat). refine (conj eq_refl (conj Hat (conj Hs (conj (conj _ Hrm) _)))); [nl|].
           left. intros q hq Hqm Hq Hhq. destruct (N.lt_ge_cases q left) as [Hql|Hql]; [eauto|].
           destruct (N.eq_dec q left) as [->|Hne].
           ++ rewrite Elm in Hhq. rewrite (header_at_fun Hhq E4). exact Hlt.
           ++ exfalso. apply (@bl_between left q); auto; nl.
        -- split; [|auto]. rewrite R, Elm, BLOCK_val. clear. lia.
        -- intros j Hj Hjr. exfalso. apply (@bl_between left j); auto; nl.
      * destruct (IH (Db (dbf d) hm false) hm seqno m right hr) as (h' & F1 & F2 & F3 & F4 & F5); cbn [dbf dbh dropped]; auto.
        -- now rewrite Em.
        -- nl.
        -- apply bl_dec2 with (b := right - left); auto using bl_sub. nl.
        -- intros q hq Hqm Hq Hhq. assert (h_update_seq hq < h_update_seq hm) by (eapply (Mono q m); eauto). nl.
        -- exists h'. cbn [dbf] in *. auto.
    + exists hm. rewrite Em. refine (conj eq_refl (conj E4 (conj _ (conj (conj _ E3) _)))); [nl|nl|]. left. intros q hq Hqm Hq Hhq.
      assert (h_update_seq hq < h_update_seq hm) by (eapply (Mono q m); eauto). nl.
Qed.
End WithEnv.
