(** The file layer against the specification vocabulary of SpecFile.v. *)
From Verif Require Import Base Codec CodecFacts File FileFacts ChunkFacts Header HeaderFacts History SpecFile.
Local Open Scope N_scope.

Lemma data_pos_eq p : data_pos p = skip_prefix p. Proof. reflexivity. Qed.
Lemma data_end_eq p n : data_end p n = adv p n.
Proof. revert p; induction n as [|n IH]; intros p; cbn [data_end adv]; auto. Qed.
Lemma data_body g p b : body_at g p b <-> b = data g p (length b).
Proof.
  revert p; induction b as [|x b IH]; intros p; cbn [body_at data length]; [tauto|].
  rewrite IH. change (data_pos p) with (skip_prefix p). split.
  - intros [<- H]. now rewrite <- H.
  - intros H. injection H as H1 H2. auto.
Qed.
Lemma data_length g p n : length (data g p n) = n.
Proof. revert p; induction n as [|n IH]; intros p; cbn [data length]; auto. Qed.
Lemma body_data g p n : body_at g p (data g p n).
Proof. apply data_body. now rewrite data_length. Qed.
Lemma data_bytes g p n : (forall i, g i < 256) -> is_bytes (data g p n).
Proof. intros H. revert p; induction n as [|n IH]; intros p; cbn [data]; constructor; [apply H|apply IH]. Qed.

Lemma rd1_data g sz p n : rd1 g sz p n = if (N.of_nat n =? 0) || (data_end p n <=? sz) then Ok (data g p n) else Err E_READ.
Proof.
  destruct (rd1 g sz p n) as [b|e] eqn:Er.
  - apply rd1_inv in Er. destruct Er as (L & B & S). apply data_body in B. rewrite L in B. subst b.
    destruct (N.eqb_spec (N.of_nat n) 0); cbn [orb]; auto.
    rewrite data_end_eq. destruct (N.leb_spec (adv p n) sz); [auto|]. specialize (S ltac:(lia)). lia.
  - pose proof (rd1_err _ _ _ _ Er); subst e.
    destruct (N.eqb_spec (N.of_nat n) 0) as [Hz|Hz].
    + replace n with 0%nat in Er by lia. discriminate.
    + cbn [orb]. rewrite data_end_eq. destruct (N.leb_spec (adv p n) sz); auto.
      rewrite <- (data_length g p n) in Er at 1. rewrite rd1_body in Er; [discriminate|apply body_data|].
      now rewrite data_length.
Qed.

(** [read_skip] as data bytes. *)
Lemma read_skip_data f p len :
  read_skip f p len =
  if (len =? 0) || (data_end p (N.to_nat len) <=? size f)
  then Ok (data (cur f) p (N.to_nat len), skip_prefix (data_end p (N.to_nat len)))
  else Err E_READ.
Proof.
  rewrite read_skip_eq, rd1_data, data_end_eq, Nnat.N2Nat.id.
  destruct (N.eqb_spec len 0) as [->|]; cbn [orb bind]; [reflexivity|].
  destruct (N.leb_spec (adv p (N.to_nat len)) (size f)); reflexivity.
Qed.

Lemma data_skip g p n : data g (skip_prefix p) n = data g p n.
Proof. destruct n; cbn [data]; auto. change data_pos with skip_prefix. now rewrite skip_skip. Qed.
Lemma data_end_skip p n : (n <> 0)%nat -> data_end (skip_prefix p) n = data_end p n.
Proof. intros. rewrite !data_end_eq. now apply adv_skip. Qed.

Lemma data_app g p n m : data g p (n + m) = data g p n ++ data g (data_end p n) m.
Proof. revert p; induction n as [|n IH]; intros p; cbn [data data_end plus app]; auto. now rewrite IH. Qed.
Lemma data_end_app p n m : data_end p (n + m) = data_end (data_end p n) m.
Proof. rewrite !data_end_eq. apply adv_add. Qed.
Lemma data_end_ge p n : p + N.of_nat n <= data_end p n.
Proof. rewrite data_end_eq. apply adv_ge. Qed.

Lemma land_high_bit x : (N.land x HIGH =? 0) = negb (N.testbit x 31).
Proof. rewrite land_high. destruct (N.testbit x 31); reflexivity. Qed.

Lemma testbit31 x : x < 2^32 -> N.testbit x 31 = (2^31 <=? x).
Proof.
  intros H. destruct (N.leb_spec (2^31) x) as [Hg|Hl]; [|now apply testbit_low].
  rewrite N.testbit_eqb. replace (x / 2^31) with 1; [reflexivity|].
  change (2^32) with 4294967296 in *. change (2^31) with 2147483648 in *. lia.
Qed.

Lemma ldiff_high_ge x : x < 2^32 -> 2^31 <= x -> N.ldiff x HIGH = x - 2^31.
Proof.
  intros H1 H2. replace x with (x - 2^31 + HIGH) at 1 by (change HIGH with (2^31); lia).
  apply ldiff_high. change (2^32) with 4294967296 in *. change (2^31) with 2147483648 in *. lia.
Qed.

Section WithEnv.
Context {E : Env}.

Lemma integrity_accepts m b c : integrity m b c = true <-> accepts m b c.
Proof. destruct m; cbn; rewrite ?orb_true_iff, ?N.eqb_eq; tauto. Qed.

Lemma read_info f p :
  read_skip f p 8 = if data_end p 8 <=? size f
                    then Ok (data (cur f) p 8, skip_prefix (data_end p 8)) else Err E_READ.
Proof. rewrite read_skip_data. reflexivity. Qed.

Lemma info_split f p :
  getb 0 4 (data (cur f) p 8) = Ok (data (cur f) p 4) /\
  getb 4 4 (data (cur f) p 8) = Ok (data (cur f) (data_end p 4) 4).
Proof.
  change 8%nat with (4 + 4)%nat. rewrite data_app. split.
  - apply getb_app0. unfold lenN. now rewrite data_length.
  - apply getb_app_end; unfold lenN; now rewrite data_length.
Qed.

Lemma stored_len_bound g p : (forall i, g i < 256) -> stored_len g p < 2^32.
Proof.
  intros H. change (2^32) with (256^4). change 4 with (lenN (data g p 4)) at 1.
  apply unbe_bound. now apply data_bytes.
Qed.

Lemma bin_internal_inv f p maxh b : (forall i, cur f i < 256) ->
  (maxh = 0 -> fkey f = None) ->
  (pread_bin_internal f p maxh = Ok b <->
   (let len := stored_len (cur f) p in
    let q := data_end p 8 in
    len = (if maxh =? 0 then 2^31 + lenN b else 4 + lenN b) /\
    (maxh <> 0 -> len <= maxh /\ len < 2^31) /\
    accepts (crcm f) b (stored_sum (cur f) p) /\
    b = data (cur f) q (length b) /\ data_end q (length b) <= size f)).
Proof.
  intros HB Hk.
  assert (EE : pread_bin_internal f p maxh =
      (let* r := read_skip f p 8 in
      let '(info, p1) := r in
      let* l := getb 0 4 info in
      let* c := getb 4 4 info in
      let chunk_len := unbe l in
      let c := unbe c in
      if Bool.eqb (negb (maxh =? 0)) (negb (N.land chunk_len HIGH =? 0)) then Err E_CORRUPT
      else
        let len := N.ldiff chunk_len HIGH in
        if (negb (maxh =? 0)) && ((len <? 4) || (maxh <? len)) then Err E_CORRUPT
        else
          let len := if maxh =? 0 then len else len - 4 in
          let* r2 := read_skip f p1 len in
          if integrity (crcm f) (fst r2) c then Ok (fst r2) else Err E_CHECKSUM)).
  { unfold pread_bin_internal. destruct (N.eqb_spec maxh 0) as [->|Hm].
    - rewrite Hk by reflexivity. reflexivity.
    - destruct maxh; [congruence|]. destruct (fkey f); reflexivity. }
  rewrite EE, read_info. clear EE.
  pose proof (@data_end_ge (data_end p 8) (length b)) as Hge.
  destruct (N.leb_spec (data_end p 8) (size f)) as [Hs|Hs].
  2:{ cbn [bind]. split; [discriminate|]. intros (_ & _ & _ & _ & H). lia. }
  cbn [bind]. destruct (info_split f p) as [-> ->]. cbn [bind]. cbv zeta.
  change (unbe (data (cur f) p 4)) with (stored_len (cur f) p).
  change (unbe (data (cur f) (data_end p 4) 4)) with (stored_sum (cur f) p).
  pose proof (@stored_len_bound _ p HB) as Hlen. set (len := stored_len (cur f) p) in *. clearbody len.
  set (c := stored_sum (cur f) p). clearbody c.
  rewrite land_high_bit, negb_involutive, testbit31 by assumption.
  assert (P32 : 2^32 = 4294967296) by reflexivity. assert (P31 : 2^31 = 2147483648) by reflexivity.
  rewrite P32 in Hlen.
  set (q := data_end p 8) in *.
  assert (RD : forall n, read_skip f (skip_prefix q) n =
     if (n =? 0) || (data_end q (N.to_nat n) <=? size f)
     then Ok (data (cur f) q (N.to_nat n), skip_prefix (data_end q (N.to_nat n))) else Err E_READ).
  { intros n. rewrite <- (@read_skip_cong f q) by (symmetry; apply skip_skip). apply read_skip_data. }
  assert (FIN : forall n,
     (let* r2 := read_skip f (skip_prefix q) n in
      if integrity (crcm f) (fst r2) c then Ok (fst r2) else Err E_CHECKSUM) = Ok b <->
     n = lenN b /\ accepts (crcm f) b c /\ b = data (cur f) q (length b) /\ data_end q (length b) <= size f).
  { intros n. rewrite RD. destruct ((n =? 0) || (data_end q (N.to_nat n) <=? size f)) eqn:En; cbn [bind fst].
    - destruct (integrity (crcm f) (data (cur f) q (N.to_nat n)) c) eqn:Ei.
      + apply integrity_accepts in Ei. split.
        * intros H. injection H as <-. unfold lenN. rewrite data_length, Nnat.N2Nat.id.
          refine (conj eq_refl (conj Ei (conj eq_refl _))).
          apply orb_true_iff in En. destruct En as [En|En]; [|now apply N.leb_le].
          apply N.eqb_eq in En; subst n. exact Hs.
        * intros (-> & _ & -> & _). f_equal. f_equal. unfold lenN. rewrite data_length. lia.
      + split; [discriminate|]. intros (-> & Ha & Hb & _). apply integrity_accepts in Ha.
        unfold lenN in Ei. rewrite Nnat.Nat2N.id, <- Hb in Ei. congruence.
    - split; [discriminate|]. intros (-> & _ & _ & He). apply orb_false_iff in En. destruct En as [_ En].
      apply N.leb_gt in En. unfold lenN in En. rewrite Nnat.Nat2N.id in En. lia. }
  destruct (N.eqb_spec maxh 0) as [->|Hm]; cbn [negb andb].
  - destruct (N.leb_spec (2^31) len) as [Hl|Hl]; cbn [Bool.eqb].
    + rewrite (ldiff_high_ge (x := len)) by (rewrite ?P32; assumption). rewrite FIN. rewrite P31 in *.
      split; [intros (H1 & H2 & H3 & H4); repeat split; auto; try lia; congruence|].
      intros (H1 & _ & H2 & H3 & H4). repeat split; auto. lia.
    + split; [discriminate|]. intros (H & _). lia.
  - destruct (N.leb_spec (2^31) len) as [Hl|Hl]; cbn [Bool.eqb].
    + split; [discriminate|]. intros (_ & H & _). specialize (H Hm). lia.
    + rewrite ldiff_high_low by assumption.
      destruct (N.ltb_spec len 4) as [H4|H4]; cbn [orb].
      * split; [discriminate|]. intros (H & _). lia.
      * destruct (N.ltb_spec maxh len) as [H5|H5].
        -- split; [discriminate|]. intros (_ & H & _). specialize (H Hm). lia.
        -- rewrite FIN. split; [intros (H1 & H2 & H3 & H6); repeat split; auto; lia|].
           intros (H1 & _ & H2 & H3 & H6). repeat split; auto. lia.
Qed.

Lemma encrypted_inv k f p b : (forall i, cur f i < 256) ->
  (pread_encrypted k f p = Ok b <->
   (let len := stored_len (cur f) p in
    let q := data_end p 4 in
    mac_size <= len < 2^31 /\ data_end q (N.to_nat len) <= size f /\
    decrypt k (nonce p) (data (cur f) q (N.to_nat len)) = Some b)).
Proof.
  intros HB. unfold pread_encrypted. rewrite read_skip_data. cbv zeta.
  change (N.to_nat 4) with 4%nat. change (4 =? 0) with false. cbn [orb].
  pose proof (@stored_len_bound _ p HB) as Hlen.
  pose proof (@data_end_ge (data_end p 4) (N.to_nat (stored_len (cur f) p))) as Hge.
  destruct (N.leb_spec (data_end p 4) (size f)) as [Hs|Hs]; cbn [bind].
  2:{ split; [discriminate|]. intros (_ & H & _). lia. }
  change (unbe (data (cur f) p 4)) with (stored_len (cur f) p).
  set (len := stored_len (cur f) p) in *. clearbody len.
  rewrite land_high_bit, negb_involutive, testbit31 by assumption.
  assert (P32 : 2^32 = 4294967296) by reflexivity. assert (P31 : 2^31 = 2147483648) by reflexivity.
  destruct (N.leb_spec (2^31) len) as [Hl|Hl]; cbn [orb]; [split; [discriminate|lia]|].
  destruct (N.ltb_spec len mac_size) as [H4|H4]; [split; [discriminate|lia]|].
  rewrite <- (@read_skip_cong f (data_end p 4)) by (symmetry; apply skip_skip).
  rewrite read_skip_data.
  destruct (N.leb_spec (data_end (data_end p 4) (N.to_nat len)) (size f)) as [H5|H5].
  - rewrite orb_true_r. cbn [bind fst].
    destruct (decrypt k (nonce p) (data (cur f) (data_end p 4) (N.to_nat len))) as [x|].
    + split; [intros H; injection H as ->; auto|]. intros (_ & _ & H). now injection H as ->.
    + split; [discriminate|]. intros (_ & _ & H); discriminate.
  - destruct (N.eqb_spec len 0) as [E0|E0].
    + exfalso. rewrite E0 in H5. change (N.to_nat 0) with 0%nat in H5. change (data_end (data_end p 4) 0) with (data_end p 4) in H5. lia.
    + cbn [orb bind]. split; [discriminate|]. intros (_ & H & _). lia.
Qed.

(** Reads only ever fail in three ways. *)
Lemma bin_internal_err f p maxh e : pread_bin_internal f p maxh = Err e -> e = E_READ \/ e = E_CORRUPT \/ e = E_CHECKSUM.
Proof.
  assert (RS : forall p n e, read_skip f p n = Err e -> e = E_READ).
  { intros p' n e'. rewrite read_skip_data. destruct (_ || _); [discriminate|]. intros H; now inv H. }
  unfold pread_bin_internal.
  assert (P : (let* r := read_skip f p 8 in
      let '(info, p1) := r in
      let* l := getb 0 4 info in
      let* c := getb 4 4 info in
      let chunk_len := unbe l in
      let c := unbe c in
      if Bool.eqb (negb (maxh =? 0)) (negb (N.land chunk_len HIGH =? 0)) then Err E_CORRUPT
      else
        let len := N.ldiff chunk_len HIGH in
        if (negb (maxh =? 0)) && ((len <? 4) || (maxh <? len)) then Err E_CORRUPT
        else
          let len := if maxh =? 0 then len else len - 4 in
          let* r2 := read_skip f p1 len in
          if integrity (crcm f) (fst r2) c then Ok (fst r2) else Err E_CHECKSUM) = Err e ->
     e = E_READ \/ e = E_CORRUPT \/ e = E_CHECKSUM).
  { destruct (read_skip f p 8) as [[info p1]|e1] eqn:R1.
    2:{ cbn [bind]. intros H; inv H. apply RS in R1. auto. }
    cbn [bind]. rewrite read_info in R1.
    destruct (data_end p 8 <=? size f); [|discriminate].
    assert (info = data (cur f) p 8) as -> by congruence. clear R1.
    destruct (info_split f p) as [-> ->]. cbn [bind]. cbv zeta.
    destruct (Bool.eqb _ _); [intros H; inv H; auto|].
    destruct (_ && _); [intros H; inv H; auto|].
    match goal with |- context [read_skip f ?a ?b] => destruct (read_skip f a b) as [[x y]|e2] eqn:R2 end; cbn [bind fst].
    - destruct (integrity _ _ _); [discriminate|intros H; inv H; auto].
    - intros H; inv H. apply RS in R2. auto. }
  destruct (fkey f) as [k|]; [|exact P]. destruct maxh as [|pm]; [|exact P].
  unfold pread_encrypted.
  destruct (read_skip f p 4) as [[l p1]|e1] eqn:R1; cbn [bind].
  2:{ intros H; inv H. apply RS in R1. auto. }
  destruct (_ || _); [intros H; inv H; auto|].
  destruct (read_skip f p1 (unbe l)) as [[x y]|e2] eqn:R2; cbn [bind fst].
  - destruct (decrypt _ _ _); [discriminate|intros H; inv H; auto].
  - intros H; inv H. apply RS in R2. auto.
Qed.

End WithEnv.

(** ** Later operations do not disturb stored chunks *)

Section Appends.
Context {E : Env} (EO : EnvOk E).

Lemma opened_on_good g gsz pl m k : (forall i, gsz <= i -> g i = 0) -> good (opened_on g gsz pl m k).
Proof.
  intros Hg. split; [|cbn; lia]. constructor; cbn; auto; try lia.
  - intros i v Hi [<-|[]]. now apply Hg.
Qed.

Lemma has_frame f f' q b : has f q b -> fpos f <= fpos f' -> crcm f' = crcm f -> fkey f' = fkey f ->
  (forall i, i < fpos f -> i mod BLOCK <> 0 -> cur f' i = cur f i) -> has f' q b.
Proof.
  unfold has. intros H Hp -> -> Hc. eapply chunk_at_mono; [exact H|exact Hc|exact Hp].
Qed.

Lemma appends_good f f' : appends f f' -> good f ->
  good f' /\ fpos f <= fpos f' /\ crcm f' = crcm f /\ fkey f' = fkey f /\
  (forall i, i < fpos f -> i mod BLOCK <> 0 -> cur f' i = cur f i).
Proof.
  induction 1 as [f|f f1 b r f2 A IH Hw|f f1 b t r f2 A IH Hw|f f1 r f2 A IH Hw|f f1 q t r f2 A IH Hq Hw|f f1 A IH];
    intros G; [repeat split; auto using N.le_refl; apply G|..];
    destruct (IH G) as (G1 & P1 & M1 & K1 & C1); clear IH.
  - destruct (@db_write_buf_spec _ EO _ _ _ _ G1 Hw) as [(X & L1 & L2) _].
    split; [split; [exact (ex_wf X)|exact L2]|]. split; [lia|].
    rewrite (ex_crcm X), (ex_fkey X). split; [exact M1|]. split; [exact K1|].
    intros i Hi Hm. rewrite (ex_cur X) by lia. now apply C1.
  - destruct (@write_header_spec _ EO _ _ _ _ _ G1 Hw) as (X & L & _).
    split; [split; [exact (ex_wf X)|lia]|]. split; [lia|].
    rewrite (ex_crcm X), (ex_fkey X). split; [exact M1|]. split; [exact K1|].
    intros i Hi Hm. pose proof (align_ge (fpos f1)). rewrite (ex_cur X) by lia. now apply C1.
  - destruct G1 as [W1 S1]. pose proof (@fsync_ext 0 (fun _ _ => True) _ _ _ W1 Hw) as X.
    pose proof (fsync_fpos Hw) as Ep. pose proof (ex_size X).
    split; [split; [exact (ex_wf X)|lia]|]. split; [lia|].
    rewrite (ex_crcm X), (ex_fkey X). split; [exact M1|]. split; [exact K1|].
    intros i Hi Hm. destruct (fsync_frame i W1 Hw) as [-> _]. now apply C1.
  - destruct G1 as [W1 S1]. unfold write_disk_block_type in Hw.
    destruct (pwrite f1 q [t]) as [r' f2'] eqn:Ew.
    assert (f2' = f2) as -> by (destruct r'; inv Hw; reflexivity).
    pose proof (@pwrite_ext f1 q [t] r' f2 W1 Ew) as X. pose proof (pwrite_fpos Ew) as Ep. pose proof (ex_size X).
    split; [split; [exact (ex_wf X)|lia]|]. split; [lia|].
    rewrite (ex_crcm X), (ex_fkey X). split; [exact M1|]. split; [exact K1|].
    intros i Hi Hm. destruct (@pwrite_frame f1 q [t] r' f2 i W1 Ew) as [-> _]; [|now apply C1].
    apply inr_false. rewrite lenN_cons, lenN_nil. change BLOCK with 4096 in Hm. assert (i <> q) by congruence. lia.
  - destruct G1 as [W1 S1]. cbn [fpos set_fpos crcm fkey cur].
    split; [split; [|cbn [size set_fpos fpos]; lia]|].
    { exact (ex_wf (set_fpos_ext 0 (fun _ _ => True) (size f1) W1)). }
    split; [lia|]. auto.
Qed.

Lemma appends_has f f' q b : appends f f' -> good f -> has f q b -> has f' q b.
Proof.
  intros A G H. destruct (appends_good A G) as (_ & P & M & K & C). now apply (has_frame f).
Qed.

Lemma write_buf_read f b p sz f1 f2 : good f -> db_write_buf f b = (Ok (p, sz), f1) -> sz <= 2^31 ->
  appends f1 f2 -> pread_bin f2 p = Ok b.
Proof.
  intros G Hw Hs A. destruct (@db_write_buf_spec _ EO _ _ _ _ G Hw) as [L S].
  destruct (S _ _ eq_refl) as (_ & _ & _ & _ & _ & _ & H). specialize (H Hs).
  pose proof (le_good L) as G1. destruct (appends_good A G1) as (G2 & _).
  apply (@has_read _ EO _ _ _ G2). eapply appends_has; eauto.
Qed.

(** ** Writes without failures succeed, however short they are *)

Lemma pwrite_calm f off b : calm f -> b <> [] ->
  exists n f', pwrite f off b = (Ok n, f') /\ calm f' /\ 1 <= n <= lenN b.
Proof.
  intros [Hd Hc] Hb.
  assert (Hl : 1 <= lenN b) by (destruct b; [congruence|rewrite lenN_cons; lia]).
  unfold pwrite. rewrite Hd. unfold next_step. destruct (plan f) as [|s p] eqn:Ep.
  - do 2 eexists. split; [reflexivity|]. split; [|lia]. unfold calm, put.
    destruct (lenN b =? 0); cbn; rewrite Ep; auto.
  - inv Hc. destruct H1 as [-> ->]. cbn [orb].
    do 2 eexists. split; [reflexivity|]. split; [|lia].
    unfold calm, put. destruct (lenN _ =? 0); destruct (w_sync s); cbn; auto.
Qed.

Lemma write_entire_calm fuel : forall f off b, calm f -> (length b < fuel)%nat ->
  exists f', write_entire fuel f off b = (Ok tt, f') /\ calm f'.
Proof.
  induction fuel as [|fuel IH]; intros f off b Hc Hf; [lia|]. destruct b as [|x b]; [cbn; eauto|].
  rewrite write_entire_S. destruct (@pwrite_calm f off (x :: b) Hc ltac:(discriminate)) as (n & f' & -> & Hc' & Hn).
  apply IH; auto. assert (lenN (drop n (x :: b)) = lenN (x :: b) - n) by apply lenN_drop.
  unfold lenN in *. lia.
Qed.
Lemma write_all_calm f off b : calm f -> exists f', write_all f off b = (Ok tt, f') /\ calm f'.
Proof. intros. apply write_entire_calm; auto. Qed.

Lemma raw_write_loop_calm t fuel : forall f wp b, calm f ->
  (2 * length b + (if (wp mod BLOCK =? 0)%N then 1 else 0) <= fuel)%nat ->
  exists e f', raw_write_loop fuel t f wp b = (Ok e, f') /\ calm f'.
Proof.
  induction fuel as [|fuel IH]; intros f wp b Hp Hf; cbn [raw_write_loop].
  - destruct b; cbn [length] in Hf; [eauto|lia].
  - destruct b as [|x b]; [eauto|]. set (bb := x :: b) in *.
    destruct (N.eqb_spec (wp mod BLOCK) 0) as [E0|E0].
    + destruct (@write_all_calm f wp [t] Hp) as (f1 & -> & Hp1).
      apply IH; auto. destruct (N.eqb_spec ((wp + 1) mod BLOCK) 0); [rewrite BLOCK_val in *; lia|]. lia.
    + set (n := N.min (BLOCK - wp mod BLOCK) (lenN bb)).
      assert (Hlen : 1 <= lenN bb) by (unfold bb; rewrite lenN_cons; lia).
      assert (Hn : 1 <= n <= lenN bb) by (unfold n; rewrite BLOCK_val in *; lia).
      destruct (@write_all_calm f wp (take n bb) Hp) as (f1 & -> & Hp1).
      apply IH; auto. assert (lenN (drop n bb) = lenN bb - n) by apply lenN_drop.
      unfold lenN in *. destruct ((wp + n) mod BLOCK =? 0); lia.
Qed.
Lemma raw_write_calm t f wp b : calm f -> exists e f', raw_write t f wp b = (Ok e, f') /\ calm f'.
Proof. intros. apply raw_write_loop_calm; auto. destruct (wp mod BLOCK =? 0); lia. Qed.

Lemma db_write_buf_calm f b : calm f -> crcm f <> CRC_UNKNOWN -> lenN b + mac_size < 2^32 ->
  exists p sz f', db_write_buf f b = (Ok (p, sz), f') /\ calm f'.
Proof.
  intros Hp Hm Hl. unfold db_write_buf. destruct (fkey f) as [k|].
  - unfold write_encrypted. destruct (N.leb_spec (2^32) (lenN b + mac_size)); [lia|].
    destruct (@raw_write_calm B_DATA f (fpos f) (be 4 (lenN b + mac_size) ++ encrypt k (nonce (fpos f)) b) Hp)
      as (e & f' & -> & Hp'). do 3 eexists. split; [reflexivity|]. exact Hp'.
  - destruct (get_checksum (crcm f) b) as [c|e] eqn:Ec.
    2:{ destruct (crcm f); cbn in Ec; try discriminate; congruence. }
    destruct (@raw_write_calm B_DATA f (fpos f) (be 4 (N.lor (lenN b mod 2^32) HIGH) ++ be 4 c) Hp)
      as (e & f' & -> & Hp').
    destruct (@raw_write_calm B_DATA f' e b Hp') as (e2 & f'' & -> & Hp'').
    do 3 eexists. split; [reflexivity|]. exact Hp''.
Qed.

(** ** The 2 GiB limit *)

Lemma lor_high_high : N.lor (2^31 mod 2^32) HIGH = HIGH.
Proof. reflexivity. Qed.

Lemma big_chunk f b p sz f' : good f -> fkey f = None -> lenN b = 2^31 -> db_write_buf f b = (Ok (p, sz), f') ->
  pread_bin f' p <> Ok b.
Proof.
  intros G Hk Hl. unfold db_write_buf. rewrite Hk, Hl, lor_high_high.
  destruct (get_checksum (crcm f) b) as [c|e] eqn:Ec; [|discriminate].
  destruct (raw_write B_DATA f (fpos f) (be 4 HIGH ++ be 4 c)) as [[e1|e1] f1] eqn:R1; [|discriminate].
  destruct (raw_write B_DATA f1 e1 b) as [[e2|e2] f2] eqn:R2; [|discriminate].
  intros H; inv H.
  destruct G as [W G].
  pose proof (raw_write_ext W R1) as X1. pose proof (raw_write_ok W R1) as (E1 & B1 & S1 & _).
  pose proof (ex_wf X1) as W1. pose proof (raw_write_ext W1 R2) as X2.
  rewrite app_length, !be_length in E1. change (4 + 4)%nat with 8%nat in E1.
  assert (B2 : body_at (cur f2) (fpos f) (be 4 HIGH ++ be 4 c)).
  { eapply body_at_ext; [|exact B1]. intros i Hi Hm. rewrite app_length, !be_length in Hi.
    change (4 + 4)%nat with 8%nat in Hi. apply (ex_cur X2). lia. }
  unfold pread_bin, pread_bin_internal. cbn [fkey note_big set_fpos].
  rewrite (ex_fkey X2), (ex_fkey X1), Hk.
  intros HR. bind_inv HR. destruct a as [info p1]. 
  rewrite read_info in E0. cbn [size note_big set_fpos cur] in E0.
  destruct (N.leb_spec (data_end (fpos f) 8) (size f2)); [|discriminate].
  apply data_body in B2. rewrite app_length, !be_length in B2. change (4 + 4)%nat with 8%nat in B2.
  rewrite <- B2 in E0. assert (info = be 4 HIGH ++ be 4 c) as -> by congruence. clear E0.
  rewrite getb_app0 in HR by now rewrite lenN_be. cbn [bind] in HR.
  rewrite getb_app_end in HR by now rewrite lenN_be. cbn [bind] in HR.
  rewrite (unbe_be_small 4 (x := HIGH)) in HR by reflexivity.
  change (Bool.eqb (negb (0 =? 0)) (negb (N.land HIGH HIGH =? 0))) with false in HR. cbv iota in HR.
  change (N.ldiff HIGH HIGH) with 0 in HR. change (0 =? 0) with true in HR. cbn [negb andb] in HR.
  change (read_skip (note_big (set_fpos f2 e2) (8 + 2 ^ 31)) p1 0) with (Ok ([] : bytes, skip_prefix p1)) in HR.
  cbn [bind fst] in HR. destruct (integrity _ _ _); [|discriminate].
  injection HR as <-. discriminate.
Qed.

End Appends.

(** ** Short reads *)

(** src/couch_file_read.cc:120-147 read_skipping_prefixes when the operating system may return fewer bytes than
    asked for (os.cc:107-128): [o] gives the most that each call returns (at least one byte). *)
Fixpoint read_short_loop (fuel : nat) (o : list N) (f : file) (pos len : N) (acc : bytes) : res (bytes * N) :=
  if len =? 0 then Ok (acc, pos) else
  match fuel with
  | O => Err E_FUEL
  | S fuel' =>
      let read_size := N.min (BLOCK - pos mod BLOCK) len in
      let got := take (N.max 1 (hd read_size o)) (pread f pos read_size) in
      if lenN got =? 0 then Err E_READ
      else read_short_loop fuel' (tl o) f (skip_prefix (pos + lenN got)) (len - lenN got) (acc ++ got)
  end.
Definition read_short (o : list N) (f : file) (pos len : N) : res (bytes * N) :=
  read_short_loop (S (N.to_nat len)) o f (skip_prefix pos) len [].

Lemma rdn_take g off n k : take k (rdn g off n) = rdn g off (Nat.min (N.to_nat k) n).
Proof.
  unfold take. generalize (N.to_nat k) as m. clear k. intros m. revert off m.
  induction n as [|n IH]; intros off [|m]; cbn [rdn firstn Nat.min]; auto. now rewrite IH.
Qed.

Lemma read_short_loop_eq fuel : forall o f pos len acc, pos mod BLOCK <> 0 -> (N.to_nat len < fuel)%nat ->
  read_short_loop fuel o f pos len acc =
  let* b := rd1 (cur f) (size f) pos (N.to_nat len) in
  Ok (acc ++ b, if len =? 0 then pos else skip_prefix (adv pos (N.to_nat len))).
Proof.
  induction fuel as [|fuel IH]; intros o f pos len acc Hp Hf; [lia|]. cbn [read_short_loop].
  destruct (N.eqb_spec len 0) as [->|Hl].
  - change (N.to_nat 0) with 0%nat. cbn [rd1 bind]. now rewrite app_nil_r.
  - set (n := N.min (BLOCK - pos mod BLOCK) len).
    assert (Hn : 1 <= n <= len /\ pos mod BLOCK + n <= BLOCK) by (unfold n; rewrite BLOCK_val in *; lia).
    unfold pread. rewrite rdn_take. set (k0 := Nat.min _ _). set (k := N.of_nat k0).
    assert (Ek0 : k0 = N.to_nat k) by (unfold k; lia).
    assert (Lk : lenN (rdn (cur f) pos k0) = k) by (unfold lenN; rewrite rdn_length; lia).
    rewrite Lk. destruct (N.eqb_spec k 0) as [Ek|Ek].
    + assert (Hsz : size f <= pos) by (unfold k, k0 in Ek; lia).
      replace (N.to_nat len) with (S (N.to_nat len - 1)) by lia. cbn [rd1].
      rewrite skip_id by assumption. destruct (N.ltb_spec pos (size f)); [lia|]. reflexivity.
    + assert (Hk : 1 <= k <= n /\ pos + k <= size f) by (unfold k, k0 in *; lia).
      rewrite Ek0. rewrite IH by (try apply skip_nb; lia).
      replace (N.to_nat len) with (N.to_nat k + N.to_nat (len - k))%nat by lia.
      rewrite rd1_app. rewrite (@rd1_in_block (cur f) (size f) pos (N.to_nat k)) by (try assumption; lia). cbn [bind].
      rewrite (@adv_in_block pos (N.to_nat k)) by (try assumption; lia). rewrite !Nnat.N2Nat.id, rd1_skip.
      destruct (rd1 (cur f) (size f) (pos + k) (N.to_nat (len - k))) as [b|e]; cbn [bind]; auto.
      rewrite <- app_assoc. do 2 f_equal.
      destruct (N.eqb_spec (len - k) 0) as [Ez|Ez].
      * rewrite adv_add, Ez. change (N.to_nat 0) with 0%nat. cbn [adv]. now rewrite (@adv_in_block pos (N.to_nat k)), Nnat.N2Nat.id by (try assumption; lia).
      * rewrite adv_add. f_equal. rewrite (@adv_in_block pos (N.to_nat k)) by (try assumption; lia).
        rewrite Nnat.N2Nat.id. rewrite adv_skip by lia. reflexivity.
Qed.

Lemma read_short_eq o f pos len : read_short o f pos len = read_skip f pos len.
Proof.
  unfold read_short, read_skip.
  rewrite read_short_loop_eq, read_skip_loop_eq by (try apply skip_nb; lia). reflexivity.
Qed.
