(** Facts about headers: encoding, writing, reading back. *)
From Verif Require Import Base Codec CodecFacts File FileFacts ChunkFacts Header.
Local Open Scope N_scope.

(** The key stored with an in-memory root is not part of the file. *)
Definition strip_root (r : option node_pointer) : option node_pointer :=
  match r with
  | None => None
  | Some p => Some (NodePointer [] (np_pointer p) (np_reduce p) (np_subtree p))
  end.
Definition strip (h : header) : header :=
  set_roots h (strip_root (h_by_id h)) (strip_root (h_by_seq h)) (strip_root (h_local h)).

Definition root_fits (r : option node_pointer) (pos : N) : Prop :=
  match r with
  | None => True
  | Some p => np_pointer p < pos /\ np_pointer p < 2^48 /\ np_subtree p < 2^48
  end.

(** The header can be represented at position [pos]. *)
Record hdr_fits (h : header) (pos : N) : Prop := {
  hf_version : h_version h = 11 \/ h_version h = 12 \/ h_version h = 13 \/ h_version h = 14;
  hf_us : h_update_seq h < 2^48;
  hf_ps : h_purge_seq h < 2^48;
  hf_pp : h_purge_ptr h < 2^48 /\ h_purge_ptr h <= pos;
  hf_id : root_fits (h_by_id h) pos;
  hf_seq : root_fits (h_by_seq h) pos;
  hf_local : root_fits (h_local h) pos;
  hf_len : lenN (encode_header h) <= 1020;
  hf_ts : h_timestamp h < 2^64;
  hf_ts0 : h_version h < 13 -> h_timestamp h = 0;
  hf_prev : h_version h = 14 -> h_prev h < 2^47;
  hf_prev0 : h_version h < 14 -> h_prev h = UNKNOWN_PREV /\ h_meta h = false;
  hf_pos : h_position h = pos
}.

Lemma encode_root_size r : lenN (encode_root r) = root_size r.
Proof. destruct r as [p|]; [apply lenN_encode_root|reflexivity]. Qed.

Lemma read_db_root_encode r pos : root_fits r pos ->
  read_db_root pos (encode_root r) = (Ok tt, strip_root r).
Proof.
  destruct r as [p|]; cbn [root_fits strip_root]; [|reflexivity].
  intros (H1 & H2 & H3). unfold read_db_root. rewrite lenN_encode_root.
  destruct (N.ltb_spec 0 (12 + lenN (np_reduce p))); [|lia].
  destruct (N.ltb_spec (12 + lenN (np_reduce p)) 12); [lia|].
  rewrite read_encode_root. cbn [np_pointer]. rewrite !N.mod_small by assumption.
  destruct (N.ltb_spec (np_pointer p) pos); [reflexivity|lia].
Qed.

(** Length of the fixed part. *)
Definition hsize (v : N) : N := if v =? 14 then 39 else if v =? 13 then 33 else 25.

Lemma lenN_encode_header h :
  h_version h = 11 \/ h_version h = 12 \/ h_version h = 13 \/ h_version h = 14 ->
  lenN (encode_header h) =
  hsize (h_version h) + root_size (h_by_seq h) + root_size (h_by_id h) + root_size (h_local h).
Proof.
  intros Hv. unfold encode_header, hsize. rewrite !lenN_app, !lenN_be, !encode_root_size.
  destruct Hv as [Hv|[Hv|[Hv|Hv]]]; rewrite Hv; cbv [N.leb N.compare N.eqb Pos.eqb Pos.compare Pos.compare_cont]; rewrite ?lenN_app, ?lenN_be, ?lenN_nil; lia.
Qed.

Local Ltac sz := rewrite ?lenN_app, ?lenN_be, ?lenN_nil; reflexivity.

Lemma odd_double_add x (b : bool) : N.odd (x * 2 + (if b then 1 else 0)) = b.
Proof.
  rewrite N.add_comm, N.mul_comm, N.odd_add_mul_2. destruct b; reflexivity.
Qed.
Lemma shiftr_double_add x (b : bool) : N.shiftr (x * 2 + (if b then 1 else 0)) 1 = x.
Proof.
  rewrite N.shiftr_div_pow2. change (2^1) with 2. destruct b; lia.
Qed.

Lemma parse_encode h0 h pos : hdr_fits h pos ->
  parse_header h0 pos (encode_header h) = (Ok tt, strip h).
Proof.
  intros F. pose proof (hf_version F) as Hv. pose proof (@lenN_encode_header h Hv) as Hlen.
  pose proof (hf_len F) as H1020.
  set (sS := root_size (h_by_seq h)) in *. set (sI := root_size (h_by_id h)) in *.
  set (sL := root_size (h_local h)) in *.
  set (v := h_version h) in *.
  set (tail := encode_root (h_by_seq h) ++ encode_root (h_by_id h) ++ encode_root (h_local h)).
  set (mid := if 14 <=? v then be 8 (h_timestamp h) ++ be 6 (h_prev h * 2 + (if h_meta h then 1 else 0))
              else if v =? 13 then be 8 (h_timestamp h) else []).
  set (fixed := be 1 v ++ be 6 (h_update_seq h) ++ be 6 (h_purge_seq h) ++ be 6 (h_purge_ptr h)
                ++ be 2 sS ++ be 2 sI ++ be 2 sL ++ mid).
  assert (Eenc : encode_header h = fixed ++ tail).
  { unfold encode_header, fixed, tail, mid, sS, sI, sL. fold v. now rewrite !app_assoc. }
  assert (Lmid : lenN mid = hsize v - 25).
  { unfold mid, hsize. destruct Hv as [Hv|[Hv|[Hv|Hv]]]; unfold v in *; rewrite Hv; cbv [N.leb N.compare N.eqb Pos.eqb Pos.compare Pos.compare_cont];
      rewrite ?lenN_app, ?lenN_be; reflexivity. }
  assert (Hhs : 25 <= hsize v) by (unfold hsize; destruct (v =? 14), (v =? 13); lia).
  assert (Lfix : lenN fixed = hsize v).
  { unfold fixed. rewrite !lenN_app, !lenN_be, Lmid. change (N.of_nat 1) with 1; change (N.of_nat 6) with 6; change (N.of_nat 2) with 2. lia. }
  assert (Evb : be 1 v = [v]).
  { destruct Hv as [Hv|[Hv|[Hv|Hv]]]; rewrite Hv; reflexivity. }
  assert (Hsmall : hsize v + sS + sI + sL <= 1020) by lia.
  assert (Ehd : exists r, fixed ++ tail = v :: r) by (unfold fixed; rewrite Evb; eexists; reflexivity).
  unfold parse_header. rewrite Eenc. destruct Ehd as [r Er].
  rewrite Er. cbv iota zeta. rewrite <- Er.
  assert (Ers : raw_header_size v = Some (hsize v)).
  { unfold raw_header_size, hsize. destruct Hv as [Hv|[Hv|[Hv|Hv]]]; rewrite Hv; reflexivity. }
  rewrite Ers.
  rewrite lenN_app, Lfix.
  destruct (N.ltb_spec (hsize v + lenN tail) (hsize v)); [lia|].
  set (h1 := set_version (set_position h0 pos) v).
  assert (Eraw : raw_to_internal h1 v (fixed ++ tail) =
    Ok (Header v (h_update_seq h) (h_by_id h1) (h_by_seq h1) (h_local h1) (h_purge_seq h) (h_purge_ptr h) pos
          (h_timestamp h) (h_prev h) (h_meta h), (sS, sI, sL))).
  { unfold raw_to_internal, fixed. rewrite <- !app_assoc.
    rewrite (@rd_be_app 6 1 (be 1 v)) by sz. cbn [bind].
    rewrite (unbe_be_small 6) by exact (hf_us F).
    rewrite (app_assoc (be 1 v) (be 6 (h_update_seq h))).
    rewrite (@rd_be_app 6 7 (be 1 v ++ be 6 (h_update_seq h))) by sz. cbn [bind].
    rewrite (unbe_be_small 6) by exact (hf_ps F).
    rewrite (app_assoc _ (be 6 (h_purge_seq h))).
    rewrite (@rd_be_app 6 13 ((be 1 v ++ be 6 (h_update_seq h)) ++ _)) by sz. cbn [bind].
    rewrite (unbe_be_small 6) by exact (proj1 (hf_pp F)).
    rewrite (app_assoc _ (be 6 (h_purge_ptr h))).
    rewrite (@rd_be_app 2 19 (((be 1 v ++ be 6 (h_update_seq h)) ++ _) ++ _)) by sz. cbn [bind].
    rewrite (unbe_be_small 2) by (change (256 ^ N.of_nat 2) with 65536; lia).
    rewrite (app_assoc _ (be 2 sS)).
    rewrite (@rd_be_app 2 21 ((((be 1 v ++ be 6 (h_update_seq h)) ++ _) ++ _) ++ _)) by sz. cbn [bind].
    rewrite (unbe_be_small 2) by (change (256 ^ N.of_nat 2) with 65536; lia).
    rewrite (app_assoc _ (be 2 sI)).
    rewrite (@rd_be_app 2 23 (((((be 1 v ++ be 6 (h_update_seq h)) ++ _) ++ _) ++ _) ++ _)) by sz. cbn [bind].
    rewrite (unbe_be_small 2) by (change (256 ^ N.of_nat 2) with 65536; lia).
    rewrite (app_assoc _ (be 2 sL)).
    set (pre := (((((be 1 v ++ be 6 (h_update_seq h)) ++ _) ++ _) ++ _) ++ _) ++ _).
    assert (Lpre : lenN pre = 25) by (unfold pre; sz).
    destruct (N.eq_dec v 14) as [E14|N14].
    - assert (Em : mid = be 8 (h_timestamp h) ++ be 6 (h_prev h * 2 + (if h_meta h then 1 else 0))).
      { unfold mid. rewrite E14. reflexivity. }
      rewrite E14. change (14 =? 14) with true. change (14 =? 13) with false. cbn [orb].
      rewrite Em, <- (app_assoc (be 8 (h_timestamp h))).
      rewrite (@rd_be_app 8 25 pre) by (rewrite ?Lpre, ?lenN_be; reflexivity). cbn [bind].
      rewrite (unbe_be_small 8) by exact (hf_ts F).
      rewrite (app_assoc pre).
      rewrite (@rd_be_app 6 33 (pre ++ be 8 (h_timestamp h))) by (rewrite ?lenN_app, ?Lpre, ?lenN_be; reflexivity).
      cbn [bind].
      pose proof (hf_prev F E14) as Hp.
      rewrite (unbe_be_small 6) by (change (256 ^ N.of_nat 6) with 281474976710656; change (2^47) with 140737488355328 in Hp; destruct (h_meta h); lia).
      rewrite shiftr_double_add, odd_double_add. reflexivity.
    - assert (Hlt : v < 14) by (destruct Hv as [Hv|[Hv|[Hv|Hv]]]; lia).
      destruct (hf_prev0 F Hlt) as [-> ->].
      destruct (N.eqb_spec v 14); [lia|].
      destruct (N.eqb_spec v 13) as [E13|N13]; cbn [orb].
      + assert (Em : mid = be 8 (h_timestamp h)) by (unfold mid; rewrite E13; reflexivity).
        rewrite Em. rewrite (@rd_be_app 8 25 pre) by (rewrite ?Lpre, ?lenN_be; reflexivity). cbn [bind].
        rewrite (unbe_be_small 8) by exact (hf_ts F). reflexivity.
      + cbn [bind]. rewrite (hf_ts0 F) by (fold v; lia). reflexivity. }
  rewrite Eraw. cbn [h_purge_ptr].
  destruct (N.ltb_spec pos (h_purge_ptr h)) as [Hpp|Hpp]; [pose proof (proj2 (hf_pp F)); lia|].
  assert (Ltail : lenN tail = sS + sI + sL).
  { unfold tail. rewrite !lenN_app, !encode_root_size. unfold sS, sI, sL. lia. }
  rewrite Ltail. replace (hsize v + (sS + sI + sL)) with (hsize v + sS + sI + sL) by lia. rewrite N.eqb_refl. cbn [negb].
  unfold tail.
  rewrite (@getb_app_mid fixed (encode_root (h_by_seq h))) by (rewrite ?Lfix, ?encode_root_size; reflexivity).
  rewrite (app_assoc fixed (encode_root (h_by_seq h))).
  rewrite (@getb_app_mid (fixed ++ encode_root (h_by_seq h)) (encode_root (h_by_id h)))
    by (rewrite ?lenN_app, ?Lfix, ?encode_root_size; reflexivity).
  rewrite (app_assoc (fixed ++ _) (encode_root (h_by_id h))).
  rewrite (@getb_app_end ((fixed ++ encode_root (h_by_seq h)) ++ encode_root (h_by_id h)))
    by (rewrite ?lenN_app, ?Lfix, ?encode_root_size; reflexivity).
  rewrite !read_db_root_encode by (apply (hf_seq F) || apply (hf_id F) || apply (hf_local F)).
  cbn [set_roots h_by_id h_by_seq h_local h_version h_update_seq h_purge_seq h_purge_ptr h_position h_timestamp h_prev h_meta].
  unfold strip, set_roots. fold v. rewrite (hf_pos F). reflexivity.
Qed.

(** ** Header chunks in the file *)

Lemma align_mod p : align p mod BLOCK = 0.
Proof. unfold align. destruct (N.eqb_spec (p mod BLOCK) 0); auto. rewrite BLOCK_val in *. lia. Qed.
Lemma align_ge p : p <= align p < p + BLOCK.
Proof. unfold align. destruct (N.eqb_spec (p mod BLOCK) 0); rewrite BLOCK_val in *; lia. Qed.

Section WithEnv.
Context {E : Env} (EO : EnvOk E).

(** A header chunk with body [b] follows the block-type byte at [pos] and ends at or before [e]. Its checksum is acceptable
    in mode [m] and when the mode is not known. *)
Definition hdr_at (g : N -> N) (m : crc_mode) (pos : N) (b : bytes) (e : N) : Prop :=
  lenN b <= 1020 /\ pos mod BLOCK = 0 /\
  exists c, c < 2^32 /\ integrity m b c = true /\ integrity CRC_UNKNOWN b c = true /\
            body_at g (pos + 1) (be 4 (lenN b + 4) ++ be 4 c ++ b) /\
            adv (pos + 1) (8 + length b) <= e.

Lemma hdr_at_mono g g' m pos b e e' :
  hdr_at g m pos b e -> (forall i, i < e -> i mod BLOCK <> 0 -> g' i = g i) -> e <= e' ->
  hdr_at g' m pos b e'.
Proof.
  intros (H1 & H1' & c & Hc & Hi & Hu & H2 & H3) Hg He. split; [exact H1|]. split; [exact H1'|]. exists c.
  split; [exact Hc|]. split; [exact Hi|]. split; [exact Hu|]. split; [|lia].
  eapply body_at_ext; [|exact H2]. intros i Hii Hm. apply Hg; auto.
  rewrite !app_length, !be_length in Hii.
  replace (4 + (4 + length b))%nat with (8 + length b)%nat in Hii by lia. lia.
Qed.

Lemma hdr_at_end g m pos b e : hdr_at g m pos b e -> pos + 9 + lenN b <= e.
Proof.
  intros (_ & _ & c & _ & _ & _ & _ & H). pose proof (adv_ge (pos + 1) (8 + length b)). unfold lenN. lia.
Qed.

Lemma hdr_at_read_max f m pos b e MAX :
  hdr_at (cur f) m pos b e -> e <= size f -> crcm f = m \/ crcm f = CRC_UNKNOWN -> lenN b + 4 <= MAX ->
  pread_header f pos MAX = Ok b.
Proof.
  intros (Hl & Hmod & c & Hc & Hi & Hu & Hb & He) Hs Hm HMAX.
  assert (EM : (MAX =? 0) = false) by (apply N.eqb_neq; lia).
  unfold pread_header, pread_bin_internal. rewrite EM. cbv iota.
  assert (Hint : integrity (crcm f) b c = true) by (destruct Hm as [->| ->]; assumption).
  assert (Hb' : body_at (cur f) (pos + 1) ((be 4 (lenN b + 4) ++ be 4 c) ++ b)) by now rewrite <- app_assoc.
  apply body_at_app in Hb'. destruct Hb' as [Hb1 Hb2].
  assert (L8 : length (be 4 (lenN b + 4) ++ be 4 c) = 8%nat) by now rewrite app_length, !be_length.
  rewrite adv_add in He.
  destruct (@read_skip_body f (pos + 1) _ Hb1) as (p1 & R1 & Ep1).
  { rewrite L8. pose proof (adv_ge (adv (pos + 1) 8) (length b)). lia. }
  unfold lenN in R1 at 1. rewrite L8 in R1, Hb2, Ep1. change (N.of_nat 8) with 8 in R1.
  assert (Hgoal : (let* r := read_skip f (pos + 1) 8 in
     let '(info, p1) := r in
     let* l := getb 0 4 info in
     let* c := getb 4 4 info in
     let chunk_len := unbe l in
     let c0 := unbe c in
     if Bool.eqb (negb (MAX =? 0)) (negb (N.land chunk_len HIGH =? 0)) then Err E_CORRUPT
     else
       let len := N.ldiff chunk_len HIGH in
       if negb (MAX =? 0) && ((len <? 4) || (MAX <? len)) then Err E_CORRUPT
       else
         let len0 := if MAX =? 0 then len else len - 4 in
         let* r2 := read_skip f p1 len0 in
         if integrity (crcm f) (fst r2) c0 then Ok (fst r2) else Err E_CHECKSUM) = Ok b).
  { rewrite R1. cbn [bind].
    rewrite getb_app0 by now rewrite lenN_be. cbn [bind].
    rewrite getb_app_end by now rewrite lenN_be. cbn [bind].
    rewrite (unbe_be_small 4) by (change (256 ^ N.of_nat 4) with 4294967296; lia).
    rewrite (unbe_be_small 4 (x := c)) by exact Hc.
    assert (H31 : lenN b + 4 < 2^31) by (change (2^31) with 2147483648; lia).
    rewrite land_high_low, ldiff_high_low by assumption.
    rewrite EM. change (0 =? 0) with true. cbn [negb Bool.eqb andb].
    cbv zeta.
    destruct (N.ltb_spec (lenN b + 4) 4); [lia|]. destruct (N.ltb_spec MAX (lenN b + 4)); [lia|]. cbn [orb].
    replace (lenN b + 4 - 4) with (lenN b) by lia.
    destruct (@read_skip_body f (adv (pos + 1) 8) _ Hb2) as (p2 & R2 & _); [lia|].
    rewrite (@read_skip_cong f p1 (adv (pos + 1) 8)) by exact Ep1. rewrite R2. cbn [bind fst]. now rewrite Hint. }
  rewrite EM in Hgoal. destruct (fkey f) as [k|]; destruct MAX as [|mp]; try discriminate EM; rewrite ?EM; exact Hgoal.
Qed.

Lemma hdr_at_read f m pos b e :
  hdr_at (cur f) m pos b e -> e <= size f -> crcm f = m \/ crcm f = CRC_UNKNOWN ->
  pread_header f pos MAX_DB_HEADER_SIZE = Ok b.
Proof.
  intros H Hs Hm. eapply hdr_at_read_max; eauto. unfold MAX_DB_HEADER_SIZE. destruct H as (H & _). lia.
Qed.

Lemma integrity_unknown m b c : get_checksum m b = Ok c -> integrity CRC_UNKNOWN b c = true.
Proof. destruct m; cbn; intros H; inv H; rewrite N.eqb_refl; auto using orb_true_r. Qed.

Lemma write_header_spec f b t r f' : good f -> write_header f b t = (r, f') ->
  ext (align (fpos f)) (Tval t) f f' /\ fpos f <= fpos f' <= size f' /\
  (forall p, r = Ok p -> p = align (fpos f) /\ (lenN b <= 1020 -> hdr_at (cur f') (crcm f) p b (fpos f')) /\
     fpos f' = adv (p + 9) (length b) /\ cur f' p = t /\
     (forall i, fpos f' <= i -> cur f' i = cur f i) /\ size f' <= N.max (size f) (fpos f')) /\
  (forall e, r = Err e -> fpos f' = fpos f).
Proof.
  intros [W G]. unfold write_header. destruct (get_checksum (crcm f) b) as [c|e] eqn:Ec.
  2:{ intros H; inv H. split; [now apply ext_refl|]. split; [lia|]. split; [discriminate|auto]. }
  pose proof (integrity_unknown _ _ Ec) as Hu. apply (checksum_ok EO) in Ec. destruct Ec as [Hc Hi].
  set (wp := align (fpos f)). set (hd := t :: be 4 ((lenN b + 4) mod 2^32) ++ be 4 c).
  assert (Hwp : fpos f <= wp) by apply align_ge. assert (Hmod : wp mod BLOCK = 0) by apply align_mod.
  assert (Lhd : lenN hd = 9) by (unfold hd; rewrite lenN_cons, lenN_app, !lenN_be; reflexivity).
  destruct (write_all f wp hd) as [[u|e] f1] eqn:Ew; pose proof (write_all_ext W Ew) as X;
    (assert (X' : ext wp (Tval t) f f1)
      by (constructor; [apply (ex_cur X)|apply (ex_vals X)|
              intros q Hq Hm; destruct (ex_bcur X Hq Hm) as [?|[Hr Hv]]; [auto|];
                rewrite Lhd in Hr; assert (q = wp) by (rewrite BLOCK_val in *; lia); subst q; rewrite N.sub_diag in Hv; now right|
              intros q v Hq Hm Hv0; destruct (ex_bvals X v Hq Hm Hv0) as [?|[Hr Hv]]; [auto|];
                rewrite Lhd in Hr; assert (q = wp) by (rewrite BLOCK_val in *; lia); subst q; rewrite N.sub_diag in Hv; now right|
              apply (ex_size X)|apply (ex_dsize X)|apply (ex_wf X)|apply (ex_lost X)|apply (ex_big X)|apply (ex_dead X)|apply (ex_crcm X)|apply (ex_fkey X)|apply (ex_settled X)])).
  2:{ intros H; inv H. split; [exact X'|]. pose proof (ex_size X). unfold write_all in Ew.
      rewrite (write_entire_fpos Ew). split; [lia|]. split; [discriminate|auto]. }
  destruct u. assert (Hne : hd <> []) by discriminate.
  pose proof (write_all_ok Hne Ew) as (Hcur1 & Hsz1 & Hp1). rewrite Lhd in Hsz1.
  destruct (raw_write t f1 (wp + 9) b) as [[e2|e] f2] eqn:Ew2; pose proof (raw_write_ext (ex_wf X) Ew2) as X2;
    pose proof (raw_write_fpos Ew2) as P2; pose proof (ex_size X2) as S2;
    (assert (X12 : ext wp (Tval t) f f2)
       by (eapply ext_trans; [exact X'|]; eapply ext_weaken; [exact X2|lia|auto])).
  2:{ intros H; inv H. split; [exact X12|]. split; [pose proof (ex_size X'); lia|]. split; [discriminate|congruence]. }
  pose proof (raw_write_ok (ex_wf X) Ew2) as (He2 & Hb2 & Hz2 & Hp2 & Hbl2 & Hout2 & Hsz2).
  pose proof (adv_ge (wp + 9) (length b)) as Hge.
  assert (Hz3 : e2 <= size f2).
  { destruct b as [|x b']; [|apply Hz2; discriminate]. cbn in He2. lia. }
  intros H; inv H. split; [|split; [|split; [|discriminate]]].
  - eapply ext_trans; [exact X12|]. apply set_fpos_ext. exact (ex_wf X12).
  - cbn [fpos set_fpos size]. lia.
  - intros p Hp. inv Hp. split; [reflexivity|]. fold wp. cbn [fpos set_fpos size cur].
    split; [|split; [reflexivity|split; [|split]]].
    + intros H1020. unfold hdr_at. split; [exact H1020|]. split; [exact Hmod|]. exists c. split; [exact Hc|].
      split; [exact Hi|]. split; [exact Hu|].
      assert (Eadv : adv (wp + 1) 8 = wp + 9).
      { rewrite (@adv_in_block (wp + 1) 8); rewrite BLOCK_val in *; lia. }
      split.
      * rewrite app_assoc. apply body_at_app. rewrite app_length, !be_length. change (4 + 4)%nat with 8%nat.
        rewrite Eadv. split; [|exact Hb2].
        apply body_at_in_block; [rewrite BLOCK_val in *; lia|rewrite lenN_app, !lenN_be; rewrite BLOCK_val in *; lia|].
        intros k Hk. rewrite lenN_app, !lenN_be in Hk. change (N.of_nat 4) with 4 in Hk.
        rewrite (ex_cur X2) by lia. rewrite Hcur1. unfold overlay. rewrite Lhd.
        rewrite (proj2 (inr_spec wp 9 (wp + 1 + k))) by lia. unfold hd.
        replace (N.to_nat (wp + 1 + k - wp)) with (S (N.to_nat k)) by lia. cbn [nth].
        rewrite N.mod_small by (change (2^32) with 4294967296; lia). reflexivity.
      * change (8 + length b)%nat with (8 + length b)%nat. rewrite adv_add, Eadv. lia.
    + rewrite (ex_cur X2) by lia. rewrite Hcur1. unfold overlay. rewrite Lhd.
      rewrite (proj2 (inr_spec wp 9 wp)) by lia. rewrite N.sub_diag. reflexivity.
    + intros i Hi'. rewrite Hout2 by assumption. rewrite Hcur1. unfold overlay. rewrite Lhd.
      rewrite (proj2 (inr_false wp 9 i)) by lia. reflexivity.
    + lia.
Qed.

Lemma write_header_settled f b t p f' : wf f -> write_header f b t = (Ok p, f') -> lost f' = false -> settled f' p.
Proof.
  intros W. unfold write_header. destruct (get_checksum (crcm f) b) as [c|e]; [|discriminate].
  set (hd := t :: _).
  assert (Lhd : lenN hd = 9) by (unfold hd; rewrite lenN_cons, lenN_app, !lenN_be; reflexivity).
  destruct (write_all f (align (fpos f)) hd) as [[u|e] f1] eqn:Ew; [|discriminate]. destruct u.
  pose proof (write_all_ext W Ew) as X.
  destruct (raw_write t f1 (align (fpos f) + 9) b) as [[e2|e] f2] eqn:Ew2; [|discriminate].
  pose proof (raw_write_ext (ex_wf X) Ew2) as X2.
  intros H Hl. inv H. cbn in Hl.
  assert (S : settled f2 (align (fpos f))).
  { apply (ex_settled X2); [lia|exact Hl|]. eapply (@write_all_settled f _ hd); [exact W| |exact Ew|apply (ex_lost X2 Hl)].
    rewrite Lhd. lia. }
  exact S.
Qed.

Lemma write_header_succeeds f b t : plan f = [] -> dead f = false -> crcm f <> CRC_UNKNOWN ->
  exists p f', write_header f b t = (Ok p, f') /\ plan f' = [] /\ dead f' = false.
Proof.
  intros Hp Hd Hm. unfold write_header. destruct (get_checksum (crcm f) b) as [c|e] eqn:Ec.
  2:{ destruct (crcm f); cbn in Ec; try discriminate; congruence. }
  destruct (@write_all_succeeds f (align (fpos f)) (t :: be 4 ((lenN b + 4) mod 2^32) ++ be 4 c) Hp Hd)
    as (f1 & -> & Hp1 & Hd1).
  destruct (@raw_write_succeeds t f1 (align (fpos f) + 9) b Hp1 Hd1) as (e & f2 & -> & Hp2 & Hd2).
  do 2 eexists. split; [reflexivity|]. auto.
Qed.
End WithEnv.
