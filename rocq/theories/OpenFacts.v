(** Opening after a crash, creating a file, and the invariant for all reachable states. *)
From Verif Require Import Base Codec CodecFacts File FileFacts ChunkFacts Header HeaderFacts History CrashFacts.
Local Open Scope N_scope.

Section WithEnv.
Context {E : Env} (EO : EnvOk E).
Variable key : option keyinfo.
Variable getkey : N -> bytes -> bytes -> res N.
Hypothesis KO : key_ok key getkey.

(** ** Reading from an image *)

Lemma pread1 f pos : pos < size f -> pread f pos 1 = [cur f pos].
Proof.
  intros H. unfold pread. replace (N.min 1 (size f - pos)) with 1 by lia. reflexivity.
Qed.

Lemma parse_short_app (b r : bytes) : lenN b <= 255 -> parse_short_string (be 1 (lenN b) ++ b ++ r) = Some (b, r).
Proof.
  intros H. assert (E1 : be 1 (lenN b) = [lenN b]).
  { cbn. rewrite N.mod_small by lia. reflexivity. }
  rewrite E1. cbn [app parse_short_string]. rewrite lenN_app.
  destruct (N.ltb_spec (lenN b + lenN r) (lenN b)); [lia|].
  rewrite take_app_exact, drop_app_exact by reflexivity. reflexivity.
Qed.

Lemma parse_encode_metadata k : ki_version k <= 1 -> lenN (ki_id k) <= 255 -> lenN (ki_ctx k) <= 255 ->
  parse_metadata (encode_metadata k) = Ok (ki_version k, ki_id k, ki_ctx k).
Proof.
  intros H1 H2 H3. unfold encode_metadata. cbn [app parse_metadata].
  destruct (N.ltb_spec 1 (ki_version k)); [lia|].
  rewrite parse_short_app by exact H2.
  rewrite <- (app_nil_r (ki_ctx k)) at 2. now rewrite parse_short_app by exact H3.
Qed.

(** The header of a commit that is completely on the medium is found in every crash image. *)
Lemma hdr_image f c g gsz : cw key f c -> stable f (hend c) -> crash_image f g gsz ->
  hdr_at g (crcm f) (cpos c) (encode_header (c_hdr c)) (hend c) /\ hend c <= gsz /\
  (forall i, i < hend c -> i mod BLOCK <> 0 -> g i = cur f i).
Proof.
  intros C [S1 S2] (G1 & G2 & G3).
  assert (Eg : forall i, i < hend c -> i mod BLOCK <> 0 -> g i = cur f i).
  { intros i Hi Hm. apply S2; auto. apply G2. lia. }
  split; [|split; [lia|exact Eg]]. eapply hdr_at_mono; [apply (cw_hdr C)|exact Eg|lia].
Qed.

Lemma find_at_commit f c g gsz f0 h : cw key f c -> stable f (hend c) -> crash_image f g gsz ->
  cur f0 = g -> size f0 = gsz -> crcm f0 = CRC_UNKNOWN \/ crcm f0 = crcm f -> g (cpos c) = 1 ->
  find_header_at_pos f0 h (cpos c) = (Ok tt, strip (c_hdr c)).
Proof.
  intros C S G Hc Hz Hm H1. destruct (hdr_image C S G) as (A1 & A2 & A3).
  pose proof (hend_pos c). unfold find_header_at_pos. rewrite pread1 by lia. rewrite Hc, H1.
  change ((1 =? B_DATA) || (1 =? B_META)) with false. change (negb (1 =? B_HEADER)) with false. cbv iota.
  erewrite hdr_at_read; [|rewrite Hc; exact A1|lia|destruct Hm; auto].
  apply parse_encode. apply (cw_fits C).
Qed.

(** ** The scan *)

Lemma find_loop s B c0 g gsz f0 skip : inv key B s -> s_ack s = Some c0 -> crash_image (dbf (s_db s)) g gsz ->
  cur f0 = g -> size f0 = gsz -> crcm f0 = CRC_UNKNOWN ->
  forall n h last, B <= N.of_nat n * BLOCK -> N.of_nat n * BLOCK < gsz ->
  exists c, (c = c0 \/ In c (s_pend s)) /\ find_header_loop f0 h n skip last = (Ok tt, strip (c_hdr c)) /\
    cw key (dbf (s_db s)) c /\ stable (dbf (s_db s)) (hend c) /\ g (cpos c) = 1 /\ cpos c <= N.of_nat n * BLOCK /\
    (forall q, q mod BLOCK = 0 -> cpos c < q <= N.of_nat n * BLOCK -> g q <> 1).
Proof.
  intros I Ha G Hc Hz Hm.
  assert (Hack : acked s = true) by (unfold acked; now rewrite Ha).
  destruct (i_ackB I Ha) as [HB HS].
  assert (C0 : cw key (dbf (s_db s)) c0) by (apply (i_cw I); unfold live; rewrite Ha; now left).
  assert (V0 : forall v, In v (vals (dbf (s_db s)) B) -> v = 1).
  { rewrite HB. intros v Hv. destruct (i_chain1 I c0) as (_ & _ & A); [rewrite Ha; now left|]. now apply A. }
  induction n as [|n IH]; intros h last HBn Hn.
  - assert (B0 : B = 0) by lia. exists c0. subst B.
    assert (g0 : g (cpos c0) = 1) by (apply V0; apply G; rewrite BLOCK_val in Hn; lia).
    split; [now left|]. split; [|split; [exact C0|split; [exact HS|split; [exact g0|]]]].
    + cbn [find_header_loop]. change (N.of_nat 0 * BLOCK) with 0. rewrite <- B0 at 1.
      rewrite (find_at_commit f0 h C0 HS G Hc Hz (or_introl Hm) g0). reflexivity.
    + split; [lia|]. intros q Hq. lia.
  - set (q := N.of_nat (S n) * BLOCK) in *.
    assert (Hqm : q mod BLOCK = 0) by (unfold q; rewrite BLOCK_val in *; lia).
    assert (Hv : In (g q) (vals (dbf (s_db s)) q)) by (apply G; exact Hn).
    destruct (N.eq_dec q B) as [EB|NB].
    + exists c0.
      assert (g0 : g (cpos c0) = 1) by (rewrite <- HB, <- EB; apply V0; now rewrite <- EB).
      split; [now left|]. split; [|split; [exact C0|split; [exact HS|split; [exact g0|]]]].
      * cbn [find_header_loop]. fold q. rewrite EB, HB.
        rewrite (find_at_commit f0 h C0 HS G Hc Hz (or_introl Hm) g0). reflexivity.
      * split; [lia|]. intros q'. lia.
    + destruct (i_blocks I q _ Hqm Hv) as [V|[[V V']|(V & c & C1 & C2 & C3 & C4 & C5)]].
      * destruct (IH h last) as (c & A1 & A2 & A3 & A4 & A5 & A6 & A7).
        { pose proof (i_B I) as [_ HBm]. clear HB. unfold q in *. rewrite BLOCK_val in *. lia. }
        { unfold q in *. rewrite BLOCK_val in *. lia. }
        exists c. split; [exact A1|]. split; [|split; [exact A3|split; [exact A4|split; [exact A5|]]]].
        -- cbn [find_header_loop]. fold q. unfold find_header_at_pos. rewrite pread1 by (rewrite Hz; exact Hn).
           rewrite Hc, V. cbn [orb N.eqb B_DATA]. exact A2.
        -- split; [unfold q; rewrite BLOCK_val in *; lia|]. intros q' Hq' Hr.
           destruct (N.eq_dec q' q) as [->|Ne]; [rewrite V; discriminate|].
           apply A7; [exact Hq'|]. split; [lia|]. unfold q in *. rewrite BLOCK_val in *. lia.
      * unfold q in V'. rewrite BLOCK_val in V'. lia.
      * assert (HBq : B < q) by lia. subst q. rewrite <- C2 in *.
        exists c. split; [right; auto|]. split; [|split; [exact C3|split; [auto|split; [exact V|]]]].
        -- cbn [find_header_loop]. rewrite <- C2.
           rewrite (find_at_commit f0 h C3 (C4 (or_introl Hack)) G Hc Hz (or_introl Hm) V). reflexivity.
        -- split; [lia|]. intros q'. lia.
Qed.

(** The file of a handle opened on an image. *)
Definition opened (f : file) (g : N -> N) (gsz : N) (pl : list wstep) : file :=
  File g gsz (fun i => [g i]) (fun _ => false) gsz false false false false pl gsz (crcm f) (fkey f).

Lemma open_image B s c0 g gsz pl recovery : inv key B s -> s_ack s = Some c0 -> crash_image (dbf (s_db s)) g gsz ->
  exists c, (c = c0 \/ In c (s_pend s)) /\
    open_existing (image g gsz pl) getkey recovery false = Ok (Db (opened (dbf (s_db s)) g gsz pl) (strip (c_hdr c)) false) /\
    cw key (dbf (s_db s)) c /\ stable (dbf (s_db s)) (hend c) /\ g (cpos c) = 1 /\
    (forall q, q mod BLOCK = 0 -> cpos c < q < gsz -> g q <> 1).
Proof.
  intros I Ha G. set (f := dbf (s_db s)) in *.
  destruct (i_ackB I Ha) as [HB HS]. fold f in HS.
  assert (Hack : acked s = true) by (unfold acked; now rewrite Ha).
  assert (C0 : cw key f c0) by (apply (i_cw I); unfold live; rewrite Ha; now left).
  pose proof (hend_pos c0) as Hep. assert (Hg : hend c0 <= gsz) by (destruct HS; destruct G; lia).
  set (f0 := set_fpos (set_fkey (set_crcm (image g gsz pl) CRC_UNKNOWN) None) gsz).
  set (n := N.to_nat (Z.to_N (Z.of_N gsz - 2) / BLOCK)).
  assert (Hn : N.of_nat n * BLOCK <= gsz - 2 /\ gsz - 2 < N.of_nat n * BLOCK + BLOCK).
  { unfold n. rewrite N2Nat.id. replace (Z.to_N (Z.of_N gsz - 2)) with (gsz - 2) by lia. rewrite BLOCK_val. lia. }
  pose proof (i_B I) as [_ HBm].
  destruct (@find_loop s B c0 g gsz f0 recovery I Ha G eq_refl eq_refl eq_refl n header0 E_NO_HEADER)
    as (c & A1 & A2 & A3 & A4 & A5 & A6 & A7).
  { rewrite <- HB in Hep. rewrite BLOCK_val in *. lia. }
  { lia. }
  exists c. split; [exact A1|]. split; [|split; [exact A3|split; [exact A4|split; [exact A5|]]]].
  - unfold open_existing. change (size (image g gsz pl)) with gsz. fold f0. unfold find_header.
    destruct (Z.ltb_spec (Z.of_N gsz - 2) 0); [lia|]. fold n. rewrite A2.
    assert (Em : (if h_version (strip (c_hdr c)) <=? 11 then CRC32 else CRC32C) = crcm f).
    { pose proof (cw_mode A3) as M. fold f in M. rewrite M. reflexivity. }
    rewrite Em. rewrite andb_false_l. cbv iota.
    change (h_meta (strip (c_hdr c))) with (h_meta (c_hdr c)).
    pose proof (cw_meta A3) as Mt. pose proof (i_meta I) as MI. fold f in MI. unfold meta_inv in MI. unfold key_ok in KO.
    pose proof (hf_prev0 (cw_fits A3)) as Hp0.
    destruct key as [ki|]; rewrite Mt.
    + destruct MI as (M1 & M2 & M3 & M4 & M5 & M6 & M7 & M8). destruct (M8 Hack) as [[S1 S2] V0].
      destruct KO as (K1 & K2 & K3 & K4).
      assert (Hv : h_version (strip (c_hdr c)) = 14).
      { change (h_version (strip (c_hdr c))) with (h_version (c_hdr c)).
        destruct (hf_version (cw_fits A3)) as [V|[V|[V|V]]]; [| | |exact V]; exfalso;
        (destruct Hp0 as [_ Hp0]; [lia|congruence]). }
      unfold read_encryption_key. change (fkey (set_crcm f0 (crcm f))) with (@None N). cbv iota.
      rewrite Hv. change (14 <? 14) with false. cbv iota.
      change (h_meta (strip (c_hdr c))) with (h_meta (c_hdr c)). rewrite Mt. cbv [negb]. cbv iota.
      assert (Em0 : meta_end ki <= gsz) by (destruct G; lia).
      assert (Hm9 : 9 <= meta_end ki).
      { unfold meta_end. pose proof (adv_ge 1 (8 + length (encode_metadata ki))). lia. }
      unfold read_metadata_header. rewrite pread1 by (cbn; lia).
      change (cur (set_crcm f0 (crcm f)) 0) with (g 0).
      assert (g0 : g 0 = 2) by (apply V0, G; lia). rewrite g0. change (negb (2 =? B_META)) with false. cbv iota.
      assert (Hr : pread_header (set_crcm f0 (crcm f)) 0 BLOCK = Ok (encode_metadata ki)).
      { eapply hdr_at_read_max with (m := crcm f) (e := meta_end ki).
        - eapply hdr_at_mono; [exact M4| |lia]. intros i Hi Hm. apply S2; auto. apply G. lia.
        - exact Em0.
        - left. reflexivity.
        - destruct M4 as (M4 & _). rewrite BLOCK_val. lia. }
      rewrite Hr. cbn [bind]. rewrite parse_encode_metadata by assumption.
      destruct (ki_id ki) as [|x l] eqn:Eid; [exfalso; apply M3; reflexivity|].
      rewrite K4. cbn [bind]. unfold opened. rewrite M1. reflexivity.
    + unfold opened. rewrite MI. reflexivity.
  - intros q Hq Hr. destruct (N.le_gt_cases q (N.of_nat n * BLOCK)) as [L|L]; [apply A7; [exact Hq|lia]|].
    intros H1. assert (Hv : In (g q) (vals f q)) by (apply G; lia).
    destruct (i_blocks I q _ Hq Hv) as [V|[[V V']|(V & x & C1 & C2 & C3 & C4 & C5)]]; [congruence|lia|].
    destruct (C4 (or_introl Hack)) as [S1 _]. pose proof (hend_pos x). fold f in S1. destruct G. rewrite BLOCK_val in *. lia.
Qed.

Lemma opened_wf f g gsz pl : (forall i, gsz <= i -> g i = 0) -> wf (opened f g gsz pl).
Proof.
  intros H. constructor; cbn.
  - auto.
  - lia.
  - intros i v Hi [<-|[]]. now apply H.
  - intros _ i _ _ v [<-|[]]. reflexivity.
  - reflexivity.
Qed.

Lemma chain_hend f cs c : chain_ok f (c :: cs) -> forall x, In x cs -> hend x <= cpos c.
Proof.
  revert c. induction cs as [|y cs IH]; intros c; [intros _ x []|]. cbn [chain_ok link_ok].
  intros [(H1 & H2 & H3) H4] x [<-|Hx]; [exact H2|]. pose proof (IH y H4 x Hx). lia.
Qed.

Lemma strip_root_size r : root_size (strip_root r) = root_size r.
Proof. destruct r; reflexivity. Qed.
Lemma strip_root_fits r p : root_fits r p -> root_fits (strip_root r) p.
Proof. destruct r; auto. Qed.

(** Opening an image keeps the invariant; [c] is the header that was found. *)
Lemma inv_reopened B s c0 c g gsz pl old' : inv key B s -> s_ack s = Some c0 -> crash_image (dbf (s_db s)) g gsz ->
  (c = c0 /\ old' = s_old s) \/ (In c (s_pend s) /\ old' = c0 :: s_old s) ->
  cw key (dbf (s_db s)) c -> stable (dbf (s_db s)) (hend c) -> g (cpos c) = 1 ->
  (forall q, q mod BLOCK = 0 -> cpos c < q < gsz -> g q <> 1) ->
  inv key (cpos c) (State (Db (opened (dbf (s_db s)) g gsz pl) (strip (c_hdr c)) false) (c_log c) (Some c) old' [] (s_fail s)).
Proof.
  intros I Ha G Hc C S g1 Hmax. set (f := dbf (s_db s)) in *. set (f' := opened f g gsz pl).
  destruct (hdr_image C S G) as (A1 & A2 & A3).
  assert (Hack : acked s = true) by (unfold acked; now rewrite Ha).
  pose proof (hend_pos c) as Hep. pose proof (cw_fits C) as F.
  assert (Hch : chain_ok f (c :: old') /\ (forall x, In x old' -> In x (opt_list (s_ack s) ++ s_old s)) /\
                (forall x, In x (opt_list (s_ack s) ++ s_old s) -> x = c \/ In x old') /\
                (forall x, In x old' -> cpos x < cpos c) /\ In c (all_coms s) /\ (h_version (c_hdr c) = h_version (dbh (s_db s)))).
  { pose proof (i_chain I) as CH. fold f in CH. rewrite Ha in *. cbn [opt_list app] in *.
    assert (Hdec : forall cs x, chain_ok f (x :: cs) -> forall y, In y cs -> cpos y < cpos x).
    { clear. induction cs as [|z cs IH]; intros x; [intros _ y []|]. cbn [chain_ok link_ok].
      intros [(H1 & H2 & H3) H4] y [<-|Hy]; [exact H1|]. pose proof (IH z H4 y Hy). lia. }
    destruct Hc as [[-> ->]|[Hc ->]].
    - refine (conj CH (conj _ (conj _ (conj _ (conj _ _))))).
      + intros x Hx. now right. + intros x [<-|Hx]; auto. + now apply Hdec.
      + unfold all_coms. rewrite Ha. now left.
      + apply (i_ver I). unfold all_coms. rewrite Ha. now left.
    - assert (CH2 : chain_ok f (c :: c0 :: s_old s)).
      { split; [|exact CH]. pose proof (i_plink I c Hc) as P. rewrite Ha in P. exact P. }
      assert (Hin : In c (all_coms s)) by (unfold all_coms; rewrite !in_app_iff; right; right; now apply (i_pend I)).
      refine (conj CH2 (conj _ (conj _ (conj _ (conj Hin _))))).
      + auto. + intros x Hx. now right. + now apply Hdec. + now apply (i_ver I). }
  destruct Hch as (CH & O1 & O2 & O3 & Hall & Hver).
  assert (Eg : forall i, i < hend c -> i mod BLOCK <> 0 -> cur f' i = cur f i) by exact A3.
  assert (CM : forall x, cw key f x -> stable f (hend x) -> cw key f' x).
  { intros x Cx Sx. destruct (hdr_image Cx Sx G) as (X1 & X2 & X3). apply cw_mono with (f := f); auto. }
  assert (Hsame : forall x, In x old' -> cw key f x /\ stable f (hend x)).
  { intros x Hx. pose proof (@chain_hend f old' c CH x Hx) as Hh. split.
    - apply (i_cw I). unfold live. rewrite app_assoc. apply in_or_app. left. auto.
    - destruct S as [S1 S2]. split; [lia|]. intros i Hi. apply S2. lia. }
  assert (G0 : cur f 0 <> 1 -> g 0 <> 1).
  { intros H0 H1. apply (i_zero I H0). fold f. rewrite <- H1. apply G. lia. }
  assert (LK : forall x cs, link_ok f x cs -> link_ok f' x cs).
  { intros x [|y cs]; cbn [link_ok]; auto. intros H Hv. destruct (H Hv) as [?|(? & ? & ?)]; auto. }
  assert (CHK : forall cs, chain_ok f cs -> chain_ok f' cs).
  { induction cs as [|x cs IH]; cbn [chain_ok]; auto. intros [? ?]; auto. }
  assert (Hallin : forall x, In x (all_coms (State (Db f' (strip (c_hdr c)) false) (c_log c) (Some c) old' [] (s_fail s))) <->
                   In x (all_coms s)).
  { intros x. unfold all_coms in *. cbn [s_ack s_old s_fail opt_list]. rewrite !in_app_iff in *. cbn [In].
    split.
    - intros [[<-|[]]|[Hx|Hx]]; auto. apply O1 in Hx. rewrite in_app_iff in Hx. tauto.
    - intros Hx. specialize (O2 x). rewrite in_app_iff in O2.
      assert (D : x = c \/ In x old' \/ In x (s_fail s)) by tauto. destruct D as [->|D]; tauto. }
  constructor; cbn [s_db s_log s_ack s_old s_pend s_fail dbf dbh dropped]; unfold acked; cbn [s_ack].
  - split; [apply opened_wf, G|cbn; lia].
  - cbn. lia.
  - reflexivity.
  - assert (Hpos : cpos c <= fpos f') by (cbn; lia).
    constructor; cbn [strip set_roots h_version h_update_seq h_by_id h_by_seq h_local h_purge_seq h_purge_ptr h_position h_timestamp h_prev h_meta];
      rewrite ?strip_root_size; try (apply F).
    + pose proof (hf_pp F). lia.
    + apply strip_root_fits. eapply root_fits_mono; [exact Hpos|apply F].
    + apply strip_root_fits. eapply root_fits_mono; [exact Hpos|apply F].
    + apply strip_root_fits. eapply root_fits_mono; [exact Hpos|apply F].
    + pose proof (hf_len F) as L. rewrite lenN_encode_header in L by apply F. exact L.
    + exact Hpos.
    + exact (cw_mode C).
  - exact (cw_meta C).
  - pose proof (i_meta I) as MI. fold f in MI. unfold meta_inv in *. destruct key as [ki|]; [|exact MI].
    destruct MI as (M1 & M2 & M3 & M4 & M5 & M6 & M7 & M8). destruct (M8 Hack) as [[S1 S2] V0].
    assert (Em0 : meta_end ki <= gsz) by (destruct G; lia).
    assert (Hm9 : 9 <= meta_end ki).
    { unfold meta_end. pose proof (adv_ge 1 (8 + length (encode_metadata ki))). lia. }
    assert (Egm : forall i, i < meta_end ki -> i mod BLOCK <> 0 -> g i = cur f i).
    { intros i Hi Hm. apply S2; auto. apply G. lia. }
    assert (g0 : g 0 = 2) by (apply V0, G; lia).
    refine (conj M1 (conj M2 (conj M3 (conj _ (conj _ (conj g0 (conj _ _))))))).
    + eapply hdr_at_mono; [exact M4|exact Egm|lia].
    + exact Em0.
    + right. intros v [<-|[]]. reflexivity.
    + intros _. split; [split; [exact Em0|intros i Hi Hm v [<-|[]]; reflexivity]|]. intros v [<-|[]]. exact g0.
  - intros p b Hin. pose proof (cw_log (CM c C S) p b Hin) as H. unfold has.
    eapply chunk_at_mono; [exact H|auto|cbn; lia].
  - intros x Hx. unfold live in Hx. cbn [s_ack s_old s_pend opt_list] in Hx. rewrite !in_app_iff in Hx. cbn [In] in Hx.
    destruct Hx as [[<-|[]]|[Hx|[]]]; [now apply CM|]. destruct (Hsame x Hx). now apply CM.
  - intros x Hx. apply Hallin in Hx. cbn. rewrite Hver. now apply (i_ver I).
  - reflexivity.
  - cbn [opt_list app]. now apply CHK.
  - intros x Hx. cbn [opt_list app In] in Hx.
    assert (gx : g (cpos x) = 1).
    { destruct Hx as [<-|Hx]; [exact g1|]. destruct (i_chain1 I x) as (_ & _ & V); [now apply O1|].
      apply V; [exact Hack|]. apply G. pose proof (hend_pos x). pose proof (@chain_hend f old' c CH x Hx). lia. }
    split; [exact gx|]. split; [right; intros v [<-|[]]; reflexivity|]. intros _ v [<-|[]]. exact gx.
  - reflexivity.
  - cbn. split; [lia|apply A1].
  - intros x Hx. inv Hx. split; [reflexivity|]. split; [exact A2|]. intros i _ _ v [<-|[]]. reflexivity.
  - intros x Hx. cbn [opt_list app In] in Hx. destruct Hx as [<-|Hx]; [lia|]. apply O3 in Hx. lia.
  - intros q v Hq [<-|[]]. cbn [cur f' opened].
    destruct (N.lt_ge_cases q gsz) as [L|L]; [|left; now apply G].
    assert (Hv : In (g q) (vals f q)) by (apply G; lia).
    destruct (i_blocks I q _ Hq Hv) as [V|[V|(V & x & C1 & C2 & C3 & C4 & C5)]]; [auto|auto|].
    right; right. split; [exact V|]. exists x.
    specialize (C4 (or_introl Hack)). pose proof (CM x C3 C4) as CX.
    refine (conj _ (conj C2 (conj CX (conj _ _)))).
    + now apply Hallin.
    + intros _. split; [exact (cw_end CX)|]. intros i _ _ v [<-|[]]. reflexivity.
    + intros Hlt. exfalso. apply (Hmax q Hq); [lia|exact V].
  - intros x [].
  - intros x [].
  - intros x [].
  - constructor.
  - cbn. intros H0 [H1|[]]. auto.
Qed.

Lemma nodup_pos (l : list commit) a b : NoDup (map cpos l) -> In a l -> In b l -> cpos a = cpos b -> a = b.
Proof.
  induction l as [|x l IH]; [intros _ []|]. cbn [map]. intros H Ha Hb He. inversion H; subst.
  destruct Ha as [->|Ha], Hb as [->|Hb]; auto.
  - exfalso. apply H2. rewrite He. now apply in_map.
  - exfalso. apply H2. rewrite <- He. now apply in_map.
Qed.

Lemma inv_step B s s' : inv key B s -> step getkey s s' -> exists B', inv key B' s'.
Proof.
  intros I H. destruct H.
  - exists B. now apply (inv_write EO getkey KO).
  - exists B. now apply inv_set.
  - now apply (inv_commit EO getkey KO n I).
  - destruct (@open_image B s c g gsz pl recovery I H1 H) as (x & A1 & A2 & A3 & A4 & A5 & A6).
    rewrite A2 in H0. inv H0. cbn [dbh strip set_roots h_position] in H2.
    assert (x = c).
    { destruct A1 as [->|A1]; [reflexivity|]. apply (i_pendB I) in A1. destruct (i_ackB I H1) as [HB _].
      unfold cpos in *. lia. }
    subst x. exists (cpos c). apply (@inv_reopened B s c c); auto.
  - destruct (@open_image B s c0 g gsz pl recovery I H1 H) as (x & A1 & A2 & A3 & A4 & A5 & A6).
    rewrite A2 in H0. inv H0. cbn [dbh strip set_roots h_position] in H3.
    assert (x = c).
    { destruct A1 as [->|A1].
      - apply (i_pendB I) in H2. destruct (i_ackB I H1) as [HB _]. unfold cpos in *. lia.
      - eapply nodup_pos; [apply (i_nodup I)|exact A1|exact H2|]. symmetry. exact H3. }
    subst x. exists (cpos c). apply (@inv_reopened B s c0 c); auto.
Qed.

(** ** Creation *)

Lemma empty_good pl : good (empty_file pl).
Proof.
  split; [|cbn; lia]. constructor; cbn; auto; try lia.
Qed.

Lemma header_end_bound q n : q mod BLOCK = 0 -> N.of_nat n <= 1020 -> adv (q + 9) n = q + 9 + N.of_nat n.
Proof. intros Hq Hn. apply adv_in_block; rewrite BLOCK_val in *; lia. Qed.

(** The first header of a new file. *)
Lemma inv_create f1 q pl c f2 v :
  good f1 -> (fpos f1 = 0 /\ key = None \/ 9 <= fpos f1 < BLOCK /\ key <> None /\ v = 14) -> size f1 <= fpos f1 ->
  lost f2 = false -> meta_inv key f1 false ->
  crcm f1 = mode_of v -> (v = 11 \/ v = 12 \/ v = 13 \/ v = 14) ->
  c = Commit (Header v 0 None None None 0 0 q 0 (if v =? 14 then NO_PREV else UNKNOWN_PREV)
                (match key with Some _ => true | None => false end)) [] (empty_file pl) ->
  (forall i v, 0 < i -> i mod BLOCK = 0 -> In v (vals f1 i) -> v = 0) ->
  (forall v, In v (vals f1 0) -> v = 0 \/ v = 2) ->
  write_header f1 (encode_header (c_hdr c)) B_HEADER = (Ok q, f2) ->
  inv key q (State (Db f2 (c_hdr c) false) [] None [c] [] []).
Proof.
  intros G Hp0 Hs Hl Hmi Hm Hv Ec Hz Hz0 Hw.
  destruct (@write_header_spec _ EO _ _ _ _ _ G Hw) as (X & Hp & Hok & _).
  destruct (Hok q eq_refl) as (Hpq & Hhd & He1 & Hc1 & Hout & Hsz). clear Hok.
  pose proof (align_mod (fpos f1)) as Hqm. pose proof (align_ge (fpos f1)) as Hqa. rewrite <- Hpq in *.
  assert (Hq : cpos c = q) by (rewrite Ec; reflexivity).
  assert (Hlen : lenN (encode_header (c_hdr c)) <= 39).
  { rewrite lenN_encode_header; rewrite Ec; cbn [c_hdr h_version h_by_id h_by_seq h_local root_size]; [|tauto].
    unfold hsize. destruct Hv as [->|[->|[->| ->]]]; vm_compute; discriminate. }
  rewrite header_end_bound in He1 by (auto; unfold lenN in Hlen; lia). fold (lenN (encode_header (c_hdr c))) in He1.
  assert (HQ : hdr_at (cur f2) (crcm f1) q (encode_header (c_hdr c)) (fpos f2)) by (apply Hhd; lia).
  assert (Eend : hend c = fpos f2).
  { unfold hend. rewrite Hq. rewrite adv_in_block; unfold lenN in *; rewrite ?BLOCK_val in *; lia. }
  assert (Hq0 : key = None /\ q = 0 \/ key <> None /\ q = BLOCK /\ v = 14).
  { destruct Hp0 as [[Hp0 Hk]|(Hp0 & Hk & Hk')]; [left|right]; rewrite BLOCK_val in *; repeat split; auto; lia. }
  assert (Hf2 : fpos f2 < q + BLOCK) by (rewrite BLOCK_val; lia).
  assert (Fits : hdr_fits (c_hdr c) q).
  { rewrite Ec in *; cbn [c_hdr] in *. constructor; cbn [h_version h_update_seq h_by_id h_by_seq h_local h_purge_seq h_purge_ptr h_position h_timestamp h_prev h_meta root_fits]; auto; try (lazymatch goal with |- 0 < _ => reflexivity end).
    - split; [reflexivity|lia].
    - lia.
    - intros ->. reflexivity.
    - intros Hlt. assert (Hv14 : (v =? 14) = false) by (apply N.eqb_neq; lia). rewrite Hv14. split; [reflexivity|].
      destruct Hq0 as [[-> _]|(_ & _ & ?)]; [reflexivity|lia]. }
  assert (CW : cw key f2 c).
  { constructor.
    - rewrite Hq. exact Fits.
    - lia.
    - rewrite (ex_crcm X), Hq, Eend. exact HQ.
    - rewrite (ex_crcm X), Hm, Ec. reflexivity.
    - rewrite Ec. reflexivity.
    - rewrite Ec. intros p b [].
    - intros p b Hh. rewrite Ec in Hh. cbn [c_file] in Hh. apply has_pos in Hh. cbn in Hh. lia. }
  assert (Hset : settled f2 q) by (eapply write_header_settled; [apply G|exact Hw|exact Hl]).
  assert (Ev : h_version (c_hdr c) = v) by (rewrite Ec; reflexivity).
  assert (Hbl : forall i x, i mod BLOCK = 0 -> In x (vals f2 i) -> x = 0 \/ (x = 2 /\ i = 0) \/ (x = 1 /\ i = q)).
  { intros i x Hi Hx. destruct (N.lt_ge_cases i q) as [L|L].
    - assert (i = 0). { destruct Hq0 as [[_ ?]|(_ & ? & _)]; [lia|]. subst q. rewrite BLOCK_val in *. lia. }
      subst i. apply (ex_vals X) in Hx; [|exact L]. apply Hz0 in Hx. tauto.
    - destruct (N.eq_dec i q) as [->|Hne].
      + destruct (ex_bvals X x (N.le_refl q) Hqm Hx) as [Ho|Ho]; [|unfold Tval in Ho; tauto].
        destruct (N.eq_dec q 0) as [Z|Z]; [rewrite Z in Ho; apply Hz0 in Ho; tauto|].
        left. apply (Hz q); auto. lia.
      + left. apply (@wf_end _ (ex_wf X) i x); [|exact Hx]. rewrite BLOCK_val in *. lia. }
  constructor; cbn [s_db s_log s_ack s_old s_pend s_fail dbf dbh dropped]; unfold acked; cbn [s_ack opt_list app].
  - split; [exact (ex_wf X)|lia].
  - lia.
  - exact Hl.
  - rewrite Ec in *; cbn [c_hdr] in *. constructor; cbn [h_version h_update_seq h_by_id h_by_seq h_local h_purge_seq h_purge_ptr h_position h_timestamp h_prev h_meta root_fits root_size]; auto; try (lazymatch goal with |- 0 < _ => reflexivity end).
    + split; [reflexivity|lia].
    + unfold hsize. destruct Hv as [->|[->|[->| ->]]]; vm_compute; discriminate.
    + intros Hlt. destruct Hq0 as [[-> _]|(_ & _ & ?)]; [reflexivity|lia].
    + lia.
    + now rewrite (ex_crcm X).
  - rewrite Ec. reflexivity.
  - unfold meta_inv in *. destruct key as [ki|]; rewrite (ex_fkey X); [|exact Hmi].
    destruct Hmi as (M1 & M2 & M3 & M4 & M5 & M6 & M7 & M8). rewrite (ex_crcm X).
    assert (0 < q) by (destruct Hq0 as [[? _]|(_ & -> & _)]; [discriminate|rewrite BLOCK_val; lia]).
    refine (conj M1 (conj M2 (conj M3 (conj _ (conj _ (conj _ (conj _ _))))))).
    + eapply hdr_at_mono; [exact M4| |lia]. intros i Hi _. apply (ex_cur X). lia.
    + lia.
    + rewrite (ex_cur X) by lia. exact M6.
    + apply (ex_settled X); [lia|exact Hl|exact M7].
    + discriminate.
  - intros p b [].
  - intros x Hx. unfold live in Hx. cbn in Hx. destruct Hx as [<-|[]]. exact CW.
  - intros x Hx. unfold all_coms in Hx. cbn in Hx. destruct Hx as [<-|[]]. reflexivity.
  - reflexivity.
  - cbn [chain_ok link_ok]. split; [|exact I]. intros H14. left. rewrite Ec. cbn [c_hdr h_prev].
    rewrite Ev in H14. rewrite H14. reflexivity.
  - intros x [<-|[]]. rewrite Hq. split; [exact Hc1|]. split; [exact Hset|]. discriminate.
  - reflexivity.
  - split; [lia|exact Hqm].
  - discriminate.
  - intros x [<-|[]]. lia.
  - intros i x Hi Hx. destruct (Hbl i x Hi Hx) as [?|[?|[Hx1 Hx2]]]; [auto|auto|].
    right; right. split; [exact Hx1|]. exists c.
    refine (conj _ (conj _ (conj CW (conj _ _)))).
    + unfold all_coms. cbn. now left.
    + congruence.
    + intros [?|?]; [discriminate|lia].
    + intros ?. lia.
  - intros x [].
  - intros x [].
  - intros x [].
  - constructor.
  - intros H0 H1. destruct (Hbl 0 1 eq_refl H1) as [?|[[? _]|[_ Hq']]]; [discriminate|discriminate|].
    apply H0. rewrite Hq'. exact Hc1.
Qed.

Lemma lenN_encode_metadata ki : lenN (ki_id ki) <= 255 -> lenN (ki_ctx ki) <= 255 -> lenN (encode_metadata ki) <= 513.
Proof. intros. unfold encode_metadata. rewrite !lenN_app, !lenN_be, lenN_cons, lenN_nil. lia. Qed.

(** A new file without a first header. *)
Lemma inv_nocommit f2 v : good f2 -> 1 <= fpos f2 -> lost f2 = false -> meta_inv key f2 false ->
  crcm f2 = mode_of v -> (v = 11 \/ v = 14) -> (key <> None -> v = 14) ->
  (forall i x, i mod BLOCK = 0 -> In x (vals f2 i) -> x = 0 \/ (x = 2 /\ i = 0)) ->
  inv key 0 (State (Db f2 (Header v 0 None None None 0 0 0 0 NO_PREV (match key with Some _ => true | None => false end)) false)
               [] None [] [] []).
Proof.
  intros G P1 Hl Hmi Hm Hv Hk Hbl.
  assert (C01 : cur f2 0 <> 1).
  { intros H. destruct (Hbl 0 1 eq_refl) as [?|[? _]]; try discriminate. rewrite <- H. apply wf_cur, G. }
  constructor; cbn [s_db s_log s_ack s_old s_pend s_fail dbf dbh dropped]; unfold acked; cbn [s_ack opt_list app];
    auto; try (lazymatch goal with |- forall p b, In _ _ -> _ => intros p b Hin; destruct Hin | |- forall c, In c _ -> _ => intros x Hin; destruct Hin end).
  - constructor; cbn [h_version h_update_seq h_by_id h_by_seq h_local h_purge_seq h_purge_ptr h_position h_timestamp h_prev h_meta root_fits root_size]; auto; try (lazymatch goal with |- 0 < _ => reflexivity end).
    + tauto.
    + split; [reflexivity|lia].
    + unfold hsize. destruct Hv as [-> | ->]; vm_compute; discriminate.
    + intros Hlt. destruct key; [|reflexivity]. rewrite Hk in Hlt by discriminate. lia.
    + lia.
  - exact I.
  - split; [lia|reflexivity].
  - discriminate.
  - intros q x Hq Hx. destruct (Hbl q x Hq Hx); auto.
  - constructor.
  - intros _ H1. destruct (Hbl 0 1 eq_refl H1) as [?|[? _]]; discriminate.
Qed.

End WithEnv.

Section WithEnv.
Context {E : Env} (EO : EnvOk E).

(** db_write_header on the header of a new file. *)
Lemma db_write_header_new f v meta : v = 11 \/ v = 12 \/ v = 13 \/ v = 14 -> (v < 14 -> meta = false) ->
  let hd q := Header v 0 None None None 0 0 q 0 (if v =? 14 then NO_PREV else UNKNOWN_PREV) meta in
  db_write_header (Db f (Header v 0 None None None 0 0 0 0 NO_PREV meta) false) B_HEADER =
  match write_header f (encode_header (hd 0)) B_HEADER with
  | (Err e, f') => (Err e, Db f' (hd 0) false)
  | (Ok p, f') => (Ok tt, Db f' (hd p) false)
  end.
Proof. intros [->|[->|[->| ->]]] Hm; try rewrite Hm by reflexivity; reflexivity. Qed.

Lemma inv_init key getkey (KO : key_ok key getkey) pl legacy no_commit d : (key = None \/ legacy = false) ->
  open_new (empty_file pl) key legacy no_commit = (Ok tt, d) -> lost (dbf d) = false ->
  exists B, inv key B (State d [] None (if no_commit then [] else [Commit (dbh d) [] (empty_file pl)]) [] []).
Proof.
  intros Hkl H Hl. unfold open_new in H.
  set (f0 := set_fpos (set_fkey (set_crcm (empty_file pl) (if legacy then CRC32 else CRC32C)) None) 0) in *.
  assert (G0 : good f0).
  { split; [|cbn; lia]. unfold f0.
    apply (ex_wf (set_fpos_ext 0 (Tval 0) 0 (set_fkey_wf None (set_crcm_wf (if legacy then CRC32 else CRC32C) (proj1 (empty_good pl)))))). }
  assert (Z0 : forall i x, In x (vals f0 i) -> x = 0) by (intros i x [<-|[]]; reflexivity).
  unfold create_metadata_header in H. pose proof KO as KO2. unfold key_ok in KO2.
  destruct key as [ki|].
  - (* encrypted *)
    assert (legacy = false) by (destruct Hkl; [discriminate|auto]). subst legacy.
    destruct KO2 as (K1 & K2 & K3 & K4).
    destruct ((lenN (ki_id ki) =? 0) || (255 <? lenN (ki_id ki))) eqn:Eid; [discriminate|].
    apply orb_false_iff in Eid. destruct Eid as [Eid _]. apply N.eqb_neq in Eid.
    set (f1 := set_fkey f0 (Some (ki_key ki))) in *.
    assert (G1 : good f1) by (split; [apply set_fkey_wf, G0|cbn; lia]).
    destruct (write_header f1 (encode_metadata ki) B_META) as [[p|e] f2] eqn:Ew; [|discriminate].
    destruct (@write_header_spec _ EO _ _ _ _ _ G1 Ew) as (X & Hp & Hok & _).
    destruct (Hok p eq_refl) as (Hpq & Hhd & He1 & Hc1 & Hout & Hsz). clear Hok.
    change (align (fpos f1)) with 0 in *. subst p.
    pose proof (@lenN_encode_metadata ki K2 K3) as Hlen.
    rewrite header_end_bound in He1 by (try reflexivity; unfold lenN in Hlen; lia). fold (lenN (encode_metadata ki)) in He1.
    assert (Em : meta_end ki = fpos f2).
    { unfold meta_end. rewrite adv_in_block; unfold lenN in *; rewrite ?BLOCK_val in *; try lia; cbn; lia. }
    assert (Hl2 : lost f2 = false -> meta_inv (Some ki) f2 false).
    { intros L2. unfold meta_inv. rewrite (ex_fkey X), (ex_crcm X).
      refine (conj eq_refl (conj eq_refl (conj Eid (conj _ (conj _ (conj Hc1 (conj _ _))))))).
      - rewrite Em. apply Hhd. lia. - lia.
      - eapply write_header_settled; [apply G1|exact Ew|exact L2]. - discriminate. }
    assert (Hb2 : forall i x, i mod BLOCK = 0 -> In x (vals f2 i) -> x = 0 \/ (x = 2 /\ i = 0)).
    { intros i x Hi Hx. destruct (N.eq_dec i 0) as [->|Hne].
      - destruct (@ex_bvals _ _ _ _ X 0 x (N.le_refl 0) eq_refl Hx) as [Ho|Ho]; [left; now apply (Z0 0)|].
        right. auto.
      - left. apply (@wf_end _ (ex_wf X) i x); [|exact Hx]. cbn [size f1 set_fkey f0 set_fpos set_crcm empty_file] in Hsz.
        rewrite BLOCK_val in *. lia. }
    unfold create_header in H. rewrite (ex_crcm X) in H. cbn [crcm f1 set_fkey f0 set_fpos set_crcm] in H.
    destruct no_commit.
    + cbn [dbf dbh] in H. destruct (N.eqb_spec (fpos f2) 0); [lia|]. injection H as <-. exists 0.
      pose proof (@inv_nocommit E (Some ki) getkey KO f2 14) as IN. 
      apply IN; auto.
      * split; [exact (ex_wf X)|lia]. * lia. * now rewrite (ex_crcm X).
    + rewrite db_write_header_new in H by (auto; discriminate). cbv iota in H.
      destruct (write_header f2 _ B_HEADER) as [[p|e] f3] eqn:Ew2; [|discriminate].
      assert (Gf2 : good f2) by (split; [exact (ex_wf X)|lia]).
      destruct (@write_header_spec _ EO _ _ _ _ _ Gf2 Ew2) as (X2 & Hp2 & Hok2 & _).
      destruct (Hok2 p eq_refl) as (Hpq2 & _). 
      assert (Hf3 : (fpos f3 =? 0) = false) by (apply N.eqb_neq; lia). cbn [dbf dbh] in H. rewrite Hf3 in H. injection H as <-. cbn [dbf dbh] in *.
      exists (align (fpos f2)). rewrite Hpq2 in *.
      pose proof (@inv_create E EO (Some ki) getkey KO f2 (align (fpos f2)) pl (Commit (Header 14 0 None None None 0 0 (align (fpos f2)) 0 NO_PREV true) [] (empty_file pl)) f3 14) as IC.
       cbn [c_hdr] in IC. apply IC; auto.
      * right. split; [rewrite BLOCK_val; lia|]. split; [discriminate|reflexivity].
      * cbn [size f1 set_fkey f0 set_fpos set_crcm empty_file] in Hsz. lia.
      * apply Hl2. now apply (ex_lost X2).
      * now rewrite (ex_crcm X).
      * intros i x Hi Hm Hx. destruct (Hb2 i x Hm Hx) as [?|[_ ?]]; [auto|lia].
      * intros x Hx. destruct (Hb2 0 x eq_refl Hx) as [?|[? _]]; auto.
  - (* plain *)
    unfold create_header in H. cbn [crcm f0 set_fpos set_fkey set_crcm] in H.
    set (v := match (if legacy then CRC32 else CRC32C) with CRC32 => 11 | _ => 14 end) in *.
    assert (Hv : v = 11 \/ v = 14) by (destruct legacy; auto).
    assert (Hv4 : v = 11 \/ v = 12 \/ v = 13 \/ v = 14) by tauto.
    assert (Hm : crcm f0 = mode_of v) by (destruct legacy; reflexivity).
    destruct no_commit.
    + cbn [dbf dbh] in H. change (fpos f0 =? 0) with true in H. cbv iota in H.
      unfold write_disk_block_type in H. destruct (pwrite f0 0 [B_DATA]) as [[m|e] f2] eqn:Ew; [|discriminate].
      injection H as <-. cbn [dbf] in *. exists 0.
      pose proof (pwrite_ext (proj1 G0) Ew) as X.
      assert (Hne : [B_DATA] <> []) by discriminate.
      destruct (pwrite_ok Hne Ew) as (Hn1 & Hcur & Hsz & Hfp).
      rewrite lenN_cons, lenN_nil in Hn1.
      pose proof (@inv_nocommit E None getkey KO (set_fpos f2 1) v) as IN.  apply IN; auto.
      * split; [apply (ex_wf (set_fpos_ext 0 (Tval 0) 1 (ex_wf X)))|cbn [fpos size set_fpos]; lia].
      * cbn. lia.
      * cbn. exact (ex_fkey X).
      * change (crcm (set_fpos f2 1)) with (crcm f2). rewrite (ex_crcm X). exact Hm.
      * congruence.
      * intros i x Hi Hx. cbn [vals set_fpos] in Hx. left.
        destruct (ex_bvals X x (N.le_0_l i) Hi Hx) as [Ho|[Ho1 Ho2]]; [now apply (Z0 i)|].
        rewrite lenN_cons, lenN_nil in Ho1. replace (i - 0) with 0 in Ho2 by lia. exact Ho2.
    + assert (Hw : exists f2, write_header f0 (encode_header (Header v 0 None None None 0 0 0 0 (if v =? 14 then NO_PREV else UNKNOWN_PREV) false)) B_HEADER = (Ok 0, f2) /\
                 d = Db f2 (Header v 0 None None None 0 0 0 0 (if v =? 14 then NO_PREV else UNKNOWN_PREV) false) false).
      { rewrite db_write_header_new in H by (auto; discriminate).
        (destruct (write_header f0 _ B_HEADER) as [[p|e] f3] eqn:Ew2; [|discriminate]);
        destruct (@write_header_spec _ EO _ _ _ _ _ G0 Ew2) as (X2 & Hp2 & Hok2 & _);
        destruct (Hok2 p eq_refl) as (Hpq2 & _ & Hfp & _); change (align (fpos f0)) with 0 in Hpq2; subst p;
        (assert (Hf3 : (fpos f3 =? 0) = false)
          by (apply N.eqb_neq; rewrite Hfp; match goal with |- adv ?a ?b <> 0 => pose proof (adv_ge a b) end; lia));
        cbn [dbf dbh] in H; rewrite Hf3 in H; injection H as <-; exists f3; (split; reflexivity). }
      destruct Hw as (f2 & Hw & ->). cbn [dbf dbh] in *. exists 0.
      pose proof (@inv_create E EO None getkey KO f0 0 pl (Commit (Header v 0 None None None 0 0 0 0 (if v =? 14 then NO_PREV else UNKNOWN_PREV) false) [] (empty_file pl)) f2 v) as IC.
       cbn [c_hdr] in IC. apply IC; auto.
      * cbn. lia.
      * reflexivity.
      * intros i x _ _ Hx. now apply (Z0 i).
      * intros x Hx. left. now apply (Z0 0).
Qed.

Lemma inv_init_old key getkey (KO : key_ok key getkey) pl v d : (v = 12 \/ v = 13) -> key = None ->
  db_write_header (Db (set_crcm (empty_file pl) CRC32C) (Header v 0 None None None 0 0 0 0 NO_PREV false) false) B_HEADER
    = (Ok tt, d) -> lost (dbf d) = false ->
  exists B, inv key B (State d [] None [Commit (dbh d) [] (empty_file pl)] [] []).
Proof.
  intros Hv -> H Hl. set (f0 := set_crcm (empty_file pl) CRC32C) in *.
  assert (Hv4 : v = 11 \/ v = 12 \/ v = 13 \/ v = 14) by tauto.
  assert (G0 : good f0) by (split; [apply set_crcm_wf, empty_good|cbn; lia]).
  assert (Z0 : forall i x, In x (vals f0 i) -> x = 0) by (intros i x [<-|[]]; reflexivity).
  rewrite db_write_header_new in H by auto.
  destruct (write_header f0 _ B_HEADER) as [[p|e] f2] eqn:Ew; [|discriminate].
  destruct (@write_header_spec _ EO _ _ _ _ _ G0 Ew) as (X2 & Hp2 & Hok2 & _).
  destruct (Hok2 p eq_refl) as (Hpq2 & _). change (align (fpos f0)) with 0 in Hpq2. subst p.
  injection H as <-. cbn [dbf dbh] in *. exists 0.
  pose proof (@inv_create E EO None getkey KO f0 0 pl (Commit (Header v 0 None None None 0 0 0 0 (if v =? 14 then NO_PREV else UNKNOWN_PREV) false) [] (empty_file pl)) f2 v) as IC.
  cbn [c_hdr] in IC. apply IC; auto.
  - cbn. lia.
  - reflexivity.
  - destruct Hv as [-> | ->]; reflexivity.
  - intros i x _ _ Hx. now apply (Z0 i).
  - intros x Hx. left. now apply (Z0 0).
Qed.

Theorem reach_inv key getkey (KO : key_ok key getkey) s : reach key getkey s -> exists B, inv key B s.
Proof.
  induction 1 as [pl legacy nc d Hk Ho Hl|pl v d Hv Hk Ho Hl|s s' Hr [B IH] Hs].
  2: now apply (@inv_init_old key getkey KO pl v d).
  - eapply inv_init; eauto.
  - eapply inv_step; eauto.
Qed.
End WithEnv.
