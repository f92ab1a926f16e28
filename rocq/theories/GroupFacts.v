(** Cleaning up a view group in its file: reading the header, cleaning up the indexes and writing the new header. *)
From Verif Require Import Base Codec CodecFacts File FileFacts ChunkFacts HeaderFacts Btree TreeStore SpecMap MergeFacts ModifyFacts SpecFile DataFacts SpecSession DbFacts SessionFacts SaveFacts ReadFacts Bitmap SpecUtil UtilFacts
  ViewCodec SpecView ViewFacts PropertiesView Reducers IndexHeader Cleanup SpecCleanup PurgeFacts CleanupFacts.
Local Open Scope N_scope.
Unset Strict Implicit.

Section Header.
Context {E : Env} (EO : EnvOk E).
(** A header of any size can be read again. *)
Lemma header_read_back f b t p f' MAX : good f -> write_header f b t = (Ok p, f') -> lenN b + 4 <= MAX -> MAX < 2^31 ->
  pread_header f' p MAX = Ok b /\ File.cur f' p = t /\ p < size f' /\ p + 9 + lenN b <= fpos f'.
Proof.
  intros [W G]. unfold write_header. destruct (get_checksum (crcm f) b) as [c|e] eqn:Ec; [|discriminate].
  apply (checksum_ok EO) in Ec. destruct Ec as [Hc Hi].
  set (wp := align (fpos f)). set (hd := t :: be 4 ((lenN b + 4) mod 2^32) ++ be 4 c).
  assert (Hwp : fpos f <= wp) by apply align_ge. assert (Hmod : wp mod BLOCK = 0) by apply align_mod.
  assert (Lhd : lenN hd = 9) by (unfold hd; rewrite lenN_cons, lenN_app, !lenN_be; reflexivity).
  destruct (write_all f wp hd) as [[u|e] f1] eqn:Ew; [|discriminate]. pose proof (write_all_ext W Ew) as X. destruct u.
  assert (Hne : hd <> []) by discriminate. pose proof (write_all_ok Hne Ew) as (Hcur1 & Hsz1 & Hp1). rewrite Lhd in Hsz1.
  destruct (raw_write t f1 (wp + 9) b) as [[e2|e] f2] eqn:Ew2; [|discriminate]. pose proof (raw_write_ext (ex_wf X) Ew2) as X2. pose proof (ex_size X2) as S2.
  pose proof (raw_write_ok (ex_wf X) Ew2) as (He2 & Hb2 & Hz2 & Hp2 & Hbl2 & Hout2 & Hsz2). pose proof (adv_ge (wp + 9) (length b)) as Hge.
  assert (Hz3 : e2 <= size f2). { destruct b as [|x b']; [|apply Hz2; discriminate]. cbn in He2. lia. }
  intros H Hlen HMAX. assert (p = wp) by congruence. assert (f' = set_fpos f2 e2) by congruence. subst p f'. clear H.
  assert (Hcp : File.cur f2 wp = t). { rewrite (ex_cur X2) by lia. rewrite Hcur1. unfold overlay. rewrite Lhd. rewrite (proj2 (inr_spec wp 9 wp)) by lia. rewrite N.sub_diag. reflexivity. }
  split; [|split; [exact Hcp|cbn [fpos set_fpos size]; unfold lenN; lia]].
  assert (Eadv : adv (wp + 1) 8 = wp + 9) by (rewrite (@adv_in_block (wp + 1) 8); rewrite BLOCK_val in *; lia).
  assert (Hb1 : body_at (File.cur f2) (wp + 1) (be 4 (lenN b + 4) ++ be 4 c)).
  { apply body_at_in_block; [rewrite BLOCK_val in *; lia|rewrite lenN_app, !lenN_be; rewrite BLOCK_val in *; lia|].
    intros k Hk. rewrite lenN_app, !lenN_be in Hk. change (N.of_nat 4) with 4 in Hk.
    rewrite (ex_cur X2) by lia. rewrite Hcur1. unfold overlay. rewrite Lhd.
    rewrite (proj2 (inr_spec wp 9 (wp + 1 + k))) by lia. unfold hd.
    replace (N.to_nat (wp + 1 + k - wp)) with (S (N.to_nat k)) by lia. cbn [nth].
    rewrite N.mod_small; [reflexivity|]. change (2^31) with 2147483648 in HMAX. change (2^32) with 4294967296. lia. }
  set (F := set_fpos f2 e2). assert (Hcr : crcm F = crcm f) by (unfold F; cbn [crcm set_fpos]; rewrite (ex_crcm X2); apply (ex_crcm X)).
  assert (HsF : size F = size f2) by reflexivity. change (File.cur f2) with (File.cur F) in Hb1, Hb2.
  assert (EM : (MAX =? 0) = false) by (apply N.eqb_neq; lia).
  assert (Hint : integrity (crcm F) b c = true) by (rewrite Hcr; exact Hi).
  assert (L8 : length (be 4 (lenN b + 4) ++ be 4 c) = 8%nat) by now rewrite app_length, !be_length.
  destruct (@read_skip_body F (wp + 1) _ Hb1) as (p1 & R1 & Ep1); [rewrite L8, Eadv, HsF; lia|].
  unfold lenN in R1 at 1. rewrite L8 in R1, Ep1. change (N.of_nat 8) with 8 in R1. rewrite Eadv in Ep1.
  clearbody F. unfold pread_header, pread_bin_internal. rewrite EM. cbv iota.
  assert (Hgoal : (let* r := read_skip F (wp + 1) 8 in
     let '(info, p1) := r in
     let* l := getb 0 4 info in
     let* c := getb 4 4 info in
     let chunk_len := unbe l in
     let c0 := unbe c in
     if Bool.eqb (negb (MAX =? 0)) (negb (N.land chunk_len HIGH =? 0)) then Err E_CORRUPT
     else
       let len := N.ldiff chunk_len HIGH in
       if negb (MAX =? 0) && ((len <? 4) || (MAX <? len)) then Err E_CORRUPT
       else
         let len0 := if MAX =? 0 then len else len - 4 in
         let* r2 := read_skip F p1 len0 in
         if integrity (crcm F) (fst r2) c0 then Ok (fst r2) else Err E_CHECKSUM) = Ok b).
  { rewrite R1. cbn [bind].
    rewrite getb_app0 by now rewrite lenN_be. cbn [bind].
    rewrite getb_app_end by now rewrite lenN_be. cbn [bind].
    assert (H31 : lenN b + 4 < 2^31) by lia. change (2^31) with 2147483648 in H31.
    rewrite (unbe_be_small 4) by (change (256 ^ N.of_nat 4) with 4294967296; lia).
    rewrite (unbe_be_small 4 (x := c)) by exact Hc. change 2147483648 with (2^31) in H31.
    rewrite land_high_low, ldiff_high_low by assumption.
    rewrite EM. change (0 =? 0) with true. cbn [negb Bool.eqb andb].
    cbv zeta.
    destruct (N.ltb_spec (lenN b + 4) 4); [lia|]. destruct (N.ltb_spec MAX (lenN b + 4)); [lia|]. cbn [orb].
    replace (lenN b + 4 - 4) with (lenN b) by lia.
    destruct (@read_skip_body F (wp + 9) _ Hb2) as (p2 & R2 & _); [rewrite HsF; lia|].
    rewrite (@read_skip_cong F p1 (wp + 9)) by exact Ep1. rewrite R2. cbn [bind fst]. now rewrite Hint. }
  rewrite EM in Hgoal. destruct (fkey F) as [k|]; destruct MAX as [|mp]; try discriminate EM; rewrite ?EM; exact Hgoal.
Qed.
End Header.

(** ** Roots in a header *)

(** A root as it is read from a header. *)
Definition stored_root (r : option node_pointer) : option node_pointer :=
  match r with Some p => Some (NodePointer [] (np_pointer p) (np_reduce p) (np_subtree p mod 2^48)) | None => None end.
Lemma enc_stored r : enc_state (stored_root r) = enc_state r.
Proof.
  destruct r as [p|]; [|reflexivity]. unfold enc_state, stored_root, encode_root. cbn [np_pointer np_reduce np_subtree]. change (2^48) with (256 ^ N.of_nat 6). rewrite be_mod. reflexivity.
Qed.
Lemma enc_stored_all l : enc_states (map stored_root l) = enc_states l.
Proof. induction l as [|r l IH]; [reflexivity|]. cbn [map enc_states]. now rewrite enc_stored, IH. Qed.
Lemma enc_fits r b : enc_state r = Ok b -> (forall p, r = Some p -> np_pointer p < 2^48) -> root_fits (stored_root r).
Proof.
  intros H Hp. destruct r as [p|]; [|exact I]. cbn [stored_root root_fits np_key np_pointer np_subtree np_reduce]. split; [reflexivity|]. split; [now apply Hp|]. split; [apply N.mod_lt; discriminate|].
  unfold enc_state in H. destruct (N.ltb_spec (lenN (encode_root (Some p))) (2^16)) as [Hl|]; [|discriminate H]. unfold encode_root in Hl. rewrite !lenN_app, !lenN_be in Hl. lia.
Qed.

Section Group.
Context {E : Env} (EO : EnvOk E).
Lemma index_stored f r l z : index f r l z -> index f (stored_root r) l z.
Proof. destruct r; exact (fun H => H). Qed.
Lemma made_stored rq record f r : made rq record f r -> made rq record f (stored_root r).
Proof. intros M. destruct r as [p|]; [|exact M]. apply (made_header M); try reflexivity. cbn [stored_root np_subtree]. now rewrite N.mod_mod. Qed.

Lemma with_stored_fits h mask id views x y : header_fits h -> lenN mask = 128 -> enc_state id = Ok x -> (forall p, id = Some p -> np_pointer p < 2^48) ->
  enc_states views = Ok y -> Forall (fun r => forall p, r = Some p -> np_pointer p < 2^48) views -> length views = length (ih_view_states h) ->
  header_fits (with_roots h mask (stored_root id) (map stored_root views)).
Proof.
  intros [V S P M Q I1 [I2 I3] L U W] Hm Hx Hid Hy Hv Hl. constructor; cbn [with_roots ih_version ih_signature ih_num_partitions ih_active ih_passive ih_cleanup ih_seqs ih_id_state ih_view_states ih_has_replica ih_replicas ih_pend_active ih_pend_passive ih_pend_unindexable ih_unindexable ih_versions]; auto.
  - destruct M as (M1 & M2 & _). auto.
  - exact (enc_fits Hx Hid).
  - split; [unfold lenN in *; rewrite map_length, Hl; exact I2|]. clear - Hy Hv. revert y Hy. induction views as [|r views IH]; intros y Hy; cbn [map]; constructor; cbn [enc_states] in Hy;
      (destruct (enc_state r) as [a|] eqn:Ha; [|discriminate Hy]); cbn [bind] in Hy; (destruct (enc_states views) as [b|] eqn:Hb; [|discriminate Hy]); inversion Hv; subst.
    + exact (enc_fits Ha H1).
    + exact (IH H2 _ eq_refl).
Qed.

Lemma header_shape collate reds h f h1 c f1 : good f -> cleanup_header collate reds h f = (Ok (h1, c), f1) -> appends f f1 /\ h1 = with_roots h (ih_cleanup h1) (ih_id_state h1) (ih_view_states h1).
Proof.
  intros G Hc. unfold cleanup_header in Hc. destruct (negb (lenN reds =? lenN (ih_view_states h))); [discriminate Hc|]. set (mask := ih_cleanup h) in *.
  destruct (cleanup_btree (id_cleanup_request mask) id_purged f (ih_id_state h)) as [[[id_root x]|e] f2] eqn:Hcl; [|discriminate Hc].
  destruct (cleanup_views collate mask (combine reds (ih_view_states h)) x (view_id_bitmask id_root empty_bitmap) f2) as [[[[roots count] bm]|e] f3] eqn:Hcv; [|discriminate Hc].
  assert (h1 = with_roots h (intersect_bitmaps bm mask) id_root roots) by congruence. assert (f1 = f3) by congruence. subst h1 f1. clear Hc.
  pose proof (@cleanup_appends _ _ _ _ _ _ _ G Hcl) as A1. pose proof (proj1 (appends_good EO A1 G)) as G1.
  pose proof (views_appends EO G1 Hcv) as A2. split; [exact (appends_trans A1 A2)|reflexivity].
Qed.
Lemma F2_nth A B (P : A -> B -> Prop) l l' i b : Forall2 P l l' -> nth_error l' i = Some b -> exists a, nth_error l i = Some a /\ P a b.
Proof. intros H. revert i. induction H as [|x y l l' Hxy H IH]; intros [|i] Hn; cbn [nth_error] in *; try discriminate Hn; [injection Hn as <-; eauto|exact (IH i Hn)]. Qed.
Lemma nth_map A B (g : A -> B) l i y : nth_error (map g l) i = Some y -> exists x, nth_error l i = Some x /\ y = g x.
Proof. revert i. induction l as [|a l IH]; intros [|i] H; cbn [map nth_error] in *; try discriminate H; [injection H as <-; eauto|exact (IH i H)]. Qed.

(** The whole function. *)
Theorem file_clean collate reds Rs f pos h p n f' : (forall x y, compress x = Some y -> y <> []) -> ord collate -> Forall2 (fun rs R => R < 2^16 /\ bounded rs R) reds Rs ->
  read_view_group_header f pos = Ok h -> header_fits h -> group_made collate reds h f ->
  cleanup_view_group collate reds f pos = (Ok (p, n), f') -> fits_file f' -> fpos f' - p <= MAX_VIEW_HEADER ->
  exists h', read_view_group_header f' p = Ok h' /\ header_fits h' /\ number (ih_cleanup h') = 0 /\ group_made collate reds h' f' /\
  h' = with_roots h (ih_cleanup h') (ih_id_state h') (ih_view_states h') /\
  exists ids kss ids' ls, result 133 (ih_cleanup h) f f' (ih_id_state h) (ih_id_state h') ids ids' /\
    length kss = length (ih_view_states h) /\ length ls = length (ih_view_states h) /\ length (ih_view_states h') = length (ih_view_states h) /\
    (forall i R root root' kvs l, nth_error Rs i = Some R -> nth_error (ih_view_states h) i = Some root -> nth_error (ih_view_states h') i = Some root' -> nth_error kss i = Some kvs -> nth_error ls i = Some l ->
       result R (ih_cleanup h) f f' root root' kvs l) /\
    (lenN ids < 2^40 -> Forall (fun kvs => sum_of num_values kvs < 2^40) kss -> lenN ids + sum_of (sum_of num_values) kss < 2^64 ->
       n = lenN (only (ih_cleanup h) ids) + sum_of (fun kvs => sum_of num_values (only (ih_cleanup h) kvs)) kss).
Proof.
  intros HC OC HR Hread Hfit Hmade Hrun F Hsz. unfold cleanup_view_group in Hrun. rewrite Hread in Hrun. set (f0 := set_fpos f (size f)) in *.
  destruct (cleanup_header collate reds h f0) as [[[h1 c]|e] f1] eqn:Hcl; [|discriminate Hrun]. destruct (write_view_group_header f1 h1) as [r f2] eqn:Hw.
  destruct r as [p'|e]; [|discriminate Hrun]. cbn [bind] in Hrun. assert (p' = p) by congruence. assert (c = n) by congruence. assert (f2 = f') by congruence. subst p' c f2. clear Hrun.
  destruct Hmade as (Hmask & M0 & MV). pose proof (good_made_id EO M0) as G. assert (A0 : appends f f0) by (apply app_end; constructor).
  assert (Hmade0 : group_made collate reds h f0).
  { split; [exact Hmask|]. split; [exact (made_other M0 A0)|]. revert MV. apply Forall2_impl. intros rs root M. exact (made_other M A0). }
  pose proof (proj1 (appends_good EO A0 G)) as G0.
  destruct (header_shape G0 Hcl) as [A1 Hh1]. pose proof (proj1 (appends_good EO A1 G0)) as G1. unfold write_view_group_header in Hw. destruct (encode_index_header h1) as [b|e] eqn:Henc; [|discriminate Hw].
  assert (A2 : appends f1 f') by (eapply app_header; [constructor|exact Hw]). pose proof (fits_back EO G1 A2 F) as F1. pose proof (fits_back EO G0 A1 F1) as F0.
  destruct (group_clean EO OC HR Hmade0 Hcl F1) as (Hz & (Hbm & M1 & MV1) & ids & kss & ids' & ls & Hres & N1 & N2 & N3 & Hall & Hn).
  set (h' := with_roots h (ih_cleanup h1) (stored_root (ih_id_state h1)) (map stored_root (ih_view_states h1))).
  assert (Henc' : encode_index_header h' = Ok b).
  { rewrite <- Henc. rewrite Hh1. unfold encode_index_header, h'. cbn [with_roots ih_version ih_signature ih_num_partitions ih_active ih_passive ih_cleanup ih_seqs ih_id_state ih_view_states ih_has_replica ih_replicas ih_pend_active ih_pend_passive ih_pend_unindexable ih_unindexable ih_versions].
    rewrite enc_stored, enc_stored_all. unfold lenN. rewrite map_length. reflexivity. }
  destruct (enc_state (ih_id_state h1)) as [x|] eqn:Hx; [|unfold encode_index_header in Henc; rewrite Hx in Henc; discriminate Henc].
  destruct (enc_states (ih_view_states h1)) as [y|] eqn:Hy; [|unfold encode_index_header in Henc; rewrite Hx in Henc; cbn [bind] in Henc; rewrite Hy in Henc; discriminate Henc].
  destruct (id_keep EO M1 A2 F) as (ids1 & z1 & z2 & I1 & I2 & Ip & _).
  assert (Hvp : Forall (fun r => forall p, r = Some p -> np_pointer p < 2^48) (ih_view_states h1)).
  { clear - MV1 EO OC HR A2 F. revert Rs HR. induction MV1 as [|rs r reds roots M MV IH]; intros Rs HR; constructor; inversion HR as [|? R ? Rs1 [HR1 HB] HR2]; subst.
    - destruct (view_keep EO OC HR1 HB M A2 F) as (_ & _ & _ & _ & _ & H & _). exact H.
    - exact (IH _ HR2). }
  assert (Hfit' : header_fits h').
  { apply (with_stored_fits Hfit (x := x) (y := y)); auto. destruct Hbm as [Hb _]. unfold lenN. rewrite Hb. reflexivity. }
  assert (Hdec : decode_index_header b = Ok h').
  { destruct (C43_roundtrip EO Hfit' HC) as [(b' & Hb1 & Hb2)|[Hb1 _]]; [|congruence]. assert (b' = b) by congruence. subst b'. exact Hb2. }
  assert (Hlen : lenN b + 4 <= MAX_VIEW_HEADER). { pose proof (@write_header_spec E EO _ _ _ _ _ G1 Hw) as (_ & _ & Hp & _). destruct (Hp p eq_refl) as (_ & _ & Hf & _). pose proof (adv_ge (p + 9) (length b)). unfold lenN. lia. }
  destruct (header_read_back EO G1 Hw Hlen) as (Hr1 & Hr2 & Hr3 & _); [reflexivity|].
  exists h'. split.
  { unfold read_view_group_header. destruct (N.leb_spec (size f') p); [lia|]. rewrite Hr2. change (B_HEADER =? 0) with false. change (B_HEADER =? 1) with true. cbn [negb]. rewrite Hr1. cbn [bind]. exact Hdec. }
  split; [exact Hfit'|]. split; [exact Hz|]. split.
  { split; [exact Hbm|]. split; [apply made_stored; exact (made_other M1 A2)|]. unfold h'. cbn [with_roots ih_view_states]. clear - MV1 A2. induction MV1; cbn [map]; constructor; [|assumption]. apply made_stored. exact (made_other H A2). }
  split; [reflexivity|]. exists ids, kss, ids', ls. unfold h'. cbn [with_roots ih_id_state ih_view_states]. split.
  { destruct Hres as ((za & Ja) & (zb & Jb) & Hs & Hro). destruct (id_keep EO M0 A0 F0) as (k0 & y0 & y1 & K1 & K2 & _ & Kro). destruct (index_det Ja K2) as [-> _]. destruct (index_det Jb I1) as [-> _].
    split; [eauto|]. split; [exists z2; now apply index_stored|]. split; [exact Hs|]. auto. }
  split; [exact N1|]. split; [exact N2|]. split; [rewrite map_length; exact N3|]. split; [|exact Hn].
  intros i R root root'' kvs l H1 H2 H3 H4 H5. destruct (nth_map H3) as (root' & H3' & ->). destruct (Hall i R root root' kvs l H1 H2 H3' H4 H5) as ((za & Ja) & (zb & Jb) & Hs & Hro).
  destruct (F2_nth MV H2) as (rs & Hrs & Mi). destruct (F2_nth HR H1) as (rs' & Hrs' & HR1 & HB). assert (rs' = rs) by congruence. subst rs'. destruct (F2_nth MV1 H3') as (rs' & Hrs'' & Mi'). assert (rs' = rs) by congruence. subst rs'.
  destruct (view_keep EO OC HR1 HB Mi A0 F0) as (k0 & y0 & y1 & K1 & K2 & _ & Kro). destruct (view_keep EO OC HR1 HB Mi' A2 F) as (l0 & x0 & x1 & L1 & L2 & _).
  destruct (index_det Ja K2) as [-> _]. destruct (index_det Jb L1) as [-> _]. split; [eauto|]. split; [exists x1; now apply index_stored|]. split; [exact Hs|]. auto.
Qed.
Lemma write_then_read f h p f' : (forall x y, compress x = Some y -> y <> []) -> header_fits h -> good f -> write_view_group_header f h = (Ok p, f') -> fpos f' - p <= MAX_VIEW_HEADER ->
  read_view_group_header f' p = Ok h.
Proof.
  intros HC Hfit G1 Hw Hsz. unfold write_view_group_header in Hw. destruct (C43_roundtrip EO Hfit HC) as [(b & Hb1 & Hb2)|[Hb1 _]]; rewrite Hb1 in Hw; [|discriminate Hw].
  assert (Hlen : lenN b + 4 <= MAX_VIEW_HEADER). { pose proof (@write_header_spec E EO _ _ _ _ _ G1 Hw) as (_ & _ & Hp & _). destruct (Hp p eq_refl) as (_ & _ & Hf & _). pose proof (adv_ge (p + 9) (length b)). unfold lenN. lia. }
  destruct (header_read_back EO G1 Hw Hlen) as (Hr1 & Hr2 & Hr3 & _); [reflexivity|].
  unfold read_view_group_header. destruct (N.leb_spec (size f') p); [lia|]. rewrite Hr2. change (B_HEADER =? 0) with false. change (B_HEADER =? 1) with true. cbn [negb]. rewrite Hr1. cbn [bind]. exact Hb2.
Qed.
End Group.
Lemma max_bounded reds : exists Rs, Forall2 (fun rs R => R < 2^16 /\ bounded rs R) reds Rs /\ length Rs = length reds.
Proof. exists (map (fun _ => MAX_REDUCTION) reds). split; [|apply map_length]. induction reds as [|rs reds IH]; cbn [map]; constructor; [split; [reflexivity|apply view_max]|exact IH]. Qed.
Lemma nth_F2 A B (P : A -> B -> Prop) l : forall l', length l = length l' -> (forall i a b, nth_error l i = Some a -> nth_error l' i = Some b -> P a b) -> Forall2 P l l'.
Proof.
  induction l as [|a l IH]; intros [|b l'] Hl H; try discriminate Hl; constructor; [exact (H 0%nat a b eq_refl eq_refl)|]. apply IH; [injection Hl as Hl; exact Hl|]. intros i x y Hx Hy. exact (H (S i) x y Hx Hy).
Qed.
Lemma F2_length A B (P : A -> B -> Prop) l l' : Forall2 P l l' -> length l = length l'.
Proof. induction 1 as [|x y l l' H1 H2 IH]; cbn [length]; congruence. Qed.
