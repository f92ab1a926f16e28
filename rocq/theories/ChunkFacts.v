(** Facts about data chunks: written chunks are read back, whatever is appended later. *)
From Verif Require Import Base Codec CodecFacts File FileFacts.
Local Open Scope N_scope.

Lemma HIGH_val : HIGH = 2^31. Proof. reflexivity. Qed.

Lemma land_high x : N.land x HIGH = if N.testbit x 31 then HIGH else 0.
Proof.
  apply N.bits_inj; intros i. change HIGH with (2^31). rewrite N.land_spec.
  destruct (N.eq_dec i 31) as [->|Hi].
  - rewrite N.pow2_bits_true, andb_true_r.
    destruct (N.testbit x 31); [now rewrite N.pow2_bits_true | now rewrite N.bits_0].
  - rewrite N.pow2_bits_false, andb_false_r by congruence.
    destruct (N.testbit x 31); [now rewrite N.pow2_bits_false by congruence | now rewrite N.bits_0].
Qed.

Lemma testbit_low x : x < 2^31 -> N.testbit x 31 = false.
Proof.
  intros H. apply N.bits_above_log2. destruct (N.eq_dec x 0) as [->|Hz]; [reflexivity|].
  apply N.log2_lt_pow2; lia.
Qed.

Lemma land_high_low x : x < 2^31 -> N.land x HIGH = 0.
Proof. intros H. rewrite land_high, testbit_low; auto. Qed.

Lemma lor_high x : x < 2^31 -> N.lor x HIGH = x + HIGH.
Proof. intros H. apply lor_add. now apply land_high_low. Qed.

Lemma land_high_set x : x < 2^31 -> N.land (x + HIGH) HIGH = HIGH.
Proof.
  intros H. rewrite <- lor_high by assumption. rewrite land_high, N.lor_spec, testbit_low by assumption.
  reflexivity.
Qed.

Lemma ldiff_high x : x < 2^31 -> N.ldiff (x + HIGH) HIGH = x.
Proof.
  intros H. rewrite <- lor_high by assumption. apply N.bits_inj; intros i.
  change HIGH with (2^31). rewrite N.ldiff_spec, N.lor_spec. destruct (N.eq_dec i 31) as [->|Hi].
  - rewrite N.pow2_bits_true, testbit_low by assumption. reflexivity.
  - rewrite N.pow2_bits_false by congruence. now rewrite orb_false_r, andb_true_r.
Qed.

Lemma ldiff_high_low x : x < 2^31 -> N.ldiff x HIGH = x.
Proof.
  intros H. apply N.bits_inj; intros i. change HIGH with (2^31).
  rewrite N.ldiff_spec. destruct (N.eq_dec i 31) as [->|Hi].
  - rewrite N.pow2_bits_true, testbit_low by assumption. reflexivity.
  - rewrite N.pow2_bits_false by congruence. now rewrite andb_true_r.
Qed.

Section WithEnv.
Context {E : Env} (EO : EnvOk E).

(** The chunk with body [b] stands at [q] in the file contents [g] of length [sz] and ends at or before
    [e]. *)
Definition chunk_at (g : N -> N) (m : crc_mode) (k : option N) (q : N) (b : bytes) (e : N) : Prop :=
  match k with
  | None => lenN b < 2^31 /\ exists c, c < 2^32 /\ integrity m b c = true /\
            body_at g q (be 4 (lenN b + HIGH) ++ be 4 c ++ b) /\
            adv q (8 + length b) <= e
  | Some k => lenN b + mac_size < 2^31 /\
            body_at g q (be 4 (lenN b + mac_size) ++ encrypt k (nonce q) b) /\
            adv q (4 + length (encrypt k (nonce q) b)) <= e
  end.

Lemma chunk_at_read g f q b e :
  chunk_at g (crcm f) (fkey f) q b e -> (forall i, i < e -> i mod BLOCK <> 0 -> cur f i = g i) -> e <= size f ->
  pread_bin f q = Ok b.
Proof.
  unfold chunk_at, pread_bin, pread_bin_internal. destruct (fkey f) as [k|].
  - intros (Hl & Hb & He) Hg Hs.
    assert (Hb' : body_at (cur f) q (be 4 (lenN b + mac_size) ++ encrypt k (nonce q) b)).
    { eapply body_at_ext; [|exact Hb]. intros i Hi Hm. rewrite app_length, be_length in Hi. apply Hg; auto. lia. }
    apply body_at_app in Hb'. destruct Hb' as [Hb1 Hb2]. rewrite be_length in Hb2.
    rewrite adv_add in He.
    unfold pread_encrypted.
    destruct (@read_skip_body f q _ Hb1) as (p1 & R1 & Ep1).
    { rewrite be_length. pose proof (adv_ge (adv q 4) (length (encrypt k (nonce q) b))). lia. }
    rewrite lenN_be in R1. change (N.of_nat 4) with 4 in R1. rewrite R1. cbn [bind].
    assert (H32 : lenN b + mac_size < 256 ^ N.of_nat 4).
    { change (256 ^ N.of_nat 4) with 4294967296. change (2^31) with 2147483648 in Hl. lia. }
    rewrite (unbe_be_small 4 H32).
    rewrite land_high_low by assumption.
    destruct (N.ltb_spec (lenN b + mac_size) mac_size); [lia|]. cbn [negb orb N.eqb].
    rewrite N.eqb_refl. cbn [negb orb].
    destruct (@read_skip_body f (adv q 4) _ Hb2) as (p2 & R2 & _); [lia|].
    rewrite (ok_maclen EO) in R2. rewrite be_length in Ep1.
    rewrite (@read_skip_cong f p1 (adv q 4)) by exact Ep1. rewrite R2. cbn [bind fst].
    rewrite (ok_decrypt EO). reflexivity.
  - intros (Hl & c & Hc & Hi & Hb & He) Hg Hs.
    assert (Hb' : body_at (cur f) q ((be 4 (lenN b + HIGH) ++ be 4 c) ++ b)).
    { rewrite <- app_assoc. eapply body_at_ext; [|exact Hb]. intros i Hii Hm.
      rewrite !app_length, !be_length in Hii. apply Hg; auto.
      replace (4 + (4 + length b))%nat with (8 + length b)%nat in Hii by lia. lia. }
    apply body_at_app in Hb'. destruct Hb' as [Hb1 Hb2].
    assert (L8 : length (be 4 (lenN b + HIGH) ++ be 4 c) = 8%nat) by now rewrite app_length, !be_length.
    rewrite adv_add in He.
    destruct (@read_skip_body f q _ Hb1) as (p1 & R1 & Ep1).
    { rewrite L8. pose proof (adv_ge (adv q 8) (length b)). lia. }
    unfold lenN in R1 at 1. rewrite L8 in R1, Hb2, Ep1. change (N.of_nat 8) with 8 in R1. rewrite R1. cbn [bind].
    rewrite getb_app0 by now rewrite lenN_be. cbn [bind].
    rewrite getb_app_end by now rewrite lenN_be. cbn [bind].
    assert (H32 : lenN b + HIGH < 256 ^ N.of_nat 4).
    { change (256 ^ N.of_nat 4) with 4294967296. change (2^31) with 2147483648 in Hl. unfold HIGH. lia. }
    rewrite (unbe_be_small 4 H32). rewrite (unbe_be_small 4 (x := c)) by exact Hc.
    rewrite land_high_set, ldiff_high by assumption.
    cbn [negb N.eqb]. change (0 =? 0) with true. change (HIGH =? 0) with false. cbn [negb Bool.eqb andb].
    destruct (@read_skip_body f (adv q 8) _ Hb2) as (p2 & R2 & _); [lia|].
    rewrite (@read_skip_cong f p1 (adv q 8)) by exact Ep1. rewrite R2. cbn [bind fst]. rewrite Hi. reflexivity.
Qed.

Lemma chunk_at_mono g g' m k q b e e' :
  chunk_at g m k q b e -> (forall i, i < e -> i mod BLOCK <> 0 -> g' i = g i) -> e <= e' ->
  chunk_at g' m k q b e'.
Proof.
  unfold chunk_at. intros H Hg He. destruct k as [k|].
  - destruct H as (H1 & H2 & H3). split; [exact H1|]. split; [|lia].
    eapply body_at_ext; [|exact H2]. intros i Hi Hm. apply Hg; auto.
    rewrite app_length, be_length in Hi. lia.
  - destruct H as (H1 & c & Hc & Hi & H2 & H3). split; [exact H1|]. exists c.
    split; [exact Hc|]. split; [exact Hi|]. split; [|lia].
    eapply body_at_ext; [|exact H2]. intros i Hii Hm. apply Hg; auto.
    rewrite !app_length, !be_length in Hii.
    replace (4 + (4 + length b))%nat with (8 + length b)%nat in Hii by lia. lia.
Qed.

(** ** The file as an append-only store *)

(** Handle invariant. *)
Definition good (f : file) : Prop := wf f /\ fpos f <= size f.

(** The chunk with body [b] is completely below the append position. *)
Definition has (f : file) (q : N) (b : bytes) : Prop :=
  chunk_at (cur f) (crcm f) (fkey f) q b (fpos f).

Definition le (f f' : file) : Prop :=
  ext (fpos f) (Tval B_DATA) f f' /\ fpos f <= fpos f' /\ fpos f' <= size f'.

Lemma le_refl f : good f -> le f f.
Proof. intros [W H]. split; [now apply ext_refl|]. lia. Qed.
Lemma le_trans f1 f2 f3 : le f1 f2 -> le f2 f3 -> le f1 f3.
Proof.
  intros (X1 & H1 & H1') (X2 & H2 & H2'). split; [|lia].
  eapply ext_trans; [exact X1|]. eapply ext_weaken; [exact X2|lia|auto].
Qed.
Lemma le_good f f' : le f f' -> good f'.
Proof. intros (X & _ & H). split; [exact (ex_wf X)|exact H]. Qed.

Lemma has_le f f' q b : le f f' -> has f q b -> has f' q b.
Proof.
  intros (X & H1 & H2) H. unfold has in *. rewrite (ex_crcm X), (ex_fkey X).
  eapply chunk_at_mono; [exact H| |lia]. intros i Hi _. apply (ex_cur X). exact Hi.
Qed.

Lemma has_read f q b : good f -> has f q b -> pread_bin f q = Ok b.
Proof. intros [W G] H. eapply chunk_at_read; [exact H|auto|exact G]. Qed.

Lemma chunk_end_pos k q (b : bytes) g m e : chunk_at g m k q b e -> q < e.
Proof.
  unfold chunk_at. destruct k as [k|].
  - intros (_ & _ & H). pose proof (adv_ge q (4 + length (encrypt k (nonce q) b))). lia.
  - intros (_ & c & _ & _ & _ & H). pose proof (adv_ge q (8 + length b)). lia.
Qed.
Lemma has_pos f q b : has f q b -> q < fpos f.
Proof. apply chunk_end_pos. Qed.

Lemma checksum_ok m b c : get_checksum m b = Ok c -> c < 2^32 /\ integrity m b c = true.
Proof.
  destruct m; cbn; intros H; inv H; (split; [apply EO|apply N.eqb_refl]).
Qed.

Lemma db_write_buf_spec f b r f' : good f -> db_write_buf f b = (r, f') ->
  le f f' /\
  (forall p sz, r = Ok (p, sz) ->
     p = fpos f /\ p < fpos f' /\ (big f' = false -> has f' p b) /\
     sz = match fkey f with None => 8 + lenN b | Some _ => 4 + mac_size + lenN b end /\
     (forall i, fpos f' <= i -> cur f' i = cur f i) /\ size f' <= N.max (size f) (fpos f') /\
     (sz <= 2^31 -> has f' p b)).
Proof.
  intros [W G]. unfold db_write_buf. destruct (fkey f) as [k|] eqn:Ek.
  - unfold write_encrypted. destruct (2^32 <=? lenN b + mac_size) eqn:E32.
    { intros H; inv H. split; [now apply le_refl|discriminate]. }
    destruct (raw_write B_DATA f (fpos f) (be 4 (lenN b + mac_size) ++ encrypt k (nonce (fpos f)) b))
      as [[e|e] f1] eqn:Ew; pose proof (raw_write_ext W Ew) as X.
    + intros H; inv H. pose proof (raw_write_ok W Ew) as (He & Hb & Hz & Hp & Hbl & Hout & Hsz).
      assert (Hne : be 4 (lenN b + mac_size) ++ encrypt k (nonce (fpos f)) b <> []).
      { intros Hnil. apply (f_equal (@length N)) in Hnil. rewrite app_length, be_length in Hnil. discriminate. }
      specialize (Hz Hne). rewrite app_length, be_length in He.
      pose proof (adv_ge (fpos f) (4 + length (encrypt k (nonce (fpos f)) b))) as Hge.
      split.
      { split; [|cbn [fpos set_fpos note_big size]; lia]. eapply ext_trans; [exact X|].
        eapply ext_trans; [apply set_fpos_ext; exact (ex_wf X)|].
        apply note_big_ext, (ex_wf (set_fpos_ext 0 (fun _ _ => True) _ (ex_wf X))). }
      intros p sz Hr. inv Hr. split; [reflexivity|]. split; [cbn [fpos set_fpos note_big size]; lia|]. 
      match goal with |- (_ -> ?P) /\ _ => assert (Hhas : lenN b + mac_size + 4 <= 2^31 -> P) end.
      2:{ split; [cbn [note_big big]; intros Hbig; apply orb_false_iff in Hbig; destruct Hbig as [_ Hbig];
                  apply N.ltb_ge in Hbig; now apply Hhas|].
          split; [cbn [fpos set_fpos note_big size]; lia|]. split; [exact Hout|]. split; [exact Hsz|exact Hhas]. }
      intros Hbig. unfold has. cbn [fpos set_fpos note_big size cur crcm fkey]. rewrite (ex_fkey X), (ex_crcm X), Ek. unfold chunk_at.
      split; [|split; [exact Hb|lia]]. lia.
    + intros H; inv H. split; [|discriminate]. split; [exact X|].
      pose proof (ex_size X). rewrite (raw_write_fpos Ew). lia.
  - destruct (get_checksum (crcm f) b) as [c|e] eqn:Ec.
    2:{ intros H; inv H. split; [now apply le_refl|discriminate]. }
    apply checksum_ok in Ec. destruct Ec as [Hc Hi].
    set (hd := be 4 _ ++ be 4 c).
    destruct (raw_write B_DATA f (fpos f) hd) as [[e1|e] f1] eqn:Ew; pose proof (raw_write_ext W Ew) as X;
      pose proof (raw_write_fpos Ew) as P1; pose proof (ex_size X) as S1.
    2:{ intros H; inv H. split; [|discriminate]. split; [exact X|]. lia. }
    pose proof (raw_write_ok W Ew) as (He & Hb & Hz & Hp & Hbl & Hout & Hsz).
    assert (Lh : length hd = 8%nat) by (unfold hd; now rewrite app_length, !be_length).
    rewrite Lh in He. pose proof (adv_ge (fpos f) 8) as Hge.
    destruct (raw_write B_DATA f1 e1 b) as [[e2|e] f2] eqn:Ew2; pose proof (raw_write_ext (ex_wf X) Ew2) as X2;
      pose proof (raw_write_fpos Ew2) as P2; pose proof (ex_size X2) as S2;
      (assert (X12 : ext (fpos f) (Tval B_DATA) f f2)
        by (eapply ext_trans; [exact X|]; eapply ext_weaken; [exact X2|lia|auto])).
    2:{ intros H; inv H. split; [|discriminate]. split; [exact X12|]. lia. }
    pose proof (raw_write_ok (ex_wf X) Ew2) as (He2 & Hb2 & Hz2 & Hp2 & Hbl2 & Hout2 & Hsz2).
    assert (Hz1 : e1 <= size f1) by (apply Hz; intros Hnil; rewrite Hnil in Lh; discriminate).
    assert (Hz3 : e2 <= size f2).
    { destruct b as [|x b']; [|apply Hz2; discriminate]. cbn in He2. lia. }
    pose proof (adv_ge e1 (length b)) as Hge2.
    intros H; inv H. split.
    { split; [|cbn [fpos set_fpos note_big size]; lia]. eapply ext_trans; [exact X12|].
      eapply ext_trans; [apply set_fpos_ext; exact (ex_wf X12)|].
      apply note_big_ext, (ex_wf (set_fpos_ext 0 (fun _ _ => True) _ (ex_wf X12))). }
    intros p sz Hr. inv Hr. split; [reflexivity|]. split; [cbn [fpos set_fpos note_big size]; lia|].

    match goal with |- (_ -> ?P) /\ _ => assert (Hhas : 8 + lenN b <= 2^31 -> P) end.
    2:{ split; [cbn [note_big big]; intros Hbig; apply orb_false_iff in Hbig; destruct Hbig as [_ Hbig];
                apply N.ltb_ge in Hbig; now apply Hhas|].
        split; [reflexivity|]. split; [|split; [|exact Hhas]].
        - intros i Hii. cbn [fpos set_fpos note_big size cur] in *. rewrite Hout2 by assumption. apply Hout. lia.
        - cbn [fpos set_fpos note_big size cur] in *. lia. }
    + intros Hbig. unfold has. cbn [fpos set_fpos note_big size cur crcm fkey]. rewrite (ex_fkey X12), (ex_crcm X12), Ek. unfold chunk_at.
      assert (Hlb : lenN b < 2^31) by lia.
      split; [exact Hlb|]. exists c. split; [exact Hc|]. split; [exact Hi|].
      rewrite adv_add. split; [|lia].
      rewrite app_assoc. apply body_at_app. split.
      * eapply body_at_ext; [|].
        2:{ assert (Eh : be 4 (lenN b + HIGH) ++ be 4 c = hd).
            { unfold hd. rewrite N.mod_small, lor_high; auto.
              change (2^31) with 2147483648 in Hlb. change (2^32) with 4294967296. lia. }
            rewrite Eh. exact Hb. }
        intros i Hii _. rewrite app_length, !be_length in Hii. change (4 + 4)%nat with 8%nat in Hii. apply (ex_cur X2). lia.
      * rewrite app_length, !be_length. exact Hb2.
Qed.

(** Without write failures the chunk is written. *)
Lemma db_write_buf_succeeds f b : good f -> plan f = [] -> dead f = false -> crcm f <> CRC_UNKNOWN ->
  lenN b + mac_size < 2^32 ->
  exists p sz f', db_write_buf f b = (Ok (p, sz), f') /\ plan f' = [] /\ dead f' = false.
Proof.
  intros G Hp Hd Hm Hl. unfold db_write_buf. destruct (fkey f) as [k|].
  - unfold write_encrypted. destruct (N.leb_spec (2^32) (lenN b + mac_size)); [lia|].
    destruct (@raw_write_succeeds B_DATA f (fpos f) (be 4 (lenN b + mac_size) ++ encrypt k (nonce (fpos f)) b) Hp Hd)
      as (e & f' & -> & Hp' & Hd'). do 3 eexists. split; [reflexivity|]. auto.
  - destruct (get_checksum (crcm f) b) as [c|e] eqn:Ec.
    2:{ destruct (crcm f); cbn in Ec; try discriminate; congruence. }
    destruct (@raw_write_succeeds B_DATA f (fpos f) (be 4 (N.lor (lenN b mod 2^32) HIGH) ++ be 4 c) Hp Hd)
      as (e & f' & -> & Hp' & Hd').
    destruct (@raw_write_succeeds B_DATA f' e b Hp' Hd') as (e2 & f'' & -> & Hp'' & Hd'').
    do 3 eexists. split; [reflexivity|]. auto.
Qed.
End WithEnv.
