(** Facts about files of streams that were cut, and about the nonces of sealed chunks. *)
From Verif Require Import Base Codec CodecFacts File IoBuffer IoFacts Stream SpecStream StreamFacts.
Local Open Scope N_scope.
Unset Strict Implicit.

Section Cut.
Context {E : Env} (EO : EnvOk E) {Z : Sealer}.
Notation dat s := (rw_data (fs_raw (cs_under s))).
Notation pos s := (fs_pos (cs_under s)).
Variable k : kind.

Lemma read_chunk_cut s b1 c cb m : quiet (fs_raw (cs_under s)) -> dat s = b1 ++ take m cb -> pos s = lenN b1 -> chunk_of k c cb -> header_of k <= m < lenN cb -> exists s', read_chunk k s = (Err E_READ, s').
Proof.
  intros Q Hd Hp Hc Hm. assert (Hlen : lenN (dat s) = lenN b1 + m) by (rewrite Hd, lenN_app, lenN_take; lia). destruct k; cbn [read_chunk chunk_of header_of] in *.
  - destruct Hc as [Hc ->]. rewrite !lenN_app, !lenN_be in Hm. change (N.of_nat 4) with 4 in Hm. unfold read_chunk_sum. 
    destruct (@fs_read_spec (repeat 0 8) (cs_under s) Q) as (u & U1 & U2 & U3); [lia|]. change (lenN (repeat 0 8)) with 8 in U3. destruct (N.leb_spec (pos s + 8) (lenN (dat s))) as [_|Hx]; [|lia]. destruct U3 as [-> U3].
    assert (H8 : take 8 (drop (pos s) (dat s)) = be 4 (lenN c + 4) ++ be 4 (crc32c c)).
    { rewrite Hp, Hd, drop_app_exact by reflexivity. rewrite take_take. replace (N.min 8 m) with 8 by lia. rewrite app_assoc. apply take_app_exact. rewrite lenN_app, !lenN_be. reflexivity. }
    change (lenN (repeat 0 8)) with 8. rewrite H8.
    rewrite take_app_exact, drop_app_exact by (rewrite lenN_be; reflexivity). rewrite !unbe_be_small by (try exact Hc; apply (ok_crc32c EO)). destruct (N.ltb_spec (lenN c + 4) 4) as [Hx|_]; [lia|].
    destruct (@fs_read_spec (resize (lenN c + 4 - 4) (cs_chunk s)) u U1) as (u' & V1 & V2 & V3); [rewrite U2; lia|]. rewrite lenN_resize in V3.
    rewrite U2 in V3. destruct (N.leb_spec (fs_pos u + (lenN c + 4 - 4)) (lenN (dat s))) as [Hx|_]; [lia|]. destruct V3 as [(b & ->) V3]. eexists. reflexivity.
  - destruct Hc as (y & Hy & Ho & ->). rewrite !lenN_app, !lenN_be in Hm. change (N.of_nat 4) with 4 in Hm. unfold read_chunk_seal.
    destruct (@fs_read_spec (repeat 0 4) (cs_under s) Q) as (u & U1 & U2 & U3); [lia|]. change (lenN (repeat 0 4)) with 4 in U3. destruct (N.leb_spec (pos s + 4) (lenN (dat s))) as [_|Hx]; [|lia]. destruct U3 as [-> U3].
    assert (H4 : take 4 (drop (pos s) (dat s)) = be 4 (lenN y)).
    { rewrite Hp, Hd, drop_app_exact by reflexivity. rewrite take_take. replace (N.min 4 m) with 4 by lia. apply take_app_exact. rewrite lenN_be. reflexivity. }
    change (lenN (repeat 0 4)) with 4. rewrite H4. rewrite !unbe_be_small by apply Hy. destruct (N.ltb_spec (lenN y) (sealing + 1)) as [Hx|_]; [lia|].
    destruct (@fs_read_spec (resize (lenN y) (cs_chunk s)) u U1) as (u' & V1 & V2 & V3); [rewrite U2; lia|]. rewrite lenN_resize in V3.
    rewrite U2 in V3. destruct (N.leb_spec (fs_pos u + lenN y) (lenN (dat s))) as [Hx|_]; [lia|]. destruct V3 as [(b & ->) V3]. eexists. reflexivity.
Qed.

Variables (c cb : bytes) (m : N).
Hypothesis Hc : chunk_of k c cb.
Hypothesis Hm : header_of k <= m < lenN cb.
(** The data [d] are still to be read; the file ends within the chunk that follows. *)
Definition before_cut (s : cstream) (d : bytes) : Prop :=
  quiet (fs_raw (cs_under s)) /\ exists p d2 b1 b2, cs_rpos s = Some p /\ p <= lenN (cs_chunk s) /\ dat s = b1 ++ b2 ++ take m cb /\ pos s = lenN b1 /\ stream_file k d2 b2 /\ d = drop p (cs_chunk s) ++ d2.
Lemma cut_loop fuel : forall n acc s d, before_cut s d -> (N.to_nat n + N.to_nat (lenN (dat s) - pos s) < fuel)%nat ->
  if n <=? lenN d then exists s', cs_read_loop fuel k n acc s = (Ok (Some (acc ++ take n d)), s') /\ before_cut s' (drop n d) else exists s', cs_read_loop fuel k n acc s = (Err E_READ, s').
Proof.
  induction fuel as [|fuel IH]; intros n acc s d (Q & p & d2 & b1 & b2 & F1 & F2 & F3 & F4 & F5 & F6) Hf; [lia|]. cbn [cs_read_loop]. destruct (N.eqb_spec n 0) as [->|Hn].
  { destruct (N.leb_spec 0 (lenN d)) as [_|Hx]; [|lia]. exists s. rewrite take_0, drop_0, app_nil_r. split; [reflexivity|]. split; [exact Q|]. exists p, d2, b1, b2. auto 10. }
  rewrite F1. destruct (N.ltb_spec (lenN (cs_chunk s)) p) as [Hx|_]; [lia|]. set (j := N.min n (lenN (cs_chunk s) - p)). destruct (N.eqb_spec j 0) as [Hj|Hj].
  - assert (Hall : p = lenN (cs_chunk s)) by (unfold j in Hj; lia). rewrite (drop_all (cs_chunk s)) in F6 by lia. cbn [app] in F6. subst d. destruct (stream_first F5) as [[-> ->]|(c1 & cb1 & d3 & b3 & C1 & C2 & -> & -> & C3)].
    + cbn [app] in F3. destruct (read_chunk_cut Q F3 F4 Hc Hm) as (s' & ->). rewrite lenN_nil. destruct (N.leb_spec n 0) as [Hx|_]; [lia|]. exists s'. reflexivity.
    + rewrite <- !app_assoc in F3. destruct (@read_chunk_ok E EO Z k s b1 c1 cb1 (b3 ++ take m cb) Q F3 F4 C1) as (u & -> & U1 & U2 & U3). cbn [cs_under cs_chunk cs_draws].
      apply IH.
      * split; [exact U1|]. exists 0, d3, (b1 ++ cb1), b3. cbn [cs_rpos cs_under cs_chunk]. rewrite drop_0. split; [reflexivity|]. split; [lia|]. split; [rewrite U2, F3; now rewrite <- !app_assoc|]. auto.
      * cbn [cs_under]. pose proof (chunk_len C1) as Hcl. rewrite U2, U3, F3, !lenN_app. rewrite F4, F3, !lenN_app in Hf. lia.
  - assert (Hj1 : 1 <= j <= n /\ p + j <= lenN (cs_chunk s)) by (unfold j; lia). set (q := drop p (cs_chunk s)) in *. assert (Hq : lenN q = lenN (cs_chunk s) - p) by (unfold q; apply lenN_drop).
    pose proof (IH (n - j) (acc ++ take j q) (CStream (cs_under s) (cs_chunk s) (Some (p + j)) (cs_draws s)) (drop j d)) as I. rewrite lenN_drop in I.
    assert (Hld : j <= lenN d) by (rewrite F6, lenN_app; lia).
    destruct (N.leb_spec n (lenN d)) as [Hle|Hle]; (destruct (N.leb_spec (n - j) (lenN d - j)) as [Hx|Hx]; [try lia|try lia]).
    + destruct I as (s' & I1 & I2).
      * split; [exact Q|]. exists (p + j), d2, b1, b2. cbn [cs_rpos cs_under cs_chunk]. split; [reflexivity|]. split; [lia|]. split; [exact F3|]. split; [exact F4|]. split; [exact F5|]. rewrite F6, drop_app_le by lia. unfold q. now rewrite drop_drop.
      * cbn [cs_under]. lia.
      * exists s'. rewrite I1. rewrite drop_drop in I2. replace (j + (n - j)) with n in I2 by lia. split; [|exact I2]. do 3 f_equal. rewrite <- app_assoc. f_equal.
        rewrite <- (take_app_le q d2) by lia. rewrite <- F6. pose proof (@piece n j d) as P. rewrite lenN_take in P. replace (N.min j (lenN d)) with j in P by lia. apply P. lia.
    + destruct I as (s' & I1).
      * split; [exact Q|]. exists (p + j), d2, b1, b2. cbn [cs_rpos cs_under cs_chunk]. split; [reflexivity|]. split; [lia|]. split; [exact F3|]. split; [exact F4|]. split; [exact F5|]. rewrite F6, drop_app_le by lia. unfold q. now rewrite drop_drop.
      * cbn [cs_under]. lia.
      * exists s'. exact I1.
Qed.
Lemma cut_reads max l : forall s d n, before_cut s d -> fold_right N.add 0 l <= lenN d -> lenN d < fold_right N.add 0 l + n ->
  exists bs, concat bs = take (fold_right N.add 0 l) d /\ fst (calls k max (map SRead l ++ [SRead n]) s) = map Got bs ++ [Failed E_READ].
Proof.
  assert (R : forall n s d, before_cut s d -> if n <=? lenN d then exists s', cs_read k n s = (Ok (Some (take n d)), s') /\ before_cut s' (drop n d) else exists s', cs_read k n s = (Err E_READ, s')).
  { intros n s d H. pose proof H as (_ & p & _ & _ & _ & F & _). unfold cs_read. rewrite F. apply (cut_loop [] H). unfold lenN. lia. }
  induction l as [|i l IH]; intros s d n H H1 H2; cbn [map app calls fold_right call] in *.
  - exists []. rewrite take_0. split; [reflexivity|]. pose proof (R n s d H) as Rn. destruct (N.leb_spec n (lenN d)) as [Hx|_]; [lia|]. destruct Rn as (s' & ->). reflexivity.
  - pose proof (R i s d H) as Ri. destruct (N.leb_spec i (lenN d)) as [_|Hx]; [|lia]. destruct Ri as (s' & -> & Hs). destruct (IH s' (drop i d) n Hs) as (bs & B1 & B2); [rewrite lenN_drop; lia|rewrite lenN_drop; lia|].
    exists (take i d :: bs). cbn [concat map app]. destruct (calls k max (map SRead l ++ [SRead n]) s') as [xs s2]. cbn [fst] in *. rewrite B2. split; [|reflexivity]. rewrite B1. set (t := fold_right N.add 0 l) in *.
    pose proof (@piece (i + t) i d) as P. rewrite lenN_take in P. replace (N.min i (lenN d)) with i in P by lia. replace (i + t - i) with t in P by lia. apply P. lia.
Qed.
End Cut.

Section Nonces.
Context {E : Env} {Z : Sealer} (ZO : SealOk).
Notation dat s := (rw_data (fs_raw (cs_under s))).
Notation pos s := (fs_pos (cs_under s)).
Variable max : N.
Hypothesis Hmax : 0 < max.
Hypothesis Hlim : max + sealing + 4 < 2^32.

Lemma sealed_app l1 : forall n l2, sealed_from n (l1 ++ l2) = sealed_from n l1 ++ sealed_from (n + lenN l1) l2.
Proof.
  induction l1 as [|c l1 IH]; intros n l2; cbn [app sealed_from]; [now rewrite lenN_nil, N.add_0_r|]. rewrite IH, lenN_cons, <- !app_assoc. do 3 f_equal. f_equal. lia.
Qed.
(** From [s] to [s'] sealed chunks have been added to the file. *)
Definition adds (s s' : cstream) : Prop := exists l, dat s' = dat s ++ sealed_from (cs_draws s) l /\ cs_draws s' = cs_draws s + lenN l.
Lemma adds_refl s s' : dat s' = dat s -> cs_draws s' = cs_draws s -> adds s s'.
Proof. intros H1 H2. exists []. cbn [sealed_from]. rewrite app_nil_r, lenN_nil, N.add_0_r. auto. Qed.
Lemma adds_trans s1 s2 s3 : adds s1 s2 -> adds s2 s3 -> adds s1 s3.
Proof.
  intros (l1 & H1 & H2) (l2 & H3 & H4). exists (l1 ++ l2). rewrite sealed_app, H3, H1, H4, H2, lenN_app, <- app_assoc. split; [reflexivity|lia].
Qed.
Lemma fs_read_keeps fuel : forall n acc s, rw_data (fs_raw (snd (fs_read_loop fuel n acc s))) = rw_data (fs_raw s).
Proof.
  induction fuel as [|fuel IH]; intros n acc s; cbn [fs_read_loop]; destruct (n =? 0); try reflexivity. unfold raw_pread. destruct (next_step (fs_raw s) n) as [st p]. destruct (rs_err st) as [e|]; [reflexivity|].
  destruct (take _ _) as [|x b]; [reflexivity|]. rewrite IH. reflexivity.
Qed.
Lemma read_chunk_keeps s : dat (snd (read_chunk KSeal s)) = dat s /\ cs_draws (snd (read_chunk KSeal s)) = cs_draws s.
Proof.
  cbn [read_chunk]. unfold read_chunk_seal, fs_read. pose proof (fs_read_keeps (S (length (dat s))) (lenN (repeat 0 4)) [] (cs_under s)) as H1.
  destruct (fs_read_loop (S (length (dat s))) (lenN (repeat 0 4)) [] (cs_under s)) as [[[[]|e] acc] u]; cbn [snd] in H1; [|auto|auto]. set (len := unbe _). destruct (len <? sealing + 1); [auto|].
  pose proof (fs_read_keeps (S (length (rw_data (fs_raw u)))) (lenN (resize len (cs_chunk s))) [] u) as H2. destruct (fs_read_loop _ (lenN (resize len (cs_chunk s))) [] u) as [[[[]|e] acc2] u']; cbn [snd] in H2; cbn [snd cs_under cs_draws]; [|split; [congruence|reflexivity]..].
  destruct (unseal _); cbn [snd cs_under cs_draws]; split; congruence.
Qed.
Lemma read_keeps fuel : forall n acc s, dat (snd (cs_read_loop fuel KSeal n acc s)) = dat s /\ cs_draws (snd (cs_read_loop fuel KSeal n acc s)) = cs_draws s.
Proof.
  induction fuel as [|fuel IH]; intros n acc s; cbn [cs_read_loop]; destruct (n =? 0); auto. destruct (cs_rpos s) as [p|]; [|auto]. destruct (_ <? p); [auto|]. destruct (_ =? 0).
  - pose proof (read_chunk_keeps s) as [H1 H2]. destruct (read_chunk KSeal s) as [[[]|e] s1]; cbn [snd] in *; auto. destruct (IH n acc (CStream (cs_under s1) (cs_chunk s1) (Some 0) (cs_draws s1))) as [I1 I2]. cbn [cs_under cs_draws] in I1, I2. rewrite I1, I2. auto.
  - match goal with |- context[cs_read_loop fuel KSeal ?a ?b ?c] => destruct (IH a b c) as [I1 I2] end. rewrite I1, I2. auto.
Qed.
Lemma write_adds s : quiet (fs_raw (cs_under s)) -> pos s = lenN (dat s) -> cs_chunk s <> [] -> lenN (cs_chunk s) <= max ->
  exists u, write_chunk KSeal s = (Ok tt, CStream u (cs_chunk s) (cs_rpos s) (cs_draws s + 1)) /\ quiet (fs_raw u) /\ rw_data (fs_raw u) = dat s ++ sealed_from (cs_draws s) [cs_chunk s] /\ fs_pos u = lenN (rw_data (fs_raw u)).
Proof.
  intros Q Hp Hn Hl. cbn [write_chunk sealed_from]. unfold write_chunk_seal. destruct (cs_chunk s) as [|x c'] eqn:Hc; [congruence|]. rewrite <- Hc in *. set (y := seal (cs_draws s) (cs_chunk s)). assert (Hy : lenN y = lenN (cs_chunk s) + sealing) by apply (so_len ZO).
  rewrite N.mod_small by lia. destruct (fs_write_spec (be 4 (lenN y)) Q Hp) as (u & -> & U1 & U2 & U3). destruct (fs_write_spec y U1 U3) as (u' & -> & V1 & V2 & V3). exists u'. split; [reflexivity|]. split; [exact V1|]. split; [|exact V3]. rewrite V2, U2, app_nil_r, <- app_assoc. reflexivity.
Qed.
Lemma write_loop_adds fuel : forall b s x s', quiet (fs_raw (cs_under s)) -> pos s = lenN (dat s) -> lenN (cs_chunk s) <= max -> cs_write_loop fuel KSeal max b s = (x, s') -> adds s s'.
Proof.
  induction fuel as [|fuel IH]; intros b s x s' Q Hp Hl H; destruct b as [|a b']; cbn [cs_write_loop] in H; try (injection H as <- <-; now apply adds_refl). destruct (max <? lenN (cs_chunk s)); [injection H as <- <-; now apply adds_refl|].
  set (b := a :: b') in *. set (j := N.min (lenN b) (max - lenN (cs_chunk s))) in H. destruct (N.eqb_spec j 0) as [Hj|Hj].
  - assert (Hfull : lenN (cs_chunk s) = max) by (unfold j, b in Hj; rewrite lenN_cons in Hj; lia). assert (Hne : cs_chunk s <> []) by (intros Hx; rewrite Hx, lenN_nil in Hfull; lia).
    destruct (write_adds Q Hp Hne Hl) as (u & Hw & U1 & U2 & U3). rewrite Hw in H. cbn [cs_under cs_rpos cs_draws] in H. apply adds_trans with (CStream u [] (cs_rpos s) (cs_draws s + 1)).
    + exists [cs_chunk s]. split; [exact U2|reflexivity].
    + apply (IH b _ x s'); [exact U1|exact U3| |exact H]. cbn [cs_chunk]. rewrite lenN_nil. lia.
  - apply adds_trans with (CStream (cs_under s) (cs_chunk s ++ take j b) (cs_rpos s) (cs_draws s)); [now apply adds_refl|]. apply (IH (drop j b) _ x s'); [exact Q|exact Hp| |exact H]. cbn [cs_chunk]. rewrite lenN_app, lenN_take. unfold j. lia.
Qed.
Lemma flush_adds s a : stands KSeal max s a -> adds s (snd (cs_flush KSeal s)).
Proof.
  intros [Q H]. unfold cs_flush. destruct (cs_rpos s) as [p|]; [now apply adds_refl|]. destruct (cs_chunk s) as [|x c'] eqn:Hc; [now apply adds_refl|]. rewrite <- Hc in *. destruct H as (_ & _ & H3 & H4 & _).
  destruct (write_adds Q H3) as (u & -> & U1 & U2 & U3); [rewrite Hc; discriminate|exact H4|]. exists [cs_chunk s]. split; [exact U2|reflexivity].
Qed.
Lemma call_adds o s a : stands KSeal max s a -> allowed o a -> adds s (snd (call KSeal max o s)).
Proof.
  intros St Ha. destruct o as [b| | | |n]; cbn [call].
  - unfold done. cbn [snd]. unfold cs_write. cbn [allowed] in Ha. pose proof St as [Q H]. set (s1 := match cs_rpos s with Some _ => CStream (cs_under s) [] None (cs_draws s) | None => s end).
    assert (H1 : adds s s1 /\ quiet (fs_raw (cs_under s1)) /\ pos s1 = lenN (dat s1) /\ lenN (cs_chunk s1) <= max).
    { unfold s1. destruct (cs_rpos s) as [p|] eqn:Ep; cbn [cs_under cs_chunk].
      - split; [now apply adds_refl|]. split; [exact Q|]. split; [exact (proj1 (at_end Hmax Hlim St Ep Ha))|rewrite lenN_nil; lia].
      - destruct H as (_ & _ & H3 & H4 & _). split; [now apply adds_refl|]. auto. }
    destruct H1 as (A1 & A2 & A3 & A4). destruct (cs_write_loop (S (2 * length b)) KSeal max b s1) as [x s'] eqn:Hw. apply (adds_trans A1). exact (write_loop_adds A2 A3 A4 Hw).
  - exact (flush_adds St).
  - unfold done, cs_seek_begin. pose proof (flush_adds St) as A. destruct (cs_flush KSeal s) as [[[]|e] s1]; cbn [fst snd] in *; [|exact A]. apply (adds_trans A). now apply adds_refl.
  - unfold done, cs_seek_end. pose proof (flush_adds St) as A. destruct (cs_flush KSeal s) as [[[]|e] s1]; cbn [fst snd] in *; [|exact A]. unfold fs_seek_end, raw_eof. destruct (next_step (fs_raw (cs_under s1)) 0) as [st p]. destruct (rs_err st); cbn [snd]; apply (adds_trans A); now apply adds_refl.
  - unfold cs_read. destruct (cs_rpos s); [|now apply adds_refl]. match goal with |- context[cs_read_loop ?f KSeal n [] s] => pose proof (read_keeps f n [] s) as [I1 I2]; destruct (cs_read_loop f KSeal n [] s) as [x s'] end. cbn [snd] in *. now apply adds_refl.
Qed.
Lemma calls_adds (EO : EnvOk E) l : forall s a, stands KSeal max s a -> all_allowed l a -> adds s (snd (calls KSeal max l s)).
Proof.
  induction l as [|o l IH]; intros s a St Ha; [now apply adds_refl|]. cbn [all_allowed] in Ha. destruct Ha as [A1 A2]. cbn [calls]. pose proof (call_adds St A1) as C. destruct (call_ok EO ZO Hmax Hlim St A1) as (s1 & C1 & S1). rewrite C1 in *. cbn [snd] in C.
  specialize (IH s1 _ S1 A2). destruct (calls KSeal max l s1) as [xs s2]. cbn [snd] in *. exact (adds_trans C IH).
Qed.
End Nonces.
