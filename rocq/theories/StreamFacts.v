(** Proofs about streams of chunks. *)
From Verif Require Import Base Codec CodecFacts File IoBuffer IoFacts TreeWriter Stream SpecStream.
Local Open Scope N_scope.
Unset Strict Implicit.

(** ** The file underneath *)

Lemma piece (n m : N) (d : bytes) : lenN (take m d) <= n -> take m d ++ take (n - lenN (take m d)) (drop (lenN (take m d)) d) = take n d.
Proof.
  intros H. assert (Hd : d = take m d ++ drop (lenN (take m d)) d).
  { rewrite lenN_take. destruct (N.min_spec m (lenN d)) as [[H1 ->]|[H1 ->]]; [now rewrite take_drop|]. rewrite (drop_all d) by lia. now rewrite take_all, app_nil_r by lia. }
  rewrite Hd at 5. rewrite take_app_ge by exact H. reflexivity.
Qed.
Lemma fs_read_any fuel : forall n acc s ok acc' s', fs_read_loop fuel n acc s = (Ok ok, acc', s') -> fs_pos s <= lenN (rw_data (fs_raw s)) ->
  rw_data (fs_raw s') = rw_data (fs_raw s) /\ fs_pos s' <= lenN (rw_data (fs_raw s)) /\
  (ok = true -> fs_pos s' = fs_pos s + n /\ acc' = acc ++ take n (drop (fs_pos s) (rw_data (fs_raw s)))) /\
  (ok = false -> lenN (rw_data (fs_raw s)) < fs_pos s + n /\ fs_pos s' = lenN (rw_data (fs_raw s))) /\
  (quiet (fs_raw s) -> quiet (fs_raw s')).
Proof.
  induction fuel as [|fuel IH]; intros n acc s ok acc' s' H Hp; cbn [fs_read_loop] in H; destruct (N.eqb_spec n 0) as [->|Hn]; try discriminate H.
  - injection H as <- <- <-. split; [reflexivity|]. split; [exact Hp|]. rewrite take_0, app_nil_r, N.add_0_r. split; [auto|]. split; [discriminate|auto].
  - injection H as <- <- <-. split; [reflexivity|]. split; [exact Hp|]. rewrite take_0, app_nil_r, N.add_0_r. split; [auto|]. split; [discriminate|auto].
  - unfold raw_pread in H. destruct (next_step (fs_raw s) n) as [st p] eqn:Hs.
    assert (Hq : quiet (fs_raw s) -> Forall (fun s => rs_err s = None) p).
    { unfold next_step in Hs. intros Q. unfold quiet in Q. destruct (rw_plan (fs_raw s)) as [|x l]; [injection Hs as _ <-; constructor|]. injection Hs as _ <-. now inversion Q. }
    destruct (rs_err st) as [e|] eqn:He; [discriminate H|]. set (m := N.min (N.max 1 (rs_count st)) n) in *. assert (Hm : 1 <= m <= n) by lia.
    set (b := take m (drop (fs_pos s) (rw_data (fs_raw s)))) in *. assert (Hb : lenN b = N.min m (lenN (rw_data (fs_raw s)) - fs_pos s)) by (unfold b; rewrite lenN_take, lenN_drop; reflexivity).
    destruct b as [|x b'] eqn:Eb.
    + injection H as <- <- <-. cbn [fs_raw fs_pos rw_data]. rewrite lenN_nil in Hb. split; [reflexivity|]. split; [exact Hp|]. split; [discriminate|]. split; [intros _; lia|exact Hq].
    + rewrite <- Eb in *. apply IH in H; [|cbn [fs_raw fs_pos rw_data]; lia]. cbn [fs_raw fs_pos rw_data] in H. destruct H as (H1 & H2 & H3 & H4 & H5). split; [exact H1|]. split; [exact H2|].
      split; [intros Ht; destruct (H3 Ht) as [T1 T2]; split; [lia|]; rewrite T2, <- app_assoc; f_equal|split; [intros Hf; destruct (H4 Hf) as (F1 & F2); lia|intros Q; apply H5, Hq, Q]].
      rewrite <- drop_drop. unfold b. apply piece. fold b. lia.
Qed.
Lemma fs_read_total fuel : forall n acc s, quiet (fs_raw s) -> fs_pos s <= lenN (rw_data (fs_raw s)) -> (N.to_nat (lenN (rw_data (fs_raw s)) - fs_pos s) < fuel)%nat ->
  exists ok acc' s', fs_read_loop fuel n acc s = (Ok ok, acc', s').
Proof.
  induction fuel as [|fuel IH]; intros n acc s Q Hp Hf; [lia|]. cbn [fs_read_loop]. destruct (N.eqb_spec n 0) as [->|Hn]; [eauto|].
  unfold raw_pread. destruct (next_step (fs_raw s) n) as [st p] eqn:Hs.
  assert (Hq : rs_err st = None /\ Forall (fun s => rs_err s = None) p).
  { unfold next_step in Hs. unfold quiet in Q. destruct (rw_plan (fs_raw s)) as [|x l]; [injection Hs as <- <-; split; [reflexivity|constructor]|]. injection Hs as <- <-. inversion Q; auto. }
  destruct Hq as [-> Hq]. set (m := N.min (N.max 1 (rs_count st)) n) in *. assert (Hm : 1 <= m <= n) by lia.
  set (b := take m (drop (fs_pos s) (rw_data (fs_raw s)))) in *. assert (Hb : lenN b = N.min m (lenN (rw_data (fs_raw s)) - fs_pos s)) by (unfold b; rewrite lenN_take, lenN_drop; reflexivity).
  destruct b as [|x b'] eqn:Eb; [eauto|]. rewrite <- Eb in *. assert (Hl : 1 <= lenN b) by (rewrite Eb, lenN_cons; lia). apply IH; cbn [fs_raw fs_pos rw_data]; [exact Hq|lia|lia].
Qed.

(** A read from a position inside of the file. *)
Lemma fs_read_spec buf s : quiet (fs_raw s) -> fs_pos s <= lenN (rw_data (fs_raw s)) ->
  exists s', quiet (fs_raw s') /\ rw_data (fs_raw s') = rw_data (fs_raw s) /\
    if fs_pos s + lenN buf <=? lenN (rw_data (fs_raw s)) then fs_read buf s = (Ok true, take (lenN buf) (drop (fs_pos s) (rw_data (fs_raw s))), s') /\ fs_pos s' = fs_pos s + lenN buf
    else (exists b, fs_read buf s = (Ok false, b, s')) /\ fs_pos s' = lenN (rw_data (fs_raw s)).
Proof.
  intros Q Hp. destruct (@fs_read_total (S (length (rw_data (fs_raw s)))) (lenN buf) [] s Q Hp) as (ok & acc & s' & H); [unfold lenN; lia|].
  destruct (fs_read_any H Hp) as (H1 & H2 & H3 & H4 & H5). exists s'. split; [apply H5, Q|]. split; [exact H1|]. unfold fs_read. rewrite H. destruct ok.
  - destruct (H3 eq_refl) as [T1 T2]. cbn [app] in T2. destruct (N.leb_spec (fs_pos s + lenN buf) (lenN (rw_data (fs_raw s)))) as [Hle|Hgt]; [|lia]. split; [|exact T1].
    assert (Hl : lenN acc = lenN buf) by (rewrite T2, lenN_take, lenN_drop; lia). rewrite Hl, drop_all, app_nil_r by lia. rewrite T2. reflexivity.
  - destruct (H4 eq_refl) as [F1 F2]. destruct (N.leb_spec (fs_pos s + lenN buf) (lenN (rw_data (fs_raw s)))) as [Hle|Hgt]; [lia|]. split; [eauto|exact F2].
Qed.
(** Any read that succeeds, also of a damaged file and with failing calls before. *)
Lemma fs_read_ok buf s b s' : fs_read buf s = (Ok true, b, s') -> fs_pos s <= lenN (rw_data (fs_raw s)) ->
  rw_data (fs_raw s') = rw_data (fs_raw s) /\ fs_pos s' = fs_pos s + lenN buf /\ fs_pos s' <= lenN (rw_data (fs_raw s)) /\ b = take (lenN buf) (drop (fs_pos s) (rw_data (fs_raw s))).
Proof.
  intros H Hp. unfold fs_read in H. destruct (fs_read_loop _ _ _ s) as [[[ok|e] acc] s1] eqn:Hr; [|discriminate H]. injection H as -> <- ->. destruct (fs_read_any Hr Hp) as (H1 & H2 & H3 & _).
  destruct (H3 eq_refl) as [T1 T2]. cbn [app] in T2. split; [exact H1|]. split; [exact T1|]. split; [exact H2|]. assert (Hl : lenN acc = lenN buf) by (rewrite T2, lenN_take, lenN_drop; lia).
  rewrite Hl, drop_all, app_nil_r by lia. exact T2.
Qed.
(** A write at the end of the file. *)
Lemma overwrite_end (l b : bytes) : overwrite l (lenN l) b = l ++ b.
Proof.
  destruct b as [|x b]; [now rewrite app_nil_r|]. unfold overwrite. rewrite take_all by lia. rewrite N.sub_diag. cbn [N.to_nat repeat app]. rewrite (drop_all l) by lia. now rewrite app_nil_r.
Qed.
Lemma fs_write_spec_loop fuel : forall b s, quiet (fs_raw s) -> fs_pos s = lenN (rw_data (fs_raw s)) -> (length b < fuel)%nat ->
  exists s', fs_write_loop fuel b s = (Ok tt, s') /\ quiet (fs_raw s') /\ rw_data (fs_raw s') = rw_data (fs_raw s) ++ b /\ fs_pos s' = lenN (rw_data (fs_raw s')).
Proof.
  induction fuel as [|fuel IH]; intros b s Q Hp Hf; [lia|]. destruct b as [|x b']; [exists s; cbn [fs_write_loop]; rewrite app_nil_r; auto|]. cbn [fs_write_loop]. set (b := x :: b') in *. assert (Hb : 1 <= lenN b) by (unfold b; rewrite lenN_cons; lia).
  unfold raw_pwrite. destruct (next_step (fs_raw s) (lenN b)) as [st p] eqn:Hs.
  assert (Hq : rs_err st = None /\ Forall (fun s => rs_err s = None) p).
  { unfold next_step in Hs. unfold quiet in Q. destruct (rw_plan (fs_raw s)) as [|y l]; [injection Hs as <- <-; split; [reflexivity|constructor]|]. injection Hs as <- <-. inversion Q; auto. }
  destruct Hq as [-> Hq]. set (m := N.min (N.max 1 (rs_count st)) (lenN b)) in *. assert (Hm : 1 <= m <= lenN b) by lia. rewrite Hp, overwrite_end.
  destruct (IH (drop m b) (FStream (Raw (rw_data (fs_raw s) ++ take m b) p) (lenN (rw_data (fs_raw s)) + m))) as (s' & H1 & H2 & H3 & H4); cbn [fs_raw fs_pos rw_data].
  - exact Hq.
  - rewrite lenN_app, lenN_take. lia.
  - pose proof (lenN_drop m b) as Hd. unfold lenN in *. lia.
  - exists s'. split; [exact H1|]. split; [exact H2|]. cbn [fs_raw rw_data] in H3. split; [|exact H4]. rewrite H3, <- app_assoc, take_drop. reflexivity.
Qed.
Lemma fs_write_spec b s : quiet (fs_raw s) -> fs_pos s = lenN (rw_data (fs_raw s)) ->
  exists s', fs_write b s = (Ok tt, s') /\ quiet (fs_raw s') /\ rw_data (fs_raw s') = rw_data (fs_raw s) ++ b /\ fs_pos s' = lenN (rw_data (fs_raw s')).
Proof. intros Q Hp. apply fs_write_spec_loop; [exact Q|exact Hp|lia]. Qed.

Lemma is_bytes_take n (l : bytes) : is_bytes l -> is_bytes (take n l).
Proof. intros H. rewrite <- (take_drop n l) in H. now apply Forall_app in H. Qed.
Lemma is_bytes_drop n (l : bytes) : is_bytes l -> is_bytes (drop n l).
Proof. intros H. rewrite <- (take_drop n l) in H. now apply Forall_app in H. Qed.

Section Chunks.
Context {E : Env} (EO : EnvOk E) {Z : Sealer} (ZO : SealOk).
Notation dat s := (rw_data (fs_raw (cs_under s))).
Notation pos s := (fs_pos (cs_under s)).
Notation still s := (quiet (fs_raw (cs_under s))).

Lemma lenN_resize n l : lenN (resize n l) = n.
Proof. unfold resize. rewrite lenN_app, lenN_take, lenN_zeros. lia. Qed.
Lemma mid (b1 x b2 : bytes) n : n = lenN x -> take n (drop (lenN b1) (b1 ++ x ++ b2)) = x.
Proof. intros ->. rewrite drop_app_exact by reflexivity. now apply take_app_exact. Qed.

Lemma read_chunk_ok k s b1 c cb b2 : still s -> dat s = b1 ++ cb ++ b2 -> pos s = lenN b1 -> chunk_of k c cb ->
  exists u, read_chunk k s = (Ok true, CStream u c (cs_rpos s) (cs_draws s)) /\ quiet (fs_raw u) /\ rw_data (fs_raw u) = dat s /\ fs_pos u = lenN (b1 ++ cb).
Proof.
  intros Q Hd Hp Hc. assert (Hlen : lenN (dat s) = lenN b1 + lenN cb + lenN b2) by (rewrite Hd, !lenN_app; lia). destruct k; cbn [read_chunk chunk_of] in *.
  - destruct Hc as [Hc ->]. rewrite !lenN_app, !lenN_be in *. change (N.of_nat 4) with 4 in *. unfold read_chunk_sum. change (repeat 0 8) with (@repeat N 0 8).
    destruct (@fs_read_spec (repeat 0 8) (cs_under s) Q) as (u & U1 & U2 & U3); [lia|]. change (lenN (repeat 0 8)) with 8 in U3. destruct (N.leb_spec (pos s + 8) (lenN (dat s))) as [_|Hx]; [|lia]. destruct U3 as [-> U3].
    assert (H8 : take 8 (drop (pos s) (dat s)) = be 4 (lenN c + 4) ++ be 4 (crc32c c)).
    { rewrite Hp, Hd, <- (@mid b1 (be 4 (lenN c + 4) ++ be 4 (crc32c c)) (c ++ b2) 8) by (rewrite lenN_app, !lenN_be; reflexivity). now rewrite <- !app_assoc. }
    change (lenN (repeat 0 8)) with 8. rewrite H8.
    rewrite take_app_exact, drop_app_exact by (rewrite lenN_be; reflexivity). rewrite !unbe_be_small by (try exact Hc; apply (ok_crc32c EO)). destruct (N.ltb_spec (lenN c + 4) 4) as [Hx|_]; [lia|].
    destruct (@fs_read_spec (resize (lenN c + 4 - 4) (cs_chunk s)) u U1) as (u' & V1 & V2 & V3); [rewrite U2; lia|]. rewrite lenN_resize in V3. replace (lenN c + 4 - 4) with (lenN c) in * by lia.
    rewrite U2 in V3. destruct (N.leb_spec (fs_pos u + lenN c) (lenN (dat s))) as [_|Hx]; [|lia]. destruct V3 as [-> V3].
    assert (Ht : take (lenN c) (drop (fs_pos u) (dat s)) = c).
    { set (X := b1 ++ be 4 (lenN c + 4) ++ be 4 (crc32c c)). assert (Hs : dat s = X ++ c ++ b2) by (rewrite Hd; unfold X; now rewrite <- !app_assoc). rewrite U3, Hp, Hs.
      replace (lenN b1 + 8) with (lenN X) by (unfold X; rewrite !lenN_app, !lenN_be; lia). now apply mid. }
    rewrite Ht, N.eqb_refl. exists u'. split; [reflexivity|]. split; [exact V1|]. split; [now rewrite V2|]. lia.
  - destruct Hc as (y & Hy & Ho & ->). rewrite !lenN_app, !lenN_be in *. change (N.of_nat 4) with 4 in *. unfold read_chunk_seal.
    destruct (@fs_read_spec (repeat 0 4) (cs_under s) Q) as (u & U1 & U2 & U3); [lia|]. change (lenN (repeat 0 4)) with 4 in U3. destruct (N.leb_spec (pos s + 4) (lenN (dat s))) as [_|Hx]; [|lia]. destruct U3 as [-> U3].
    assert (H4 : take 4 (drop (pos s) (dat s)) = be 4 (lenN y)).
    { assert (Hs : dat s = b1 ++ be 4 (lenN y) ++ (y ++ b2)) by (rewrite Hd; now rewrite <- !app_assoc). rewrite Hp, Hs. apply mid. rewrite lenN_be. reflexivity. }
    change (lenN (repeat 0 4)) with 4. rewrite H4. rewrite !unbe_be_small by apply Hy. destruct (N.ltb_spec (lenN y) (sealing + 1)) as [Hx|_]; [lia|].
    destruct (@fs_read_spec (resize (lenN y) (cs_chunk s)) u U1) as (u' & V1 & V2 & V3); [rewrite U2; lia|]. rewrite lenN_resize in V3.
    rewrite U2 in V3. destruct (N.leb_spec (fs_pos u + lenN y) (lenN (dat s))) as [_|Hx]; [|lia]. destruct V3 as [-> V3].
    assert (Ht : take (lenN y) (drop (fs_pos u) (dat s)) = y).
    { set (X := b1 ++ be 4 (lenN y)). assert (Hs : dat s = X ++ y ++ b2) by (rewrite Hd; unfold X; now rewrite <- !app_assoc). rewrite U3, Hp, Hs.
      replace (lenN b1 + 4) with (lenN X) by (unfold X; rewrite !lenN_app, !lenN_be; lia). now apply mid. }
    rewrite Ht, Ho. exists u'. split; [reflexivity|]. split; [exact V1|]. split; [now rewrite V2|]. lia.
Qed.
Lemma read_chunk_eof k s : still s -> pos s = lenN (dat s) ->
  exists u, read_chunk k s = (Ok false, CStream u (cs_chunk s) (cs_rpos s) (cs_draws s)) /\ quiet (fs_raw u) /\ rw_data (fs_raw u) = dat s /\ fs_pos u = lenN (dat s).
Proof.
  intros Q Hp. destruct k; cbn [read_chunk]; [unfold read_chunk_sum; set (z := repeat 0 8)|unfold read_chunk_seal; set (z := repeat 0 4)];
  (destruct (@fs_read_spec z (cs_under s) Q) as (u & U1 & U2 & U3); [lia|]; assert (Hz : 4 <= lenN z) by (vm_compute; discriminate);
   destruct (N.leb_spec (pos s + lenN z) (lenN (dat s))) as [Hx|_]; [lia|]; destruct U3 as [(b & ->) U3]; exists u; split; [reflexivity|]; split; [exact U1|]; split; [exact U2|exact U3]).
Qed.
Lemma write_chunk_ok k s : still s -> pos s = lenN (dat s) -> cs_chunk s <> [] -> lenN (cs_chunk s) + sealing + 4 < 2^32 ->
  exists u n cb, write_chunk k s = (Ok tt, CStream u (cs_chunk s) (cs_rpos s) n) /\ quiet (fs_raw u) /\ rw_data (fs_raw u) = dat s ++ cb /\ fs_pos u = lenN (rw_data (fs_raw u)) /\ chunk_of k (cs_chunk s) cb.
Proof.
  intros Q Hp Hn Hl. destruct k; cbn [write_chunk chunk_of].
  - unfold write_chunk_sum. rewrite N.mod_small by lia. destruct (fs_write_spec (be 4 (lenN (cs_chunk s) + 4) ++ be 4 (crc32c (cs_chunk s))) Q Hp) as (u & -> & U1 & U2 & U3).
    destruct (fs_write_spec (cs_chunk s) U1 U3) as (u' & -> & V1 & V2 & V3). exists u', (cs_draws s), (be 4 (lenN (cs_chunk s) + 4) ++ be 4 (crc32c (cs_chunk s)) ++ cs_chunk s).
    split; [reflexivity|]. split; [exact V1|]. split; [rewrite V2, U2; now rewrite <- !app_assoc|]. split; [exact V3|]. split; [lia|reflexivity].
  - unfold write_chunk_seal. destruct (cs_chunk s) as [|x c'] eqn:Hc; [congruence|]. rewrite <- Hc in *. set (y := seal (cs_draws s) (cs_chunk s)). assert (Hy : lenN y = lenN (cs_chunk s) + sealing) by apply (so_len ZO).
    assert (Hpos : 1 <= lenN (cs_chunk s)) by (rewrite Hc, lenN_cons; lia).
    rewrite N.mod_small by lia. destruct (fs_write_spec (be 4 (lenN y)) Q Hp) as (u & -> & U1 & U2 & U3).
    destruct (fs_write_spec y U1 U3) as (u' & -> & V1 & V2 & V3). exists u', (cs_draws s + 1), (be 4 (lenN y) ++ y).
    split; [reflexivity|]. split; [exact V1|]. split; [rewrite V2, U2; now rewrite <- !app_assoc|]. split; [exact V3|]. exists y. split; [lia|]. split; [apply (so_open ZO)|reflexivity].
Qed.
Lemma stream_nil k : stream_file k [] [].
Proof. exists [], []. repeat split; constructor. Qed.
Lemma stream_app k d1 f1 d2 f2 : stream_file k d1 f1 -> stream_file k d2 f2 -> stream_file k (d1 ++ d2) (f1 ++ f2).
Proof.
  intros (c1 & b1 & H1 & N1 & -> & ->) (c2 & b2 & H2 & N2 & -> & ->). exists (c1 ++ c2), (b1 ++ b2). split; [now apply Forall2_app|]. split; [now apply Forall_app|]. rewrite !concat_app. auto.
Qed.
Lemma stream_one k c b : chunk_of k c b -> c <> [] -> stream_file k c b.
Proof. intros H Hn. exists [c], [b]. split; [constructor; [exact H|constructor]|]. split; [constructor; [exact Hn|constructor]|]. cbn. now rewrite !app_nil_r. Qed.

(** How a stream stands for a sequence of bytes. *)
Definition stands (k : kind) (max : N) (s : cstream) (a : plain) : Prop :=
  still s /\
  match cs_rpos s with
  | None => p_dirty a = true /\ p_pos a = lenN (p_data a) /\ pos s = lenN (dat s) /\ lenN (cs_chunk s) <= max /\ exists d, stream_file k d (dat s) /\ p_data a = d ++ cs_chunk s
  | Some p => p_dirty a = false /\ p <= lenN (cs_chunk s) /\ exists d0 d2 b1 b2, dat s = b1 ++ b2 /\ pos s = lenN b1 /\ stream_file k (d0 ++ drop p (cs_chunk s)) b1 /\ stream_file k d2 b2 /\
                p_data a = d0 ++ drop p (cs_chunk s) ++ d2 /\ p_pos a = lenN d0
  end.
Variable k : kind.
Variable max : N.
Hypothesis Hmax : 0 < max.
Hypothesis Hlim : max + sealing + 4 < 2^32.

Lemma stream_first d2 b2 : stream_file k d2 b2 -> (d2 = [] /\ b2 = []) \/ exists c cb d3 b3, chunk_of k c cb /\ c <> [] /\ d2 = c ++ d3 /\ b2 = cb ++ b3 /\ stream_file k d3 b3.
Proof. clear Hmax Hlim.
  intros (cs & bs & H & Hn & -> & ->). destruct H as [|c b cs bs Hc H]; [left; auto|]. right. inversion Hn as [|? ? H1 H2]; subst. exists c, b, (concat cs), (concat bs). split; [exact Hc|]. split; [exact H1|].
  split; [reflexivity|]. split; [reflexivity|]. exists cs, bs. auto.
Qed.
Lemma chunk_len c cb : chunk_of k c cb -> 1 <= lenN cb.
Proof. clear Hmax Hlim. unfold chunk_of. destruct k; [intros [_ ->]|intros (y & _ & _ & ->)]; rewrite !lenN_app, !lenN_be; lia. Qed.

Lemma read_loop_ok fuel : forall n acc s a, stands k max s a -> cs_rpos s <> None -> (N.to_nat n + N.to_nat (lenN (dat s) - pos s) < fuel)%nat ->
  exists s', stands k max s' (snd (plain_call (SRead n) a)) /\ cs_rpos s' <> None /\
    cs_read_loop fuel k n acc s = (Ok (if p_pos a + n <=? lenN (p_data a) then Some (acc ++ take n (drop (p_pos a) (p_data a))) else None), s').
Proof. clear Hmax Hlim.
  induction fuel as [|fuel IH]; intros n acc s a (Q & H) Hr Hf; [lia|]. destruct (cs_rpos s) as [p|] eqn:Ep; [clear Hr|congruence]. destruct H as (Hd & Hp & d0 & d2 & b1 & b2 & F1 & F2 & F3 & F4 & F5 & F6).
  cbn [cs_read_loop]. destruct (N.eqb_spec n 0) as [->|Hn].
  { rewrite N.add_0_r. assert (Hle : p_pos a <= lenN (p_data a)) by (rewrite F5, F6, !lenN_app; lia). destruct (N.leb_spec (p_pos a) (lenN (p_data a))) as [_|Hx]; [|lia]. rewrite take_0, app_nil_r. exists s. split; [|split; [congruence|reflexivity]].
    unfold plain_call. rewrite Hd, N.add_0_r. destruct (N.leb_spec (p_pos a) (lenN (p_data a))) as [_|Hx]; [|lia]. cbn [snd]. split; [exact Q|]. rewrite Ep. cbn [p_dirty p_data p_pos]. split; [reflexivity|]. split; [exact Hp|].
    exists d0, d2, b1, b2. auto 10. }
  rewrite Ep. destruct (N.ltb_spec (lenN (cs_chunk s)) p) as [Hx|_]; [lia|]. set (m := N.min n (lenN (cs_chunk s) - p)). destruct (N.eqb_spec m 0) as [Hm|Hm].
  - assert (Hall : p = lenN (cs_chunk s)) by (unfold m in Hm; lia). rewrite (drop_all (cs_chunk s)) in F3, F5 by lia. rewrite app_nil_r in F3. cbn [app] in F5. destruct (stream_first F4) as [[-> ->]|(c & cb & d3 & b3 & C1 & C2 & -> & -> & C3)].
    + rewrite app_nil_r in F1, F5. destruct (@read_chunk_eof k s Q) as (u & -> & U1 & U2 & U3); [rewrite F1; exact F2|].
      destruct (N.leb_spec (p_pos a + n) (lenN (p_data a))) as [Hx|Hx]; [rewrite F5, F6 in Hx; lia|]. exists (CStream u (cs_chunk s) (cs_rpos s) (cs_draws s)). rewrite Ep. split; [|split; [discriminate|reflexivity]].
      unfold plain_call. rewrite Hd. destruct (N.leb_spec (p_pos a + n) (lenN (p_data a))) as [Hy|_]; [lia|]. cbn [snd]. split; [exact U1|]. cbn [cs_rpos cs_under cs_chunk p_dirty p_data p_pos]. split; [reflexivity|]. split; [exact Hp|].
      exists d0, [], b1, []. rewrite (drop_all (cs_chunk s)) by lia. rewrite !app_nil_r. split; [now rewrite U2|]. split; [rewrite U3; now rewrite F1|]. split; [exact F3|]. split; [apply stream_nil|]. split; [exact F5|now rewrite F5].
    + destruct (@read_chunk_ok k s b1 c cb b3 Q F1 F2 C1) as (u & -> & U1 & U2 & U3). cbn [cs_under cs_chunk cs_draws].
      destruct (IH n acc (CStream u c (Some 0) (cs_draws s)) a) as (s' & S1 & S2 & S3).
      * split; [exact U1|]. cbn [cs_rpos cs_under cs_chunk]. split; [exact Hd|]. split; [lia|]. exists d0, d3, (b1 ++ cb), b3. rewrite drop_0. split; [now rewrite U2, F1, <- app_assoc|]. split; [exact U3|].
        split; [apply stream_app; [exact F3|now apply stream_one]|]. split; [exact C3|]. split; [exact F5|exact F6].
      * discriminate.
      * cbn [cs_under]. pose proof (chunk_len C1) as Hcl. rewrite U2, U3, F1, !lenN_app. rewrite F2, F1, !lenN_app in Hf. lia.
      * exists s'. split; [exact S1|]. split; [exact S2|exact S3].
  - assert (Hm1 : 1 <= m <= n /\ p + m <= lenN (cs_chunk s)) by (unfold m; lia). set (a' := Plain (p_data a) (p_pos a + m) false).
    destruct (IH (n - m) (acc ++ take m (drop p (cs_chunk s))) (CStream (cs_under s) (cs_chunk s) (Some (p + m)) (cs_draws s)) a') as (s' & S1 & S2 & S3).
    + split; [exact Q|]. cbn [cs_rpos cs_under cs_chunk]. split; [reflexivity|]. split; [lia|]. exists (d0 ++ take m (drop p (cs_chunk s))), d2, b1, b2. rewrite <- drop_drop, <- !app_assoc, take_drop. rewrite (app_assoc (take m _)), take_drop.
      split; [exact F1|]. split; [exact F2|]. split; [exact F3|]. split; [exact F4|]. split; [exact F5|]. cbn [a' p_pos]. rewrite lenN_app, lenN_take, lenN_drop, F6. lia.
    + discriminate.
    + cbn [cs_under]. lia.
    + exists s'. unfold plain_call in S1 |- *. cbn [a' p_dirty p_data p_pos] in S1, S3. rewrite Hd. replace (p_pos a + m + (n - m)) with (p_pos a + n) in S1, S3 by lia. split; [destruct (N.leb_spec (p_pos a + n) (lenN (p_data a))); exact S1|]. split; [exact S2|]. rewrite S3. do 2 f_equal.
      destruct (N.leb_spec (p_pos a + n) (lenN (p_data a))) as [Hx|Hx]; [|reflexivity]. f_equal. rewrite <- app_assoc. f_equal. rewrite <- drop_drop. rewrite F5, F6, (@drop_app_exact N (lenN d0) d0 (drop p (cs_chunk s) ++ d2)) by reflexivity.
      set (q := drop p (cs_chunk s)) in *. assert (Hq : lenN q = lenN (cs_chunk s) - p) by (unfold q; apply lenN_drop). rewrite <- (take_app_le q d2) by lia.
      pose proof (@piece n m (q ++ d2)) as P. rewrite lenN_take, lenN_app in P. replace (N.min m (lenN q + lenN d2)) with m in P by lia. apply P. lia.
Qed.

Lemma read_ok n s a : stands k max s a -> exists s', call k max (SRead n) s = (fst (plain_call (SRead n) a), s') /\ stands k max s' (snd (plain_call (SRead n) a)).
Proof. clear Hmax Hlim.
  intros St. cbn [call]. unfold cs_read. destruct (cs_rpos s) as [p|] eqn:Ep.
  - destruct (@read_loop_ok (S (N.to_nat n + length (dat s))) n [] s a St) as (s' & S1 & S2 & ->); [congruence|unfold lenN; lia|]. exists s'. split; [|exact S1]. destruct St as [_ St]. rewrite Ep in St. destruct St as [Hd _].
    unfold plain_call. rewrite Hd. destruct (p_pos a + n <=? lenN (p_data a)); reflexivity.
  - exists s. pose proof St as [_ St']. rewrite Ep in St'. destruct St' as [Hd _]. unfold plain_call. rewrite Hd. split; [reflexivity|exact St].
Qed.
Lemma write_loop_ok fuel : forall (b : bytes) s a, stands k max s a -> cs_rpos s = None -> (2 * length b < fuel + (if (lenN (cs_chunk s) =? max)%N then 0 else 1))%nat ->
  exists s', cs_write_loop fuel k max b s = (Ok tt, s') /\ stands k max s' (snd (plain_call (SWrite b) a)).
Proof.
  induction fuel as [|fuel IH]; intros b s a St Er Hf.
  - destruct b as [|x b]; [|cbn [length] in Hf; destruct (_ =? _); lia]. exists s. split; [reflexivity|]. cbn [plain_call snd]. rewrite app_nil_r. pose proof St as [Q H]. rewrite Er in H. destruct H as (H1 & H2 & H). destruct a as [pd pp pb]. cbn [p_data p_pos p_dirty] in *. subst pb pp. exact St.
  - destruct b as [|x b']; [exists s; split; [reflexivity|]; cbn [plain_call snd]; rewrite app_nil_r; pose proof St as [Q H]; rewrite Er in H; destruct H as (H1 & H2 & H); destruct a as [pd pp pb]; cbn [p_data p_pos p_dirty] in *; subst pb pp; exact St|].
    cbn [cs_write_loop]. set (b := x :: b') in *. assert (Hb : 1 <= lenN b) by (unfold b; rewrite lenN_cons; lia). pose proof St as [Q H]. rewrite Er in H. destruct H as (H1 & H2 & H3 & H4 & d & H5 & H6).
    destruct (N.ltb_spec max (lenN (cs_chunk s))) as [Hx|_]; [lia|]. set (m := N.min (lenN b) (max - lenN (cs_chunk s))). destruct (N.eqb_spec m 0) as [Hm|Hm].
    + assert (Hfull : lenN (cs_chunk s) = max) by (unfold m in Hm; lia). assert (Hne : cs_chunk s <> []) by (intros Hx; rewrite Hx, lenN_nil in Hfull; lia).
      destruct (@write_chunk_ok k s Q H3 Hne) as (u & n & cb & -> & U1 & U2 & U3 & U4); [lia|]. cbn [cs_under cs_rpos cs_draws]. rewrite Hfull, N.eqb_refl in Hf.
      apply IH; [|exact Er|].
      * split; [exact U1|]. rewrite Er. cbn [cs_rpos cs_under cs_chunk]. split; [exact H1|]. split; [exact H2|]. split; [exact U3|]. split; [rewrite lenN_nil; lia|]. exists (d ++ cs_chunk s). rewrite app_nil_r. split; [|exact H6].
        rewrite U2. apply stream_app; [exact H5|now apply stream_one].
      * cbn [cs_chunk]. rewrite lenN_nil. destruct (N.eqb_spec 0 max); lia.
    + assert (Hm1 : 1 <= m <= lenN b /\ lenN (cs_chunk s) + m <= max) by (unfold m; lia). set (a' := Plain (p_data a ++ take m b) (lenN (p_data a ++ take m b)) true).
      destruct (IH (drop m b) (CStream (cs_under s) (cs_chunk s ++ take m b) (cs_rpos s) (cs_draws s)) a') as (s' & S1 & S2).
      * split; [exact Q|]. cbn [cs_rpos cs_under cs_chunk]. rewrite Er. split; [reflexivity|]. split; [reflexivity|]. split; [exact H3|]. split; [rewrite lenN_app, lenN_take; lia|]. exists d. split; [exact H5|]. cbn [a' p_data]. now rewrite H6, <- app_assoc.
      * exact Er.
      * pose proof (lenN_drop m b) as Hd. unfold lenN in Hd, Hm1. cbn [cs_chunk]. destruct (lenN (cs_chunk s) =? max); destruct (_ =? max); lia.
      * exists s'. split; [exact S1|]. cbn [plain_call snd a' p_data] in S2 |- *. rewrite <- app_assoc, take_drop in S2. exact S2.
Qed.
(** At the end of the data, a stream that has been read has no unread chunks. *)
Lemma at_end s a p : stands k max s a -> cs_rpos s = Some p -> p_pos a = lenN (p_data a) -> pos s = lenN (dat s) /\ stream_file k (p_data a) (dat s).
Proof.
  intros [_ H] Ep He. rewrite Ep in H. destruct H as (_ & Hp & d0 & d2 & b1 & b2 & F1 & F2 & F3 & F4 & F5 & F6). rewrite F5, F6, !lenN_app in He.
  assert (Hd2 : d2 = []) by (apply lenN_0; lia). subst d2. destruct (stream_first F4) as [[_ ->]|(c & cb & d3 & b3 & _ & Hc & He2 & _)]; [|symmetry in He2; apply app_eq_nil in He2; destruct He2; congruence].
  rewrite app_nil_r in *. split; [congruence|]. rewrite F1, F5. exact F3.
Qed.
Lemma write_ok b s a : stands k max s a -> p_pos a = lenN (p_data a) -> exists s', call k max (SWrite b) s = (Done, s') /\ stands k max s' (snd (plain_call (SWrite b) a)).
Proof.
  intros St He. cbn [call]. unfold cs_write. destruct (cs_rpos s) as [p|] eqn:Ep.
  - destruct (at_end St Ep He) as [A1 A2]. set (s1 := CStream (cs_under s) [] None (cs_draws s)). set (a1 := Plain (p_data a) (lenN (p_data a)) true).
    assert (St1 : stands k max s1 a1).
    { split; [exact (proj1 St)|]. cbn [s1 cs_rpos cs_under cs_chunk a1 p_dirty p_pos p_data]. split; [reflexivity|]. split; [reflexivity|]. split; [exact A1|]. split; [rewrite lenN_nil; lia|]. exists (p_data a). split; [exact A2|now rewrite app_nil_r]. }
    destruct (@write_loop_ok (S (2 * length b)) b s1 a1 St1 eq_refl) as (s' & -> & S2); [destruct (_ =? _); lia|]. exists s'. split; [reflexivity|exact S2].
  - destruct (@write_loop_ok (S (2 * length b)) b s a St Ep) as (s' & -> & S2); [destruct (_ =? _); lia|]. exists s'. split; [reflexivity|exact S2].
Qed.
(** A flush or seek: nothing is left to be written. *)
Lemma flush_any s a : stands k max s a -> exists u n, cs_flush k s = (Ok tt, CStream u [] (Some 0) n) /\ quiet (fs_raw u) /\ stream_file k (p_data a) (rw_data (fs_raw u)) /\ (p_pos a = lenN (p_data a) -> fs_pos u = lenN (rw_data (fs_raw u))).
Proof.
  intros St. pose proof St as [Q H]. unfold cs_flush. destruct (cs_rpos s) as [p|] eqn:Ep.
  - exists (cs_under s), (cs_draws s). split; [reflexivity|]. split; [exact Q|]. destruct H as (Hd & Hp & d0 & d2 & b1 & b2 & F1 & F2 & F3 & F4 & F5 & F6). split; [rewrite F1, F5, app_assoc; apply stream_app; assumption|].
    intros He. exact (proj1 (at_end St Ep He)).
  - destruct H as (H1 & H2 & H3 & H4 & d & H5 & H6). destruct (cs_chunk s) as [|x c'] eqn:Hc.
    + exists (cs_under s), (cs_draws s). split; [reflexivity|]. split; [exact Q|]. rewrite app_nil_r in H6. subst d. auto.
    + rewrite <- Hc in *. destruct (@write_chunk_ok k s Q H3) as (u & n & cb & -> & U1 & U2 & U3 & U4); [rewrite Hc; discriminate|lia|]. cbn [cs_under cs_draws]. exists u, n. split; [reflexivity|]. split; [exact U1|]. split; [|auto].
      rewrite U2, H6. apply stream_app; [exact H5|]. apply stream_one; [exact U4|rewrite Hc; discriminate].
Qed.
Lemma flushed u n a : quiet (fs_raw u) -> stream_file k (p_data a) (rw_data (fs_raw u)) -> fs_pos u = lenN (rw_data (fs_raw u)) -> p_dirty a = false -> p_pos a = lenN (p_data a) -> stands k max (CStream u [] (Some 0) n) a.
Proof.
  intros Q F Hp Hd He. split; [exact Q|]. cbn [cs_rpos cs_under cs_chunk]. split; [exact Hd|]. split; [lia|]. exists (p_data a), [], (rw_data (fs_raw u)), []. change (drop 0 (@nil N)) with (@nil N). rewrite !app_nil_r.
  split; [reflexivity|]. split; [exact Hp|]. split; [exact F|]. split; [apply stream_nil|]. split; [reflexivity|exact He].
Qed.
Lemma begun u n d : quiet (fs_raw u) -> stream_file k d (rw_data (fs_raw u)) -> fs_pos u = 0 -> stands k max (CStream u [] (Some 0) n) (Plain d 0 false).
Proof. clear Hmax Hlim.
  intros Q F Hp. split; [exact Q|]. cbn [cs_rpos cs_under cs_chunk p_dirty p_data p_pos]. split; [reflexivity|]. split; [lia|]. exists [], d, [], (rw_data (fs_raw u)). change (drop 0 (@nil N)) with (@nil N). cbn [app].
  split; [reflexivity|]. split; [exact Hp|]. split; [apply stream_nil|]. split; [exact F|]. split; reflexivity.
Qed.
Lemma call_ok o s a : stands k max s a -> allowed o a -> exists s', call k max o s = (fst (plain_call o a), s') /\ stands k max s' (snd (plain_call o a)).
Proof.
  intros St Ha. destruct o as [b| | | |n].
  - exact (write_ok b St Ha).
  - destruct (flush_any St) as (u & n & Hf & U1 & U2 & U3). cbn [call]. rewrite Hf. eexists. split; [reflexivity|]. cbn [plain_call snd]. apply flushed; cbn [p_data p_dirty p_pos]; auto.
  - destruct (flush_any St) as (u & n & Hf & U1 & U2 & U3). cbn [call]. unfold cs_seek_begin. rewrite Hf. eexists. split; [reflexivity|]. cbn [plain_call snd done cs_under cs_chunk cs_rpos cs_draws]. apply begun; auto.
  - destruct (flush_any St) as (u & n & Hf & U1 & U2 & U3). cbn [call]. unfold cs_seek_end. rewrite Hf. cbn [cs_under cs_chunk cs_rpos cs_draws]. unfold fs_seek_end, raw_eof. destruct (next_step (fs_raw u) 0) as [st p] eqn:Hs.
    assert (Hq : rs_err st = None /\ Forall (fun s => rs_err s = None) p).
    { unfold next_step in Hs. unfold quiet in U1. destruct (rw_plan (fs_raw u)) as [|y l]; [injection Hs as <- <-; split; [reflexivity|constructor]|]. injection Hs as <- <-. inversion U1; auto. }
    destruct Hq as [-> Hq]. eexists. split; [reflexivity|]. cbn [plain_call snd done]. apply flushed; cbn [fs_raw fs_pos rw_data p_data p_dirty p_pos]; auto.
  - exact (read_ok n St).
Qed.
Lemma calls_ok l : forall s a, stands k max s a -> all_allowed l a -> exists s', calls k max l s = (fst (plain_calls l a), s') /\ stands k max s' (snd (plain_calls l a)).
Proof.
  induction l as [|o l IH]; intros s a St Ha; [exists s; auto|]. cbn [all_allowed] in Ha. destruct Ha as [A1 A2]. cbn [calls plain_calls]. destruct (call_ok St A1) as (s1 & -> & S1). destruct (plain_call o a) as [x a1]. cbn [fst snd] in *.
  destruct (IH s1 a1 S1 A2) as (s2 & -> & S2). destruct (plain_calls l a1) as [xs a2]. cbn [fst snd] in *. exists s2. auto.
Qed.
Lemma clean_file s a : stands k max s a -> p_dirty a = false -> stream_file k (p_data a) (dat s).
Proof.
  intros [_ H] Hd. destruct (cs_rpos s) as [p|].
  - destruct H as (_ & Hp & d0 & d2 & b1 & b2 & F1 & F2 & F3 & F4 & F5 & F6). rewrite F1, F5, app_assoc. apply stream_app; assumption.
  - destruct H as (H1 & _). congruence.
Qed.

(** ** Reads from any file *)

Lemma read_chunk_any s s' : is_bytes (dat s) -> pos s <= lenN (dat s) -> read_chunk k s = (Ok true, s') ->
  exists b1 cb b2, dat s = b1 ++ cb ++ b2 /\ pos s = lenN b1 /\ chunk_of k (cs_chunk s') cb /\ dat s' = dat s /\ pos s' = lenN (b1 ++ cb) /\ cs_rpos s' = cs_rpos s.
Proof. clear Hmax Hlim.
  intros HB Hp H. assert (Hsplit : forall i j, i <= j -> j <= lenN (dat s) -> dat s = take i (dat s) ++ take (j - i) (drop i (dat s)) ++ drop j (dat s)).
  { intros i j H1 H2. rewrite <- (take_drop i (dat s)) at 1. f_equal. rewrite <- (take_drop (j - i) (drop i (dat s))) at 1. f_equal. rewrite drop_drop. f_equal. lia. }
  assert (Htt : forall (i a b : N), take (a + b) (drop i (dat s)) = take a (drop i (dat s)) ++ take b (drop (i + a) (dat s))).
  { intros i a b. rewrite <- drop_drop. rewrite <- (take_drop a (take (a + b) (drop i (dat s)))). rewrite take_take. replace (N.min a (a + b)) with a by lia. f_equal. unfold take, drop. rewrite skipn_firstn_comm. f_equal. lia. }
  assert (HBt : forall i j, is_bytes (take i (drop j (dat s)))) by (intros i j; apply is_bytes_take, is_bytes_drop, HB).
  destruct k; cbn [read_chunk chunk_of] in *.
  - unfold read_chunk_sum in H. set (z := repeat 0 8) in H. assert (Hz : lenN z = 8) by reflexivity. destruct (fs_read z (cs_under s)) as [[[[]|e] h] u] eqn:Hr; try discriminate H.
    destruct (fs_read_ok Hr Hp) as (R1 & R2 & R3 & R4). destruct (N.ltb_spec (unbe (take 4 h)) 4) as [Hx|Hlen]; [discriminate H|]. destruct (fs_read (resize (unbe (take 4 h) - 4) (cs_chunk s)) u) as [[[[]|e] c] u'] eqn:Hr2; try discriminate H.
    destruct (fs_read_ok Hr2) as (Q1 & Q2 & Q3 & Q4); [rewrite R1; lia|]. rewrite lenN_resize in Q2, Q4. rewrite R1 in Q1, Q3, Q4. destruct (N.eqb_spec (unbe (drop 4 h)) (crc32c c)) as [Hc|Hc]; [|discriminate H]. injection H as <-. cbn [cs_chunk cs_under cs_rpos].
    assert (Hlh : lenN h = 8) by (rewrite R4, lenN_take, lenN_drop; lia). assert (Hlc : lenN c = unbe (take 4 h) - 4) by (rewrite Q4, lenN_take, lenN_drop; lia).
    assert (HBh : is_bytes h) by (rewrite R4; apply HBt).
    exists (take (pos s) (dat s)), (take (fs_pos u' - pos s) (drop (pos s) (dat s))), (drop (fs_pos u') (dat s)). split; [apply Hsplit; lia|]. split; [rewrite lenN_take; lia|]. split; [|split; [exact Q1|split; [rewrite lenN_app, !lenN_take, lenN_drop; lia|reflexivity]]].
    rewrite Hlc. assert (Hb : unbe (take 4 h) < 256 ^ lenN (take 4 h)) by (apply unbe_bound, is_bytes_take, HBh). rewrite lenN_take, Hlh in Hb. change (256 ^ N.min 4 8) with (2 ^ 32) in Hb. split; [lia|].
    replace (unbe (take 4 h) - 4 + 4) with (unbe (take 4 h)) by lia. rewrite <- Hc.
    rewrite (@be_unbe (take 4 h) 4), (@be_unbe (drop 4 h) 4); [|now apply is_bytes_drop|pose proof (lenN_drop 4 h) as L; unfold lenN in L, Hlh; lia|now apply is_bytes_take|pose proof (lenN_take 4 h) as L; unfold lenN in L, Hlh; lia].
    rewrite app_assoc, take_drop. replace (fs_pos u' - pos s) with (8 + (unbe (take 4 h) - 4)) by lia. rewrite Htt. rewrite Q4. rewrite R2, Hz. f_equal. rewrite R4, Hz. reflexivity.
  - unfold read_chunk_seal in H. set (z := repeat 0 4) in H. assert (Hz : lenN z = 4) by reflexivity. destruct (fs_read z (cs_under s)) as [[[[]|e] h] u] eqn:Hr; try discriminate H.
    destruct (fs_read_ok Hr Hp) as (R1 & R2 & R3 & R4). destruct (N.ltb_spec (unbe h) (sealing + 1)) as [Hx|Hlen]; [discriminate H|]. destruct (fs_read (resize (unbe h) (cs_chunk s)) u) as [[[[]|e] c] u'] eqn:Hr2; try discriminate H.
    destruct (fs_read_ok Hr2) as (Q1 & Q2 & Q3 & Q4); [rewrite R1; lia|]. rewrite lenN_resize in Q2, Q4. rewrite R1 in Q1, Q3, Q4. destruct (unseal c) as [pl|] eqn:Hc; [|discriminate H]. injection H as <-. cbn [cs_chunk cs_under cs_rpos].
    assert (Hlh : lenN h = 4) by (rewrite R4, lenN_take, lenN_drop; lia). assert (Hlc : lenN c = unbe h) by (rewrite Q4, lenN_take, lenN_drop; lia).
    assert (HBh : is_bytes h) by (rewrite R4; apply HBt).
    exists (take (pos s) (dat s)), (take (fs_pos u' - pos s) (drop (pos s) (dat s))), (drop (fs_pos u') (dat s)). split; [apply Hsplit; lia|]. split; [rewrite lenN_take; lia|]. split; [|split; [exact Q1|split; [rewrite lenN_app, !lenN_take, lenN_drop; lia|reflexivity]]].
    assert (Hb : unbe h < 256 ^ lenN h) by (apply unbe_bound, HBh). rewrite Hlh in Hb. change (256 ^ 4) with (2 ^ 32) in Hb. exists c. rewrite Hlc. split; [lia|]. split; [exact Hc|].
    rewrite (@be_unbe h 4); [|exact HBh|unfold lenN in Hlh; lia]. replace (fs_pos u' - pos s) with (4 + unbe h) by lia. rewrite Htt. rewrite Q4. rewrite R2, Hz. f_equal. rewrite R4, Hz. reflexivity.
Qed.

(** The bytes [d0] have been delivered; they and the rest of the chunk are the data of checked chunks. *)
Definition checked (s : cstream) (d0 : bytes) : Prop :=
  exists p b1 b2, cs_rpos s = Some p /\ dat s = b1 ++ b2 /\ pos s = lenN b1 /\ verified k (d0 ++ drop p (cs_chunk s)) b1.
Lemma verified_snoc d b c cb : verified k d b -> chunk_of k c cb -> verified k (d ++ c) (b ++ cb).
Proof. clear Hmax Hlim.
  intros (cs & bs & H & -> & ->) Hc. exists (cs ++ [c]), (bs ++ [cb]). split; [apply Forall2_app; auto|]. rewrite !concat_app. cbn [concat]. rewrite !app_nil_r. auto.
Qed.
Lemma checked_loop fuel : forall n acc s d0 x s', is_bytes (dat s) -> checked s d0 -> cs_read_loop fuel k n acc s = (Ok (Some x), s') ->
  exists y, x = acc ++ y /\ lenN y = n /\ dat s' = dat s /\ checked s' (d0 ++ y).
Proof. clear Hmax Hlim.
  induction fuel as [|fuel IH]; intros n acc s d0 x s' HB Hc H; cbn [cs_read_loop] in H.
  { destruct (N.eqb_spec n 0) as [->|Hn]; [|discriminate H]. injection H as <- <-. exists []. rewrite !app_nil_r. auto. }
  destruct (N.eqb_spec n 0) as [->|Hn]; [injection H as <- <-; exists []; rewrite !app_nil_r; auto|]. destruct Hc as (p & b1 & b2 & C1 & C2 & C3 & C4). rewrite C1 in H. destruct (N.ltb_spec (lenN (cs_chunk s)) p) as [Hx|Hp]; [discriminate H|].
  set (m := N.min n (lenN (cs_chunk s) - p)) in H. destruct (N.eqb_spec m 0) as [Hm|Hm].
  - assert (Hall : p = lenN (cs_chunk s)) by (unfold m in Hm; lia). destruct (read_chunk k s) as [[[]|e] s1] eqn:Hr; try discriminate H. assert (Hps : pos s <= lenN (dat s)) by (rewrite C2, C3, lenN_app; lia).
    destruct (read_chunk_any HB Hps Hr) as (a1 & cb & a2 & A1 & A2 & A3 & A4 & A5 & A6). rewrite (drop_all (cs_chunk s)) in C4 by lia. rewrite app_nil_r in C4.
    assert (Heq : a1 = b1). { rewrite C2 in A1. assert (Ht : take (lenN b1) (b1 ++ b2) = take (lenN b1) (a1 ++ cb ++ a2)) by now rewrite A1. rewrite take_app_exact in Ht by reflexivity. rewrite take_app_exact in Ht by congruence. congruence. }
    subst a1. destruct (IH n acc (CStream (cs_under s1) (cs_chunk s1) (Some 0) (cs_draws s1)) d0 x s') as (y & Y1 & Y2 & Y3 & Y4); [cbn [cs_under]; now rewrite A4| |exact H|].
    + exists 0, (b1 ++ cb), a2. cbn [cs_rpos cs_under cs_chunk]. split; [reflexivity|]. split; [rewrite A4, A1; apply app_assoc|]. split; [exact A5|]. rewrite drop_0. apply verified_snoc; assumption.
    + exists y. cbn [cs_under] in Y3. rewrite Y3, A4. auto.
  - assert (Hm1 : 1 <= m <= n /\ p + m <= lenN (cs_chunk s)) by (unfold m; lia).
    destruct (IH (n - m) (acc ++ take m (drop p (cs_chunk s))) (CStream (cs_under s) (cs_chunk s) (Some (p + m)) (cs_draws s)) (d0 ++ take m (drop p (cs_chunk s))) x s') as (y & Y1 & Y2 & Y3 & Y4); [exact HB| |exact H|].
    + exists (p + m), b1, b2. cbn [cs_rpos cs_under cs_chunk]. split; [reflexivity|]. split; [exact C2|]. split; [exact C3|]. rewrite <- drop_drop, <- app_assoc, take_drop. exact C4.
    + exists (take m (drop p (cs_chunk s)) ++ y). rewrite Y1, <- !app_assoc. split; [reflexivity|]. split; [rewrite lenN_app, lenN_take, lenN_drop; lia|]. split; [exact Y3|]. rewrite <- app_assoc in Y4. exact Y4.
Qed.
Lemma checked_reads l : forall s d0 bs s', is_bytes (dat s) -> checked s d0 -> calls k max (map SRead l) s = (map Got bs, s') -> map lenN bs = l /\ dat s' = dat s /\ checked s' (d0 ++ concat bs).
Proof. clear Hmax Hlim.
  induction l as [|n l IH]; intros s d0 bs s' HB Hc H; cbn [map calls] in H.
  { destruct bs; [|discriminate H]. injection H as <-. cbn [map concat]. rewrite app_nil_r. auto. }
  cbn [call] in H. destruct (cs_read k n s) as [x s1] eqn:Hr. destruct (calls k max (map SRead l) s1) as [xs s2] eqn:Hl. destruct bs as [|b bs]; [discriminate H|]. cbn [map] in H. destruct x as [[y|]|e]; try discriminate H. injection H as -> -> <-.
  unfold cs_read in Hr. destruct (cs_rpos s) as [p|]; [|discriminate Hr]. destruct (checked_loop HB Hc Hr) as (z & Z1 & Z2 & Z3 & Z4). cbn [app] in Z1. subst z.
  destruct (IH s1 (d0 ++ b) bs s2) as (I1 & I2 & I3); [now rewrite Z3|exact Z4|exact Hl|]. cbn [map concat]. rewrite I1, I2, Z2, Z3. rewrite <- app_assoc in I3. auto.
Qed.

(** ** Records *)

Lemma read_at n s a : stands k max s a -> p_dirty a = false ->
  exists s', stands k max s' (snd (plain_call (SRead n) a)) /\ cs_read k n s = (Ok (if p_pos a + n <=? lenN (p_data a) then Some (take n (drop (p_pos a) (p_data a))) else None), s').
Proof. clear Hmax Hlim.
  intros St Hd. destruct (read_ok n St) as (s' & S1 & S2). exists s'. split; [exact S2|]. cbn [call] in S1. unfold plain_call in S1. rewrite Hd in S1. destruct (cs_read k n s) as [x s1]. destruct (p_pos a + n <=? lenN (p_data a)); cbn [fst] in S1; destruct x as [[y|]|e]; try discriminate S1; injection S1; intros; subst; reflexivity.
Qed.
Lemma stands_le s a : stands k max s a -> p_pos a <= lenN (p_data a).
Proof. clear Hmax Hlim.
  intros [_ H]. destruct (cs_rpos s) as [p|]; [|destruct H as (_ & -> & _); lia]. destruct H as (_ & _ & d0 & d2 & b1 & b2 & _ & _ & _ & _ & -> & ->). rewrite !lenN_app. lia.
Qed.
Lemma read_record_ok s a : stands k max s a -> p_dirty a = false -> exists s' a', stands k max s' a' /\ p_data a' = p_data a /\ p_dirty a' = false /\
  match read_record (drop (p_pos a) (p_data a)) with
  | Err e => stream_read_record k s = (Err e, s')
  | Ok None => stream_read_record k s = (Ok None, s')
  | Ok (Some (x, rest)) => stream_read_record k s = (Ok (Some x), s') /\ rest = drop (p_pos a') (p_data a)
  end.
Proof. clear Hmax Hlim.
  intros St Hd. pose proof (stands_le St) as Hle. unfold stream_read_record. destruct (read_at 8 St Hd) as (s1 & S1 & ->). unfold plain_call in S1. rewrite Hd in S1. set (d := drop (p_pos a) (p_data a)). assert (Ld : lenN d = lenN (p_data a) - p_pos a) by apply lenN_drop. unfold read_record.
  destruct (N.leb_spec (p_pos a + 8) (lenN (p_data a))) as [H8|H8].
  2:{ destruct (N.ltb_spec (lenN d) 8) as [_|Hx]; [|lia]. cbn [snd] in S1. eexists _, _. split; [exact S1|]. split; [reflexivity|]. split; reflexivity. }
  destruct (N.ltb_spec (lenN d) 8) as [Hx|_]; [lia|]. cbn [snd] in S1. set (a1 := Plain (p_data a) (p_pos a + 8) false) in S1.
  unfold rd_be. rewrite !getb_ok by lia. cbn [bind]. set (kl := unbe (take 4 (drop 0 d))). set (vl := unbe (take 4 (drop 4 d))).
  assert (Hk : unbe (take 4 (take 8 d)) = kl) by (unfold kl; now rewrite drop_0, take_take).
  assert (Hv : unbe (drop 4 (take 8 d)) = vl) by (unfold vl; unfold take, drop; now rewrite skipn_firstn_comm). rewrite Hk, Hv.
  destruct (read_at kl S1 eq_refl) as (s2 & S2 & ->). unfold plain_call in S2. cbn [a1 p_dirty p_data p_pos] in S2 |- *.
  destruct (N.leb_spec (p_pos a + 8 + kl) (lenN (p_data a))) as [Hkl|Hkl].
  2:{ destruct (N.ltb_spec (lenN d) (8 + kl + vl)) as [_|Hx]; [|lia]. cbn [snd] in S2. eexists _, _. split; [exact S2|]. split; [reflexivity|]. split; reflexivity. }
  cbn [snd] in S2. destruct (read_at vl S2 eq_refl) as (s3 & S3 & ->). unfold plain_call in S3. cbn [p_dirty p_data p_pos] in S3 |- *.
  destruct (N.leb_spec (p_pos a + 8 + kl + vl) (lenN (p_data a))) as [Hvl|Hvl].
  2:{ destruct (N.ltb_spec (lenN d) (8 + kl + vl)) as [_|Hx]; [|lia]. cbn [snd] in S3. eexists _, _. split; [exact S3|]. split; [reflexivity|]. split; reflexivity. }
  destruct (N.ltb_spec (lenN d) (8 + kl + vl)) as [Hx|_]; [lia|]. rewrite !getb_ok by lia. cbn [bind snd] in S3 |- *. eexists _, _. split; [exact S3|]. split; [reflexivity|]. split; [reflexivity|]. cbn [p_pos].
  unfold d. rewrite !drop_drop. split; [|f_equal; lia]. now rewrite (N.add_assoc (p_pos a) 8 kl).
Qed.
Lemma write_record_ok x s a : stands k max s a -> p_pos a = lenN (p_data a) ->
  exists s', stream_write_record k max x s = (Ok tt, s') /\ stands k max s' (Plain (p_data a ++ write_record x) (lenN (p_data a ++ write_record x)) true).
Proof.
  intros St He. unfold stream_write_record. set (h := be 4 (lenN (fst x) mod 2^32) ++ be 4 (lenN (snd x) mod 2^32)).
  assert (W : forall b s a, stands k max s a -> p_pos a = lenN (p_data a) -> exists s', cs_write k max b s = (Ok tt, s') /\ stands k max s' (Plain (p_data a ++ b) (lenN (p_data a ++ b)) true)).
  { intros b s0 a0 St0 He0. destruct (write_ok b St0 He0) as (s' & H1 & H2). exists s'. split; [|exact H2]. cbn [call] in H1. unfold done in H1. destruct (cs_write k max b s0) as [[[]|e] s1]; [|discriminate H1]. cbn [fst snd] in H1. injection H1 as ->. reflexivity. }
  destruct (W h s a St He) as (s1 & -> & S1). destruct (W (fst x) s1 _ S1 eq_refl) as (s2 & -> & S2). destruct (W (snd x) s2 _ S2 eq_refl) as (s3 & -> & S3). exists s3. split; [reflexivity|]. cbn [p_data] in S3. unfold write_record. unfold h in S3. rewrite <- !app_assoc in S3. exact S3.
Qed.
Lemma read_all_ok fuel : forall s a, stands k max s a -> p_dirty a = false -> read_all fuel k s = read_records fuel (drop (p_pos a) (p_data a)).
Proof. clear Hmax Hlim.
  induction fuel as [|fuel IH]; intros s a St Hd; [reflexivity|]. cbn [read_all read_records]. destruct (read_record_ok St Hd) as (s' & a' & S1 & S2 & S3 & S4). destruct (read_record (drop (p_pos a) (p_data a))) as [[[x rest]|]|e]; cbn [bind].
  - destruct S4 as [-> ->]. rewrite (IH s' a' S1 S3), S2. reflexivity.
  - now rewrite S4.
  - now rewrite S4.
Qed.
Lemma write_all_ok l : forall s a, stands k max s a -> p_pos a = lenN (p_data a) ->
  exists s' a', write_all k max l s = (Ok tt, s') /\ stands k max s' a' /\ p_data a' = p_data a ++ concat (map write_record l) /\ p_pos a' = lenN (p_data a').
Proof.
  induction l as [|x l IH]; intros s a St He; cbn [write_all map concat]; [exists s, a; rewrite app_nil_r; auto|]. destruct (write_record_ok x St He) as (s1 & -> & S1). destruct (IH s1 _ S1 eq_refl) as (s' & a' & -> & H1 & H2 & H3). exists s', a'. cbn [p_data] in H2. rewrite <- app_assoc in H2. auto.
Qed.
End Chunks.

(** ** Names of temporary files *)

Definition is_digit (c : N) : bool := negb ((c <? 48) || (57 <? c)).
Definition no_digit_last (l : bytes) : Prop := match rev l with [] => True | c :: _ => is_digit c = false end.
Lemma strip_shape l : forall n, no_digit_last (fst (strip_digits l n)).
Proof.
  induction l as [|c l IH]; intros n; cbn [strip_digits]; [exact I|]. destruct ((c <? 48) || (57 <? c)) eqn:Hc; [|apply IH]. cbn [fst]. unfold no_digit_last. rewrite rev_involutive. unfold is_digit. now rewrite Hc.
Qed.
Lemma strip_plain l n : no_digit_last l -> strip_digits (rev l) n = (l, n).
Proof.
  unfold no_digit_last. destruct (rev l) as [|c r] eqn:Hr; intros H.
  - apply (f_equal (@rev N)) in Hr. rewrite rev_involutive in Hr. now subst l.
  - cbn [strip_digits]. unfold is_digit in H. destruct ((c <? 48) || (57 <? c)); [|discriminate H]. rewrite <- Hr, rev_involutive. reflexivity.
Qed.
(** The digits in the order of the name, read from the last on. *)
Lemma strip_digits_app l : forall r n, Forall (fun c => is_digit c = true) l -> strip_digits (l ++ r) n = strip_digits r (fold_left (fun s c => (s * 10 + (c - 48)) mod 2^32) l n).
Proof.
  induction l as [|c l IH]; intros r n H; [reflexivity|]. inversion H as [|? ? H1 H2]; subst. cbn [app strip_digits fold_left]. unfold is_digit in H1. destruct ((c <? 48) || (57 <? c)); [discriminate H1|]. apply IH, H2.
Qed.
Lemma digits_are fuel : forall n, Forall (fun c => is_digit c = true) (digits_reversed fuel n).
Proof.
  induction fuel as [|fuel IH]; intros n; cbn [digits_reversed]; [constructor|]. destruct (n =? 0); [constructor|]. constructor; [|apply IH]. unfold is_digit. pose proof (N.mod_lt n 10). destruct (N.ltb_spec (n mod 10 + 48) 48); [lia|]. destruct (N.ltb_spec 57 (n mod 10 + 48)); [lia|]. reflexivity.
Qed.
Lemma digits_value fuel : forall n, n < 10 ^ N.of_nat fuel -> n < 2^32 -> fold_left (fun s c => (s * 10 + (c - 48)) mod 2^32) (rev (digits_reversed fuel n)) 0 = n.
Proof.
  induction fuel as [|fuel IH]; intros n H1 H2; cbn [digits_reversed]; [change (10 ^ N.of_nat 0) with 1 in H1; cbn; lia|]. destruct (N.eqb_spec n 0) as [->|Hn]; [reflexivity|]. cbn [rev]. rewrite fold_left_app. pose proof (N.div_mod n 10) as Hd.
  rewrite IH; [|rewrite Nnat.Nat2N.inj_succ, N.pow_succ_r' in H1; apply N.div_lt_upper_bound; lia|apply N.le_lt_trans with n; [apply N.div_le_upper_bound; lia|exact H2]]. cbn [fold_left]. replace (n / 10 * 10 + (n mod 10 + 48 - 48)) with n by lia. now apply N.mod_small.
Qed.
Lemma next_value path str n : strip_digits (rev path) 0 = (str, n) -> strip_digits (rev (next_tmp_path path)) 0 = (str, (n + 1) mod 2^32).
Proof.
  intros H. unfold next_tmp_path. rewrite H. assert (Hs : no_digit_last str) by (pose proof (@strip_shape (rev path) 0) as S; rewrite H in S; exact S). rewrite rev_app_distr, strip_digits_app; [|apply Forall_rev, digits_are]. 
  pose proof (N.mod_lt (n + 1) (2^32)) as Hm. rewrite digits_value; [now apply strip_plain| |apply Hm; discriminate]. apply N.lt_trans with (2^32); [apply Hm; discriminate|reflexivity].
Qed.
Lemma iter_value path str n i : strip_digits (rev path) 0 = (str, n) -> n < 2^32 -> strip_digits (rev (Nat.iter i next_tmp_path path)) 0 = (str, (n + N.of_nat i) mod 2^32).
Proof.
  intros H Hn. induction i as [|i IH]; [change (Nat.iter 0 next_tmp_path path) with path; change (N.of_nat 0) with 0; rewrite H, N.add_0_r, N.mod_small by exact Hn; reflexivity|]. change (Nat.iter (S i) next_tmp_path path) with (next_tmp_path (Nat.iter i next_tmp_path path)). rewrite (next_value IH). f_equal.
  rewrite N.add_mod_idemp_l by discriminate. f_equal. lia.
Qed.
Lemma strip_bound l : forall n, n < 2^32 -> snd (strip_digits l n) < 2^32.
Proof. induction l as [|c l IH]; intros n Hn; cbn [strip_digits]; [exact Hn|]. destruct (_ || _); [exact Hn|]. apply IH, N.mod_lt. discriminate. Qed.
Lemma names_distinct path i j : (i < j)%nat -> N.of_nat (j - i) < 2^32 -> Nat.iter i next_tmp_path path <> Nat.iter j next_tmp_path path.
Proof.
  intros Hij Hd Heq. destruct (strip_digits (rev path) 0) as [str n] eqn:H. assert (Hn : n < 2^32) by (pose proof (@strip_bound (rev path) 0 eq_refl) as B; rewrite H in B; exact B).
  pose proof (iter_value i H Hn) as Hi. pose proof (iter_value j H Hn) as Hj. rewrite Heq, Hj in Hi. injection Hi as Hi. clear - Hij Hd Hi.
  set (M := 2^32) in *. assert (HM : M <> 0) by discriminate. clearbody M. pose proof (N.div_mod (n + N.of_nat i) M HM) as D1. pose proof (N.div_mod (n + N.of_nat j) M HM) as D2. rewrite Hi in D2.
  set (q1 := (n + N.of_nat i) / M) in *. set (q2 := (n + N.of_nat j) / M) in *. set (r := (n + N.of_nat i) mod M) in *. assert (Hq : M * q2 = M * q1 + N.of_nat (j - i)) by lia.
  assert (Hle : q1 < q2) by (apply (N.mul_lt_mono_pos_l M); lia). assert (H1 : M * (q1 + 1) <= M * q2) by (apply N.mul_le_mono_l; lia). rewrite N.mul_add_distr_l in H1. lia.
Qed.
