(** Moving between headers of a file written by the modelled operations. *)
From Verif Require Import Base Codec CodecFacts File FileFacts ChunkFacts Header HeaderFacts History CrashFacts OpenFacts NavFacts SpecCrash.
Local Open Scope N_scope.

Section WithEnv.
Context {E : Env}.
Variable key : option keyinfo.

Lemma cw_block f c : cw key f c -> cpos c mod BLOCK = 0.
Proof. intros C. exact (proj1 (proj2 (cw_hdr C))). Qed.

Section State.
Variables (B : N) (s : state).
Hypothesis I : inv key B s.
Let f := dbf (s_db s).

Lemma chain_cw c : In c (effective s) -> cw key f c.
Proof.
  intros H. apply (i_cw I). unfold live, effective in *. rewrite in_app_iff in H. rewrite !in_app_iff. tauto.
Qed.
Lemma chain_header d c : reads s d -> In c (effective s) -> header_at (dbf d) (cpos c) (strip (c_hdr c)).
Proof.
  intros V H. pose proof (chain_cw c H) as C. pose proof (hend_pos c) as P. pose proof (cw_end C) as P2.
  pose proof (proj2 (i_good I)) as G. fold f in G.
  eapply header_at_cong; [apply V|apply V|apply V|]. fold f.
  unfold header_at, find_header_at_pos. rewrite pread1 by lia.
  destruct (i_chain1 I c H) as (A & _). fold f in A. rewrite A.
  change ((1 =? B_DATA) || (1 =? B_META)) with false. change (negb (1 =? B_HEADER)) with false. cbv iota.
  erewrite hdr_at_read; [|apply (cw_hdr C)|lia|auto].
  apply parse_encode. apply (cw_fits C).
Qed.

(** Block starts that hold no header. *)
Lemma other_block d q : reads s d -> s_fail s = [] -> q mod BLOCK = 0 -> q < size f ->
  (forall c, In c (effective s) -> cpos c <> q) -> no_header_at (dbf d) q.
Proof.
  intros V F Hq Hz N. eapply no_header_cong; [apply V|apply V|apply V|]. fold f.
  intros h. unfold find_header_at_pos. rewrite pread1 by lia.
  assert (X : cur f q = 0 \/ cur f q = 2).
  { destruct (i_blocks I q (cur f q) Hq) as [A|[[A _]|(_ & c & A1 & A2 & _)]].
    - exact (wf_cur (proj1 (i_good I)) q).
    - auto.
    - auto.
    - exfalso. apply (N c); auto. unfold effective. unfold all_coms in A1. rewrite F, !app_nil_r in A1. exact A1. }
  destruct X as [-> | ->]; reflexivity.
Qed.

Lemma chain_link pre c r : effective s = pre ++ c :: r -> link_ok f c r.
Proof.
  intros Hc. pose proof (i_chain I) as H. fold (effective s) in H. rewrite Hc in H. fold f in H. clear Hc.
  induction pre as [|x pre IH]; cbn [app chain_ok] in H; destruct H; auto.
Qed.
Lemma chain_below pre c r x : effective s = pre ++ c :: r -> In x r -> hend x <= cpos c.
Proof.
  intros Hc. pose proof (i_chain I) as H. fold (effective s) in H. rewrite Hc in H. fold f in H. clear Hc.
  intros Hx. induction pre as [|y pre IH]; cbn [app] in H; [exact (chain_hend H x Hx)|].
  cbn [chain_ok] in H. destruct H; auto.
Qed.
Lemma chain_above pre c r x : effective s = pre ++ c :: r -> In x pre -> hend c <= cpos x.
Proof.
  intros Hc Hx. apply in_split in Hx. destruct Hx as (a & b & ->).
  rewrite <- app_assoc in Hc. cbn [app] in Hc. eapply (@chain_below a x); [exact Hc|]. rewrite in_app_iff. right. now left.
Qed.
Lemma chain_size c : In c (effective s) -> cpos c < size f /\ cpos c < fpos f /\ cpos c mod BLOCK = 0.
Proof.
  intros H. pose proof (@chain_cw c H) as C. pose proof (hend_pos c). pose proof (cw_end C).
  pose proof (proj2 (i_good I)). unfold f in *. split; [lia|]. split; [lia|]. exact (cw_block C).
Qed.

(** No header between two neighbours in the chain, below the last and above the first. *)
Lemma gap d pre c c' r q : reads s d -> s_fail s = [] -> effective s = pre ++ c :: c' :: r -> q mod BLOCK = 0 ->
  cpos c' < q < cpos c -> no_header_at (dbf d) q.
Proof.
  intros V F Hc Hq Hr. apply other_block; auto.
  - assert (In c (effective s)) by (rewrite Hc; rewrite in_app_iff; right; now left).
    pose proof (@chain_size c H). lia.
  - intros x Hx E0. rewrite Hc, in_app_iff in Hx. cbn [In] in Hx. destruct Hx as [Hx|[<-|[<-|Hx]]]; try lia.
    + pose proof (@chain_above pre c _ x Hc Hx). pose proof (hend_pos c). lia.
    + assert (Hc2 : effective s = (pre ++ [c]) ++ c' :: r) by (rewrite <- app_assoc; exact Hc).
      pose proof (@chain_below _ c' r x Hc2 Hx). pose proof (hend_pos x). lia.
Qed.
Lemma gap_low d pre c q : reads s d -> s_fail s = [] -> effective s = pre ++ [c] -> q mod BLOCK = 0 ->
  q < cpos c -> no_header_at (dbf d) q.
Proof.
  intros V F Hc Hq Hr. apply other_block; auto.
  - assert (In c (effective s)) by (rewrite Hc; rewrite in_app_iff; right; now left).
    pose proof (@chain_size c H). lia.
  - intros x Hx E0. rewrite Hc, in_app_iff in Hx. cbn [In] in Hx. destruct Hx as [Hx|[<-|[]]]; try lia.
    pose proof (@chain_above pre c _ x Hc Hx). pose proof (hend_pos c). lia.
Qed.
Lemma gap_high d c r q : reads s d -> s_fail s = [] -> effective s = c :: r -> q mod BLOCK = 0 ->
  cpos c < q < size f -> no_header_at (dbf d) q.
Proof.
  intros V F Hc Hq Hr. apply other_block; auto; [lia|].
  intros x Hx E0. rewrite Hc in Hx. cbn [In] in Hx. destruct Hx as [<-|Hx]; try lia.
  pose proof (@chain_below [] c r x Hc Hx). pose proof (hend_pos x). lia.
Qed.

Lemma find_down d h n c' skip : reads s d -> In c' (effective s) -> cpos c' <= N.of_nat n * BLOCK ->
  (forall q, q mod BLOCK = 0 -> cpos c' < q <= N.of_nat n * BLOCK -> no_header_at (dbf d) q) ->
  find_header_loop (dbf d) h n skip E_NO_HEADER = (Ok tt, strip (c_hdr c')).
Proof.
  intros V Hin Hn G. destruct (@chain_size c' Hin) as (_ & _ & Hm).
  assert (Hk : N.of_nat (N.to_nat (cpos c' / BLOCK)) * BLOCK = cpos c') by (rewrite BLOCK_val in *; lia).
  apply find_loop_down with (k := N.to_nat (cpos c' / BLOCK)).
  - clear - Hn Hk. rewrite BLOCK_val in *. lia.
  - intros j Hj. apply G; [clear; rewrite BLOCK_val; lia|]. clear - Hj Hk Hn. rewrite BLOCK_val in *. lia.
  - rewrite Hk. now apply chain_header.
Qed.
Lemma find_none d h n skip : reads s d ->
  (forall q, q mod BLOCK = 0 -> q <= N.of_nat n * BLOCK -> no_header_at (dbf d) q) ->
  find_header_loop (dbf d) h n skip E_NO_HEADER = (Err E_NO_HEADER, h).
Proof.
  intros V G. apply find_loop_none. intros j Hj. apply G; [clear; rewrite BLOCK_val; lia|]. clear - Hj. rewrite BLOCK_val in *. lia.
Qed.

(** The block number at which the scan from [p - 2] starts. *)
Lemma scan_start p : p mod BLOCK = 0 -> BLOCK <= p ->
  (Z.of_N p - 2 <? 0)%Z = false /\ N.of_nat (N.to_nat (Z.to_N (Z.of_N p - 2) / BLOCK)) * BLOCK = p - BLOCK.
Proof.
  intros H1 H2. split; [rewrite BLOCK_val in *; lia|]. rewrite N2Nat.id.
  replace (Z.to_N (Z.of_N p - 2)) with (p - 2) by lia. rewrite BLOCK_val in *. lia.
Qed.

Lemma chain_ver c : In c (effective s) -> h_version (c_hdr c) = 11 \/ h_version (c_hdr c) = 12 \/ h_version (c_hdr c) = 13 \/ h_version (c_hdr c) = 14.
Proof. intros H. exact (hf_version (cw_fits (@chain_cw c H))). Qed.

Lemma rewind_step d pre c c' r : reads s d -> effective s = pre ++ c :: c' :: r ->
  h_position (dbh d) = cpos c -> h_prev (dbh d) = h_prev (c_hdr c) -> h_version (dbh d) = h_version (c_hdr c) ->
  h_version (c_hdr c) = 14 \/ s_fail s = [] ->
  rewind_impl d = (Ok tt, Db (dbf d) (strip (c_hdr c')) false).
Proof.
  intros V Hc Hp Hv Hve HF. unfold rewind_impl. rewrite (r_open V).
  assert (Hin : In c (effective s)) by (rewrite Hc, in_app_iff; right; now left).
  assert (Hin' : In c' (effective s)) by (rewrite Hc, in_app_iff; right; right; now left).
  destruct (@chain_size c Hin) as (_ & _ & Hm). destruct (@chain_size c' Hin') as (_ & _ & Hm').
  destruct (@chain_link pre c (c' :: r) Hc) as (L1 & L2 & L3).
  cbn [reset_roots set_roots h_version h_prev h_position]. rewrite Hve.
  assert (Hback : s_fail s = [] -> forall h, h_position h = cpos c ->
    (if h_position h <? BLOCK then (Err E_DB_NO_LONGER_VALID, Db (dbf d) h false)
     else let '(r0, h') := find_header (dbf d) h (Z.of_N (h_position h) - 2) false in (r0, Db (dbf d) h' false))
    = (Ok tt, Db (dbf d) (strip (c_hdr c')) false)).
  { intros F h Eh. rewrite Eh. assert (HB : BLOCK <= cpos c) by (clear - L1 Hm Hm'; rewrite BLOCK_val in *; lia).
    destruct (N.ltb_spec (cpos c) BLOCK) as [|_]; [lia|]. destruct (scan_start Hm HB) as [S1 S2].
    unfold find_header. rewrite S1.
    rewrite (@find_down d h _ c'); auto.
    - rewrite S2. clear - L1 Hm Hm'. rewrite BLOCK_val in *. lia.
    - rewrite S2. intros q Hq Hr. apply (@gap d pre c c' r); auto. rewrite BLOCK_val in Hr. lia. }
  destruct (N.leb_spec 14 (h_version (c_hdr c))) as [H14|H14].
  - assert (V14 : h_version (c_hdr c) = 14) by (destruct (@chain_ver c Hin) as [?|[?|[?|?]]]; lia).
    rewrite Hv, (L3 V14).
    assert (N1 : cpos c' =? NO_PREV = false).
    { apply N.eqb_neq. intros X. rewrite X in Hm'. vm_compute in Hm'. discriminate. }
    assert (N2 : cpos c' =? UNKNOWN_PREV = false).
    { apply N.eqb_neq. intros X. rewrite X in Hm'. vm_compute in Hm'. discriminate. }
    rewrite N1, N2, Hp. cbn [negb andb]. destruct (N.ltb_spec (cpos c') (cpos c)) as [_|]; [|lia].
    rewrite (header_at_find _ (@chain_header d c' V Hin')). reflexivity.
  - destruct HF as [HF|HF]; [lia|]. exact (Hback HF (reset_roots (dbh d)) Hp).
Qed.

Lemma rewind_end d pre c : reads s d -> effective s = pre ++ [c] ->
  h_position (dbh d) = cpos c -> h_prev (dbh d) = h_prev (c_hdr c) -> h_version (dbh d) = h_version (c_hdr c) ->
  (h_version (c_hdr c) = 14 /\ h_prev (c_hdr c) = NO_PREV) \/ s_fail s = [] ->
  exists e d', rewind_impl d = (Err e, d') /\ dbf d' = dbf d /\ dropped d' = false /\ e <> E_INVALID_ARGUMENTS.
Proof.
  intros V Hc Hp Hv Hve HF. unfold rewind_impl. rewrite (r_open V).
  assert (Hin : In c (effective s)) by (rewrite Hc, in_app_iff; right; now left).
  destruct (@chain_size c Hin) as (_ & _ & Hm).
  pose proof (@chain_link pre c [] Hc) as L. cbn [link_ok] in L.
  cbn [reset_roots set_roots h_version h_prev h_position]. rewrite Hve.
  assert (Hback : s_fail s = [] -> forall h, h_position h = cpos c ->
    exists e d', (if h_position h <? BLOCK then (Err E_DB_NO_LONGER_VALID, Db (dbf d) h false)
     else let '(r0, h') := find_header (dbf d) h (Z.of_N (h_position h) - 2) false in (r0, Db (dbf d) h' false))
    = (Err e, d') /\ dbf d' = dbf d /\ dropped d' = false /\ e <> E_INVALID_ARGUMENTS).
  { intros F h Eh. rewrite Eh. destruct (N.ltb_spec (cpos c) BLOCK) as [|HB].
    { eexists _, _. split; [reflexivity|]. cbn. repeat split. discriminate. }
    destruct (scan_start Hm HB) as [S1 S2].
    unfold find_header. rewrite S1. rewrite find_none; auto.
    - eexists _, _. split; [reflexivity|]. cbn. repeat split. discriminate.
    - rewrite S2. intros q Hq Hr. apply (@gap_low d pre c); auto. rewrite BLOCK_val in *. lia. }
  destruct (N.leb_spec 14 (h_version (c_hdr c))) as [H14|H14].
  - assert (V14 : h_version (c_hdr c) = 14) by (destruct (@chain_ver c Hin) as [?|[?|[?|?]]]; lia).
    rewrite Hv. destruct (N.eqb_spec (h_prev (c_hdr c)) NO_PREV) as [_|Hne].
    { eexists _, _. split; [reflexivity|]. cbn. repeat split. discriminate. }
    destruct (L V14) as [|(L1 & L2 & L3)]; [contradiction|].
    destruct HF as [[_ HF]|HF]; [contradiction|].
    rewrite L1, Hp. change (negb (0 =? UNKNOWN_PREV)) with true. destruct (N.ltb_spec 0 (cpos c)) as [_|]; [|lia]. cbn [andb].
    rewrite (@gap_low d pre c 0 V HF Hc) by auto. exact (Hback HF (reset_roots (dbh d)) Hp).
  - destruct HF as [[HF _]|HF]; [lia|]. exact (Hback HF (reset_roots (dbh d)) Hp).
Qed.
End State.
End WithEnv.

