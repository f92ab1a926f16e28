(** Properties C25 and C51: buffered file access. *)
From Verif Require Import Base IoBuffer SpecIo IoFacts.
Local Open Scope N_scope.
Unset Strict Implicit.

(** Not part of the code: the errors that the system is going to report. *)
Definition failing (plan : list rstep) (e : err) : Prop := exists s, In s plan /\ rs_err s = Some e.

Lemma new_inv p l0 plan : inv p plan (new_handle p (Raw l0 plan)) l0 true.
Proof. constructor; cbn [new_handle h_params h_raw h_write h_read rw_data]; auto. intros s H. exact H. Qed.

(** ** C25 *)

(** The answers of the buffered calls are those that direct access could have given; the file underneath has the bytes that direct access would have produced as soon as a read or
    a sync has succeeded after the last write. Errors are errors that the system has reported; so without errors there are none, and reads are complete. Other handles may append
    to the file in the meantime. *)
Theorem C25_direct_partial : forall p l0 plan t h, 0 < bp_read p -> 0 < bp_max p -> calls (new_handle p (Raw l0 plan)) t h -> careful true t = true ->
  exists l c, direct (failing plan) l0 true t l c /\ (c = true -> rw_data (h_raw h) = l).
Proof.
  intros p l0 plan t h Hr Hm H Hc. destruct (calls_direct Hr Hm H (new_inv p l0 plan) Hc) as (l & c & D & I). exists l, c. split; [exact D|].
  intros ->. exact (inv_clean_data I (iv_clean I eq_refl)).
Qed.
Print Assumptions C25_direct_partial.

(** Closing the file writes the rest, unless there is an error. *)
Theorem C25_close : forall p l0 plan t h, 0 < bp_read p -> 0 < bp_max p -> calls (new_handle p (Raw l0 plan)) t h -> careful true t = true ->
  (forall e, ~ failing plan e) -> exists l c, direct (failing plan) l0 true t l c /\ rw_data (h_raw (buf_close h)) = l.
Proof.
  intros p l0 plan t h Hr Hm H Hc Hn. destruct (calls_direct Hr Hm H (new_inv p l0 plan) Hc) as (l & c & D & I). exists l, c. split; [exact D|].
  unfold buf_close. destruct (flush h) as [x h1] eqn:Hf. destruct (flush_spec Hf I) as (_ & _ & S). cbn [snd]. destruct x as [u|e].
  - destruct S as [I1 Hp]. exact (inv_clean_data I1 Hp).
  - elim (Hn e). exact S.
Qed.
Print Assumptions C25_close.

(** The only use of free_buffers, at the end of a commit (src/couch_db.cc:730-774): after a successful sync one byte is written and the file is synced again. Giving up the buffers
    then loses nothing if that sync was successful, and otherwise at most this byte. *)
Lemma byte_flush P w r x off b z w1 r1 : flush_buffer w r = (z, w1, r1) -> wok b w -> within P r -> (wb_data w = [] \/ (wb_data w = [x] /\ wb_off w = off)) ->
  (rw_data r1 = rw_data r \/ rw_data r1 = overwrite (rw_data r) off [x]) /\ (wb_data w1 = [] \/ (wb_data w1 = [x] /\ wb_off w1 = off)).
Proof.
  intros H O W [E|[E Eo]].
  - unfold flush_buffer in H. rewrite E in H. cbn [length flush_loop] in H. rewrite E, lenN_nil in H. cbn [orb] in H. change (0 =? 0) with true in H. injection H as _ <- <-. cbn [wb_data]. auto.
  - unfold flush_buffer in H. rewrite E in H. cbn [length flush_loop] in H. rewrite E in H. change (lenN [x] =? 0) with false in H. rewrite (wo_dirty O) in H by (rewrite E; discriminate). cbn [orb negb] in H.
    destruct (raw_pwrite r [x] (wb_off w)) as [[k|e] r2] eqn:Hp; destruct (pwrite_spec Hp W) as [W2 S2]; change (lenN [x]) with 1 in S2.
    + destruct S2 as (K1 & K2 & K3). specialize (K1 ltac:(discriminate)). assert (k = 1) by lia. subst k. cbn [wb_data wb_dirty] in H. change (drop 1 [x]) with (@nil N) in H. rewrite lenN_nil in H. change (0 =? 0) with true in H. cbn [orb] in H.
      injection H as _ <- <-. rewrite K3, Eo. cbn [wb_data]. auto.
    + destruct S2 as (_ & k & K2 & K3). injection H as _ <- <-. rewrite K3, Eo. split; [|right; auto]. assert (Hk : k = 0 \/ k = 1) by lia. destruct Hk as [->| ->]; [left|right]; reflexivity.
Qed.
Theorem C25_commit : forall p l0 plan t x off k r h, 0 < bp_read p -> 0 < bp_max p ->
  calls (new_handle p (Raw l0 plan)) (t ++ [(CSync, ADone (Ok tt)); (CWrite [x] off, ACount k); (CSync, ADone r); (CFree, ANone)]) h -> careful true t = true ->
  exists l c, direct (failing plan) l0 true t l c /\ (rw_data (h_raw h) = l \/ rw_data (h_raw h) = overwrite l off [x]) /\
    (k = Ok 1 -> r = Ok tt -> rw_data (h_raw h) = overwrite l off [x]).
Proof.
  intros p l0 plan t x off k r h Hr Hm H Hc.
  assert (Sp : forall h0 t1 t2 h2, calls h0 (t1 ++ t2) h2 -> exists h1, calls h0 t1 h1 /\ calls h1 t2 h2).
  { intros h0 t1. revert h0. induction t1 as [|a t1 IH]; intros h0 t2 h2 Q; [exists h0; split; [constructor|exact Q]|]. cbn [app] in Q.
    inversion Q; subst;
    match goal with Q1 : calls _ (t1 ++ t2) _ |- _ => destruct (IH _ _ _ Q1) as (h9 & Q2 & Q3) end; exists h9; (split; [|exact Q3]); econstructor; eassumption. }
  apply Sp in H. destruct H as (h1 & H1 & H2). destruct (calls_direct Hr Hm H1 (new_inv p l0 plan) Hc) as (l & c & D & I). exists l, c. split; [exact D|].
  inversion H2 as [| | |? ? h2 ? ? Hs T2| | |]; subst. inversion T2 as [| |? ? ? ? h3 ? ? Hw T3| | | |]; subst. inversion T3 as [| | |? ? h4 ? ? Hs2 T4| | |]; subst.
  inversion T4 as [| | | | |? ? ? T5|]; subst. inversion T5; subst. cbn [buf_free set_read set_write h_raw].
  pose proof (bsync_ok Hs I) as I2. cbn beta iota in I2. pose proof (inv_clean_data I2 (iv_clean I2 eq_refl)) as Hl. pose proof (iv_clean I2 eq_refl) as Hp.
  pose proof (pwrite_ok Hr Hw I2) as Sw.
  assert (Hend : k = Ok 1 -> r = Ok tt -> rw_data (h_raw h4) = overwrite l off [x]).
  { intros -> ->. destruct Sw as (_ & _ & I3). pose proof (bsync_ok Hs2 I3) as I4. cbn beta iota in I4. exact (inv_clean_data I4 (iv_clean I4 eq_refl)). }
  split; [|exact Hend].
  assert (W3 : within plan (h_raw h3)) by (destruct k as [n|e]; [destruct Sw as (_ & _ & I3)|destruct Sw as (_ & n & _ & I3)]; exact (iv_within I3)).
  assert (P3 : h_params h3 = p) by (destruct k as [n|e]; [destruct Sw as (_ & _ & I3)|destruct Sw as (_ & n & _ & I3)]; exact (iv_params I3)).
  assert (B3 : (rw_data (h_raw h3) = l \/ rw_data (h_raw h3) = overwrite l off [x]) /\ match h_write h3 with Some w => wok (bp_write p) w /\ (wb_data w = [] \/ (wb_data w = [x] /\ wb_off w = off)) | None => True end).
  { unfold buf_pwrite in Hw. change (lenN [x] =? 0) with false in Hw. cbv iota in Hw. rewrite (iv_params I2) in Hw.
    set (rd := match h_read h2 with Some l0 => Some (invalidate off (lenN [x]) (bp_read p) l0) | None => None end) in *.
    set (w0 := match h_write h2 with Some w => w | None => WBuf 0 [] false end) in *. assert (E0 : wb_data w0 = []) by (unfold w0, pending in *; destruct (h_write h2); [exact Hp|reflexivity]).
    unfold write_to_buffer in Hw. rewrite E0, lenN_nil in Hw. change (0 =? 0) with true in Hw. cbn [negb andb] in Hw. rewrite N.sub_diag, N.sub_0_r, take_nil, drop_nil, app_nil_r in Hw. cbn [app] in Hw.
    assert (Hcap : bp_write p = 0 \/ 1 <= bp_write p) by lia. destruct Hcap as [Hcap|Hcap].
    - rewrite Hcap in Hw. change (N.min 0 (lenN [x])) with 0 in Hw. rewrite take_0 in Hw. cbn [wb_data] in Hw. rewrite lenN_nil in Hw. change (0 =? 0) with true in Hw. cbn [orb] in Hw.
      unfold flush_buffer in Hw. cbn [wb_data length flush_loop] in Hw. rewrite lenN_nil in Hw. change (0 =? 0) with true in Hw. cbn [orb] in Hw. rewrite drop_0 in Hw. change (lenN [x] =? 0) with false in Hw.
      cbn [wb_data] in Hw. rewrite lenN_nil in Hw. change (lenN [x] <=? 0 - 0) with false in Hw. cbv iota in Hw. rewrite N.add_0_r in Hw.
      destruct (raw_pwrite (h_raw h2) [x] off) as [[m|e] r3] eqn:Hpw; destruct (pwrite_spec Hpw (iv_within I2)) as [_ S3]; change (lenN [x]) with 1 in S3; injection Hw as _ <-; cbn [h_raw h_write].
      + destruct S3 as (K1 & K2 & K3). specialize (K1 ltac:(discriminate)). assert (m = 1) by lia. subst m. rewrite K3, Hl. split; [now right|]. split; [constructor; cbn [wb_data]; [rewrite lenN_nil; lia|now intros E; elim E]|now left].
      + destruct S3 as (_ & m & K2 & K3). rewrite K3, Hl. split; [assert (Hm' : m = 0 \/ m = 1) by lia; destruct Hm' as [->| ->]; [left|right]; reflexivity|].
        split; [constructor; cbn [wb_data]; [rewrite lenN_nil; lia|now intros E; elim E]|now left].
    - replace (N.min (bp_write p) (lenN [x])) with 1 in Hw by (change (lenN [x]) with 1; lia). change (take 1 [x]) with [x] in Hw. cbn [wb_data] in Hw. change (lenN [x]) with 1 in Hw. change (1 =? 0) with false in Hw.
      rewrite orb_false_r in Hw. set (w1 := WBuf off [x] true) in *. assert (O1 : wok (bp_write p) w1) by (constructor; cbn [wb_data w1]; [change (lenN [x]) with 1; lia|reflexivity]).
      assert (B1 : wb_data w1 = [] \/ (wb_data w1 = [x] /\ wb_off w1 = off)) by (right; auto).
      assert (Fl : exists x2 w2 r2, (if 1 =? bp_write p then flush_buffer w1 (h_raw h2) else (Ok tt, w1, h_raw h2)) = (x2, w2, r2) /\ wok (bp_write p) w2 /\
        (rw_data r2 = l \/ rw_data r2 = overwrite l off [x]) /\ (wb_data w2 = [] \/ (wb_data w2 = [x] /\ wb_off w2 = off))).
      { destruct (1 =? bp_write p); [|exists (Ok tt), w1, (h_raw h2); auto].
        destruct (flush_buffer w1 (h_raw h2)) as [[x2 w2] r2] eqn:Hf. destruct (flush_buffer_spec Hf O1 (iv_within I2)) as (_ & _ & O2 & _). destruct (byte_flush Hf O1 (iv_within I2) B1) as [Q1 Q2]. rewrite Hl in Q1.
        exists x2, w2, r2. auto. }
      destruct Fl as (x2 & w2 & r2 & Hfl & F1 & F2 & F3). rewrite Hfl in Hw. change (drop 1 [x]) with (@nil N) in Hw. rewrite lenN_nil in Hw. change (0 =? 0) with true in Hw. cbv iota in Hw.
      destruct x2; injection Hw as _ <-; cbn [h_raw h_write]; auto. }
  destruct B3 as [B3 Bw]. unfold buf_sync, flush in Hs2. destruct (h_write h3) as [w|].
  - destruct (flush_buffer w (h_raw h3)) as [[z w1] r1] eqn:Hf. destruct Bw as [O B]. destruct (flush_buffer_spec Hf O W3) as (W4 & _). destruct (byte_flush Hf O W3 B) as [Q _].
    assert (Hr1 : rw_data r1 = l \/ rw_data r1 = overwrite l off [x]).
    { destruct B3 as [B3|B3], Q as [Q|Q]; rewrite B3 in Q; auto. right. rewrite Q. exact (@overwrite_again l off [x] 1). }
    destruct z as [[]|e]; [|injection Hs2 as _ <-; exact Hr1]. cbn [h_raw set_raw] in Hs2. destruct (raw_sync r1) as [y r2] eqn:Hy. injection Hs2 as _ <-. cbn [set_raw h_raw]. destruct (sync_spec Hy W4) as (_ & -> & _). exact Hr1.
  - destruct (raw_sync (h_raw h3)) as [y r2] eqn:Hy. injection Hs2 as _ <-. cbn [set_raw h_raw]. destruct (sync_spec Hy W3) as (_ & -> & _). exact B3.
Qed.
Print Assumptions C25_commit.

(** An example with small buffers, short reads and writes, and an error. *)
Definition pex : params := Params 4 2 3.
Definition plan_ex : list rstep := [RStep 2 None; RStep 1 None; RStep 9 None; RStep 1 (Some E_WRITE); RStep 9 None; RStep 9 None].
Fixpoint perform (h : handle) (cs : list call) : list (call * answer) * handle :=
  match cs with
  | [] => ([], h)
  | c :: r =>
      let '(a, h1) :=
        match c with
        | CRead n off => let '(x, h1) := buf_pread h n off in (ABytes x, h1)
        | CWrite b off => let '(x, h1) := buf_pwrite h b off in (ACount x, h1)
        | CSync => let '(x, h1) := buf_sync h in (ADone x, h1)
        | CEof => let '(x, h1) := buf_eof h in (ACount x, h1)
        | CFree => (ANone, buf_free h)
        | CAppend b => (ANone, h)
        end in
      let '(t, h2) := perform h1 r in ((c, a) :: t, h2)
  end.
Lemma perform_calls cs : forallb (fun c => match c with CAppend _ => false | _ => true end) cs = true -> forall h, calls h (fst (perform h cs)) (snd (perform h cs)).
Proof.
  induction cs as [|c cs IH]; intros Ha h; cbn [perform]; [constructor|]. cbn [forallb] in Ha. apply andb_true_iff in Ha. destruct Ha as [Hc Ha]. specialize (IH Ha).
  destruct c as [n off|b off| | | |b]; [| | | | |discriminate].
  - destruct (buf_pread h n off) as [x h1] eqn:Hx. specialize (IH h1). destruct (perform h1 cs) as [t h2]. cbn [fst snd] in *. econstructor; eauto.
  - destruct (buf_pwrite h b off) as [x h1] eqn:Hx. specialize (IH h1). destruct (perform h1 cs) as [t h2]. cbn [fst snd] in *. econstructor; eauto.
  - destruct (buf_sync h) as [x h1] eqn:Hx. specialize (IH h1). destruct (perform h1 cs) as [t h2]. cbn [fst snd] in *. econstructor; eauto.
  - destruct (buf_eof h) as [x h1] eqn:Hx. specialize (IH h1). destruct (perform h1 cs) as [t h2]. cbn [fst snd] in *. econstructor; eauto.
  - specialize (IH (buf_free h)). destruct (perform (buf_free h) cs) as [t h2]. cbn [fst snd] in *. econstructor; eauto.
Qed.
Definition calls_ex : list call := [CWrite [1;2;3;4;5] 2; CRead 9 0; CWrite [7;7] 3; CWrite [8;8;8;8] 20; CSync; CSync; CEof; CRead 30 1; CFree; CRead 3 3; CWrite [9] 0].
Example C25_ex : exists t h, calls (new_handle pex (Raw [0;0;0] plan_ex)) t h /\ careful true t = true /\ map fst t = calls_ex /\
  nth 1 (map snd t) ANone = ABytes (Err E_WRITE) /\ nth 6 (map snd t) ANone = ACount (Ok 24) /\ nth 9 (map snd t) ANone = ABytes (Ok [7;7;4]).
Proof.
  exists (fst (perform (new_handle pex (Raw [0;0;0] plan_ex)) calls_ex)), (snd (perform (new_handle pex (Raw [0;0;0] plan_ex)) calls_ex)).
  split; [apply perform_calls; reflexivity|]. vm_compute. auto 10.
Qed.
Example C25_commit_ex : exists t h, calls (new_handle pex (Raw [] [])) ([(CWrite [5;5] 0, ACount (Ok 2))] ++ t) h /\
  t = [(CSync, ADone (Ok tt)); (CWrite [1] 0, ACount (Ok 1)); (CSync, ADone (Ok tt)); (CFree, ANone)] /\ rw_data (h_raw h) = [1;5].
Proof.
  eexists _, (snd (perform (new_handle pex (Raw [] [])) [CWrite [5;5] 0; CSync; CWrite [1] 0; CSync; CFree])). split; [|split; [reflexivity|vm_compute; reflexivity]].
  exact (@perform_calls [CWrite [5;5] 0; CSync; CWrite [1] 0; CSync; CFree] eq_refl (new_handle pex (Raw [] []))).
Qed.

(** Giving up the buffers at another time loses what has been written. *)
Theorem C25_free_refuted : exists p l0 t h, 0 < bp_read p /\ 0 < bp_max p /\ calls (new_handle p (Raw l0 [])) t h /\
  t = [(CWrite [1;2] 0, ACount (Ok 2)); (CFree, ANone); (CSync, ADone (Ok tt)); (CRead 2 0, ABytes (Ok []))].
Proof.
  exists pex, [], (fst (perform (new_handle pex (Raw [] [])) [CWrite [1;2] 0; CFree; CSync; CRead 2 0])), (snd (perform (new_handle pex (Raw [] [])) [CWrite [1;2] 0; CFree; CSync; CRead 2 0])).
  split; [reflexivity|]. split; [reflexivity|]. split; [apply perform_calls; reflexivity|]. vm_compute. reflexivity.
Qed.
Print Assumptions C25_free_refuted.

(** The end of the file does not count what is in the write buffer. *)
Theorem C25_eof_refuted : exists p l0 t h, 0 < bp_read p /\ 0 < bp_max p /\ calls (new_handle p (Raw l0 [])) t h /\
  t = [(CWrite [1;2] 0, ACount (Ok 2)); (CEof, ACount (Ok 0)); (CRead 2 0, ABytes (Ok [1;2])); (CEof, ACount (Ok 2))].
Proof.
  exists pex, [], (fst (perform (new_handle pex (Raw [] [])) [CWrite [1;2] 0; CEof; CRead 2 0; CEof])), (snd (perform (new_handle pex (Raw [] [])) [CWrite [1;2] 0; CEof; CRead 2 0; CEof])).
  split; [reflexivity|]. split; [reflexivity|]. split; [apply perform_calls; reflexivity|]. vm_compute. reflexivity.
Qed.
Print Assumptions C25_eof_refuted.

(** ** C51 *)

(** With two buffers, of the two blocks read last the second to last is not kept: reading the blocks 0, 1, 2, 3 and then 2 again reads the file once more, and fails if the
    system does. A recycled buffer is not moved to the front of the list, so that it is the next one to be recycled. *)
Theorem C51_recent_refuted : exists p l0 plan t h e, bp_max p = 2 /\ bp_read p = 4 /\ calls (new_handle p (Raw l0 plan)) t h /\
  map fst t = [CRead 4 0; CRead 4 4; CRead 4 8; CRead 4 12; CRead 4 8] /\ nth 3 (map snd t) ANone = ABytes (Ok [3;3;3;3]) /\ nth 4 (map snd t) ANone = ABytes (Err e).
Proof.
  set (l0 := [0;0;0;0;1;1;1;1;2;2;2;2;3;3;3;3]). set (plan := repeat (RStep 4 None) 4 ++ [RStep 0 (Some E_READ)]). set (cs := [CRead 4 0; CRead 4 4; CRead 4 8; CRead 4 12; CRead 4 8]).
  exists pex, l0, plan, (fst (perform (new_handle pex (Raw l0 plan)) cs)), (snd (perform (new_handle pex (Raw l0 plan)) cs)), E_READ.
  split; [reflexivity|]. split; [reflexivity|]. split; [apply perform_calls; reflexivity|]. vm_compute. auto.
Qed.
Print Assumptions C51_recent_refuted.
