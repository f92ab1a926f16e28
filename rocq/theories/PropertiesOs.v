(** Property C67: the default file operations. *)
From Verif Require Import Base File FileFacts IoBuffer IoFacts OsFile SpecOs OsFacts EnvExample.
Local Open Scope N_scope.
Unset Strict Implicit.

(** ** C67: signals do not show *)
Theorem C67_interrupts {E : Env} tmp b n off o :
  fst (os_pread n off o) = fst (os_pread n off (without_signals o)) /\
  without_signals (snd (os_pread n off o)) = without_signals (snd (os_pread n off (without_signals o))) /\
  (o_validate o = false ->
   fst (os_pwrite tmp b off o) = fst (os_pwrite tmp b off (without_signals o)) /\
   without_signals (snd (os_pwrite tmp b off o)) = without_signals (snd (os_pwrite tmp b off (without_signals o)))).
Proof.
  destruct (io_cases (o_io o)) as [Ho | (i & a & t & Ho & Ha)].
  - assert (H0 : o_io (without_signals o) = repeat (Fails EINTR) 0) by (cbn; rewrite Ho; apply filter_repeat0).
    rewrite (pread_eq0 n off Ho), (pread_eq0 n off H0). cbn [fst snd].
    split; [reflexivity|]. split; [rewrite !without_signals_sig; reflexivity|].
    intros Hv. unfold os_pwrite. rewrite (pwrite_loop_eq0 b off Ho), (pwrite_loop_eq0 b off H0).
    replace (o_validate (set_data _ (sig _ [] o))) with false by (destruct (length (o_io o)); cbn; congruence).
    replace (o_validate (set_data _ (sig 0 [] (without_signals o)))) with false by (cbn; congruence).
    exact (after_write_signals (lenN b) o (length (o_io o)) [] (overwrite (o_data o) off b)).
  - assert (H0 : o_io (without_signals o) = repeat (Fails EINTR) 0 ++ a :: filter not_interrupt t).
    { cbn. rewrite Ho, filter_repeat. cbn [filter]. now rewrite Ha. }
    rewrite (@pread_eq n off _ _ _ _ Ho Ha), (@pread_eq n off _ _ _ _ H0 Ha).
    repeat split; try (destruct a; cbn [fst snd]; rewrite ?without_signals_sig; unfold without_signals; cbn; rewrite ?not_interrupt_twice; reflexivity).
    + unfold os_pwrite. rewrite (pwrite_loop_eq b off Ho Ha), (pwrite_loop_eq b off H0 Ha).
      destruct a as [e|k|k w]; [reflexivity| |];
      (replace (o_validate (set_data _ (sig i t o))) with false by (destruct i; cbn; congruence));
      (replace (o_validate (set_data _ (sig 0 (filter not_interrupt t) (without_signals o)))) with false by (cbn; congruence));
      apply after_write_signals.
    + unfold os_pwrite. rewrite (pwrite_loop_eq b off Ho Ha), (pwrite_loop_eq b off H0 Ha).
      destruct a as [e|k|k w].
      * unfold without_signals. cbn. now rewrite not_interrupt_twice.
      * replace (o_validate (set_data _ (sig i t o))) with false by (destruct i; cbn; congruence).
        replace (o_validate (set_data _ (sig 0 (filter not_interrupt t) (without_signals o)))) with false by (cbn; congruence).
        apply after_write_signals.
      * replace (o_validate (set_data _ (sig i t o))) with false by (destruct i; cbn; congruence).
        replace (o_validate (set_data _ (sig 0 (filter not_interrupt t) (without_signals o)))) with false by (cbn; congruence).
        apply after_write_signals.
Qed.
Print Assumptions C67_interrupts.
Example C67_interrupts_case : fst (os_pread 3 1 (Os [5; 6; 7; 8] [Fails EINTR; Fails EINTR; Moves 2] [] None None 0 0 false false)) = Ok [6; 7] /\
  snd (@os_pwrite env0 [] [1; 2] 1 (Os [5; 6; 7; 8] [Fails EINTR; Moves 2] [] None None 0 0 false false)) = Os [5; 1; 2; 8] [] [] (Some EINTR) None 0 2 false false.
Proof. vm_compute. now split. Qed.

(** ** C67: what a result says *)
Theorem C67_read n off o : Forall honest (o_io o) ->
  match os_pread n off o with
  | (Ok b, o') => o_data o' = o_data o /\ exists k, k <= n /\ b = take k (drop off (o_data o))
  | (Err e, o') => e = E_READ /\ o_data o' = o_data o /\ exists x, o_saved o' = Some x /\ x <> EINTR /\ In (Fails x) (o_io o)
  end.
Proof.
  intros Hh. destruct (io_cases (o_io o)) as [Ho | (i & a & t & Ho & Ha)].
  - rewrite (pread_eq0 n off Ho). split; [now destruct (length (o_io o))|]. exists n. split; [lia|reflexivity].
  - rewrite (@pread_eq n off _ _ _ _ Ho Ha). destruct a as [e|k|k w].
    + split; [reflexivity|]. split; [reflexivity|]. exists e. split; [reflexivity|]. split; [exact (errno_ne (not_eintr Ha))|]. rewrite Ho. apply in_or_app. right. now left.
    + split; [now destruct i|]. exists (N.min k n). split; [lia|reflexivity].
    + exfalso. rewrite Ho in Hh. apply Forall_app in Hh. destruct Hh as [_ Hh]. inversion Hh; subst. easy.
Qed.
Print Assumptions C67_read.
Example C67_read_case : os_pread 3 1 (Os [5; 6; 7; 8] [Fails EINTR; Fails EIO; Moves 2] [] None None 0 0 false false)
  = (Err E_READ, Os [5; 6; 7; 8] [Moves 2] [] (Some EIO) (Some EIO) 0 0 false false).
Proof. reflexivity. Qed.

Theorem C67_write {E : Env} tmp b off o : Forall honest (o_io o) -> o_validate o = false ->
  match os_pwrite tmp b off o with
  | (Ok k, o') => k <= lenN b /\ o_data o' = overwrite (o_data o) off (take k b)
  | (Err e, o') => e = E_WRITE /\ exists x, o_saved o' = Some x /\
      (o_data o' = o_data o /\ x <> EINTR /\ In (Fails x) (o_io o) \/
       (exists k, k <= lenN b /\ o_data o' = overwrite (o_data o) off (take k b)) /\ In (Some x) (o_sync o))
  end.
Proof.
  intros Hh Hv.
  assert (G : forall k d i t, k <= lenN b -> d = overwrite (o_data o) off (take k b) ->
    match after_write k (set_data d (sig i t o)) with
    | (Ok k', o') => k' <= lenN b /\ o_data o' = overwrite (o_data o) off (take k' b)
    | (Err e, o') => e = E_WRITE /\ exists x, o_saved o' = Some x /\
        (o_data o' = o_data o /\ x <> EINTR /\ In (Fails x) (o_io o) \/
         (exists k, k <= lenN b /\ o_data o' = overwrite (o_data o) off (take k b)) /\ In (Some x) (o_sync o))
    end).
  { intros k d i t Hk ->. set (o1 := set_data _ _).
    assert (Hd := after_write_data k o1). assert (Hr := after_write_res k o1).
    destruct (after_write k o1) as [r o']. cbn [fst snd] in *.
    destruct Hr as [-> | (e & -> & Hs & Hi)].
    - split; [exact Hk|]. rewrite Hd. now destruct i.
    - split; [reflexivity|]. exists e. split; [exact Hs|]. right. split; [|now destruct i]. exists k. split; [exact Hk|]. rewrite Hd. now destruct i. }
  unfold os_pwrite. destruct (io_cases (o_io o)) as [Ho | (i & a & t & Ho & Ha)].
  - rewrite (pwrite_loop_eq0 b off Ho).
    replace (o_validate (set_data _ _)) with false by (destruct (length (o_io o)); cbn; congruence).
    apply (G (lenN b) _ (length (o_io o)) []); [lia|]. now rewrite take_all by lia.
  - rewrite (pwrite_loop_eq b off Ho Ha). destruct a as [e|k|k w].
    + split; [reflexivity|]. exists e. split; [reflexivity|]. left. split; [reflexivity|]. split; [exact (errno_ne (not_eintr Ha))|].
      rewrite Ho. apply in_or_app. right. now left.
    + replace (o_validate (set_data _ _)) with false by (destruct i; cbn; congruence).
      apply (G (N.min k (lenN b)) _ i t); [lia|]. f_equal.
      destruct (N.le_gt_cases k (lenN b)); [now rewrite N.min_l|]. rewrite N.min_r by lia. now rewrite !take_all by lia.
    + exfalso. rewrite Ho in Hh. apply Forall_app in Hh. destruct Hh as [_ Hh]. inversion Hh; subst. easy.
Qed.
Print Assumptions C67_write.
(** A failed write may have written: the error of the sync that follows is returned. *)
Example C67_write_case : @os_pwrite env0 [] [1; 2] 1 (Os [5; 6; 7; 8] [Fails EINTR; Moves 2] [Some EIO] None None 2 0 false false)
  = (Err E_WRITE, Os [5; 1; 2; 8] [] [] (Some EIO) (Some EIO) 2 0 false false).
Proof. reflexivity. Qed.

(** ** C67: periodic syncs *)
(** With a period, no more than the period of bytes is ever written without a sync: either the bytes are counted and stay below the period, or one sync is made, its error is
    the result, and the count begins again. [r]: the answer to the next fdatasync. *)
Theorem C67_periodic {E : Env} tmp b off o r t : o_validate o = false -> o_sync o = r :: t -> o_count o + lenN b < 2^64 ->
  match os_pwrite tmp b off o with
  | (Ok k, o') =>
      (o_period o = 0 \/ o_count o + k < o_period o) /\ o_count o' = o_count o + k /\ o_sync o' = r :: t \/
      0 < o_period o <= o_count o + k /\ r = None /\ o_count o' = 0 /\ o_sync o' = t
  | (Err _, o') =>
      o_data o' = o_data o /\ o_count o' = o_count o /\ o_sync o' = r :: t \/
      (exists k, k <= lenN b /\ 0 < o_period o <= o_count o + k) /\ r <> None /\ o_count o' = 0 /\ o_sync o' = t
  end.
Proof.
  intros Hv Hs Hc.
  assert (G : forall k d i t', k <= lenN b ->
    match after_write k (set_data d (sig i t' o)) with
    | (Ok k, o') =>
        (o_period o = 0 \/ o_count o + k < o_period o) /\ o_count o' = o_count o + k /\ o_sync o' = r :: t \/
        0 < o_period o <= o_count o + k /\ r = None /\ o_count o' = 0 /\ o_sync o' = t
    | (Err _, o') =>
        o_data o' = o_data o /\ o_count o' = o_count o /\ o_sync o' = r :: t \/
        (exists k, k <= lenN b /\ 0 < o_period o <= o_count o + k) /\ r <> None /\ o_count o' = 0 /\ o_sync o' = t
    end).
  { intros k d i t' Hk. unfold after_write. set (o1 := set_data d _).
    assert (E1 : o_count o1 = o_count o) by (unfold o1; now destruct i). assert (E2 : o_period o1 = o_period o) by (unfold o1; now destruct i).
    assert (E3 : o_sync o1 = r :: t) by (unfold o1; now destruct i).
    rewrite N.mod_small by (rewrite E1; lia).
    change (o_period (set_count (o_count o1 + k) o1)) with (o_period o1). change (o_count (set_count (o_count o1 + k) o1)) with (o_count o1 + k).
    rewrite E2. destruct (N.ltb_spec 0 (o_period o)) as [Hp|Hp]; cbn [andb].
    - destruct (N.leb_spec (o_period o) (o_count o1 + k)) as [Hq|Hq].
      + unfold os_sync, sys_fdatasync. change (o_sync (set_count (o_count o1 + k) o1)) with (o_sync o1). rewrite E3. rewrite E1 in Hq.
        destruct r as [e|]; cbn [fst snd].
        * right. split; [exists k; lia|]. now repeat split.
        * right. split; [lia|]. now repeat split.
      + left. rewrite E1 in Hq. split; [lia|]. split; [change (o_count o1 + k = o_count o + k); now rewrite E1|exact E3].
    - left. split; [lia|]. split; [change (o_count o1 + k = o_count o + k); now rewrite E1|exact E3]. }
  unfold os_pwrite. destruct (io_cases (o_io o)) as [Ho | (i & a & t' & Ho & Ha)].
  - rewrite (pwrite_loop_eq0 b off Ho).
    replace (o_validate (set_data _ _)) with false by (destruct (length (o_io o)); cbn; congruence).
    apply (G (lenN b) _ (length (o_io o)) []). lia.
  - rewrite (pwrite_loop_eq b off Ho Ha). destruct a as [e|k|k w].
    + left. now repeat split.
    + replace (o_validate (set_data _ _)) with false by (destruct i; cbn; congruence). apply (G (N.min k (lenN b)) _ i t'). lia.
    + replace (o_validate (set_data _ _)) with false by (destruct i; cbn; congruence). apply (G (N.min k (lenN b)) _ i t'). lia.
Qed.
Print Assumptions C67_periodic.
Example C67_periodic_case : let o c := Os [5; 6] [] [None; Some EIO] None None 4 c false false in
  snd (@os_pwrite env0 [] [1; 2] 0 (o 1)) = Os [1; 2] [] [None; Some EIO] None None 4 3 false false /\
  snd (@os_pwrite env0 [] [1; 2] 0 (o 2)) = Os [1; 2] [] [Some EIO] None None 4 0 false false.
Proof. vm_compute. now split. Qed.

(** ** C67: validated writes *)
Theorem C67_validated {E : Env} tmp b off o i a t k w : o_validate o = true -> o_io o = repeat (Fails EINTR) i ++ a :: t ->
  stores b a = Some (k, w) -> Forall moving t -> off + N.min k 8192 <= lenN (overwrite (o_data o) off w) ->
  exists r o', os_pwrite tmp b off o = (r, o') /\ o_data o' = overwrite (o_data o) off w /\ (r = Ok k \/ r = Err E_WRITE \/ r = Err E_CHECKSUM) /\
    (r = Err E_CHECKSUM <-> crc32c (take (N.min k 8192) b) <> crc32c (take (N.min k 8192) (drop off (o_data o')))).
Proof.
  intros Hv Ho Ha Ht Hlen. unfold os_pwrite.
  assert (Ha' : not_interrupt a = true) by (destruct a as [e| |]; [discriminate|reflexivity|reflexivity]).
  rewrite (pwrite_loop_eq b off Ho Ha').
  set (o1 := set_data (overwrite (o_data o) off w) (sig i t o)).
  assert (Ea : match a with
    | Fails e => (Ok None, set_errno (Some e) (set_io t o))
    | Moves k => (Ok (Some (N.min k (lenN b))), set_data (overwrite (o_data o) off (take k b)) (sig i t o))
    | Lies k w => (Ok (Some (N.min k (lenN b))), set_data (overwrite (o_data o) off w) (sig i t o)) end = (Ok (Some k), o1)).
  { destruct a; [discriminate| |]; cbn in Ha; injection Ha as <- <-; reflexivity. }
  rewrite Ea. clear Ea.
  replace (o_validate o1) with true by (unfold o1; destruct i; cbn; congruence).
  unfold validate.
  assert (Hd1 : o_data o1 = overwrite (o_data o) off w) by reflexivity.
  assert (Hi1 : o_io o1 = t) by (unfold o1; now destruct i).
  set (d := overwrite (o_data o) off w) in *.
  replace (if k <? 8192 then k else 8192) with (N.min k 8192) by (destruct (N.ltb_spec k 8192); lia).
  destruct (@read_back_ok (length (o_io o1) + 3) tmp 0 (N.min k 8192) off o1) as (o2 & E1 & E2); [now rewrite Hi1|now rewrite Hd1|lia|].
  rewrite E1. rewrite Hd1 in *.
  set (x := take (N.min k 8192) (drop off d)) in *.
  assert (Hx : lenN x = N.min k 8192) by (unfold x; rewrite lenN_take, lenN_drop; lia).
  cbv zeta. replace (take (N.min k 8192) (overwrite tmp 0 x)) with x by (rewrite <- Hx; symmetry; apply take_overwrite0).
  destruct (N.eqb_spec (crc32c (take (N.min k 8192) b)) (crc32c x)) as [Hc|Hc].
  - assert (Hd := after_write_data k o2). assert (Hr2 := after_write_res k o2). fold (after_write k o2).
    destruct (after_write k o2) as [r o']. cbn [fst snd] in *. exists r, o'. split; [reflexivity|]. rewrite Hd, E2. split; [reflexivity|]. fold x.
    destruct Hr2 as [-> | (e & -> & _)]; (split; [tauto|]); (split; [discriminate|]); intros H; now destruct H.
  - exists (Err E_CHECKSUM), o2. split; [reflexivity|]. rewrite E2. split; [reflexivity|]. fold x. split; [tauto|]. now split.
Qed.
Print Assumptions C67_validated.
Example C67_validated_case : fst (@os_pwrite env0 (repeat 0 10) [1; 2; 3] 1 (Os [5; 6; 7; 8] [Fails EINTR; Lies 3 [1; 9; 3]; Moves 1] [] None None 0 0 false true)) = Err E_CHECKSUM /\
  fst (@os_pwrite env0 (repeat 0 10) [1; 2; 3] 1 (Os [5; 6; 7; 8] [Fails EINTR; Moves 2; Moves 1] [] None None 0 0 false true)) = Ok 2.
Proof. vm_compute. now split. Qed.

(** Only the first 8192 bytes of a write are compared. *)
Theorem C67_beyond_refuted : exists E tmp b off o o', o_validate o = true /\ @os_pwrite E tmp b off o = (Ok (lenN b), o') /\
  take (lenN b) (drop off (o_data o')) <> b /\ @crc32c E (take (lenN b) (drop off (o_data o'))) <> @crc32c E b.
Proof.
  exists env0, [], (repeat 1 (N.to_nat 8193)), 0, (Os [] [Lies 8193 (repeat 1 (N.to_nat 8192) ++ [2])] [] None None 0 0 false true).
  eexists. split; [reflexivity|]. split; [vm_compute; reflexivity|]. split.
  - intros H. apply (f_equal (fun l => nth (N.to_nat 8192) l 0)) in H. revert H. vm_compute. discriminate.
  - vm_compute. discriminate.
Qed.
Print Assumptions C67_beyond_refuted.
(** An error while reading back is taken for -1 bytes, an end of the file for nothing yet: undefined behaviour and a loop without end; with tracing, what happens to stand in the
    array is compared instead. In the last case the bytes are not in the file. *)
Theorem C67_read_back_refuted : exists E tmp b off io1 io2 io3,
  let o tracing io := Os [] io [] None None 0 0 tracing true in
  fst (@os_pwrite E tmp b off (o false io1)) = Err E_UB /\ fst (@os_pwrite E tmp b off (o false io2)) = Err E_FUEL /\
  fst (@os_pwrite E tmp b off (o true io3)) = Ok (lenN b) /\ o_data (snd (@os_pwrite E tmp b off (o true io3))) = [].
Proof.
  exists env0, [1; 2], [1; 2], 0, [Moves 2; Fails EINTR], [Lies 2 []], [Lies 2 []; Fails EIO].
  vm_compute. repeat split.
Qed.
Print Assumptions C67_read_back_refuted.

(** ** C67: opening *)
Lemma open_loop_ok : forall n fuel noatime owner x, x <> No EINTR -> (n + 2 <= fuel)%nat -> open_loop fuel noatime (FileState n owner x) = Ok x.
Proof.
  induction n as [|n IH]; intros fuel noatime owner x Hx Hf.
  - destruct fuel as [|[|fuel]]; try lia. cbn [open_loop sys_open fi_interrupts fi_owner fi_result].
    assert (H1 : forall na, (na = true -> owner = true \/ x <> No EPERM) -> forall fl, open_loop (S fl) false (FileState 0 owner x) = Ok x).
    { intros _ _ fl. cbn. destruct x as [fd|e]; [reflexivity|]. destruct e; try reflexivity. now destruct Hx. }
    destruct (noatime && negb owner) eqn:En.
    + apply andb_true_iff in En. destruct En as [-> _]. cbn [andb errno_eqb]. apply (H1 false). discriminate.
    + destruct x as [fd|e]; [reflexivity|]. destruct noatime; cbn [andb].
      * destruct e; try reflexivity. now destruct Hx.
      * destruct e; try reflexivity. now destruct Hx.
  - destruct fuel as [|fuel]; [lia|]. cbn [open_loop sys_open fi_interrupts fi_owner fi_result errno_eqb].
    rewrite andb_false_r. apply IH; [exact Hx|lia].
Qed.
(** Signals and the owner of the file do not matter for opening: the result is that of the file. *)
Theorem C67_open rdwr n owner fd e : e <> EINTR ->
  os_open rdwr (FileState n owner (Fd fd)) = (Ok fd, None) /\
  os_open rdwr (FileState n owner (No e)) = (Err (match e with ENOENT => E_NO_SUCH_FILE | _ => E_OPEN_FILE end), Some e).
Proof.
  intros He. unfold os_open. cbn [fi_interrupts]. rewrite !open_loop_ok by (try lia; congruence). split; [reflexivity|]. now destruct e.
Qed.
Print Assumptions C67_open.
Example C67_open_case : os_open false (FileState 3 false (Fd 5)) = (Ok 5, None) /\ fst (sys_open true (FileState 0 false (Fd 5))) = No EPERM.
Proof. now split. Qed.

(** ** C67: closing *)
Lemma file_at_app fd t u : file_at fd (t ++ u) = match file_at fd t with Some x => Some x | None => file_at fd u end.
Proof. unfold file_at. induction t as [|x t IH]; [reflexivity|]. cbn. destruct (fst x =? fd); [reflexivity|exact IH]. Qed.
Lemma file_at_filter fd fd' t : file_at fd' (filter (fun x => negb (fst x =? fd)) t) = if fd' =? fd then None else file_at fd' t.
Proof.
  unfold file_at. induction t as [|x t IH]; [now destruct (fd' =? fd)|]. cbn [filter find].
  destruct (N.eqb_spec (fst x) fd) as [->|H1]; cbn [negb find].
  - rewrite IH. destruct (N.eqb_spec fd' fd) as [->|H2]; [reflexivity|]. destruct (N.eqb_spec fd fd'); [congruence|reflexivity].
  - destruct (N.eqb_spec (fst x) fd') as [<-|H2].
    + destruct (N.eqb_spec (fst x) fd); [congruence|reflexivity].
    + rewrite IH. reflexivity.
Qed.
(** A close that is not interrupted closes the file of the handle and no other; an error is reported with its number. *)
Theorem C67_close fd own s steps t : 3 <= fd -> file_at fd t = Some own -> cl_error s <> Some EINTR ->
  fst (os_close fd (s :: steps) t) = match cl_error s with None => Closed | Some e => Close_failed e end /\
  (forall fd', file_at fd' (snd (os_close fd (s :: steps) t)) = if fd' =? fd then file_at fd (cl_others s) else file_at fd' (t ++ cl_others s)).
Proof.
  intros Hfd Hown He. cbn [os_close]. destruct (N.ltb_spec fd 3); [lia|]. unfold sys_close. rewrite Hown.
  assert (G : forall fd', file_at fd' (filter (fun x => negb (fst x =? fd)) t ++ cl_others s) = if fd' =? fd then file_at fd (cl_others s) else file_at fd' (t ++ cl_others s)).
  { intros fd'. rewrite !file_at_app, file_at_filter. destruct (N.eqb_spec fd' fd) as [->|]; reflexivity. }
  destruct (cl_error s) as [e|] eqn:Ee; [|now split].
  destruct e; first [now split|now destruct He].
Qed.
Print Assumptions C67_close.
Example C67_close_case : os_close 4 [CloseStep (Some EIO) []] [(3, 10); (4, 20); (5, 30)] = (Close_failed EIO, [(3, 10); (5, 30)]).
Proof. reflexivity. Qed.

(** After an interruption the descriptor is closed a second time: another thread that has opened a file in the meantime loses it. *)
Theorem C67_close_refuted : exists fd t steps own other, 3 <= fd /\ file_at fd t = Some own /\ other <> own /\
  Forall (fun s => cl_error s = None \/ cl_error s = Some EINTR) steps /\ In (fd, other) (concat (map cl_others steps)) /\
  fst (os_close fd steps t) = Closed /\ ~ In other (map snd (snd (os_close fd steps t))).
Proof.
  exists 7, [(7, 10)], [CloseStep (Some EINTR) [(7, 20)]; CloseStep None []], 10, 20.
  split; [lia|]. split; [reflexivity|]. split; [discriminate|]. split; [repeat (apply Forall_cons; [cbn; auto|]); apply Forall_nil|]. split; [now left|]. split; [reflexivity|]. intros [].
Qed.
Print Assumptions C67_close_refuted.
(** Without other threads the second call fails, and the closed file is reported as not closed. *)
Theorem C67_close_error_refuted : exists fd t steps own, 3 <= fd /\ file_at fd t = Some own /\
  Forall (fun s => cl_error s = None \/ cl_error s = Some EINTR) steps /\ Forall (fun s => cl_others s = []) steps /\
  os_close fd steps t = (Close_failed EBADF, []).
Proof.
  exists 7, [(7, 10)], [CloseStep (Some EINTR) []; CloseStep None []], 10.
  split; [lia|]. split; [reflexivity|]. split; [repeat (apply Forall_cons; [cbn; auto|]); apply Forall_nil|]. split; [repeat constructor|]. reflexivity.
Qed.
Print Assumptions C67_close_error_refuted.
(** A file that has been opened cannot be closed if the system has given one of the first three descriptors. *)
Theorem C67_low_refuted : exists fd f t, os_open true f = (Ok fd, None) /\ file_at fd t <> None /\ fst (os_close fd [] t) = Aborted.
Proof. exists 0, (FileState 0 true (Fd 0)), [(0, 10)]. split; [reflexivity|]. split; [discriminate|]. reflexivity. Qed.
Print Assumptions C67_low_refuted.

(** ** C67: the error number of a failed advice is not that of the call *)
Theorem C67_advise_refuted : exists o e, fst (os_advise (Some e) o) = Err E_INVALID_ARGUMENTS /\ o_saved (snd (os_advise (Some e) o)) <> Some e.
Proof. exists (Os [] [] [] (Some ENOENT) None 0 0 false false), EINVAL. split; [reflexivity|]. discriminate. Qed.
Print Assumptions C67_advise_refuted.

(** ** C67: reads and writes are those that the models of the buffers and of the streams are built on *)
Theorem C67_refines {E : Env} tmp b n off o : Forall moving_or_failing (o_io o) -> o_validate o = false ->
  (exists p q, let '(x, o') := os_pread n off o in raw_pread (Raw (o_data o) p) n off = (x, Raw (o_data o') q)) /\
  (exists p q, let '(x, o') := os_pwrite tmp b off o in raw_pwrite (Raw (o_data o) p) b off = (x, Raw (o_data o') q)).
Proof.
  intros Hm Hv. split.
  - destruct (io_cases (o_io o)) as [Ho | (i & a & t & Ho & Ha)].
    + rewrite (pread_eq0 n off Ho). exists [], []. unfold raw_pread. cbn [next_step rw_plan rs_err rs_count rw_data].
      assert (Hd : o_data (sig (length (o_io o)) [] o) = o_data o) by now destruct (length (o_io o)). rewrite Hd.
      f_equal. f_equal. f_equal. lia.
    + rewrite (@pread_eq n off _ _ _ _ Ho Ha). rewrite Ho in Hm. apply Forall_app in Hm. destruct Hm as [_ Hm]. inversion Hm as [|? ? Hk _]; subst.
      destruct a as [e|k|k w]; [exists [RStep 0 (Some E_READ)], []; reflexivity| |destruct Hk].
      exists [RStep k None], []. unfold raw_pread. cbn [next_step rw_plan rs_err rs_count rw_data moving_or_failing] in *.
      assert (Hd : o_data (sig i t o) = o_data o) by now destruct i. rewrite Hd.
      f_equal. f_equal. f_equal. lia.
  - assert (Hh : Forall honest (o_io o)) by (eapply Forall_impl; [|exact Hm]; intros [] ?; cbn in *; auto).
    assert (G : forall k d o1, o_data o1 = d -> (b <> [] -> 1 <= k) -> k <= lenN b -> d = overwrite (o_data o) off (take k b) ->
      exists p q, let '(x, o') := after_write k o1 in raw_pwrite (Raw (o_data o) p) b off = (x, Raw (o_data o') q)).
    { intros k d o1 Hd Hk Hkb Ed. assert (Hd' := after_write_data k o1). assert (Hr := after_write_res k o1).
      destruct (after_write k o1) as [x o']. cbn [fst snd] in *. rewrite Hd', Hd, Ed.
      destruct Hr as [-> | (e & -> & _)].
      - exists [RStep k None], []. unfold raw_pwrite. cbn [next_step rw_plan rs_err rs_count rw_data].
        assert (Hm1 : N.min (N.max 1 k) (lenN b) = k).
        { destruct b as [|x b']; [rewrite lenN_nil in *; lia|]. assert (1 <= k) by (apply Hk; discriminate). lia. }
        rewrite Hm1. reflexivity.
      - exists [RStep k (Some E_WRITE)], []. unfold raw_pwrite. cbn [next_step rw_plan rs_err rs_count rw_data].
        replace (N.min k (lenN b)) with k by lia. reflexivity. }
    unfold os_pwrite. destruct (io_cases (o_io o)) as [Ho | (i & a & t & Ho & Ha)].
    + rewrite (pwrite_loop_eq0 b off Ho).
      replace (o_validate (set_data _ _)) with false by (destruct (length (o_io o)); cbn; congruence).
      apply (G (lenN b) (overwrite (o_data o) off b)); [reflexivity| |lia|now rewrite take_all by lia].
      intros Hb. destruct b; [now destruct Hb|]. rewrite lenN_cons. lia.
    + rewrite (pwrite_loop_eq b off Ho Ha). rewrite Ho in Hm. apply Forall_app in Hm. destruct Hm as [_ Hm]. inversion Hm as [|? ? Hk _]; subst.
      destruct a as [e|k|k w]; [|cbn in Hk|destruct Hk].
      * exists [RStep 0 (Some E_WRITE)], []. unfold raw_pwrite. cbn [next_step rw_plan rs_err rs_count rw_data].
        replace (N.min 0 (lenN b)) with 0 by lia. now rewrite take_0.
      * replace (o_validate (set_data _ _)) with false by (destruct i; cbn; congruence).
        apply (G (N.min k (lenN b)) (overwrite (o_data o) off (take k b))); [reflexivity| |lia|].
        -- intros Hb. destruct b; [now destruct Hb|]. rewrite lenN_cons. lia.
        -- f_equal. destruct (N.le_gt_cases k (lenN b)); [now rewrite N.min_l|]. rewrite N.min_r by lia. now rewrite !take_all by lia.
Qed.
Print Assumptions C67_refines.
Example C67_refines_case : Forall moving_or_failing [Fails EINTR; Moves 2; Fails EIO].
Proof. repeat constructor; cbn; lia. Qed.
