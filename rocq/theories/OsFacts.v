(** Facts about the default file operations. *)
From Verif Require Import Base File FileFacts IoBuffer IoFacts OsFile SpecOs EnvExample.
Local Open Scope N_scope.
Unset Strict Implicit.

(** ** Loops that end *)
Lemma eintr_dec e : {e = EINTR} + {errno_eqb e EINTR = false}.
Proof. destruct e; auto. Qed.
Lemma errno_ne e : errno_eqb e EINTR = false -> e <> EINTR.
Proof. intros H ->. discriminate. Qed.

(** The loops take the first answer that is not an interruption. *)
Lemma io_cases (l : list answer) :
  (l = repeat (Fails EINTR) (length l)) \/
  exists i a t, l = repeat (Fails EINTR) i ++ a :: t /\ not_interrupt a = true.
Proof.
  induction l as [|x r IH]; [now left|].
  destruct (not_interrupt x) eqn:Ex.
  - right. now exists 0%nat, x, r.
  - assert (x = Fails EINTR) as -> by (destruct x as [[]| |]; try discriminate; reflexivity).
    destruct IH as [-> | (i & a & t & -> & Ha)].
    + left. cbn [length repeat]. now rewrite repeat_length.
    + right. now exists (S i), a, t.
Qed.

Definition sig (i : nat) (t : list answer) (o : os) : os :=
  match i with O => set_io t o | _ => set_errno (Some EINTR) (set_io t o) end.

Lemma pread_loop_int n off i : forall fuel l o, o_io o = repeat (Fails EINTR) i ++ l -> (i < fuel)%nat ->
  pread_loop fuel n off o = match sys_pread n off (sig i l o) with
    | (Some b, o') => (Ok (Some b), o')
    | (None, o') => if interrupted o' then pread_loop (fuel - i - 1) n off o' else (Ok None, o') end.
Proof.
  induction i as [|i IH]; intros fuel l o Ho Hf.
  - destruct fuel as [|fuel]; [lia|]. cbn [pread_loop repeat app sig] in *.
    replace (set_io l o) with o by (destruct o; cbn in *; now subst).
    replace (S fuel - 0 - 1)%nat with fuel by lia. reflexivity.
  - destruct fuel as [|fuel]; [lia|]. cbn [pread_loop]. unfold sys_pread at 1. rewrite Ho. cbn [repeat app].
    unfold interrupted at 1. cbn [o_errno set_errno set_io errno_eqb].
    rewrite (IH fuel l); [|reflexivity|lia].
    assert (Hs : sig i l (set_errno (Some EINTR) (set_io (repeat (Fails EINTR) i ++ l) o)) = sig (S i) l o) by (destruct i; reflexivity).
    rewrite Hs. replace (S fuel - S i - 1)%nat with (fuel - i - 1)%nat by lia. reflexivity.
Qed.
Lemma pwrite_loop_int b off i : forall fuel l o, o_io o = repeat (Fails EINTR) i ++ l -> (i < fuel)%nat ->
  pwrite_loop fuel b off o = match sys_pwrite b off (sig i l o) with
    | (Some k, o') => (Ok (Some k), o')
    | (None, o') => if interrupted o' then pwrite_loop (fuel - i - 1) b off o' else (Ok None, o') end.
Proof.
  induction i as [|i IH]; intros fuel l o Ho Hf.
  - destruct fuel as [|fuel]; [lia|]. cbn [pwrite_loop repeat app sig] in *.
    replace (set_io l o) with o by (destruct o; cbn in *; now subst).
    replace (S fuel - 0 - 1)%nat with fuel by lia. reflexivity.
  - destruct fuel as [|fuel]; [lia|]. cbn [pwrite_loop]. unfold sys_pwrite at 1. rewrite Ho. cbn [repeat app].
    unfold interrupted at 1. cbn [o_errno set_errno set_io errno_eqb].
    rewrite (IH fuel l); [|reflexivity|lia].
    assert (Hs : sig i l (set_errno (Some EINTR) (set_io (repeat (Fails EINTR) i ++ l) o)) = sig (S i) l o) by (destruct i; reflexivity).
    rewrite Hs. replace (S fuel - S i - 1)%nat with (fuel - i - 1)%nat by lia. reflexivity.
Qed.

Lemma sig_io i t o : o_io (sig i t o) = t. Proof. now destruct i. Qed.
Lemma sig_data i t o : o_data (sig i t o) = o_data o. Proof. now destruct i. Qed.

Lemma not_eintr e : not_interrupt (Fails e) = true -> errno_eqb e EINTR = false.
Proof. now destruct e. Qed.

Lemma pread_eq n off i a t o : o_io o = repeat (Fails EINTR) i ++ a :: t -> not_interrupt a = true ->
  os_pread n off o = match a with
    | Fails e => (Err E_READ, set_saved (Some e) (set_errno (Some e) (set_io t o)))
    | Moves k => (Ok (take (N.min k n) (drop off (o_data o))), sig i t o)
    | Lies _ w => (Ok (take n w), sig i t o) end.
Proof.
  intros Ho Ha. unfold os_pread.
  rewrite (@pread_loop_int n off i _ (a :: t) o Ho) by (rewrite Ho, app_length, repeat_length; lia).
  unfold sys_pread. rewrite sig_io, sig_data. destruct a as [e|k|k w].
  - unfold interrupted. cbn [o_errno set_errno]. rewrite (not_eintr Ha). destruct i; reflexivity.
  - destruct i; reflexivity.
  - destruct i; reflexivity.
Qed.
Lemma pread_eq0 n off i o : o_io o = repeat (Fails EINTR) i ->
  os_pread n off o = (Ok (take n (drop off (o_data o))), sig i [] o).
Proof.
  intros Ho. unfold os_pread.
  rewrite (@pread_loop_int n off i _ [] o); [|now rewrite app_nil_r|rewrite Ho, repeat_length; lia].
  unfold sys_pread. rewrite sig_io, sig_data. reflexivity.
Qed.

Lemma pwrite_loop_eq b off i a t o : o_io o = repeat (Fails EINTR) i ++ a :: t -> not_interrupt a = true ->
  pwrite_loop (S (length (o_io o))) b off o = match a with
    | Fails e => (Ok None, set_errno (Some e) (set_io t o))
    | Moves k => (Ok (Some (N.min k (lenN b))), set_data (overwrite (o_data o) off (take k b)) (sig i t o))
    | Lies k w => (Ok (Some (N.min k (lenN b))), set_data (overwrite (o_data o) off w) (sig i t o)) end.
Proof.
  intros Ho Ha.
  rewrite (@pwrite_loop_int b off i _ (a :: t) o Ho) by (rewrite Ho, app_length, repeat_length; lia).
  unfold sys_pwrite. rewrite sig_io, sig_data. destruct a as [e|k|k w].
  - unfold interrupted. cbn [o_errno set_errno]. rewrite (not_eintr Ha). destruct i; reflexivity.
  - destruct i; reflexivity.
  - destruct i; reflexivity.
Qed.
Lemma pwrite_loop_eq0 b off i o : o_io o = repeat (Fails EINTR) i ->
  pwrite_loop (S (length (o_io o))) b off o = (Ok (Some (lenN b)), set_data (overwrite (o_data o) off b) (sig i [] o)).
Proof.
  intros Ho.
  rewrite (@pwrite_loop_int b off i _ [] o); [|now rewrite app_nil_r|rewrite Ho, repeat_length; lia].
  unfold sys_pwrite. rewrite sig_io, sig_data. reflexivity.
Qed.

Lemma filter_repeat i l : filter not_interrupt (repeat (Fails EINTR) i ++ l) = filter not_interrupt l.
Proof. induction i; [reflexivity|]. exact IHi. Qed.
Lemma filter_repeat0 i : filter not_interrupt (repeat (Fails EINTR) i) = [].
Proof. induction i; [reflexivity|]. exact IHi. Qed.

(** The part of pwrite behind the call of the system, without validation. *)
Definition after_write {E : Env} (k : N) (o2 : os) : res N * os :=
  let o3 := set_count ((o_count o2 + k) mod 2^64) o2 in
  if (0 <? o_period o3) && (o_period o3 <=? o_count o3) then
    let '(r, o4) := os_sync o3 in match r with Ok _ => (Ok k, set_count 0 o4) | Err e => (Err e, set_count 0 o4) end
  else (Ok k, o3).
Lemma after_write_signals {E : Env} k o i t d : fst (after_write k (set_data d (sig i t o))) = fst (after_write k (set_data d (set_errno None (set_io (filter not_interrupt t) o)))) /\
  without_signals (snd (after_write k (set_data d (sig i t o)))) = without_signals (snd (after_write k (set_data d (set_errno None (set_io (filter not_interrupt t) o))))).
Proof.
  unfold after_write, os_sync, sys_fdatasync.
  assert (Hf : filter not_interrupt (filter not_interrupt t) = filter not_interrupt t).
  { induction t as [|x r IH]; [reflexivity|]. cbn [filter]. destruct (not_interrupt x) eqn:Ex; [cbn [filter]; now rewrite Ex, IH|exact IH]. }
  destruct i; cbn [sig set_data set_errno set_io set_count o_count o_period o_sync];
    (destruct (_ && _); [|split; [reflexivity|unfold without_signals; cbn; now rewrite ?Hf]]);
    (destruct (o_sync o) as [|[e|] r]; cbn; (split; [reflexivity|unfold without_signals; cbn; now rewrite ?Hf])).
Qed.

Lemma without_signals_sig i t o : without_signals (sig i t o) = set_errno None (set_io (filter not_interrupt t) o).
Proof. destruct i; reflexivity. Qed.
Lemma not_interrupt_twice l : filter not_interrupt (filter not_interrupt l) = filter not_interrupt l.
Proof. induction l as [|x r IH]; [reflexivity|]. cbn [filter]. destruct (not_interrupt x) eqn:Ex; [cbn [filter]; now rewrite Ex, IH|exact IH]. Qed.


(** ** Reading back *)
Lemma take_overwrite0 tmp w : take (lenN w) (overwrite tmp 0 w) = w.
Proof.
  destruct w as [|x w]; [now rewrite take_0|]. cbn [overwrite].
  rewrite take_0. replace (0 - lenN tmp) with 0 by lia. cbn [N.to_nat repeat app]. exact (take_app_exact (x :: w) (drop (0 + lenN (x :: w)) tmp) eq_refl).
Qed.
Lemma read_back_ok : forall fuel tmp pos len off o, Forall moving (o_io o) -> off + len <= lenN (o_data o) -> (length (o_io o) + 2 <= fuel)%nat ->
  exists o', read_back fuel tmp pos len off o = (Ok (overwrite tmp pos (take len (drop off (o_data o)))), o') /\ o_data o' = o_data o.
Proof.
  induction fuel as [|fuel IH]; intros tmp pos len off o Hio Hlen Hf; [lia|].
  cbn [read_back]. destruct (N.eqb_spec len 0) as [->|Hl].
  - rewrite take_0. now exists o.
  - unfold sys_pread. destruct (o_io o) as [|[e|k|k w] t] eqn:Eio.
    + rewrite lenN_take, lenN_drop.
      destruct (N.eqb_spec (N.min len (lenN (o_data o) - off)) 0); [lia|]. rewrite andb_false_r.
      replace (len - N.min len (lenN (o_data o) - off)) with 0 by lia.
      destruct fuel as [|fuel]; [cbn in Hf; lia|]. cbn [read_back N.eqb]. now exists o.
    + inversion Hio as [|? ? Hx]; subst. destruct Hx.
    + inversion Hio as [|? ? Hk Ht]; subst. cbn [moving] in Hk.
      rewrite lenN_take, lenN_drop.
      set (m := N.min k len).
      replace (N.min m (lenN (o_data o) - off)) with m by lia.
      destruct (N.eqb_spec m 0); [lia|]. rewrite andb_false_r.
      destruct (IH (overwrite tmp pos (take m (drop off (o_data o)))) (pos + m) (len - m) (off + m) (set_io t o)) as (o' & E1 & E2).
      * exact Ht.
      * cbn; lia.
      * cbn in *; lia.
      * exists o'. rewrite E1. cbn [o_data set_io] in *. split; [|exact E2].
        f_equal. f_equal.
        rewrite <- (@overwrite_rest tmp pos (take len (drop off (o_data o))) m) by (rewrite lenN_take, lenN_drop; lia).
        rewrite take_take. replace (N.min m len) with m by lia.
        f_equal. rewrite <- drop_drop.
        (* take (len - m) (drop m (drop off d)) = drop m (take len (drop off d)) *)
        set (x := drop off (o_data o)). unfold take, drop. rewrite firstn_skipn_comm. f_equal. f_equal. lia.
    + inversion Hio as [|? ? Hx]; subst. destruct Hx.
Qed.

Lemma after_write_data {E : Env} k o : o_data (snd (after_write k o)) = o_data o.
Proof.
  unfold after_write, os_sync, sys_fdatasync. cbn [set_count o_sync o_period o_count].
  destruct (_ && _); [|reflexivity]. destruct (o_sync o) as [|[e|] r]; reflexivity.
Qed.
Lemma after_write_res {E : Env} k o : fst (after_write k o) = Ok k \/
  (exists e, fst (after_write k o) = Err E_WRITE /\ o_saved (snd (after_write k o)) = Some e /\ In (Some e) (o_sync o)).
Proof.
  unfold after_write, os_sync, sys_fdatasync. cbn [set_count o_sync o_period o_count].
  destruct (_ && _); [|now left]. destruct (o_sync o) as [|[e|] r]; [now left| |now left].
  right. exists e. cbn. auto.
Qed.
