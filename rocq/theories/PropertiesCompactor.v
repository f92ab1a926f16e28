(** Property C72: the compaction program. *)
From Verif Require Import Base SpecOrder Codec CodecFacts File FileFacts ChunkFacts Header HeaderFacts History CrashFacts DataFacts SpecCrash NavFacts ReachNav OpenFacts CommitFacts SpecFile PropertiesCrash
  Btree BtreeRead TreeStore SpecMap MergeFacts ModifyFacts Db SpecDb SortFacts ReduceFacts DbFacts DbSave DbRead TreeWriter Compact SpecCompact CompactFacts
  SpecSession ShowFacts SessionFacts ReadFacts SaveFacts ErrorFacts EnvExample SessionExample PropertiesDb PropertiesSave PropertiesTree PropertiesCompact PropertiesRecover Compactor SpecCompactor CompactorFacts.
Local Open Scope N_scope.
Unset Strict Implicit.

(** What the options ask for, as far as the program does it: with --purge-before the old deletions are removed, and --dropdeletes does nothing. *)
Definition asked (a : cargs) : policy :=
  match ca_before a with
  | Some ts => keep_recent ts (ca_upto a)
  | None => if ca_drop a then keep_live else keep_all
  end.
(** The purge sequence number that the output gets. *)
Definition new_purge_seq (a : cargs) (old : N) (v : contents) : N :=
  match ca_before a with
  | Some ts => highest (filter (old_deletion ts (ca_upto a)) (v_docs v))
  | None => old + (if ca_drop a then 1 else 0)
  end.

(** If the program succeeds, the output has the documents that were asked for, unchanged, and all local documents; what is left of it after any crash is opened and shows the same. Its purge
    sequence number is the highest sequence number that was removed; without --purge-before it is that of the input, plus one with --dropdeletes. *)
Theorem C72_contents : forall (E : Env), EnvOk E -> forall key0 getkey0, key_ok key0 getkey0 -> forall key getkey, key_ok key getkey -> (key0 = None <-> key = None) ->
  forall s h v, sessions key0 getkey0 s -> snapshot s h v -> h_purge_ptr h = 0 -> h_purge_seq h + 1 < 2^48 -> h_timestamp h < 2^64 ->
  forall a, key = None \/ 11 < h_version h \/ ca_upgrade a = true ->
  forall c p pl d, fpos (dbf (ss_db s)) <= p <= size (dbf (ss_db s)) -> couch_compact c a (reader s h p) (empty_file pl) key = (Ok tt, d) -> room d -> fpos (dbf d) + BLOCK < 2^47 ->
  shows_contents d (compacted (asked a) v) /\
  (forall g gsz, crash_image (dbf d) g gsz -> forall pl' recovery, exists d', open_existing (image g gsz pl') getkey recovery false = Ok d' /\ shows_contents d' (compacted (asked a) v)) /\
  h_purge_seq (dbh d) = new_purge_seq a (h_purge_seq h) v.
Proof.
  intros E EO key0 getkey0 K0 key getkey K Hk s h v H Sn Hpp Hps Hts a Hleg c p pl d Hp Hc Rm Hend. unfold couch_compact in Hc. unfold asked, new_purge_seq. destruct (ca_before a) as [ts|].
  - destruct (sessions_linked EO K0 H) as [t L]. destruct (linked_snapshot EO K0 L Sn) as [ps S]. destruct (link_inv EO K0 L) as [B I].
    assert (G : good (dbf (ss_db s))) by (rewrite <- (lk_db L); exact (i_good I)).
    assert (Hkey : fkey (dbf (ss_db s)) = None <-> key = None) by (rewrite <- Hk, <- (lk_db L), (inv_fkey K0 I); unfold thekey; destruct key0; split; congruence).
    destruct (@link_purge E EO key getkey K s h v p c a ts (ca_upto a) pl d ps G S Hp Hkey Hleg Hpp Hts Hc Rm Hend) as (Hq & s' & L'). cbv zeta in L'.
    pose proof (linked_shows EO K L') as Sh. cbn [ss_db ss_now] in Sh. split; [exact Sh|]. split; [|exact Hq].
    intros gi gsz Ci pl' recovery. destruct (link_open EO K pl' recovery L' eq_refl Ci) as (d' & v' & s2 & Ho & Hv & _ & Hs & _ & t2 & L2). exists d'. split; [exact Ho|].
    pose proof (linked_shows EO K L2) as Sh2. rewrite Hs in Sh2. cbn [ss_db ss_now] in Sh2. destruct Hv as [-> | []]. exact Sh2.
  - assert (C : compacts key0 getkey0 s h v key (plain_opts a) (if ca_drop a then keep_live else keep_all) d).
    { constructor; auto; [exists c, p, pl; auto|]. apply Forall_forall. intros r _. pose proof (@follows_plain E (plain_opts a) eq_refl eq_refl r) as F. exact F. }
    destruct (C20_filter EO K0 K C) as (A1 & A2 & A3). split; [exact A1|]. split; [exact A2|exact A3].
Qed.
Print Assumptions C72_contents.

(** It fails only if the disk, the compression or the encryption fails. *)
Theorem C72_errors : forall (E : Env), EnvOk E -> forall key0 getkey0, key_ok key0 getkey0 -> forall key getkey, key_ok key getkey -> key_fits key -> (key0 = None <-> key = None) ->
  forall s h v, sessions key0 getkey0 s -> snapshot s h v -> forall p, fpos (dbf (ss_db s)) <= p <= size (dbf (ss_db s)) ->
  forall c a pl e d, plan_ok (empty_file pl) -> couch_compact c a (reader s h p) (empty_file pl) key = (Err e, d) -> room d -> io_error e.
Proof.
  intros E EO key0 getkey0 K0 key getkey K Kf Hk s h v H Sn p Hp c a pl e d Pl Hc Rm. unfold couch_compact in Hc. destruct (ca_before a) as [ts|].
  - destruct (sessions_linked EO K0 H) as [t L]. destruct (linked_snapshot EO K0 L Sn) as [ps S]. destruct (sessions_stored EO K0 H) as (G & _).
    assert (G' : good (dbf (reader s h p))) by (destruct G as [G1 G2]; split; [exact (ex_wf (set_fpos_ext 0 (fun _ _ => True) p G1))|cbn; lia]).
    assert (S' : stored (dbf (reader s h p)) (dbh (reader s h p)) v ps) by (eapply stored_keeps; [apply set_fpos_keeps; apply Hp|exact S]).
    assert (Hkey : fkey (dbf (reader s h p)) = None <-> key = None).
    { destruct (link_inv EO K0 L) as [B I]. cbn [reader dbf set_fpos fkey]. rewrite <- (lk_db L), (inv_fkey K0 I). unfold thekey. rewrite <- Hk. destruct key0; split; congruence. }
    exact (@purge_io E EO key getkey K c a ts (ca_upto a) (reader s h p) v ps pl e d G' eq_refl S' Pl Kf Hkey Hc (room_fin Rm)).
  - destruct (C19_errors EO K0 K Kf H Sn Hp (o := plain_opts a) (pol := if ca_drop a then keep_live else keep_all) Hk eq_refl (fun _ => eq_refl)) with (c := c) (pl := pl) (e := e) (d := d) as [A|[A _]]; auto.
    + apply Forall_forall. intros r _. exact (@follows_plain E (plain_opts a) eq_refl eq_refl r).
    + exfalso. apply A. reflexivity.
Qed.
Print Assumptions C72_errors.

(** *** Examples *)
(** A document, and three deletions: at the time 100, at 500, and again at 100. *)
Definition meta_at (t : N) : bytes := repeat 7 8 ++ be 4 t ++ repeat 0 4.
Definition gone (id : bytes) (t req : N) : submit := Submit None (DocInfo id 0 1 (meta_at t) true 0 0 0) req.
Definition y_batch : list submit := [mk [97] 1 false 0 (Some [1;2;3]) 11; gone [98] 100 12; gone [99] 500 13; gone [100] 100 14].
Definition ys1 : session := @after_docs env0 sx0 cf so false y_batch.
Definition ys2 : session := @after_commit_ex env0 ys1 1000 0.
Lemma ys_write1 : @write env0 sx0 ys1. Proof. apply docs_write; [discriminate| |vm_compute; reflexivity]. apply batch_check; vm_compute; reflexivity. Qed.
Lemma ys_write2 : @write env0 ys1 ys2. Proof. apply commit_write; vm_compute; reflexivity. Qed.
Lemma ys1_session : @sessions env0 None gks ys1. Proof. exact (sess_write sx0_session ys_write1). Qed.
Lemma ys2_session : @sessions env0 None gks ys2. Proof. exact (sess_write ys1_session ys_write2). Qed.
Definition y_src (s : session) : db := reader s (dbh (ss_db s)) (fpos (dbf (ss_db s))).
Definition y_args : cargs := CArgs (Some 300) 3 false false.
Definition y_run (a : cargs) (s : session) : res unit * db := @couch_compact env0 cf a (y_src s) (empty_file []) None.
Definition y_check (a : cargs) (s : session) : bool :=
  okb (fst (y_run a s)) && roomb (snd (y_run a s)) && (fpos (dbf (snd (y_run a s))) + BLOCK <? 2^47) &&
  (h_purge_ptr (dbh (ss_db s)) =? 0) && (h_purge_seq (dbh (ss_db s)) + 1 <? 2^48) && (h_timestamp (dbh (ss_db s)) <? 2^64) && (fpos (dbf (ss_db s)) <=? size (dbf (ss_db s))).
Lemma okb_pair {A} (x : res unit * A) : okb (fst x) = true -> x = (Ok tt, snd x). Proof. destruct x as [[[]|e] y]; [reflexivity|discriminate]. Qed.

(** Only the deletion of "b" is before 300 and has a sequence number up to 3. *)
Example C72_ex : @sessions env0 None gks ys2 /\ @snapshot env0 ys2 (dbh (ss_db ys2)) (ss_now ys2) /\ y_check y_args ys2 = true /\
  map rv_id (v_docs (compacted (asked y_args) (ss_now ys2))) = [[100]; [99]; [97]] /\ new_purge_seq y_args (h_purge_seq (dbh (ss_db ys2))) (ss_now ys2) = 2 /\
  new_purge_seq (CArgs (Some 300) 0 false false) (h_purge_seq (dbh (ss_db ys2))) (ss_now ys2) = 4 /\ h_purge_seq (dbh (snd (y_run y_args ys2))) = 2.
Proof. split; [exact ys2_session|]. split; [left; split; reflexivity|]. split; [vm_compute; reflexivity|]. split; [vm_compute; reflexivity|]. split; [vm_compute; reflexivity|]. split; vm_compute; reflexivity. Qed.

(** *** What does not hold *)

(** After the program has purged deletions (here with --dropdeletes), a further run with --purge-before that finds no old deletion sets the purge sequence number back to 0, as if nothing had
    ever been purged. *)
Definition y_drop : cargs := CArgs None 0 true false.
Definition y_old : cargs := CArgs (Some 300) 0 false false.
Definition ys3 : session :=
  let d := snd (y_run y_drop ys2) in let w := compacted keep_live (ss_now ys2) in Session d w (Some (Version (h_position (dbh d)) w)) [] [].
Lemma run_compacts s : y_check y_drop s = true -> @sessions env0 None gks s ->
  @compacts env0 None gks s (dbh (ss_db s)) (ss_now s) None (plain_opts y_drop) keep_live (snd (y_run y_drop s)).
Proof.
  unfold y_check. rewrite !andb_true_iff, !N.ltb_lt, N.eqb_eq, N.leb_le. intros ((((((H1 & H2) & H3) & H4) & H5) & H6) & H7) H. constructor; auto.
  - left. split; reflexivity.
  - exists cf, (fpos (dbf (ss_db s))), []. split; [split; [apply N.le_refl|exact H7]|]. exact (@okb_pair db (y_run y_drop s) H1).
  - split; reflexivity.
  - now apply drop_hooks.
  - now apply room_check.
Qed.
Lemma ys3_session : @sessions env0 None gks ys3.
Proof. unfold ys3. apply (@compacts_session env0 None gks ys2 (dbh (ss_db ys2)) (ss_now ys2) None (plain_opts y_drop) keep_live); [exact sx_key|]. apply run_compacts; [vm_compute; reflexivity|exact ys2_session]. Qed.
Lemma run_ok a s : okb (fst (y_run a s)) && roomb (snd (y_run a s)) = true -> @couch_compact env0 cf a (y_src s) (empty_file []) None = (Ok tt, snd (y_run a s)) /\ room (snd (y_run a s)).
Proof. rewrite andb_true_iff. intros [H1 H2]. split; [exact (@okb_pair db (y_run a s) H1)|apply room_check; exact H2]. Qed.
Theorem C72_purge_refuted : exists (E : Env) s a d, EnvOk E /\ sessions None gks s /\
  couch_compact cf a (reader s (dbh (ss_db s)) (fpos (dbf (ss_db s)))) (empty_file []) None = (Ok tt, d) /\ room d /\
  h_purge_seq (dbh (ss_db s)) = 1 /\ h_purge_seq (dbh d) = 0.
Proof.
  exists env0, ys3, y_old, (snd (y_run y_old ys3)). split; [exact env0_ok|]. split; [exact ys3_session|]. destruct (@run_ok y_old ys3) as [H1 H2]; [vm_compute; reflexivity|].
  split; [exact H1|]. split; [exact H2|]. split; vm_compute; reflexivity.
Qed.
Print Assumptions C72_purge_refuted.

(** With --dropdeletes and --purge-before, the deletions that are not old are not dropped: --dropdeletes has no effect on the documents. *)
Theorem C72_drop_refuted : exists (E : Env) s a d i, EnvOk E /\ sessions None gks s /\ ca_drop a = true /\
  couch_compact cf a (reader s (dbh (ss_db s)) (fpos (dbf (ss_db s)))) (empty_file []) None = (Ok tt, d) /\ room d /\
  docinfo_by_id d [99] = Ok i /\ di_deleted i = true.
Proof.
  assert (H : match @docinfo_by_id env0 (snd (y_run (CArgs (Some 300) 0 true false) ys2)) [99] with Ok i => di_deleted i | Err _ => false end = true) by (vm_compute; reflexivity).
  destruct (@docinfo_by_id env0 (snd (y_run (CArgs (Some 300) 0 true false) ys2)) [99]) as [i|e] eqn:Hi; [|discriminate].
  exists env0, ys2, (CArgs (Some 300) 0 true false), (snd (y_run (CArgs (Some 300) 0 true false) ys2)), i. split; [exact env0_ok|]. split; [exact ys2_session|]. split; [reflexivity|].
  destruct (@run_ok (CArgs (Some 300) 0 true false) ys2) as [H1 H2]; [vm_compute; reflexivity|]. split; [exact H1|]. split; [exact H2|]. split; [exact Hi|exact H].
Qed.
Print Assumptions C72_drop_refuted.

(** The example of the theorem on errors: the first write to the new file fails. *)
Definition y_fail : res unit * db := @couch_compact env0 cf y_args (y_src ys2) (empty_file [WStep 0 false (Some E_WRITE) false false]) None.
Example C72_errors_ex : match fst y_fail with Err _ => true | Ok _ => false end = true /\ room (snd y_fail).
Proof. split; [vm_compute; reflexivity|]. apply room_check. vm_compute. reflexivity. Qed.
