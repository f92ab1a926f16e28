(** Properties C19, C20 and the rest of C48: compaction. *)
From Verif Require Import Base SpecOrder Codec CodecFacts File FileFacts ChunkFacts Header HeaderFacts History CrashFacts DataFacts SpecCrash NavFacts ReachNav OpenFacts CommitFacts SpecFile PropertiesCrash
  Btree BtreeRead TreeStore SpecMap MergeFacts ModifyFacts Db SpecDb SortFacts ReduceFacts DbFacts DbSave DbRead TreeWriter Compact SpecCompact CompactFacts
  SpecSession ShowFacts SessionFacts ReadFacts SaveFacts ErrorFacts EnvExample SessionExample PropertiesDb PropertiesSave PropertiesTree.
Local Open Scope N_scope.
Unset Strict Implicit.

(** A successful compaction: the snapshot with the header [h] and the contents [v] of the session [s] is compacted with the options [o] into a new
    file (with the key [key]), giving the handle [d]. The limits of the format are respected; the source and the target are both encrypted
    or both not; a file of version 11 without upgrade is not to be encrypted. The hooks decide as [pol] says. *)
Record compacts {E : Env} (key0 : option keyinfo) (getkey0 : N -> bytes -> bytes -> res N) (s : session) (h : header) (v : contents)
    (key : option keyinfo) (o : copts) (pol : policy) (d : db) : Prop := {
  cm_source : sessions key0 getkey0 s;
  cm_snapshot : snapshot s h v;
  cm_run : exists c p pl, fpos (dbf (ss_db s)) <= p <= size (dbf (ss_db s)) /\ compact c o (reader s h p) (empty_file pl) key = (Ok tt, d);
  cm_keys : key0 = None <-> key = None;
  cm_upgrade : key = None \/ 11 < h_version h \/ co_upgrade o = true;
  cm_recovery : co_recovery o = false;
  cm_hooks : Forall (follows o pol) (v_docs v);
  cm_purge_ptr : h_purge_ptr h = 0;
  cm_purge : h_purge_seq h + 1 < 2^48;
  cm_time : h_timestamp h < 2^64;
  cm_room : room d;
  cm_end : fpos (dbf d) + BLOCK < 2^47
}.

Lemma compacts_session {E : Env} key0 getkey0 s h v key o pol d getkey : key_ok key0 getkey0 -> compacts key0 getkey0 s h v key o pol d ->
  sessions key getkey (Session d (compacted pol v) (Some (Version (h_position (dbh d)) (compacted pol v))) [] []).
Proof. intros K0 [H1 H2 (c & p & pl & H3 & H4) H5 H6 H7 H8 H9 H10 H11 H12 H13]. eapply sess_compact; eauto. Qed.

Lemma compacted_all v : compacted keep_all v = v.
Proof.
  destruct v as [ds ls q]. unfold compacted, keep_all. cbn [v_docs v_locals v_seq po_keep]. f_equal. induction ds as [|r ds IH]; [reflexivity|]. cbn [filter map]. rewrite IH. destruct r; reflexivity.
Qed.
Lemma follows_plain {E : Env} o : co_filter o = None -> co_rewrite o = None -> forall r, follows o (if co_drop o then keep_live else keep_all) r.
Proof.
  intros H1 H2 r. constructor; rewrite ?H1, ?H2; destruct (co_drop o); cbn [keep_live keep_all po_keep po_meta]; try reflexivity.
  - now rewrite andb_true_r.
  - now rewrite andb_false_r.
Qed.

(** What becomes of the header. *)
Lemma compact_header {E : Env} (EO : EnvOk E) c o src pl key d : compact c o src (empty_file pl) key = (Ok tt, d) ->
  h_version (dbh d) = (if (h_version (dbh src) <=? 11) && negb (co_upgrade o) then 11 else 14) /\
  h_purge_seq (dbh d) = (if co_drop o then (h_purge_seq (dbh src) + 1) mod 2^64 else h_purge_seq (dbh src)) /\
  h_update_seq (dbh d) = h_update_seq (dbh src).
Proof.
  intros H. assert (H' : compact_body c o src (empty_file pl) key = (Ok tt, d)) by (unfold compact in H; destruct (co_filter o); [exact H|destruct (co_rewrite o); [discriminate|exact H]]).
  clear H. unfold compact_body in H'. destruct (dropped src); [discriminate|]. destruct (open_new _ _ _ _) as [[[]|e] t] eqn:Ho; [|discriminate]. cbn zeta in H'.
  destruct (copy_docs _ _ _ _) as [[[[scan ids] seqs]|e] f1]; [|discriminate]. destruct (copy_locals _ _ _) as [[locs|e] f2]; [|discriminate].
  destruct (match co_filter o with Some _ => _ | None => _ end); [|discriminate].
  pose proof (@C48_new _ EO _ _ _ _ _ _ Ho) as Hv. set (h1 := Header _ _ _ _ _ _ _ _ _ _ _) in H'.
  destruct (commit_ex _ _ _) as [[[]|e] d1] eqn:Hc; [|discriminate]. injection H' as -> ->.
  revert Hc. unfold commit_ex, db_write_header. cbn [dbh dbf dropped]. cbv zeta. set (hh := if (h_version _ =? 11) || (h_version _ =? 12) || (h_version _ =? 13) then _ else _).
  assert (Hhh : h_version hh = h_version h1 /\ h_purge_seq hh = h_purge_seq h1 /\ h_update_seq hh = h_update_seq h1).
  { subst hh. repeat match goal with |- context [if ?b then _ else _] => destruct b end; auto. }
  clearbody hh. destruct (_ || _ || _ || _); [|discriminate]. destruct (write_header _ _ _) as [[q|e] f3]; [|discriminate]. cbn [dbh dbf dropped].
  destruct (fsync f3) as [[]f4]; [|discriminate]. destruct (commit_flip _ _ _) as [[[]|e] f5]; [|discriminate]. intros Hd. injection Hd as <-. cbn [dbh]. destruct Hhh as (A1 & A2 & A3).
  change (h_version (set_position hh q)) with (h_version hh). change (h_purge_seq (set_position hh q)) with (h_purge_seq hh). change (h_update_seq (set_position hh q)) with (h_update_seq hh).
  rewrite A1, A2, A3. split; [exact Hv|]. auto.
Qed.

(** ** C19 *)

(** Without DROP_DELETES and without hooks everything is to be kept (the condition on the hooks holds for all contents). *)
Lemma plain_hooks {E : Env} o (v : contents) : co_filter o = None -> co_rewrite o = None -> co_drop o = false -> Forall (follows o keep_all) (v_docs v).
Proof. intros H1 H2 H3. apply Forall_forall. intros r _. pose proof (follows_plain H1 H2 r) as F. rewrite H3 in F. exact F. Qed.
(** With DROP_DELETES and without hooks the deleted documents are to be dropped. *)
Lemma drop_hooks {E : Env} o (v : contents) : co_filter o = None -> co_rewrite o = None -> co_drop o = true -> Forall (follows o keep_live) (v_docs v).
Proof. intros H1 H2 H3. apply Forall_forall. intros r _. pose proof (follows_plain H1 H2 r) as F. rewrite H3 in F. exact F. Qed.

(** If the hooks (if any) keep everything: the new file shows the contents of the snapshot - the same documents under the same sequence numbers with the same bodies,
    the same local documents, the same last sequence -, and what is left of it after any crash is opened and shows the same. *)
Theorem C19_contents : forall (E : Env), EnvOk E -> forall key0 getkey0, key_ok key0 getkey0 -> forall key getkey, key_ok key getkey ->
  forall s h v o d, compacts key0 getkey0 s h v key o keep_all d ->
  shows_contents d v /\
  (forall g gsz, crash_image (dbf d) g gsz -> forall pl recovery, exists d', open_existing (image g gsz pl) getkey recovery false = Ok d' /\ shows_contents d' v).
Proof.
  intros E EO key0 getkey0 K0 key getkey K s h v o d C. pose proof (compacts_session getkey K0 C) as H. rewrite compacted_all in H.
  split; [exact (C06_contents EO K H)|]. intros g gsz G pl recovery. destruct (C01_documents EO K H eq_refl G pl recovery) as (d' & x & Ho & [->|[]] & Hs). eauto.
Qed.
Print Assumptions C19_contents.

(** Counts and sequence numbers of the new file. *)
Theorem C19_counts : forall (E : Env), EnvOk E -> forall key0 getkey0, key_ok key0 getkey0 -> forall key getkey, key_ok key getkey ->
  forall s h v o d, compacts key0 getkey0 s h v key o keep_all d -> co_drop o = false -> lenN (v_docs v) < 2^40 ->
  exists i, db_info d = Ok i /\ in_docs i = lenN (filter (fun r => negb (rv_deleted r)) (v_docs v)) /\ in_deleted i = lenN (filter rv_deleted (v_docs v)) /\
    in_seq i = v_seq v /\ in_purge i = h_purge_seq h.
Proof.
  intros E EO key0 getkey0 K0 key getkey K s h v o d C Hd Hl. pose proof (compacts_session getkey K0 C) as H. rewrite compacted_all in H.
  destruct (C13_counts EO K H Hl) as (i & Hi & H1 & H2 & H3). exists i. split; [exact Hi|]. repeat (split; [assumption|]).
  destruct (cm_run C) as (c & p & pl & _ & Hc). destruct (compact_header EO Hc) as (_ & Hp & _). rewrite Hd in Hp. cbn [reader dbh] in Hp. rewrite <- Hp.
  cbn [ss_db] in Hi. revert Hi. unfold db_info. cbv zeta. match goal with |- bind ?x _ = _ -> _ => destruct x as [[[a b] e]|e] end; cbn [bind]; [|discriminate]. injection 1 as <-. reflexivity.
Qed.
Print Assumptions C19_counts.

(** Compacting a snapshot of a session fails only if the disk, the compression or the encryption fails, or if the last call of the filter hook says so: no node or body of the
    source is found to be damaged, no index node overflows, nothing is accessed outside its bounds, every loop ends. *)
Theorem C19_errors : forall (E : Env), EnvOk E -> forall key0 getkey0, key_ok key0 getkey0 -> forall key getkey, key_ok key getkey -> key_fits key ->
  forall s h v, sessions key0 getkey0 s -> snapshot s h v -> forall p, fpos (dbf (ss_db s)) <= p <= size (dbf (ss_db s)) ->
  forall o pol, (key0 = None <-> key = None) -> co_recovery o = false -> (co_filter o = None -> co_rewrite o = None) -> Forall (follows o pol) (v_docs v) ->
  forall c pl e d, plan_ok (empty_file pl) -> compact c o (reader s h p) (empty_file pl) key = (Err e, d) -> room d ->
  io_error e \/ (co_filter o <> None /\ co_last o = Err e).
Proof.
  intros E EO key0 getkey0 K0 key getkey K Kf s h v H Sn p Hp o pol Hk Hrec Hre Hfo c pl e d Pl Hc Rm.
  destruct (sessions_linked EO K0 H) as [t L]. destruct (linked_snapshot EO K0 L Sn) as [ps S]. destruct (sessions_stored EO K0 H) as (G & _).
  assert (G' : good (dbf (reader s h p))) by (destruct G as [G1 G2]; split; [exact (ex_wf (set_fpos_ext 0 (fun _ _ => True) p G1))|cbn; lia]).
  assert (S' : stored (dbf (reader s h p)) (dbh (reader s h p)) v ps) by (eapply stored_keeps; [apply set_fpos_keeps; apply Hp|exact S]).
  assert (Hkey : fkey (dbf (reader s h p)) = None <-> key = None).
  { destruct (link_inv EO K0 L) as [B I]. cbn [reader dbf set_fpos fkey]. rewrite <- (lk_db L), (inv_fkey K0 I). unfold thekey. rewrite <- Hk. destruct key0; split; congruence. }
  exact (@compact_io E EO getkey c o pol (reader s h p) v ps pl key e d G' eq_refl S' Hre Hrec Hfo Pl Kf K Hkey Hc (room_fin Rm)).
Qed.
Print Assumptions C19_errors.

(** A healthy example: the session with two commits, compacted while its handle is open; and the snapshot of its first commit. *)
Definition plain : copts := COpts false false false None (Ok tt) None.
Definition src5 : db := reader sx5 (dbh (ss_db sx5)) (fpos (dbf (ss_db sx5))).
Definition target5 : db := snd (@compact env0 cf plain src5 (empty_file []) None).
Lemma sx5_limits : (h_purge_ptr (dbh (ss_db sx5)) =? 0) && (h_purge_seq (dbh (ss_db sx5)) + 1 <? 2^48) && (h_timestamp (dbh (ss_db sx5)) <? 2^64) = true.
Proof. vm_compute. reflexivity. Qed.
Lemma sx5_ends : fpos (dbf (ss_db sx5)) <= fpos (dbf (ss_db sx5)) <= size (dbf (ss_db sx5)).
Proof. destruct (sessions_stored env0_ok sx_key sx5_session) as (G & _). split; [apply N.le_refl|exact (proj2 G)]. Qed.
Definition okb (r : res unit) : bool := match r with Ok _ => true | Err _ => false end.
Lemma okb_ok r : okb r = true -> r = Ok tt. Proof. destruct r as [[]|]; [reflexivity|discriminate]. Qed.
Lemma sx5_compacts o pol pl key : okb (fst (@compact env0 cf o src5 (empty_file pl) key)) && roomb (snd (@compact env0 cf o src5 (empty_file pl) key)) &&
    (fpos (dbf (snd (@compact env0 cf o src5 (empty_file pl) key))) + BLOCK <? 2^47) = true -> key = None -> co_recovery o = false -> Forall (@follows env0 o pol) (v_docs (ss_now sx5)) ->
  @compacts env0 None gks sx5 (dbh (ss_db sx5)) (ss_now sx5) key o pol (snd (@compact env0 cf o src5 (empty_file pl) key)).
Proof.
  rewrite !andb_true_iff. intros ((H1 & H2) & H3) Hk Hr Hf. pose proof sx5_limits as L. rewrite !andb_true_iff in L. destruct L as ((L1 & L2) & L3).
  constructor.
  - exact sx5_session.
  - left. split; reflexivity.
  - exists cf, (fpos (dbf (ss_db sx5))), pl. split; [exact sx5_ends|]. apply okb_ok in H1. fold src5. destruct (compact cf o src5 (empty_file pl) key) as [r d]. cbn [fst snd] in *. now rewrite H1.
  - rewrite Hk. split; reflexivity.
  - now left.
  - exact Hr.
  - exact Hf.
  - now apply N.eqb_eq.
  - now apply N.ltb_lt.
  - now apply N.ltb_lt.
  - apply room_check. exact H2.
  - now apply N.ltb_lt.
Qed.
Example C19_ex : @compacts env0 None gks sx5 (dbh (ss_db sx5)) (ss_now sx5) None plain keep_all target5 /\ (2 < length (v_docs (ss_now sx5)))%nat /\
  @open_document env0 target5 [97] true = Ok [6;7;8;9] /\ h_version (dbh target5) = 14.
Proof.
  split; [|vm_compute; auto]. unfold target5. apply sx5_compacts; [vm_compute; reflexivity|reflexivity|reflexivity|]. now apply plain_hooks.
Qed.
(** The example of the theorem on errors: the first write to the new file fails. *)
Example C19_errors_ex : exists e d, @compact env0 cf plain src5 (empty_file [WStep 0 false (Some E_WRITE) false false]) None = (Err e, d) /\ room d.
Proof.
  assert (H : match fst (@compact env0 cf plain src5 (empty_file [WStep 0 false (Some E_WRITE) false false]) None) with Err _ => true | Ok _ => false end &&
    roomb (snd (@compact env0 cf plain src5 (empty_file [WStep 0 false (Some E_WRITE) false false]) None)) = true) by (vm_compute; reflexivity).
  apply andb_prop in H. destruct H as [H1 H2]. destruct (compact _ _ _ _ _) as [[u|e] d]; [discriminate|]. exists e, d. split; [reflexivity|]. apply room_check. exact H2.
Qed.

(** The space used is not kept: compacting into an encrypted file keeps the sizes of the bodies as they were stored in the source, so that the size given for a document is not
    the space that it takes (compare C14_space, which holds if the encryption does not change). *)
Definition ekey : keyinfo := KeyInfo 0 [65] [] 5.
Theorem C19_space_refuted : exists (E : Env) s o key d i, EnvOk E /\ sessions None gks s /\ Forall (follows o keep_all) (v_docs (ss_now s)) /\
  compact cf o (reader s (dbh (ss_db s)) (fpos (dbf (ss_db s)))) (empty_file []) (Some key) = (Ok tt, d) /\ room d /\
  docinfo_by_id d [97] = Ok i /\ di_bp i <> 0 /\ body_size d i <> di_physical_size i.
Proof.
  set (R := @compact env0 cf plain src5 (empty_file []) (Some ekey)).
  assert (H : okb (fst R) && roomb (snd R) && match @docinfo_by_id env0 (snd R) [97] with Ok i => negb (di_bp i =? 0) && negb (@body_size env0 (snd R) i =? di_physical_size i) | Err _ => false end = true) by (vm_compute; reflexivity).
  rewrite !andb_true_iff in H. destruct H as ((H1 & H2) & H3). apply okb_ok in H1. destruct (@docinfo_by_id env0 (snd R) [97]) as [i|e] eqn:Hi; [|discriminate].
  apply andb_prop in H3. destruct H3 as [H3 H4]. exists env0, sx5, plain, ekey, (snd R), i. split; [exact env0_ok|]. split; [exact sx5_session|]. split; [now apply plain_hooks|].
  split; [|split; [apply room_check; exact H2|]].
  - fold src5. fold R. destruct R as [r d]. cbn [fst snd] in *. now rewrite H1.
  - split; [exact Hi|]. apply negb_true_iff in H3, H4. apply N.eqb_neq in H3, H4. auto.
Qed.
Print Assumptions C19_space_refuted.

(** ** C20 *)

(** The new file shows exactly the documents that the options and the hooks keep, with the metadata that the rewrite hook leaves, and all local documents; also after any crash.
    The purge sequence is one more if the flag DROP_DELETES is given (also with a hook, whatever it keeps), otherwise it is the same. *)
Theorem C20_filter : forall (E : Env), EnvOk E -> forall key0 getkey0, key_ok key0 getkey0 -> forall key getkey, key_ok key getkey ->
  forall s h v o pol d, compacts key0 getkey0 s h v key o pol d ->
  shows_contents d (compacted pol v) /\
  (forall g gsz, crash_image (dbf d) g gsz -> forall pl recovery, exists d', open_existing (image g gsz pl) getkey recovery false = Ok d' /\ shows_contents d' (compacted pol v)) /\
  h_purge_seq (dbh d) = h_purge_seq h + (if co_drop o then 1 else 0).
Proof.
  intros E EO key0 getkey0 K0 key getkey K s h v o pol d C. pose proof (compacts_session getkey K0 C) as H.
  split; [exact (C06_contents EO K H)|]. split.
  - intros g gsz G pl recovery. destruct (C01_documents EO K H eq_refl G pl recovery) as (d' & x & Ho & [->|[]] & Hs). eauto.
  - destruct (cm_run C) as (c & p & pl & _ & Hc). destruct (compact_header EO Hc) as (_ & Hp & _). cbn [reader dbh] in Hp. rewrite Hp. destruct (co_drop o); [|lia].
    apply N.mod_small. pose proof (cm_purge C) as B. change (2^64) with 18446744073709551616. change (2^48) with 281474976710656 in B. lia.
Qed.
Print Assumptions C20_filter.

(** In particular, without hooks: the documents that are not deleted. *)
Theorem C20_drop : forall (E : Env), EnvOk E -> forall key0 getkey0, key_ok key0 getkey0 -> forall key getkey, key_ok key getkey ->
  forall s h v o d, compacts key0 getkey0 s h v key o keep_live d -> forall id,
  match find_doc id (v_docs v) with
  | Some r => if rv_deleted r then docinfo_by_id d id = Err E_DOC_NOT_FOUND else exists i, docinfo_by_id d id = Ok i /\ shown d i r
  | None => docinfo_by_id d id = Err E_DOC_NOT_FOUND
  end.
Proof.
  intros E EO key0 getkey0 K0 key getkey K s h v o d C id. destruct (C20_filter EO K0 K C) as (Sh & _). pose proof (sc_id Sh id) as Hid.
  destruct (sessions_linked EO K0 (cm_source C)) as [t L]. destruct (linked_snapshot EO K0 L (cm_snapshot C)) as [ps S].
  assert (Nd : NoDup (map rv_id (v_docs v))).
  { rewrite <- (sd_docs S), map_map. erewrite map_ext_in; [exact (sd_ids S)|]. intros p Hp. pose proof (sd_rep S) as Q. rewrite Forall_forall in Q. symmetry. exact (ab_id (proj1 (Q p Hp))). }
  assert (Hf : find_doc id (v_docs (compacted keep_live v)) = match find_doc id (v_docs v) with Some r => if rv_deleted r then None else Some r | None => None end).
  { cbn [compacted v_docs]. clear - Nd. induction (v_docs v) as [|r l IH]; [reflexivity|]. cbn [map] in Nd. apply NoDup_cons_iff in Nd. destruct Nd as [N1 N2]. specialize (IH N2).
    assert (Hrm : remeta keep_live r = r) by (destruct r; reflexivity).
    unfold find_doc in *. cbn [filter find]. change (po_keep keep_live r) with (negb (rv_deleted r)). destruct (same (rv_id r) id) eqn:Hs.
    - destruct (rv_deleted r) eqn:Hd; cbn [negb map find]; rewrite ?Hrm, ?Hs; [|reflexivity].
      rewrite IH. destruct (find _ l) as [r'|] eqn:Hr; [|reflexivity]. apply find_some in Hr. destruct Hr as [R1 R2]. apply same_true in R2, Hs. exfalso. apply N1. rewrite Hs, <- R2. now apply in_map.
    - destruct (rv_deleted r); cbn [negb map find]; rewrite ?Hrm, ?Hs; exact IH. }
  rewrite Hf in Hid. destruct (find_doc id (v_docs v)) as [r|]; [|exact (proj1 Hid)]. destruct (rv_deleted r); [exact (proj1 Hid)|]. destruct Hid as (i & H1 & H2 & _). eauto.
Qed.
Print Assumptions C20_drop.

(** A filter hook that asks for the body is called with it and decides then (the condition [follows]); but if the document has no body, the compaction fails although the hook
    would keep every document: the position 0 is read as if a body were there. *)
Definition need : copts := COpts false false false (Some (fun i b => match b with None => HNeed | Some _ => HKeep end)) (Ok tt) None.
Theorem C20_need_body_refuted : exists (E : Env) s e, EnvOk E /\ sessions None gks s /\ plan (dbf (ss_db s)) = [] /\
  (forall i b, match co_filter need with Some g => g i (Some b) = HKeep | None => False end) /\
  fst (compact cf need (reader s (dbh (ss_db s)) (fpos (dbf (ss_db s)))) (empty_file []) None) = Err e.
Proof.
  assert (H : match fst (@compact env0 cf need src5 (empty_file []) None) with Err _ => match plan (dbf (ss_db sx5)) with [] => true | _ => false end | Ok _ => false end = true) by (vm_compute; reflexivity).
  destruct (fst (@compact env0 cf need src5 (empty_file []) None)) as [u|e] eqn:He; [discriminate|]. exists env0, sx5, e.
  split; [exact env0_ok|]. split; [exact sx5_session|]. split; [destruct (plan _); [reflexivity|discriminate]|]. split; [reflexivity|exact He].
Qed.
Print Assumptions C20_need_body_refuted.

(** Examples: dropping the deleted document; a hook that drops one id after having seen its body and one that changes the metadata of the rest. *)
Definition dropping : copts := COpts true false false None (Ok tt) None.
Definition seen (i : doc_info) (b : option bytes) : hook :=
  if di_deleted i then HKeep else match b with None => HNeed | Some b => if same (di_id i) [97] && negb (lenN b =? 0) then HDrop else HKeep end.
Definition hooked : copts := COpts true false false (Some seen) (Ok tt) (Some (fun i b => if same (di_id i) [98] then Some [1;2;3] else None)).
Definition hooked_policy : policy :=
  Policy (fun r => negb (same (rv_id r) [97])) (fun r => if same (rv_id r) [98] then [1;2;3] else rv_rev_meta r).
Example C20_ex :
  @compacts env0 None gks sx5 (dbh (ss_db sx5)) (ss_now sx5) None dropping keep_live (snd (@compact env0 cf dropping src5 (empty_file []) None)) /\
  length (v_docs (compacted keep_live (ss_now sx5))) = 3%nat /\ length (v_docs (ss_now sx5)) = 4%nat.
Proof.
  split; [|vm_compute; auto]. apply sx5_compacts; [vm_compute; reflexivity|reflexivity|reflexivity|]. now apply drop_hooks.
Qed.
Example C20_hook_ex :
  @compacts env0 None gks sx5 (dbh (ss_db sx5)) (ss_now sx5) None hooked hooked_policy (snd (@compact env0 cf hooked src5 (empty_file []) None)) /\
  map rv_id (v_docs (compacted hooked_policy (ss_now sx5))) = [[99]; [99; 1]; [98]] /\ map rv_rev_meta (v_docs (compacted hooked_policy (ss_now sx5))) = [[9; 5]; [9; 1]; [1; 2; 3]].
Proof.
  split; [|vm_compute; auto]. apply sx5_compacts; [vm_compute; reflexivity|reflexivity|reflexivity|].
  assert (Hd : v_docs (ss_now sx5) = [Rev [97] 5 2 [9; 2] false 0 (Some (Raw [6; 7; 8; 9])); Rev [99] 4 5 [9; 5] false 0 (Some (Raw []));
    Rev [99; 1] 3 1 [9; 1] true 0 None; Rev [98] 1 1 [9; 1] false 0 (Some (Raw [1; 2; 3]))]) by (vm_compute; reflexivity).
  rewrite Hd. constructor; [|constructor; [|constructor; [|constructor; [|constructor]]]]; constructor; cbn [hooked co_filter co_rewrite];
    try (intros i Ab; pose proof (ab_id Ab) as Hi; pose proof (ab_deleted Ab) as Hx; cbn [rv_id rv_deleted] in Hi, Hx; unfold seen; rewrite Hx).
  - right. split; [reflexivity|]. eexists. split; [reflexivity|]. intros z ->. rewrite Hi. reflexivity.
  - discriminate.
  - right. split; [reflexivity|]. eexists. split; [reflexivity|]. intros z ->. rewrite Hi. reflexivity.
  - intros _ i z Ab _. pose proof (ab_id Ab) as Hi. cbn [rv_id] in Hi. rewrite Hi. reflexivity.
  - left. reflexivity.
  - intros _. reflexivity.
  - right. split; [reflexivity|]. eexists. split; [reflexivity|]. intros z ->. rewrite Hi. reflexivity.
  - intros _ i z Ab _. pose proof (ab_id Ab) as Hi. cbn [rv_id] in Hi. rewrite Hi. split; reflexivity.
Qed.

(** ** C48 *)

(** The version of the new file: 11 stays without the flag UPGRADE_DB, everything else becomes 14. *)
Theorem C48_compact : forall (E : Env), EnvOk E -> forall c o src pl key d, compact c o src (empty_file pl) key = (Ok tt, d) ->
  h_version (dbh d) = (if (h_version (dbh src) <=? 11) && negb (co_upgrade o) then 11 else 14).
Proof. intros E EO c o src pl key d H. exact (proj1 (compact_header EO H)). Qed.
Print Assumptions C48_compact.

(** Every write and every commit in a session keeps the version. *)
Theorem C48_sessions : forall (E : Env), EnvOk E -> forall key getkey, key_ok key getkey -> forall s s', sessions key getkey s -> write s s' ->
  h_version (dbh (ss_db s')) = h_version (dbh (ss_db s)).
Proof.
  intros E EO key getkey KO s s' H W. destruct (sessions_linked EO KO H) as [t L]. destruct (link_inv EO KO L) as [B I]. pose proof (lk_db L) as Hdb.
  destruct (sessions_stored EO KO H) as (G & Hd & P1 & ps & S).
  destruct W as [ss c o cb l R Hc HR Hb Hr|ss c x r d Hc HR Hb Hr|ss c l r d Hc HR Hb Hn Hr|ss ts n r d Ht Hp Hcm Hl v].
  - destruct (@save_documents_ok E EO anyf anye any_okerr c Hc cb o l (ss_db ss) (ss_now ss) ps R HR G Logic.I P1 Hd S Hb (conj (rm_big Hr) (rm_pos Hr))) as (_ & _ & _ & _ & X).
    cbn [ss_db]. destruct (sv_res R) as [u|e]; [destruct X as (a & b & ds & Hh & _)|destruct X as [_ Hh]]; rewrite Hh; reflexivity.
  - assert (Fin : fin (dbf d)) by (apply fin47_fin; exact (conj (rm_big Hr) (rm_pos Hr))).
    destruct (@save_local_document_ok E EO anyf anye any_okerr c Hc x (ss_db ss) (ss_now ss) ps r d G Logic.I Hd S Hb HR Fin) as (_ & _ & _ & _ & X).
    cbn [ss_db]. destruct r as [u|e]; [destruct X as (a & Hh & _)|destruct X as [_ Hh]]; rewrite Hh; reflexivity.
  - assert (Fin : fin (dbf d)) by (apply fin47_fin; exact (conj (rm_big Hr) (rm_pos Hr))).
    destruct (@save_local_documents_ok E EO anyf anye any_okerr c Hc l (ss_db ss) (ss_now ss) ps r d G Logic.I Hd S Hn Hb HR Fin) as (_ & _ & _ & _ & X).
    cbn [ss_db]. destruct r as [u|e]; [destruct X as (a & Hh & _)|destruct X as [_ Hh]]; rewrite Hh; reflexivity.
  - rewrite <- Hdb in Hcm. destruct (@commit_header E EO key B t ts n r d I Hcm) as [_ Hh]. rewrite <- Hdb.
    destruct r as [u|e]; [|destruct (fpos (dbf d) =? _)]; cbn [ss_db]; rewrite Hh; reflexivity.
Qed.
Print Assumptions C48_sessions.
Example C48_compact_ex : exists d, @compact env0 cf dropping src5 (empty_file []) None = (Ok tt, d) /\ h_version (dbh d) = 14.
Proof.
  assert (H : match @compact env0 cf dropping src5 (empty_file []) None with (Ok _, d) => h_version (dbh d) =? 14 | _ => false end = true) by (vm_compute; reflexivity).
  destruct (@compact env0 cf dropping src5 (empty_file []) None) as [[[]|e] d]; [|discriminate]. exists d. split; [reflexivity|]. now apply N.eqb_eq.
Qed.
