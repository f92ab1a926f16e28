(** Properties C12, C16, C17, C18, C34: saving; and C01, C21 in terms of documents. *)
From Verif Require Import Base SpecOrder Codec CodecFacts File FileFacts ChunkFacts Header HeaderFacts History CrashFacts DataFacts SpecCrash NavFacts ReachNav OpenFacts CommitFacts SpecFile PropertiesCrash PropertiesNav
  Btree BtreeRead TreeStore SpecMap MergeFacts ModifyFacts
  Db SpecDb SortFacts ReduceFacts DbFacts DbSave DbRead SpecSession ShowFacts SessionFacts ReadFacts SaveFacts EnvExample SessionExample PropertiesDb.
Local Open Scope N_scope.
Unset Strict Implicit.

(** The conditions under which the save of [l] is one that a session can do. *)
Definition can_save {E : Env} (s : session) (c : cfg) (o : saveopts) (cb : bool) (l : list submit) (R : saved) : Prop :=
  2 <= c_kv c /\ save_documents c o cb l (ss_db s) = R /\ batch_ok o l (ss_now s) /\ room (sv_db R).

Lemma save_session {E : Env} key getkey s c o cb l R : sessions key getkey s -> can_save s c o cb l R ->
  sessions key getkey (Session (sv_db R) (outcome (sv_res R) (save o l (ss_now s)) (ss_now s)) (ss_ack s) (ss_old s) (ss_pend s)).
Proof. intros H (H1 & H2 & H3 & H4). exact (sess_write H (@write_docs E s c o cb l R H1 H2 H3 H4)). Qed.
Lemma room_fin d : room d -> fin47 (dbf d).
Proof. intros R. split; [exact (rm_big R)|exact (rm_pos R)]. Qed.
Lemma room_fin' d : room d -> fin (dbf d).
Proof. intros R. apply fin47_fin, room_fin, R. Qed.

(** ** C12 *)

Lemma new_revs_nth o l : so_as_is o = false -> forall seq k r, nth_error (new_revs o seq l) k = Some r -> rv_seq r = seq + 1 + N.of_nat k.
Proof.
  intros Ho. induction l as [|x l IH]; intros seq k r; cbn [new_revs]; [now destruct k|]. rewrite Ho. destruct k as [|k]; cbn [nth_error].
  - injection 1 as <-. cbn. lia.
  - intros H. rewrite (IH _ _ _ H). lia.
Qed.
Lemma new_revs_at o l : forall seq k x, nth_error l k = Some x -> exists n, nth_error (new_revs o seq l) k = Some (new_rev o x n).
Proof.
  induction l as [|y l IH]; intros seq [|k] x; cbn [nth_error]; try discriminate; rewrite new_revs_cons; cbn [nth_error].
  - injection 1 as ->. eauto.
  - intros H. apply IH. exact H.
Qed.

Section Given.
Context {E : Env} (EO : EnvOk E) (key : option keyinfo) (getkey : N -> bytes -> bytes -> res N) (KO : key_ok key getkey).
Variables (s : session) (c : cfg) (o : saveopts) (cb : bool) (l : list submit) (R : saved).
Hypothesis H : sessions key getkey s.
Hypothesis C : can_save s c o cb l R.
Hypothesis Hok : sv_res R = Ok tt.
Lemma saved_seqs : map di_db_seq (sv_infos R) = map rv_seq (new_revs o (h_update_seq (dbh (ss_db s))) l) /\
  h_update_seq (dbh (sv_db R)) = last_seq o (h_update_seq (dbh (ss_db s))) l.
Proof.
  destruct (sessions_stored EO KO H) as (G & D & P & ps & S). pose proof C as (H1 & H2 & H3 & H4).
  pose proof (bt_seq H3) as Hs. rewrite <- (sd_seq S) in Hs. split; [exact (proj1 (save_infos H2 Hok Hs))|].
  pose proof (save_session H C) as H'. destruct (sessions_stored EO KO H') as (_ & _ & _ & ps' & S'). cbn [ss_db ss_now] in S'. rewrite Hok in S'. cbn [outcome] in S'.
  rewrite (sd_seq S'). cbn [save v_seq]. now rewrite <- (sd_seq S).
Qed.
(** Each saved document is found under its number. *)
Lemma saved_found k x i : nth_error l k = Some x -> nth_error (sv_infos R) k = Some i ->
  exists j, docinfo_by_sequence (sv_db R) (di_db_seq i) = Ok j /\ di_id j = di_id (sb_info x) /\ di_rev_seq j = di_rev_seq (sb_info x).
Proof.
  intros Hx Hi. destruct saved_seqs as [Hm _]. pose proof (save_session H C) as H'. pose proof (C06_contents EO KO H') as Sh. cbn [ss_db ss_now] in Sh.
  destruct (sessions_stored EO KO H') as (G' & D' & _ & ps' & S'). cbn [ss_db ss_now] in G', D', S'. rewrite Hok in S'. cbn [outcome] in S'.
  destruct (sessions_stored EO KO H) as (_ & _ & _ & ps & S). rewrite (sd_seq S) in Hm.
  rewrite Hok in Sh. cbn [outcome] in Sh. destruct (@new_revs_at o l (v_seq (ss_now s)) k x Hx) as [n Hn].
  assert (Hq : di_db_seq i = n).
  { pose proof (map_nth_error di_db_seq _ _ Hi) as M1. pose proof (map_nth_error rv_seq _ _ Hn) as M2. rewrite Hm in M1. rewrite M1 in M2. injection M2 as ->. reflexivity. }
  pose proof C as (_ & _ & Hb & _). pose proof (nth_error_In _ _ Hn) as Hin.
  assert (Nd : NoDup (map rv_id (v_docs (ss_now s)))).
  { rewrite <- (sd_docs S), map_map. erewrite map_ext_in; [exact (sd_ids S)|]. intros p Hp. pose proof (sd_rep S) as Q. rewrite Forall_forall in Q.
    symmetry. exact (ab_id (proj1 (Q p Hp))). }
  pose proof (find_new (bt_ids Hb) Nd Hin) as Hf. apply find_some in Hf. destruct Hf as [Hf _].
  destruct (in_revs S' Hf) as (j & Hj & [Ab _]).
  assert (Hjn : di_db_seq j = n) by exact (ab_seq Ab). rewrite Hq.
  assert (Hb48 : n < 2^48). { rewrite <- Hjn. apply dok_seq. pose proof (sd_ok S') as Q. rewrite Forall_forall in Q. apply Q. apply in_map_iff. exists (j, new_rev o x n). auto. }
  exists j. rewrite (docinfo_by_sequence_eq EO G' D' S' Hb48). split; [|split; [exact (ab_id Ab)|exact (ab_rev_seq Ab)]].
  assert (Hjin : In j (map fst ps')) by (apply in_map_iff; exists (j, new_rev o x n); auto).
  destruct (find (fun y => di_db_seq y =? n) (map fst ps')) as [j'|] eqn:Hfi.
  - apply find_some in Hfi. destruct Hfi as [F1 F2]. apply N.eqb_eq in F2. f_equal. apply (@nodup_map_eq _ _ di_db_seq _ _ _ (sd_seqs S') F1 Hjin). congruence.
  - pose proof (List.find_none _ _ Hfi _ Hjin) as F. cbn in F. rewrite Hjn, N.eqb_refl in F. discriminate.
Qed.
End Given.

(** Consecutive numbers in the order of submission; each document is found under its number; the last number is the last one given. *)
Theorem C12_consecutive : forall (E : Env), EnvOk E -> forall key getkey, key_ok key getkey ->
  forall s c o cb l R, sessions key getkey s -> can_save s c o cb l R -> sv_res R = Ok tt -> so_as_is o = false ->
  length (sv_infos R) = length l /\
  h_update_seq (dbh (sv_db R)) = h_update_seq (dbh (ss_db s)) + lenN l /\
  forall k x i, nth_error l k = Some x -> nth_error (sv_infos R) k = Some i ->
    di_db_seq i = h_update_seq (dbh (ss_db s)) + 1 + N.of_nat k /\
    exists j, docinfo_by_sequence (sv_db R) (di_db_seq i) = Ok j /\ di_id j = di_id (sb_info x) /\ di_rev_seq j = di_rev_seq (sb_info x).
Proof.
  intros E EO key getkey KO s c o cb l R H C Hok Ho. destruct (saved_seqs EO KO H C Hok) as [Hm Hl].
  split; [|split].
  - rewrite <- (map_length di_db_seq), Hm, map_length. apply new_revs_length.
  - rewrite Hl. unfold last_seq. now rewrite Ho.
  - intros k x i Hx Hi. split; [|exact (saved_found EO KO H C Hok Hx Hi)].
    pose proof (map_nth_error di_db_seq _ _ Hi) as M1. rewrite Hm in M1. destruct (nth_error (new_revs o (h_update_seq (dbh (ss_db s))) l) k) as [r|] eqn:Hr.
    + pose proof (map_nth_error rv_seq _ _ Hr) as M2. rewrite M1 in M2. injection M2 as ->. exact (new_revs_nth Ho Hr).
    + apply nth_error_None in Hr. rewrite new_revs_length in Hr. apply nth_error_None in Hr. congruence.
Qed.
Print Assumptions C12_consecutive.

(** With the use-as-given option: the given numbers are kept, the last number becomes the maximum. *)
Theorem C12_given : forall (E : Env), EnvOk E -> forall key getkey, key_ok key getkey ->
  forall s c o cb l R, sessions key getkey s -> can_save s c o cb l R -> sv_res R = Ok tt -> so_as_is o = true ->
  map di_db_seq (sv_infos R) = map (fun x => di_db_seq (sb_info x)) l /\
  h_update_seq (dbh (sv_db R)) = fold_right N.max (h_update_seq (dbh (ss_db s))) (map (fun x => di_db_seq (sb_info x)) l) /\
  forall x, In x l -> exists j, docinfo_by_sequence (sv_db R) (di_db_seq (sb_info x)) = Ok j /\ di_id j = di_id (sb_info x) /\ di_rev_seq j = di_rev_seq (sb_info x).
Proof.
  intros E EO key getkey KO s c o cb l R H C Hok Ho. destruct (saved_seqs EO KO H C Hok) as [Hm Hl]. rewrite (new_revs_given _ _ Ho) in Hm.
  split; [exact Hm|]. split.
  - rewrite Hl. unfold last_seq. rewrite Ho. generalize (h_update_seq (dbh (ss_db s))). clear. induction l as [|x l IH]; intros n; [reflexivity|]. cbn [fold_left map fold_right].
    rewrite IH. clear. generalize (map (fun x => di_db_seq (sb_info x)) l). intros m. induction m as [|y m IH]; cbn [fold_right]; lia.
  - intros x Hx. destruct (In_nth_error _ _ Hx) as [k Hk]. pose proof (map_nth_error (fun x => di_db_seq (sb_info x)) _ _ Hk) as M. rewrite <- Hm in M.
    destruct (nth_error (sv_infos R) k) as [i|] eqn:Hi.
    + rewrite (map_nth_error di_db_seq _ _ Hi) in M. injection M as <-. exact (saved_found EO KO H C Hok Hk Hi).
    + exfalso. apply nth_error_None in Hi. assert (Hx2 : nth_error (map di_db_seq (sv_infos R)) k = None) by (apply nth_error_None; rewrite map_length; exact Hi). congruence.
Qed.
Print Assumptions C12_given.

(** Whatever is done with the handle, the last number does not decrease. *)
Theorem C12_monotone : forall (E : Env), EnvOk E -> forall key getkey, key_ok key getkey ->
  forall s s', sessions key getkey s -> writing s s' -> h_update_seq (dbh (ss_db s)) <= h_update_seq (dbh (ss_db s')).
Proof.
  intros E EO key getkey KO s s' H W. induction W as [s|s s1 s2 W IH Hw]; [apply N.le_refl|]. specialize (IH H).
  etransitivity; [exact IH|]. pose proof (writing_sessions H W) as H1.
  destruct (sessions_stored EO KO H1) as (_ & _ & _ & ps1 & S1). destruct (sessions_stored EO KO (sess_write H1 Hw)) as (_ & _ & _ & ps2 & S2).
  rewrite (sd_seq S1), (sd_seq S2). clear - Hw. destruct Hw as [s c o cb l R Hc HR Hb Rm|s c x r d Hc Hs Hf Rm|s c l r d Hc Hs Hf Hn Rm|s ts n r d Ht Hp Hc Hl v].
  - cbn [ss_now]. destruct (sv_res R); cbn [outcome save v_seq]; [|apply N.le_refl]. apply last_seq_ge.
  - cbn [ss_now]. destruct r; apply N.le_refl.
  - cbn [ss_now]. destruct r; apply N.le_refl.
  - destruct r; [apply N.le_refl|]. destruct (fpos (dbf d) =? _); apply N.le_refl.
Qed.
Print Assumptions C12_monotone.

Lemma can_check {E : Env} s c o cb l : 2 <= c_kv c -> batch_ok o l (ss_now s) -> roomb (sv_db (save_documents c o cb l (ss_db s))) = true ->
  can_save s c o cb l (save_documents c o cb l (ss_db s)).
Proof. intros H1 H2 H3. split; [exact H1|]. split; [reflexivity|]. split; [exact H2|]. apply room_check, H3. Qed.

Definition as_is : saveopts := SaveOpts true true.
Definition batch3 : list submit :=
  [Submit (Some [1]) (DocInfo [120] 9 1 [] false 0 0 0) 5; Submit (Some [2]) (DocInfo [98] 4 2 [] false 0 0 0) 6].
Lemma batch3_ok : @batch_ok env0 as_is batch3 (ss_now sx3).
Proof.
  constructor.
  - repeat constructor; apply fits_check; vm_compute; reflexivity.
  - apply nodup_check. vm_compute. reflexivity.
  - vm_compute. reflexivity.
  - intros _. split; [repeat constructor; cbn; intuition discriminate|].
    assert (Hx : forallb (fun r => negb (rv_seq r =? 9) && negb (rv_seq r =? 4)) (v_docs (ss_now sx3)) = true) by (vm_compute; reflexivity).
    rewrite forallb_forall in Hx. intros r x Hr Hi He. specialize (Hx r Hr). apply andb_true_iff in Hx. destruct Hx as [X1 X2].
    apply negb_true_iff, N.eqb_neq in X1. apply negb_true_iff, N.eqb_neq in X2. destruct Hi as [<-|[<-|[]]]; cbn in He; congruence.
Qed.

Example C12_ex :
  @sessions env0 None gks sx3 /\ @can_save env0 sx3 cf so true batch2 (@save_documents env0 cf so true batch2 (ss_db sx3)) /\
  @can_save env0 sx3 cf as_is true batch3 (@save_documents env0 cf as_is true batch3 (ss_db sx3)) /\
  (let R := @save_documents env0 cf so true batch2 (ss_db sx3) in sv_res R = Ok tt /\ map di_db_seq (sv_infos R) = [4; 5] /\ h_update_seq (dbh (sv_db R)) = 5) /\
  (let R := @save_documents env0 cf as_is true batch3 (ss_db sx3) in sv_res R = Ok tt /\ map di_db_seq (sv_infos R) = [9; 4] /\ h_update_seq (dbh (sv_db R)) = 9).
Proof.
  split; [exact sx3_session|]. split; [apply can_check; [discriminate|apply batch_check; vm_compute; reflexivity|vm_compute; reflexivity]|].
  split; [apply can_check; [discriminate|exact batch3_ok|vm_compute; reflexivity]|]. vm_compute. auto 10.
Qed.

(** A given number that another document has: saved without an error, after which that document is found by id but no longer by its
    number, and is missing from the changes. *)
Definition clash : list submit := [Submit (Some [1]) (DocInfo [120] 1 1 [] false 0 0 0) 5].
Theorem C12_clash_refuted : exists (E : Env) key getkey s c o l R i j,
  EnvOk E /\ key_ok key getkey /\ sessions key getkey s /\ 2 <= c_kv c /\ save_documents c o true l (ss_db s) = R /\ sv_res R = Ok tt /\
  docinfo_by_id (sv_db R) [98] = Ok i /\ di_db_seq i = 1 /\ docinfo_by_sequence (sv_db R) 1 = Ok j /\ di_id j <> di_id i.
Proof.
  exists env0, None, gks, sx1, cf, as_is, clash, (@save_documents env0 cf as_is true clash (ss_db sx1)).
  assert (Hi : match @docinfo_by_id env0 (sv_db (@save_documents env0 cf as_is true clash (ss_db sx1))) [98],
      @docinfo_by_sequence env0 (sv_db (@save_documents env0 cf as_is true clash (ss_db sx1))) 1 with
    | Ok i, Ok j => di_db_seq i = 1 /\ di_id j = [120] /\ di_id i = [98] | _, _ => False end) by (vm_compute; auto).
  destruct (@docinfo_by_id env0 (sv_db (@save_documents env0 cf as_is true clash (ss_db sx1))) [98]) as [i|e] eqn:H1; [|destruct Hi].
  destruct (@docinfo_by_sequence env0 (sv_db (@save_documents env0 cf as_is true clash (ss_db sx1))) 1) as [j|e] eqn:H2; [|destruct Hi].
  exists i, j. split; [exact env0_ok|]. split; [exact Logic.I|]. split; [exact sx1_session|]. split; [discriminate|]. split; [reflexivity|].
  split; [vm_compute; reflexivity|]. split; [reflexivity|]. split; [apply Hi|]. split; [reflexivity|]. destruct Hi as (_ & -> & ->). discriminate.
Qed.
Print Assumptions C12_clash_refuted.

(** ** C16 *)

Definition local_says (x : option local_doc) (before : res local_doc) : res local_doc :=
  match x with
  | Some x => if ld_deleted x then Err E_DOC_NOT_FOUND else Ok (LocalDoc (ld_id x) (ld_json x) false)
  | None => before
  end.
Definition counts (x : res dbinfo) : res (N * N * N) := match x with Ok i => Ok (in_docs i, in_deleted i, in_seq i) | Err e => Err e end.

Lemma find_put_local x l id : find_local id (put_local x l) = if same (ld_id x) id then (if ld_deleted x then None else Some (ld_id x, ld_json x)) else find_local id l.
Proof.
  unfold put_local, find_local. destruct (same (ld_id x) id) eqn:Hs.
  - apply same_true in Hs. subst id. destruct (ld_deleted x).
    + induction l as [|y l IH]; [reflexivity|]. cbn [filter]. destruct (same (fst y) (ld_id x)) eqn:Hy; cbn [negb]; [exact IH|]. cbn [find]. rewrite Hy. exact IH.
    + cbn [find fst]. assert (Hr : same (ld_id x) (ld_id x) = true) by now apply same_true. now rewrite Hr.
  - assert (Hf : find (fun y => same (fst y) id) (filter (fun y => negb (same (fst y) (ld_id x))) l) = find (fun y => same (fst y) id) l).
    { induction l as [|y l IH]; [reflexivity|]. cbn [filter find]. destruct (same (fst y) (ld_id x)) eqn:Hy; cbn [negb].
      - apply same_true in Hy. rewrite Hy, Hs. exact IH.
      - cbn [find]. destruct (same (fst y) id); [reflexivity|exact IH]. }
    destruct (ld_deleted x); [exact Hf|]. cbn [find fst]. now rewrite Hs.
Qed.
Lemma find_put_locals l : NoDup (map ld_id l) -> forall m id, find_local id (fold_left (fun d x => put_local x d) l m) =
  match find (fun x => same (ld_id x) id) l with Some x => if ld_deleted x then None else Some (ld_id x, ld_json x) | None => find_local id m end.
Proof.
  induction l as [|x l IH]; intros Hn m id; [reflexivity|]. cbn [map] in Hn. inversion Hn as [|? ? Hx Hl]. subst. cbn [fold_left find].
  rewrite (IH Hl), find_put_local. destruct (find (fun y => same (ld_id y) id) l) as [y|] eqn:Hf.
  - destruct (same (ld_id x) id) eqn:Hs; [|reflexivity]. exfalso. apply find_some in Hf. destruct Hf as [F1 F2]. apply same_true in Hs. apply same_true in F2.
    apply Hx. rewrite Hs, <- F2. now apply in_map.
  - destruct (same (ld_id x) id); reflexivity.
Qed.

Section Locals.
Context {E : Env} (EO : EnvOk E) (key : option keyinfo) (getkey : N -> bytes -> bytes -> res N) (KO : key_ok key getkey).
Lemma counts_stored d f h v v' ps d' : f = dbf d -> h = dbh d -> stored f h v ps -> stored (dbf d') (dbh d') v' ps -> v_seq v' = v_seq v -> counts (db_info d') = counts (db_info d).
Proof. intros -> -> S S' Hv. rewrite (db_info_eq S), (db_info_eq S'). cbn [counts in_docs in_deleted in_seq]. now rewrite Hv. Qed.

Lemma locals_result s d' a l ps v' : sessions key getkey s -> stored (dbf (ss_db s)) (dbh (ss_db s)) (ss_now s) ps -> le (dbf (ss_db s)) (dbf d') -> dropped d' = false ->
  NoDup (map ld_id l) -> lenN (v_docs (ss_now s)) < 2^40 -> v' = save_locals l (ss_now s) ->
  dbh d' = set_roots (dbh (ss_db s)) (h_by_id (dbh (ss_db s))) (h_by_seq (dbh (ss_db s))) a -> stored (dbf d') (dbh d') v' ps ->
  (forall id, open_local_document d' id = local_says (find (fun x => same (ld_id x) id) l) (open_local_document (ss_db s) id)) /\
  same_docs (ss_db s) d' /\ counts (db_info d') = counts (db_info (ss_db s)).
Proof.
  intros H S Le D' Hn Hl -> Hh S'. destruct (sessions_stored EO KO H) as (G & D & P & _).
  pose proof (le_good Le) as G'. split; [|split].
  - intros id. rewrite (open_local_eq EO G' D' S'), (open_local_eq EO G D S). cbn [save_locals v_locals]. rewrite (find_put_locals Hn).
    destruct (find (fun x => same (ld_id x) id) l) as [x|]; cbn [local_says]; [|reflexivity]. destruct (ld_deleted x); reflexivity.
  - apply (@same_docs_stored E EO (ss_db s) d' (dbf (ss_db s)) (dbh (ss_db s)) (ss_now s) ps G G' D D' (keeps_refl _) (le_keeps Le) S (save_locals l (ss_now s))); auto;
      rewrite Hh; reflexivity.
  - eapply counts_stored; [reflexivity|reflexivity|exact S|exact S'|reflexivity].
Qed.
Lemma failed_reads s d' ps : sessions key getkey s -> stored (dbf (ss_db s)) (dbh (ss_db s)) (ss_now s) ps -> keeps (dbf (ss_db s)) (dbf d') -> good (dbf d') -> dropped d' = false ->
  lenN (v_docs (ss_now s)) < 2^40 -> dbh d' = dbh (ss_db s) -> same_reads (ss_db s) d' /\ shows_contents d' (ss_now s).
Proof.
  intros H S K G' D' Hl Hh. destruct (sessions_stored EO KO H) as (G & D & P & _). split.
  - exact (@same_reads_stored E EO (ss_db s) d' (dbf (ss_db s)) (dbh (ss_db s)) (ss_now s) ps G G' D D' (keeps_refl _) K S eq_refl Hh Hl).
  - apply (stored_shows EO G' D' (v := ss_now s) (ps := ps)). rewrite Hh. exact (stored_keeps K S).
Qed.
End Locals.

(** Saving or deleting one local document: a map update that leaves everything else as it was. *)
Theorem C16_local : forall (E : Env), EnvOk E -> forall key getkey, key_ok key getkey ->
  forall s c x d', sessions key getkey s -> 2 <= c_kv c -> local_fits x -> save_local_document c (ss_db s) x = (Ok tt, d') -> room d' ->
  lenN (v_docs (ss_now s)) < 2^40 ->
  open_local_document d' (ld_id x) = (if ld_deleted x then Err E_DOC_NOT_FOUND else Ok (LocalDoc (ld_id x) (ld_json x) false)) /\
  (forall id, id <> ld_id x -> open_local_document d' id = open_local_document (ss_db s) id) /\
  same_docs (ss_db s) d' /\ counts (db_info d') = counts (db_info (ss_db s)).
Proof.
  intros E EO key getkey KO s c x d' H Hc Hf Hs Rm Hl. destruct (sessions_stored EO KO H) as (G & D & P & ps & S).
  destruct (@save_local_document_ok E EO anyf anye any_okerr c Hc x _ _ ps _ _ G Logic.I D S Hf Hs (room_fin' Rm)) as (_ & Le & _ & D' & a & Hh & S').
  assert (Hn : NoDup (map ld_id [x])) by (repeat constructor; auto).
  destruct (locals_result EO KO H S Le D' Hn Hl eq_refl Hh S') as (A & B & C). cbn [find] in A. split; [|split; [|auto]].
  - specialize (A (ld_id x)). assert (Hr : same (ld_id x) (ld_id x) = true) by now apply same_true. now rewrite Hr in A.
  - intros id Hid. specialize (A id). assert (Hr : same (ld_id x) id = false) by (apply same_false; auto). now rewrite Hr in A.
Qed.
Print Assumptions C16_local.

(** A batch of local documents with distinct ids. *)
Theorem C16_batch : forall (E : Env), EnvOk E -> forall key getkey, key_ok key getkey ->
  forall s c l d', sessions key getkey s -> 2 <= c_kv c -> Forall local_fits l -> NoDup (map ld_id l) -> save_local_documents c (ss_db s) l = (Ok tt, d') -> room d' ->
  lenN (v_docs (ss_now s)) < 2^40 ->
  (forall x, In x l -> open_local_document d' (ld_id x) = if ld_deleted x then Err E_DOC_NOT_FOUND else Ok (LocalDoc (ld_id x) (ld_json x) false)) /\
  (forall id, ~ In id (map ld_id l) -> open_local_document d' id = open_local_document (ss_db s) id) /\
  same_docs (ss_db s) d' /\ counts (db_info d') = counts (db_info (ss_db s)).
Proof.
  intros E EO key getkey KO s c l d' H Hc Hf Hn Hs Rm Hl. destruct (sessions_stored EO KO H) as (G & D & P & ps & S).
  destruct (@save_local_documents_ok E EO anyf anye any_okerr c Hc l _ _ ps _ _ G Logic.I D S Hn Hf Hs (room_fin' Rm)) as (_ & Le & _ & D' & a & Hh & S').
  destruct (locals_result EO KO H S Le D' Hn Hl eq_refl Hh S') as (A & B & C). split; [|split; [|auto]].
  - intros x Hx. rewrite A. destruct (find (fun y => same (ld_id y) (ld_id x)) l) as [y|] eqn:Hy.
    + apply find_some in Hy. destruct Hy as [Y1 Y2]. apply same_true in Y2. assert (y = x) by exact (@nodup_map_eq _ _ ld_id _ _ _ Hn Y1 Hx Y2). now subst y.
    + pose proof (List.find_none _ _ Hy _ Hx) as F. cbn in F. assert (Hr : same (ld_id x) (ld_id x) = true) by now apply same_true. congruence.
  - intros id Hid. rewrite A. destruct (find (fun y => same (ld_id y) id) l) as [y|] eqn:Hy; [|reflexivity].
    apply find_some in Hy. destruct Hy as [Y1 Y2]. apply same_true in Y2. exfalso. apply Hid. rewrite <- Y2. now apply in_map.
Qed.
Print Assumptions C16_batch.

(** Saving documents, successfully or not, does not touch local documents. *)
Theorem C16_documents : forall (E : Env), EnvOk E -> forall key getkey, key_ok key getkey ->
  forall s c o cb l R, sessions key getkey s -> can_save s c o cb l R ->
  forall id, open_local_document (sv_db R) id = open_local_document (ss_db s) id.
Proof.
  intros E EO key getkey KO s c o cb l R H C id. pose proof (C06_contents EO KO (save_session H C)) as Sh. cbn [ss_db ss_now] in Sh.
  rewrite (sc_local Sh id), (sc_local (C06_contents EO KO H) id). destruct (sv_res R); reflexivity.
Qed.
Print Assumptions C16_documents.

(** Deleting an absent local document. *)
Theorem C16_absent : forall (E : Env), EnvOk E -> forall key getkey, key_ok key getkey ->
  forall s c id j d', sessions key getkey s -> 2 <= c_kv c -> local_fits (LocalDoc id j true) -> save_local_document c (ss_db s) (LocalDoc id j true) = (Ok tt, d') -> room d' ->
  lenN (v_docs (ss_now s)) < 2^40 -> open_local_document (ss_db s) id = Err E_DOC_NOT_FOUND ->
  (forall id', open_local_document d' id' = open_local_document (ss_db s) id') /\ same_docs (ss_db s) d' /\ counts (db_info d') = counts (db_info (ss_db s)).
Proof.
  intros E EO key getkey KO s c id j d' H Hc Hf Hs Rm Hl Ha. destruct (C16_local EO KO H Hc Hf Hs Rm Hl) as (A & B & C). split; [|exact C].
  intros id'. destruct (list_eq_dec N.eq_dec id' id) as [->|Hd]; [|exact (B id' Hd)]. cbn in A. congruence.
Qed.
Print Assumptions C16_absent.

Example C16_ex :
  @sessions env0 None gks sx5 /\ 2 <= c_kv cf /\ local_fits (LocalDoc [76] [] true) /\ local_fits (LocalDoc [75] [5] false) /\
  @open_local_document env0 (ss_db sx5) [76] = Ok (LocalDoc [76] [1;1] false) /\
  (let '(r, d) := @save_local_documents env0 cf (ss_db sx5) [LocalDoc [76] [] true; LocalDoc [75] [5] false] in
   r = Ok tt /\ roomb d = true /\ @open_local_document env0 d [76] = Err E_DOC_NOT_FOUND /\ @open_local_document env0 d [75] = Ok (LocalDoc [75] [5] false)).
Proof. split; [exact sx5_session|]. split; [discriminate|]. split; [split; vm_compute; reflexivity|]. split; [split; vm_compute; reflexivity|]. vm_compute. auto 10. Qed.

(** ** C17 *)

(** The same id twice in one batch: both entries stay, in both indexes, the count is wrong, and a lookup gives the first one. *)
Definition twice : list submit := [mk [97] 7 false 0 (Some [1]) 1; mk [97] 8 false 0 (Some [2]) 2].
Theorem C17_refuted : exists (E : Env) key getkey s c o l R,
  EnvOk E /\ key_ok key getkey /\ sessions key getkey s /\ 2 <= c_kv c /\ save_documents c o true l (ss_db s) = R /\ sv_res R = Ok tt /\
  map (fun x => di_id (sb_info x)) l = [[97]; [97]] /\
  (let cb := fun i (u : list (bytes * N)) => (@Ok unit tt, u ++ [(di_id i, di_rev_seq i)]) in
   all_docs (sv_db R) [] every cb [] = (Ok tt, [([97], 7); ([97], 8); ([98], 1); ([99;1], 1)]) /\
   changes_since (sv_db R) 0 every cb [] = (Ok tt, [([98], 1); ([99;1], 1); ([97], 7); ([97], 8)])) /\
  (exists i, docinfo_by_id (sv_db R) [97] = Ok i /\ di_rev_seq i = 7) /\ counts (db_info (sv_db R)) = Ok (3, 1, 5).
Proof.
  exists env0, None, gks, sx1, cf, so, twice, (@save_documents env0 cf so true twice (ss_db sx1)).
  assert (Hi : match @docinfo_by_id env0 (sv_db (@save_documents env0 cf so true twice (ss_db sx1))) [97] with Ok i => di_rev_seq i = 7 | _ => False end) by (vm_compute; auto).
  destruct (@docinfo_by_id env0 (sv_db (@save_documents env0 cf so true twice (ss_db sx1))) [97]) as [i|e] eqn:H1; [|destruct Hi].
  split; [exact env0_ok|]. split; [exact Logic.I|]. split; [exact sx1_session|]. split; [discriminate|]. split; [reflexivity|]. split; [vm_compute; reflexivity|].
  split; [reflexivity|]. split; [vm_compute; auto|]. split; [exists i; auto|]. vm_compute. reflexivity.
Qed.
Print Assumptions C17_refuted.

(** ** C18 *)

(** One call per document, in the order of the ids: with what a lookup gave before the save, with what a lookup gives afterwards (which is
    about the saved revision), and with the user's request. *)
Theorem C18_calls : forall (E : Env), EnvOk E -> forall key getkey, key_ok key getkey ->
  forall s c o l R, sessions key getkey s -> can_save s c o true l R -> sv_res R = Ok tt ->
  exists sl, Permutation l sl /\ StronglySorted (fun a b => lex (di_id (sb_info a)) (di_id (sb_info b))) sl /\
  Forall2 (fun call x => let id := di_id (sb_info x) in
      fst (fst call) = before_of (docinfo_by_id (ss_db s) id) /\
      (exists i, snd (fst call) = Ok i /\ docinfo_by_id (sv_db R) id = Ok i /\ di_rev_seq i = di_rev_seq (sb_info x) /\ di_rev_meta i = di_rev_meta (sb_info x)) /\
      snd call = sb_req x)
    (save_calls (sv_events R)) sl.
Proof.
  intros E EO key getkey KO s c o l R H (Hc & HR & Hb & Rm) Hok. destruct (sessions_stored EO KO H) as (G & D & P & ps & S).
  destruct (save_calls_ok EO Hc HR G P D S Hb (room_fin Rm) Hok eq_refl) as (sl & Pm & So & F).
  assert (Hid : forall y, In y sl -> exists n, snd y = new_rev o (fst y) n).
  { intros y Hy. apply (Permutation_in _ (Permutation_sym Pm)) in Hy. clear - Hy. revert Hy. generalize (v_seq (ss_now s)). induction l as [|x l IH]; intros n Hy; [destruct Hy|].
    rewrite new_revs_cons in Hy. destruct Hy as [<-|Hy]; [cbn; eauto|]. eapply IH. exact Hy. }
  exists (map fst sl). split; [|split].
  - rewrite <- (Permutation_map fst Pm). rewrite <- (app_nil_r l) at 1. replace (map fst (combine l (new_revs o (v_seq (ss_now s)) l))) with l; [now rewrite app_nil_r|].
    clear. generalize (v_seq (ss_now s)). induction l as [|x l IH]; intros n; [reflexivity|]. rewrite new_revs_cons. cbn [combine map fst]. now rewrite <- IH.
  - clear - So Hid. induction So as [|y sl So IH Hf]; [constructor|]. cbn [map]. constructor; [apply IH; intros z Hz; apply Hid; now right|].
    rewrite Forall_map. rewrite Forall_forall in *. intros z Hz. specialize (Hf z Hz). destruct (Hid y (or_introl eq_refl)) as [n Hn]. destruct (Hid z (or_intror Hz)) as [m Hm].
    rewrite Hn, Hm in Hf. exact Hf.
  - clear - F Hid. induction F as [|call y cs sl Hy F IH]; [constructor|]. cbn [map]. constructor; [|apply IH; intros z Hz; apply Hid; now right].
    destruct (Hid y (or_introl eq_refl)) as [n Hn]. rewrite Hn in Hy. cbn [new_rev rv_id] in Hy. destruct Hy as (Y1 & (i & Y2 & Y3 & Y4) & Y5). split; [exact Y1|]. split; [|exact Y5].
    exists i. split; [exact Y2|]. split; [exact Y4|]. split; [exact (ab_rev_seq Y3)|exact (ab_rev_meta Y3)].
Qed.
Print Assumptions C18_calls.

Example C18_ex : @sessions env0 None gks sx3 /\ @can_save env0 sx3 cf so true batch2 (@save_documents env0 cf so true batch2 (ss_db sx3)) /\
  save_calls (sv_events (@save_documents env0 cf so true batch2 (ss_db sx3))) =
    [(Ok (Some (DocInfo [97] 2 1 [9; 1] false 128 59 11)), Ok (DocInfo [97] 5 2 [9; 2] false 0 4209 12), 22); (Ok None, Ok (DocInfo [99] 4 5 [9; 5] false 0 4201 8), 21)].
Proof.
  split; [exact sx3_session|]. split; [apply can_check; [discriminate|apply batch_check; vm_compute; reflexivity|vm_compute; reflexivity]|]. vm_compute. reflexivity.
Qed.

(** ** C34 *)

(** A save that fails, at any write: the handle has the header from before and reads everything as before. *)
Theorem C34_save : forall (E : Env), EnvOk E -> forall key getkey, key_ok key getkey ->
  forall s c o cb l R e, sessions key getkey s -> can_save s c o cb l R -> sv_res R = Err e -> lenN (v_docs (ss_now s)) < 2^40 ->
  dbh (sv_db R) = dbh (ss_db s) /\ same_reads (ss_db s) (sv_db R) /\ shows_contents (sv_db R) (ss_now s).
Proof.
  intros E EO key getkey KO s c o cb l R e H (Hc & HR & Hb & Rm) He Hl. destruct (sessions_stored EO KO H) as (G & D & P & ps & S).
  destruct (@save_documents_ok E EO anyf anye any_okerr c Hc cb o l _ _ ps R HR G Logic.I P D S Hb (room_fin Rm)) as (_ & Le & _ & D' & Q). rewrite He in Q. destruct Q as [_ Hh].
  split; [exact Hh|]. exact (failed_reads EO KO H S (le_keeps Le) (le_good Le) D' Hl Hh).
Qed.
Print Assumptions C34_save.

Theorem C34_local : forall (E : Env), EnvOk E -> forall key getkey, key_ok key getkey ->
  forall s c l d' e, sessions key getkey s -> 2 <= c_kv c -> Forall local_fits l -> NoDup (map ld_id l) -> room d' -> lenN (v_docs (ss_now s)) < 2^40 ->
  save_local_documents c (ss_db s) l = (Err e, d') ->
  dbh d' = dbh (ss_db s) /\ same_reads (ss_db s) d' /\ shows_contents d' (ss_now s).
Proof.
  intros E EO key getkey KO s c l d' e H Hc Hf Hn Rm Hl Hs. destruct (sessions_stored EO KO H) as (G & D & P & ps & S).
  destruct (@save_local_documents_ok E EO anyf anye any_okerr c Hc l _ _ ps _ _ G Logic.I D S Hn Hf Hs (room_fin' Rm)) as (_ & Le & _ & D' & _ & Hh).
  split; [exact Hh|]. exact (failed_reads EO KO H S (le_keeps Le) (le_good Le) D' Hl Hh).
Qed.
Print Assumptions C34_local.

Theorem C34_local_one : forall (E : Env), EnvOk E -> forall key getkey, key_ok key getkey ->
  forall s c x d' e, sessions key getkey s -> 2 <= c_kv c -> local_fits x -> room d' -> lenN (v_docs (ss_now s)) < 2^40 ->
  save_local_document c (ss_db s) x = (Err e, d') ->
  dbh d' = dbh (ss_db s) /\ same_reads (ss_db s) d' /\ shows_contents d' (ss_now s).
Proof.
  intros E EO key getkey KO s c x d' e H Hc Hf Rm Hl Hs. destruct (sessions_stored EO KO H) as (G & D & P & ps & S).
  destruct (@save_local_document_ok E EO anyf anye any_okerr c Hc x _ _ ps _ _ G Logic.I D S Hf Hs (room_fin' Rm)) as (_ & Le & _ & D' & _ & Hh).
  split; [exact Hh|]. exact (failed_reads EO KO H S (le_keeps Le) (le_good Le) D' Hl Hh).
Qed.
Print Assumptions C34_local_one.

(** The second save fails at the write of the sequence index; a further save and a commit succeed. *)
Definition bad : wstep := WStep 0 false (Some E_WRITE) false false.
Definition sy_plan : list wstep := repeat fine 15 ++ [bad].
Definition sy_db0 : db := snd (@open_new env0 (empty_file sy_plan) None false false).
Definition sy0 : session := Session sy_db0 no_contents None [Version (h_position (dbh sy_db0)) no_contents] [].
Definition sy1 : session := @after_docs env0 sy0 cf so true batch1.
Lemma sy0_session : @sessions env0 None gks sy0.
Proof.
  apply (@sess_new env0 None gks sy_plan false false sy_db0); [now left| |vm_compute; reflexivity].
  unfold sy_db0. assert (H : fst (@open_new env0 (empty_file sy_plan) None false false) = Ok tt) by (vm_compute; reflexivity).
  destruct (@open_new env0 (empty_file sy_plan) None false false) as [r d]. cbn [fst snd] in *. now subst r.
Qed.
Lemma sy1_session : @sessions env0 None gks sy1.
Proof.
  apply (sess_write sy0_session). apply docs_write; [discriminate| |vm_compute; reflexivity]. apply batch_check; vm_compute; reflexivity.
Qed.
Example C34_ex :
  @sessions env0 None gks sy1 /\ @can_save env0 sy1 cf so true batch2 (@save_documents env0 cf so true batch2 (ss_db sy1)) /\
  sv_res (@save_documents env0 cf so true batch2 (ss_db sy1)) = Err E_WRITE /\
  fpos (dbf (ss_db sy1)) < fpos (dbf (sv_db (@save_documents env0 cf so true batch2 (ss_db sy1)))) /\
  @open_document env0 (sv_db (@save_documents env0 cf so true batch2 (ss_db sy1))) [97] true = Ok [4;5].
Proof.
  split; [exact sy1_session|]. split; [apply can_check; [discriminate|apply batch_check; vm_compute; reflexivity|vm_compute; reflexivity]|]. vm_compute. auto.
Qed.

(** ** C01 and C21 in terms of documents *)

(** After an acknowledged commit and whatever happened since: opening what a crash left of the file succeeds and shows the documents of the
    last acknowledged commit, or those of a commit tried since. *)
Theorem C01_documents : forall (E : Env), EnvOk E -> forall key getkey, key_ok key getkey ->
  forall s v0, sessions key getkey s -> ss_ack s = Some v0 ->
  forall g gsz, crash_image (dbf (ss_db s)) g gsz -> forall pl recovery,
  exists d v, open_existing (image g gsz pl) getkey recovery false = Ok d /\ (v = v0 \/ In v (ss_pend s)) /\ shows_contents d (vn_contents v).
Proof.
  intros E EO key getkey KO s v0 H Ha g gsz C pl recovery. destruct (sessions_linked EO KO H) as [t L].
  destruct (link_open EO KO pl recovery L Ha C) as (d & v & s' & Ho & Hv & _ & Hs & Hr & _). exists d, v. split; [exact Ho|]. split; [exact Hv|].
  pose proof (C06_contents EO KO (sess_reopen H Hr)) as Sh. rewrite Hs in Sh. exact Sh.
Qed.
Print Assumptions C01_documents.

(** The example: after the first commit, with unsynced documents behind it. *)
Example C01_documents_ex : @sessions env0 None gks sx4 /\ (exists v0, ss_ack sx4 = Some v0) /\ crash_image (dbf (ss_db sx4)) (cur (dbf (ss_db sx4))) (size (dbf (ss_db sx4))).
Proof.
  split; [exact sx4_session|]. split.
  - assert (Hx : match ss_ack sx4 with Some _ => True | None => False end) by (vm_compute; exact Logic.I). destruct (ss_ack sx4) as [v|]; [exists v; reflexivity|destruct Hx].
  - destruct (sessions_stored env0_ok sx_key sx4_session) as (G & _). exact (image_now (proj1 G)).
Qed.

(** From the [i]-th newest commit, rewinding [k] times shows the documents of the [i+k]-th. *)
Theorem C21_documents : forall (E : Env), EnvOk E -> forall key getkey, key_ok key getkey ->
  forall s, sessions key getkey s -> h_version (dbh (ss_db s)) = 14 ->
  forall i k x y h p, nth_error (opt_list (ss_ack s) ++ ss_old s) i = Some x -> nth_error (opt_list (ss_ack s) ++ ss_old s) (i + k) = Some y ->
  find_header_at_pos (dbf (ss_db s)) header0 (vn_pos x) = (Ok tt, h) -> fpos (dbf (ss_db s)) <= p <= size (dbf (ss_db s)) ->
  exists d', rewinds k (reader s h p) = Ok d' /\ shows_contents d' (vn_contents y).
Proof.
  intros E EO key getkey KO s H Hver i k x y h p Hx Hy Hh Hp. destruct (sessions_linked EO KO H) as [t L]. destruct (link_inv EO KO L) as [B I].
  assert (F : Forall2 (ver key) (effective t) (opt_list (ss_ack s) ++ ss_old s)) by (apply Forall2_app; [exact (lk_ack L)|exact (lk_old L)]).
  assert (Nth : forall n z, nth_error (opt_list (ss_ack s) ++ ss_old s) n = Some z -> exists c, nth_error (effective t) n = Some c /\ ver key c z).
  { intros n. revert F. generalize (effective t), (opt_list (ss_ack s) ++ ss_old s). clear. intros cs vs F. revert n. induction F as [|c v cs vs Hcv F IH]; intros [|n] z; cbn [nth_error]; try discriminate; eauto.
    injection 1 as <-. eauto. }
  destruct (Nth _ _ Hx) as (c & Hc & Vc). destruct (Nth _ _ Hy) as (c' & Hc' & Vc').
  pose proof (linked_reads h L Hp) as Rd. pose proof (nth_error_In _ _ Hc) as Ic.
  assert (Hst : h = strip (c_hdr c)).
  { assert (Hr : reads t (ss_db s)). { rewrite <- (lk_db L). constructor; auto; [|exact (i_dropped I)]. pose proof (proj2 (i_good I)). lia. }
    pose proof (chain_header I c Hr Ic) as Hat. apply header_at_find with (h0 := header0) in Hat. unfold cpos in Hat. rewrite (proj1 Vc) in Hat. congruence. }
  assert (On : on (reader s h p) c) by (unfold on, reader; cbn [dbh]; rewrite Hst; apply strip_same).
  destruct (@rewind_back E key B t I k (reader s h p) i c c' Rd Hc On Hc') as (d' & R1 & R2 & R3 & R4); [left; now rewrite (lk_db L)|].
  exists d'. split; [exact R1|].
  destruct (sessions_stored EO KO H) as (G & D & _).
  destruct Vc' as [_ [ps V]].
  assert (Hs : stored (dbf d') (c_hdr c') (vn_contents y) ps).
  { rewrite R4. cbn [reader dbf]. assert (K : keeps (dbf (ss_db s)) (set_fpos (dbf (ss_db s)) p)) by (apply keeps_fpos; lia).
    apply (stored_keeps K). pose proof (chain_cw I c' (nth_error_In _ _ Hc')) as C. rewrite <- (lk_db L). apply V; [|exact (inv_fkey KO I)].
    intros q z Hz. pose proof (cw_has C q z Hz) as Q. unfold has. eapply chunk_at_mono; [exact Q|auto|]. pose proof (cw_end C). pose proof (hend_pos c'). lia. }
  assert (Gd : good (dbf d')) by (rewrite R4; cbn [reader dbf]; apply good_fpos; [exact G|lia]).
  apply (stored_shows EO Gd (r_open R2) (ps := ps)). revert Hs. apply stored_header.
  - apply same_root_sym, (sh_by_id R3).
  - apply same_root_sym, (sh_by_seq R3).
  - apply same_root_sym, (sh_local R3).
  - exact (sh_update_seq R3).
Qed.
Print Assumptions C21_documents.

Example C21_documents_ex : @sessions env0 None gks sx5 /\ h_version (dbh (ss_db sx5)) = 14 /\
  map vn_pos (opt_list (ss_ack sx5) ++ ss_old sx5) = [8192; 4096; 0] /\
  match @find_header_at_pos env0 (dbf (ss_db sx5)) header0 8192 with
  | (Ok tt, h) => match @rewinds env0 1 (reader sx5 h (fpos (dbf (ss_db sx5)))) with
                  | Ok d' => @open_document env0 d' [97] true = Ok [4;5] /\ @open_document env0 d' [99] true = Err E_DOC_NOT_FOUND
                  | Err _ => False
                  end
  | _ => False
  end.
Proof. split; [exact sx5_session|]. vm_compute. auto. Qed.
