(** Consequences for saving: shape and size of the indexes, sequence numbers and callback calls of one save, errors of a save. *)
From Verif Require Import Base SpecOrder Codec CodecFacts File FileFacts ChunkFacts Header HeaderFacts SpecFile DataFacts History CrashFacts OpenFacts NavFacts ReachNav
  SpecCrash CommitFacts Btree TreeStore SpecMap MergeFacts ModifyFacts BtreeRead LookupFacts Db SortFacts ReduceFacts SpecDb DbFacts DbSave DbRead SpecSession
  ShowFacts SessionFacts ReadFacts.
From Coq Require Import Permutation.
Local Open Scope N_scope.
Unset Strict Implicit.

Scheme subtree_ind2 := Induction for subtree Sort Prop with subtrees_ind2 := Induction for subtrees Sort Prop.

Lemma ss_map_impl A (P Q : A -> A -> Prop) l : (forall a b, P a b -> Q a b) -> StronglySorted P l -> StronglySorted Q l.
Proof. intros H. induction 1 as [|a l S IH F]; constructor; auto. revert F. apply Forall_impl. auto. Qed.

Section WithEnv.
Context {E : Env} (EO : EnvOk E).

(** ** Shape and size of an index *)

Lemma csize_overhead f n : csize f n = overhead f + n.
Proof. unfold csize, overhead. destruct (fkey f); lia. Qed.

Section Tree.
Variable rq : request.
Variable kvP : kv -> Prop.
Variable redP : bytes -> Prop.
Hypothesis HkvP : forall x, kvP x -> kv_ok x.
Hypothesis HredP : forall r, redP r -> lenN r < 2^16.
Variable f : file.
Hypothesis G : good f.

Lemma tree_subtree d : forall p kvs, tree rq kvP redP f d p kvs -> exists n, subtree f d (np_pointer p) kvs n /\ np_subtree p mod 2^48 = n mod 2^48.
Proof.
  induction d as [|d IH]; intros p kvs (H1 & H2 & H3 & H).
  - destruct H as (A1 & A2 & A3 & A4 & sz & (z & Hz & Hu & ->) & A6). exists (overhead f + lenN z). split; [|now rewrite A6, csize_overhead].
    apply sub_leaf with (b := mk_node KV_NODE kvs); auto.
    + exact (@has_read E EO _ _ _ G Hz).
    + apply node_items_mk. revert A2. apply Forall_impl. exact HkvP.
  - destruct H as (cs & ks & sz & A1 & A2 & -> & A4 & A5 & (z & Hz & Hu & ->) & A7 & A8).
    assert (Hc : exists ns, subtrees f d (map norm cs) ks ns /\ psum cs mod 2^48 = fold_right N.add 0 ns mod 2^48).
    { clear - A2 IH. induction A2 as [|c k cs ks Hc A2 IH2]; [exists []; split; [constructor|reflexivity]|].
      destruct IH2 as (ns & I1 & I2). destruct (IH _ _ Hc) as (n & J1 & J2). exists (n :: ns). split.
      - cbn [map]. constructor; [exact J1|exact (tree_key Hc)|exact I1].
      - unfold psum in *. cbn [fold_right]. rewrite N.add_mod, I2, J2, <- N.add_mod by discriminate. reflexivity. }
    destruct Hc as (ns & C1 & C2). exists (overhead f + lenN z + fold_right N.add 0 ns). split.
    + apply sub_inner with (b := mk_node KP_NODE (map kp_entry cs)) (entries := map kp_entry cs) (cs := map norm cs).
      * exact (@has_read E EO _ _ _ G Hz).
      * exact Hu.
      * reflexivity.
      * apply node_items_mk. clear - A2 HkvP HredP. induction A2 as [|c k cs ks H _ IH]; cbn [map]; constructor; auto.
        assert (Hk : lenN (np_key c) < 2^12 /\ lenN (np_reduce c) < 2^16).
        { destruct d; destruct H as (_ & H2 & H3 & _); split; auto. }
        split; cbn [kp_entry fst snd]; [tauto|]. rewrite lenN_encode_pointer. change (2^28) with 268435456. change (2^16) with 65536 in Hk. lia.
      * intros Hn. apply map_eq_nil in Hn. congruence.
      * clear - A2 HredP. induction A2 as [|c k cs ks H _ IH]; cbn [map]; constructor; auto. cbn [kp_entry fst snd].
        rewrite read_encode_pointer; [reflexivity|destruct d; apply H|]. apply HredP. destruct d; apply H.
      * exact C1.
    + rewrite A7, csize_overhead. rewrite (N.add_comm (psum cs)). rewrite N.add_mod, C2, <- N.add_mod by discriminate. reflexivity.
Qed.
Lemma rtree_subtree r kvs : rtree rq kvP redP f r kvs ->
  match r with
  | None => kvs = []
  | Some p => exists d n, subtree f d (np_pointer p) kvs n /\ np_subtree p mod 2^48 = n mod 2^48
  end.
Proof.
  destruct r as [p|]; [|auto]. intros (d & p' & T & P1 & _ & P2). destruct (tree_subtree T) as (n & Hn & Hs). exists d, n.
  rewrite <- P1, <- P2. auto.
Qed.
End Tree.

(** The three indexes. *)
Definition indexed (f : file) (r : option node_pointer) (kvs : list kv) (n : N) : Prop := index f r kvs n /\ sub r mod 2^48 = n mod 2^48.
Lemma rtree_index rq (kvP : kv -> Prop) (redP : bytes -> Prop) f r kvs : (forall x, kvP x -> kv_ok x) -> (forall r, redP r -> lenN r < 2^16) -> good f ->
  rtree rq kvP redP f r kvs -> exists n, indexed f r kvs n.
Proof.
  intros H1 H2 G T. pose proof (rtree_subtree H1 H2 G T) as H. destruct r as [p|]; [|exists 0; split; [split; auto|reflexivity]].
  destruct H as (d & n & Hn & Hs). exists n. split; [exists d; exact Hn|exact Hs].
Qed.
Lemma stored_indexes f h v ps : good f -> stored f h v ps -> exists a b c,
  indexed f (h_by_id h) (map id_entry (by_id (map fst ps))) a /\
  indexed f (h_by_seq h) (map seq_entry (by_seq (map fst ps))) b /\
  indexed f (h_local h) (by_key (v_locals v)) c.
Proof.
  intros G S. destruct (rtree_index HidP Hid_red G (sd_id S)) as [a Ha]. destruct (rtree_index HseqP Hseq_red G (sd_sq S)) as [b Hb].
  destruct (@rtree_index _ kv_ok loc_redP f _ _ (fun x H => H) Hloc_red G (sd_loc S)) as [c Hc]. exists a, b, c. auto.
Qed.

(** ** One save *)

Lemma new_revs_length o l : forall seq, length (new_revs o seq l) = length l.
Proof. induction l as [|x l IH]; intros seq; [reflexivity|]. rewrite new_revs_cons. cbn [length]. now rewrite IH. Qed.

Lemma add_docs_infos o l : forall seq f r f' infos, add_docs o seq f l = (Ok r, f', infos) -> last_seq o seq l < 2^48 ->
  map di_db_seq infos = map rv_seq (new_revs o seq l) /\ Forall2 (fun i x => i = with_seq (sb_info x) (di_db_seq i)) infos l.
Proof.
  induction l as [|x l IH]; intros seq f r f' infos; cbn [add_docs]; [intros H _; inv H; split; [reflexivity|constructor]|].
  intros H Hs. rewrite last_seq_cons in Hs. rewrite new_revs_cons.
  assert (Hm : so_as_is o = false -> (seq + 1) mod 2^64 = seq + 1).
  { intros Ho. rewrite Ho in Hs. pose proof (last_seq_ge o l (seq + 1)). apply N.mod_small. change (2^64) with 18446744073709551616. change (2^48) with 281474976710656 in Hs. lia. }
  assert (Hq : (if so_as_is o then N.max seq (di_db_seq (sb_info x)) else (seq + 1) mod 2^64) = (if so_as_is o then N.max seq (di_db_seq (sb_info x)) else seq + 1))
    by (destruct (so_as_is o); auto).
  rewrite Hq in H. set (seq' := if so_as_is o then N.max seq (di_db_seq (sb_info x)) else seq + 1) in *.
  set (info := if so_as_is o then sb_info x else with_seq (sb_info x) seq') in *.
  destruct (add_doc o f (sb_body x) info) as [[i|e] f1]; [|inv H].
  destruct (add_docs o seq' f1 l) as [[[[ds s]|e] f2] infos1] eqn:Ea; [|inv H]. inv H.
  destruct (IH _ _ _ _ _ Ea Hs) as [I1 I2]. cbn [map]. split; [|constructor; [|exact I2]].
  - rewrite I1. f_equal. unfold info, seq'. destruct (so_as_is o); reflexivity.
  - unfold info. destruct (so_as_is o); destruct (sb_info x); reflexivity.
Qed.

Lemma save_infos c o cb l d R : save_documents c o cb l d = R -> sv_res R = Ok tt -> last_seq o (h_update_seq (dbh d)) l < 2^48 ->
  map di_db_seq (sv_infos R) = map rv_seq (new_revs o (h_update_seq (dbh d)) l) /\
  Forall2 (fun i x => i = with_seq (sb_info x) (di_db_seq i)) (sv_infos R) l.
Proof.
  intros <- HR Hs. unfold save_documents in *. destruct (dropped d); [discriminate|].
  destruct (add_docs o (h_update_seq (dbh d)) (dbf d) l) as [[[[ds s]|e] f'] infos] eqn:Ea; [|discriminate].
  pose proof (add_docs_infos Ea Hs) as H. destruct (update_indexes c cb (Db f' (dbh d) false) ds) as [[[u|e] d'] ev]; exact H.
Qed.

Lemma find_new o l v r : NoDup (map (fun x => di_id (sb_info x)) l) -> NoDup (map rv_id (v_docs v)) -> In r (new_revs o (v_seq v) l) ->
  find_doc (rv_id r) (v_docs (save o l v)) = Some r.
Proof.
  intros Hn Hv Hi. unfold save, find_doc. cbn [v_docs]. change (fold_left (fun d r => put r d) ?a ?b) with (gputs rv_id a b).
  assert (Hnn : NoDup (map rv_id (new_revs o (v_seq v) l))) by (rewrite new_revs_ids; exact Hn).
  assert (Hr : In r (gputs rv_id (new_revs o (v_seq v) l) (v_docs v))) by (apply gputs_in; auto).
  pose proof (@gputs_nodup _ rv_id (new_revs o (v_seq v) l) _ Hv) as Hd.
  destruct (find (fun x => same (rv_id x) (rv_id r)) (gputs rv_id (new_revs o (v_seq v) l) (v_docs v))) as [r'|] eqn:Hf.
  - apply find_some in Hf. destruct Hf as [F1 F2]. apply same_true in F2. f_equal. eapply nodup_map_eq; eassumption.
  - apply List.find_none with (x := r) in Hf; [|exact Hr]. apply same_false in Hf. congruence.
Qed.
Lemma find_other o l v id : ~ In id (map (fun x => di_id (sb_info x)) l) -> find_doc id (v_docs (save o l v)) = find_doc id (v_docs v).
Proof.
  intros Hn. unfold save, find_doc. cbn [v_docs]. rewrite <- (new_revs_ids o l (v_seq v)) in Hn. revert Hn. generalize (new_revs o (v_seq v) l). intros rs. generalize (v_docs v).
  induction rs as [|r rs IH]; intros ds Hn; [reflexivity|]. cbn [fold_left]. rewrite IH by (intros H; apply Hn; now right).
  unfold put. cbn [find]. destruct (same (rv_id r) id) eqn:Hs; [apply same_true in Hs; exfalso; apply Hn; now left|].
  clear IH Hn. induction ds as [|x ds IH]; [reflexivity|]. cbn [filter find]. destruct (same (rv_id x) (rv_id r)) eqn:Hx; cbn [negb].
  - apply same_true in Hx. rewrite IH, Hx, Hs. reflexivity.
  - cbn [find]. destruct (same (rv_id x) id); [reflexivity|exact IH].
Qed.

Section One.
Variable c : cfg.
Hypothesis Hc : 2 <= c_kv c.
Variables (o : saveopts) (cb : bool) (l : list submit) (d : db) (v : contents) (ps : list (doc_info * revision)) (R : saved).
Hypothesis HR : save_documents c o cb l d = R.
Hypothesis G : good (dbf d).
Hypothesis P : 1 <= fpos (dbf d).
Hypothesis Hd : dropped d = false.
Hypothesis S : stored (dbf d) (dbh d) v ps.
Hypothesis Hb : batch_ok o l v.
Hypothesis F : fin47 (dbf (sv_db R)).

Lemma save_other id : ~ In id (map (fun x => di_id (sb_info x)) l) -> docinfo_by_id (sv_db R) id = docinfo_by_id d id.
Proof.
  intros Hn. destruct (@save_documents_ok E EO anyf anye any_okerr c Hc cb o l _ _ ps R HR G Logic.I P Hd S Hb F) as (_ & Le & _ & Hd' & H).
  pose proof (le_good Le) as G'. destruct (sv_res R) as [u|e].
  - destruct H as (a & b & ds & Hh & Hrep & _ & S' & _). rewrite (docinfo_by_id_eq EO G' Hd' S'), (docinfo_by_id_eq EO G Hd S).
    assert (He : old_of (map fst (gputs pid (newp ds (new_revs o (v_seq v) l)) ps)) id = old_of (map fst ps) id); [|now rewrite He].
    pose proof (ids_nodup S') as N'. pose proof (ids_nodup S) as N0.
    assert (Hdn : map pid (newp ds (new_revs o (v_seq v) l)) = map (fun x => di_id (sb_info x)) l).
    { rewrite <- (new_revs_ids o l (v_seq v)). unfold newp. clear - Hrep. induction Hrep as [|x r ds rs Hx Hrep IH]; [reflexivity|]. cbn [map combine]. rewrite IH. f_equal.
      exact (ab_id (proj1 Hx)). }
    assert (Hin : forall i, (In i (map fst (gputs pid (newp ds (new_revs o (v_seq v) l)) ps)) /\ di_id i = id) <-> (In i (map fst ps) /\ di_id i = id)).
    { intros i. split; intros [Hi <-]; (split; [|reflexivity]); apply in_map_iff in Hi; destruct Hi as (p & <- & Hi); apply in_map_iff; exists p; (split; [reflexivity|]).
      - apply gputs_in in Hi; [|rewrite Hdn; exact (bt_ids Hb)]. destruct Hi as [Hi|[Hi _]]; [|exact Hi].
        exfalso. apply Hn. rewrite <- Hdn. apply in_map_iff. exists p. auto.
      - apply gputs_in; [rewrite Hdn; exact (bt_ids Hb)|]. right. split; [exact Hi|]. intros y Hy He. apply Hn. rewrite <- Hdn. apply in_map_iff. exists y. auto. }
    destruct (old_of (map fst ps) id) as [i|] eqn:Ho.
    + apply (proj1 (@old_of_some _ N0 id i)) in Ho. apply (@old_of_some _ N'), Hin. exact Ho.
    + destruct (old_of (map fst (gputs pid (newp ds (new_revs o (v_seq v) l)) ps)) id) as [i|] eqn:Ho'; [|reflexivity].
      apply (proj1 (@old_of_some _ N' id i)), Hin, (@old_of_some _ N0) in Ho'. congruence.
  - destruct H as [_ Hh]. assert (S' : stored (dbf (sv_db R)) (dbh (sv_db R)) v ps) by (rewrite Hh; exact (stored_keeps (le_keeps Le) S)).
    now rewrite (docinfo_by_id_eq EO G' Hd' S'), (docinfo_by_id_eq EO G Hd S).
Qed.

(** The calls of the save callback. *)
Lemma save_calls_ok : sv_res R = Ok tt -> cb = true -> exists sl,
  Permutation (combine l (new_revs o (v_seq v) l)) sl /\ StronglySorted (fun a b => lex (rv_id (snd a)) (rv_id (snd b))) sl /\
  Forall2 (fun call y => fst (fst call) = before_of (docinfo_by_id d (rv_id (snd y))) /\
      (exists i, snd (fst call) = Ok i /\ about i (snd y) /\ docinfo_by_id (sv_db R) (rv_id (snd y)) = Ok i) /\ snd call = sb_req (fst y))
    (save_calls (sv_events R)) sl.
Proof.
  intros Hok Hcb. destruct (@save_documents_ok E EO anyf anye any_okerr c Hc cb o l _ _ ps R HR G Logic.I P Hd S Hb F) as (_ & Le & _ & Hd' & H).
  pose proof (le_good Le) as G'. rewrite Hok in H. destruct H as (a & b & ds & Hh & Hrep & Hreq & S' & Hev).
  set (rs := new_revs o (v_seq v) l) in *.
  assert (Hdn : map pid (newp ds rs) = map (fun x => di_id (sb_info x)) l).
  { rewrite <- (new_revs_ids o l (v_seq v)). fold rs. unfold newp. clear - Hrep. induction Hrep as [|x r ds rs Hx Hrep IH]; [reflexivity|]. cbn [map combine]. rewrite IH. f_equal.
    exact (ab_id (proj1 Hx)). }
  assert (Hin : forall x, In x ds -> In (fst x) (map fst (gputs pid (newp ds rs) ps))).
  { intros x Hx. assert (Hp : exists r, In (fst x, r) (newp ds rs)).
    { unfold newp. clear - Hrep Hx. induction Hrep as [|y r ds rs Hy Hrep IH]; [destruct Hx|]. cbn [map combine]. destruct Hx as [->|Hx]; [exists r; now left|].
      destruct (IH Hx) as [r' Hr]. exists r'. now right. }
    destruct Hp as [r Hr]. apply in_map_iff. exists (fst x, r). split; [reflexivity|]. apply gputs_in; [rewrite Hdn; exact (bt_ids Hb)|now left]. }
  assert (F2 : Forall2 (fun x (y : submit * revision) => rep (dbf (sv_db R)) (fst x) (snd y) /\ snd x = sb_req (fst y)) ds (combine l rs)).
  { assert (Hl : length ds = length l) by (rewrite <- (map_length snd ds), Hreq, map_length; reflexivity).
    clear - Hrep Hreq. revert Hreq. generalize l. induction Hrep as [|x r ds rs Hx Hrep IH]; intros [|y l'] Hq; try discriminate; [constructor|].
    cbn [map] in Hq. injection Hq as Hq1 Hq2. cbn [combine]. constructor; [split; assumption|]. exact (IH _ Hq2). }
  set (gt := fun a b : doc_info * N => gtc (ebin_cmp (di_id (fst a)) (di_id (fst b)))).
  pose (gt' := fun a b : submit * revision => gtc (ebin_cmp (rv_id (snd a)) (rv_id (snd b)))).
  exists (isort gt' (combine l rs)). split; [apply isort_perm|].
  assert (Hm : map (fun y : submit * revision => rv_id (snd y)) (combine l rs) = map (fun x => di_id (sb_info x)) l).
  { rewrite <- (new_revs_ids o l (v_seq v)). fold rs. rewrite <- map_map with (f := snd) (g := rv_id). f_equal.
    assert (Hl : length l = length rs) by (symmetry; apply new_revs_length). clearbody rs. clear - Hl. revert rs Hl.
    induction l as [|x l' IH]; intros [|r rs] Hl; try discriminate; [reflexivity|]. cbn [combine map]. now rewrite IH by (injection Hl; auto). }
  split.
  - apply ss_map_impl with (P := fun a b : submit * revision => ebin_cmp (rv_id (snd a)) (rv_id (snd b)) = Lt).
    { intros x y Hxy. apply ebin_lex. exact Hxy. }
    apply (@isort_ss _ (fun y : submit * revision => rv_id (snd y)) ebin_cmp (combine l rs) ord_ebin); [intros; now apply ebin_eq|].
    rewrite Hm. exact (bt_ids Hb).
  - assert (F3 : Forall2 (fun x (y : submit * revision) => rep (dbf (sv_db R)) (fst x) (snd y) /\ snd x = sb_req (fst y)) (isort gt ds) (isort gt' (combine l rs))).
    { apply isort_Forall2; [|exact F2]. intros x y x' y' [[A _] _] [[A' _] _]. unfold gt, gt'. now rewrite (ab_id A), (ab_id A'). }
    rewrite Hev. unfold id_actions. fold gt.
    assert (Hsub : forall x, In x (isort gt ds) -> In x ds) by (intros x Hx; now apply isort_in in Hx).
    revert F3 Hsub. generalize (isort gt ds) (isort gt' (combine l rs)). intros xs ys F3. induction F3 as [|x y xs ys [Hr Hq] F3 IH]; intros Hsub; [constructor|].
    cbn [map flat_map]. rewrite Hcb. unfold ev_a at 1. cbn [id_action a_type a_key ev_f ev_s app a_data a_req save_calls flat_map save_call].
    constructor; [|rewrite Hcb in IH; apply IH; intros z Hz; apply Hsub; now right]. cbn [fst snd]. pose proof (ab_id (proj1 Hr)) as Hid. rewrite <- Hid.
    split; [|split; [|exact Hq]].
    + rewrite (docinfo_by_id_eq EO G Hd S). destruct (old_of (map fst ps) (di_id (fst x))) as [i|] eqn:Ho; [|reflexivity]. cbn [option_map before_of].
      apply (proj1 (@old_of_some _ (ids_nodup S) _ i)) in Ho. destruct Ho as [Ho <-]. rewrite (read_id S Ho). reflexivity.
    + pose proof (Hin x (Hsub x (or_introl eq_refl))) as Hi. exists (fst x). rewrite (read_id S' Hi). split; [reflexivity|]. split; [exact (proj1 Hr)|].
      rewrite (docinfo_by_id_eq EO G' Hd' S'). assert (Ho : old_of (map fst (gputs pid (newp ds rs) ps)) (di_id (fst x)) = Some (fst x)) by (apply (@old_of_some _ (ids_nodup S')); auto).
      now rewrite Ho.
Qed.
End One.

(** ** The errors of a save *)

Definition sane (f : file) : Prop := crcm f <> CRC_UNKNOWN /\ plan_ok f.

Lemma plan_step f s f1 : plan_ok f -> next_step f = (s, f1) -> plan_ok f1 /\ match s with Some x => match w_err x with Some e => e = E_WRITE | None => True end | None => True end /\
  dead f1 = dead f /\ crcm f1 = crcm f /\ fkey f1 = fkey f.
Proof.
  unfold next_step, plan_ok. destruct (plan f) as [|x p] eqn:Hp; intros F H; inv H; [rewrite Hp; auto|]. inv F. cbn. auto.
Qed.
Lemma put_plan f off b : plan (File.put f off b) = plan f /\ crcm (File.put f off b) = crcm f /\ fkey (File.put f off b) = fkey f.
Proof. unfold File.put. destruct (lenN b =? 0); auto. Qed.

Lemma pwrite_io f off b r f' : b <> [] -> plan_ok f -> pwrite f off b = (r, f') ->
  plan_ok f' /\ crcm f' = crcm f /\ fkey f' = fkey f /\ match r with Ok n => 1 <= n | Err e => e = E_WRITE end.
Proof.
  intros Hb HP. assert (Hlen : 1 <= lenN b) by (destruct b; [congruence|rewrite lenN_cons; lia]).
  unfold pwrite. destruct (dead f); [intros H; inv H; auto|]. destruct (next_step f) as [s f1] eqn:Hs.
  destruct (plan_step HP Hs) as (P1 & P2 & _ & P4 & P5). destruct s as [s|].
  - set (n := N.min _ _). destruct (put_plan f1 off (take n b)) as (A1 & A2 & A3).
    set (f3 := if w_sync s then do_sync (File.put f1 off (take n b)) else File.put f1 off (take n b)).
    assert (B : plan f3 = plan f1 /\ crcm f3 = crcm f /\ fkey f3 = fkey f) by (unfold f3; destruct (w_sync s); cbn [do_sync plan crcm fkey]; rewrite A1, A2, A3, P4, P5; auto).
    destruct B as (B1 & B2 & B3). destruct (w_die s) eqn:Hdie; [intros H; inv H; unfold plan_ok; cbn [set_dead plan crcm fkey]; rewrite B1; auto|].
    destruct (w_err s) as [e|] eqn:He; intros H; inv H.
    + unfold plan_ok. destruct (w_lossy s); cbn [lose plan crcm fkey]; rewrite B1; auto.
    + unfold plan_ok. rewrite B1. repeat split; auto. unfold n. cbn [orb]. lia.
  - intros H; inv H. destruct (put_plan f1 off b) as (A1 & A2 & A3). unfold plan_ok. rewrite A1, A2, A3, P4, P5. auto.
Qed.
Lemma write_entire_io fuel : forall f off b r f', (length b < fuel)%nat -> plan_ok f -> write_entire fuel f off b = (r, f') ->
  plan_ok f' /\ crcm f' = crcm f /\ fkey f' = fkey f /\ match r with Ok _ => True | Err e => e = E_WRITE end.
Proof.
  induction fuel as [|fuel IH]; intros f off b r f' Hf HP; [lia|]. cbn [write_entire]. destruct b as [|x b]; [intros H; inv H; auto|].
  destruct (pwrite f off (x :: b)) as [[n|e] f1] eqn:Hw; destruct (pwrite_io (b := x :: b) ltac:(discriminate) HP Hw) as (P1 & P2 & P3 & P4).
  - intros H. eapply IH in H; [destruct H as (Q1 & Q2 & Q3 & Q4); repeat split; auto; congruence| |exact P1].
    pose proof (lenN_drop n (x :: b)) as Hd. rewrite lenN_cons in Hd. unfold lenN in Hd. cbn [length] in *. lia.
  - intros H; inv H. auto.
Qed.
Lemma write_all_io f off b r f' : plan_ok f -> write_all f off b = (r, f') ->
  plan_ok f' /\ crcm f' = crcm f /\ fkey f' = fkey f /\ match r with Ok _ => True | Err e => e = E_WRITE end.
Proof. intros HP. apply write_entire_io; [lia|exact HP]. Qed.
Lemma raw_loop_io fuel : forall t f wp b r f', (2 * length b + (if (wp mod BLOCK =? 0)%N then 1 else 0) <= fuel)%nat -> plan_ok f -> raw_write_loop fuel t f wp b = (r, f') ->
  plan_ok f' /\ crcm f' = crcm f /\ fkey f' = fkey f /\ match r with Ok _ => True | Err e => e = E_WRITE end.
Proof.
  induction fuel as [|fuel IH]; intros t f wp b r f' Hf HP; cbn [raw_write_loop].
  - destruct b; [intros H; inv H; auto|cbn [length] in Hf; lia].
  - destruct b as [|x b]; [intros H; inv H; auto|]. destruct (wp mod BLOCK =? 0) eqn:Hm.
    + destruct (write_all f wp [t]) as [[u|e] f1] eqn:Hw; destruct (write_all_io HP Hw) as (P1 & P2 & P3 & P4); [|intros H; inv H; auto].
      intros H. eapply IH in H; [destruct H as (Q1 & Q2 & Q3 & Q4); repeat split; auto; congruence| |exact P1].
      assert (Hm1 : (wp + 1) mod BLOCK =? 0 = false).
      { apply N.eqb_eq in Hm. apply N.eqb_neq. rewrite N.add_mod by discriminate. rewrite Hm. discriminate. }
      rewrite Hm1. cbn [length] in *. lia.
    + set (k := N.min (BLOCK - wp mod BLOCK) (lenN (x :: b))).
      assert (Hk : 1 <= k).
      { pose proof (N.mod_upper_bound wp BLOCK ltac:(discriminate)). unfold k. rewrite lenN_cons. lia. }
      destruct (write_all f wp (take k (x :: b))) as [[u|e] f1] eqn:Hw; destruct (write_all_io HP Hw) as (P1 & P2 & P3 & P4); [|intros H; inv H; auto].
      intros H. eapply IH in H; [destruct H as (Q1 & Q2 & Q3 & Q4); repeat split; auto; congruence| |exact P1].
      pose proof (lenN_drop k (x :: b)) as Hd. rewrite lenN_cons in Hd. unfold lenN in Hd. cbn [length] in *. clearbody k. cbv iota in Hf. match goal with |- context [if ?c then _ else _] => destruct c end; lia.
Qed.
Lemma raw_write_io t f pos b r f' : plan_ok f -> raw_write t f pos b = (r, f') ->
  plan_ok f' /\ crcm f' = crcm f /\ fkey f' = fkey f /\ match r with Ok _ => True | Err e => e = E_WRITE end.
Proof. intros HP. apply raw_loop_io; [destruct (_ =? 0); lia|exact HP]. Qed.

Lemma note_big_plan f n : plan (note_big f n) = plan f /\ crcm (note_big f n) = crcm f /\ fkey (note_big f n) = fkey f.
Proof. unfold note_big. auto. Qed.
Lemma write_buf_io f b r f' : sane f -> db_write_buf f b = (r, f') -> sane f' /\ match r with Ok _ => True | Err e => io_error e end.
Proof.
  intros [M HP]. unfold db_write_buf. destruct (fkey f) as [k|].
  - unfold write_encrypted. destruct (2^32 <=? lenN b + mac_size); [intros H; inv H; split; [split; auto|exact Logic.I]|].
    destruct (raw_write B_DATA f (fpos f) _) as [[e1|e] f1] eqn:Hw; destruct (raw_write_io HP Hw) as (P1 & P2 & P3 & P4); intros H; inv H.
    + split; [|exact Logic.I]. split; [cbn; congruence|exact P1].
    + split; [|exact Logic.I]. split; [congruence|exact P1].
  - destruct (get_checksum (crcm f) b) as [ck|e] eqn:Hg; [|unfold get_checksum in Hg; destruct (crcm f); congruence].
    destruct (raw_write B_DATA f (fpos f) _) as [[e1|e] f1] eqn:Hw; destruct (raw_write_io HP Hw) as (P1 & P2 & P3 & P4).
    + destruct (raw_write B_DATA f1 e1 b) as [[e2|e] f2] eqn:Hw2; destruct (raw_write_io P1 Hw2) as (Q1 & Q2 & Q3 & Q4); intros H; inv H;
        (split; [|exact Logic.I]; split; [cbn; congruence|exact Q1]).
    + intros H; inv H. split; [|exact Logic.I]. split; [congruence|exact P1].
Qed.
Lemma io_okerr : okerr sane io_error.
Proof.
  constructor.
  - intros f b r f' H _ Hw. exact (proj1 (write_buf_io H Hw)).
  - intros f b e f' H _ Hw _. unfold db_write_buf_compressed in Hw. destruct (compress b) as [z|]; [exact (proj2 (write_buf_io H Hw))|inv Hw; exact Logic.I].
  - intros f b e f' H _ _ Hw _. exact (proj2 (write_buf_io H Hw)).
Qed.
End WithEnv.
