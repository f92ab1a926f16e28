(** The index updates of a save, and the save as a whole. *)
From Verif Require Import Base Codec CodecFacts File FileFacts ChunkFacts Header Btree TreeStore SpecMap MergeFacts ModifyFacts BtreeRead LookupFacts Db SortFacts ReduceFacts SpecDb DbFacts.
Local Open Scope N_scope.

Lemma fold_single cmp l : (forall a, cmp a a = Eq) -> StronglySorted (fun a b => cmp (a_key a) (a_key b) = Lt) l -> single cmp l.
Proof.
  intros _ H. induction H as [|a l H IH Hall]; cbn [single]; [exact I|]. split; [|exact IH]. intros _. eapply Forall_impl; [|exact Hall]. intros b ->. discriminate.
Qed.
Lemma strict_asorted cmp l : StronglySorted (fun a b => cmp (a_key a) (a_key b) = Lt) l -> asorted cmp l.
Proof. apply ss_impl. intros a b _ _ ->. discriminate. Qed.

Section Lists.
Variable is : list doc_info.
Variable ds : list (doc_info * N).
Hypothesis Hok : Forall dok is.
Hypothesis Hids : NoDup (map di_id is).
Hypothesis Hseqs : NoDup (map di_db_seq is).
Hypothesis Dok : Forall dok (map fst ds).
Hypothesis Dids : NoDup (map di_id (map fst ds)).

Let news := map fst ds.
Let is' := gputs di_id news is.
Lemma in_is' x : In x is' <-> In x news \/ (In x is /\ forall y, In y news -> di_id y <> di_id x).
Proof. apply gputs_in. exact Dids. Qed.
Lemma is'_ok : Forall dok is'.
Proof.
  apply Forall_forall. intros x Hx. apply in_is' in Hx. rewrite Forall_forall in Hok, Dok. destruct Hx as [Hx|[Hx _]]; auto.
Qed.
Lemma is'_ids : NoDup (map di_id is').
Proof. now apply gputs_nodup. Qed.

Lemma id_actions_strict : StronglySorted (fun a b => ebin_cmp (a_key a) (a_key b) = Lt) (id_actions ds).
Proof.
  unfold id_actions. rewrite <- ss_map. cbn [id_action a_key].
  apply (@isort_ss _ (fun x : doc_info * N => di_id (fst x)) ebin_cmp); [apply ord_ebin| |].
  - intros a b _ _. now rewrite ebin_eq.
  - rewrite map_map in Dids. exact Dids.
Qed.
Lemma in_id_actions a : In a (id_actions ds) <-> exists x, In x ds /\ a = id_action x.
Proof.
  unfold id_actions. rewrite in_map_iff. split; intros (x & H1 & H2); exists x.
  - apply isort_in in H2. auto.
  - split; [auto|]. now apply isort_in.
Qed.

Lemma id_merge : merge ebin_cmp (map id_entry (by_id is)) (id_actions ds) = map id_entry (by_id is').
Proof.
  pose proof id_actions_strict as Hst. pose proof (@by_id_sorted is Hids) as Hs.
  assert (Hsi : single ebin_cmp (id_actions ds)) by (apply fold_single; [apply ebin_refl|exact Hst]).
  apply (sorted_ext ord_ebin).
  - apply (merge_sorted ord_ebin); [exact Hs|now apply strict_asorted|exact Hsi].
  - apply by_id_sorted, is'_ids.
  - intros x. rewrite (@merge_members ebin_cmp ord_ebin (fun _ => True)); try assumption; auto using strict_asorted.
    2:{ intros a b _ _. now rewrite ebin_eq. }
    split.
    + intros [(a & Ha & Hi & ->)|[Hx Hn]].
      * apply in_id_actions in Ha. destruct Ha as (y & Hy & ->). change (id_entry (fst y)) with (a_key (id_action y), a_data (id_action y)) || idtac.
        change (a_key (id_action y), a_data (id_action y)) with (id_entry (fst y)). apply in_map. apply in_by_id, in_is'. left. unfold news. now apply in_map.
      * apply in_map_iff in Hx. destruct Hx as (i & <- & Hi). apply in_map. apply in_by_id, in_is'. right. split; [now apply in_by_id|].
        intros y Hy He. unfold news in Hy. apply in_map_iff in Hy. destruct Hy as (z & <- & Hz).
        assert (Hf : a_type (id_action z) = A_FETCH) by (apply Hn; [apply in_id_actions; eauto|cbn [id_action a_key id_entry fst]; congruence]). discriminate.
    + intros Hx. apply in_map_iff in Hx. destruct Hx as (i & <- & Hi). rewrite in_by_id, in_is' in Hi. destruct Hi as [Hi|[Hi Hn]].
      * left. unfold news in Hi. apply in_map_iff in Hi. destruct Hi as (z & <- & Hz). exists (id_action z). split; [apply in_id_actions; eauto|]. split; reflexivity.
      * right. split; [apply in_map; now apply in_by_id|]. intros a Ha He. apply in_id_actions in Ha. destruct Ha as (z & Hz & ->). exfalso.
        cbn [id_action a_key id_entry fst] in He. eapply Hn; [|exact He]. unfold news. now apply in_map.
Qed.

(** The events of the id index update, and the removals they lead to. *)
Variable sav : bool.
Let events := evs ebin_cmp true sav (map id_entry (by_id is)) (id_actions ds).

Definition old_of (id : bytes) : option doc_info := find (fun i => same (di_id i) id) is.
Lemma old_of_some id i : old_of id = Some i <-> In i is /\ di_id i = id.
Proof.
  unfold old_of. split.
  - intros H. apply find_some in H. rewrite same_true in H. exact H.
  - intros [H1 H2]. destruct (find (fun i => same (di_id i) id) is) as [j|] eqn:Hf.
    + apply find_some in Hf. rewrite same_true in Hf. f_equal. eapply nodup_map_eq; [exact Hids|tauto|exact H1|]. destruct Hf as [_ ->]. auto.
    + exfalso. eapply find_none in Hf; [|exact H1]. rewrite same_false in Hf. auto.
Qed.
Lemma lookup_old id : lookup ebin_cmp id (map id_entry (by_id is)) = option_map assemble_id_index_value (old_of id).
Proof.
  pose proof (@by_id_sorted is Hids) as Hs. destruct (old_of id) as [i|] eqn:Ho; cbn [option_map].
  - apply old_of_some in Ho. destruct Ho as [H1 H2].
    apply (@lookup_in ebin_cmp ord_ebin (fun _ => True)); auto; [intros a b _ _; now rewrite ebin_eq|].
    rewrite <- H2. change (di_id i, assemble_id_index_value i) with (id_entry i). apply in_map. now apply in_by_id.
  - destruct (lookup ebin_cmp id (map id_entry (by_id is))) as [v|] eqn:Hl; [|reflexivity]. exfalso.
    apply (@lookup_in ebin_cmp ord_ebin (fun _ => True)) in Hl; auto; [|intros a b _ _; now rewrite ebin_eq].
    apply in_map_iff in Hl. destruct Hl as (i & He & Hi). rewrite in_by_id in Hi.
    assert (Hx : old_of id = Some i) by (apply old_of_some; split; [exact Hi|exact (f_equal fst He)]). congruence.
Qed.

Lemma events_eq : events = flat_map (fun a => ev_a true sav a (option_map assemble_id_index_value (old_of (a_key a)))) (id_actions ds).
Proof.
  unfold events. rewrite (evs_lookup ord_ebin); [|apply by_id_sorted; exact Hids|exact id_actions_strict].
  apply flat_map_ext. intros a. now rewrite lookup_old.
Qed.

Lemma in_removals a : In a (removals events) <-> exists x i, In x ds /\ In i is /\ di_id i = di_id (fst x) /\ a = Action A_REMOVE (be 6 (di_db_seq i)) [] 0.
Proof.
  unfold removals. rewrite events_eq, in_flat_map. split.
  - intros (ev & Hev & Ha). apply in_flat_map in Hev. destruct Hev as (b & Hb & Hev). apply in_id_actions in Hb. destruct Hb as (x & Hx & ->).
    unfold ev_a in Hev. cbn [id_action a_type a_key] in Hev. unfold ev_f, ev_s in Hev. apply in_app_or in Hev. destruct Hev as [[<-|[]]|Hev].
    + cbn [removal] in Ha. destruct (old_of (di_id (fst x))) as [i|] eqn:Ho; [|destruct Ha]. cbn [option_map] in Ha. apply old_of_some in Ho. destruct Ho as [H1 H2].
      rewrite id_value_seq in Ha by (rewrite Forall_forall in Hok; apply Hok; exact H1). destruct Ha as [<-|[]]. exists x, i. auto.
    + destruct sav; [|destruct Hev]. destruct Hev as [<-|[]]. destruct Ha.
  - intros (x & i & Hx & Hi & He & ->). exists (EvFetch (di_id (fst x)) (Some (assemble_id_index_value i))). split.
    + apply in_flat_map. exists (id_action x). split; [apply in_id_actions; eauto|]. cbn [id_action a_key]. 
      assert (Ho : old_of (di_id (fst x)) = Some i) by (apply old_of_some; auto). rewrite Ho. unfold ev_a. cbn [a_type option_map]. unfold ev_f. now left.
    + cbn [removal]. rewrite id_value_seq by (rewrite Forall_forall in Hok; apply Hok; exact Hi). now left.
Qed.

(** New sequence numbers are distinct, and none of them belongs to a document that stays. *)
Hypothesis Dseqs : NoDup (map di_db_seq news).
Hypothesis Dfresh : forall i y, In i is -> In y news -> di_db_seq i = di_db_seq y -> exists z, In z news /\ di_id z = di_id i.

Lemma is'_seqs : NoDup (map di_db_seq is').
Proof.
  apply nodup_map_inj; [eapply nodup_of_map; exact is'_ids|]. intros x y Hx Hy He. apply in_is' in Hx. apply in_is' in Hy.
  destruct Hx as [Hx|[Hx Nx]], Hy as [Hy|[Hy Ny]].
  - eapply nodup_map_eq; [exact Dseqs| | |]; assumption.
  - exfalso. destruct (Dfresh _ _ Hy Hx (eq_sym He)) as (z & Hz & Hz'). exact (Ny z Hz Hz').
  - exfalso. destruct (Dfresh _ _ Hx Hy He) as (z & Hz & Hz'). exact (Nx z Hz Hz').
  - eapply nodup_map_eq; [exact Hseqs| | |]; assumption.
Qed.

Lemma in_seq_actions a : In a (seq_actions (removals events) ds) <-> In a (removals events) \/ exists x, In x ds /\ a = seq_action x.
Proof.
  unfold seq_actions. rewrite isort_in, in_app_iff, in_map_iff. split; intros [H|(x & H1 & H2)]; auto; right; exists x; auto.
Qed.
Definition six (k : bytes) : Prop := exists n, n < 2^48 /\ k = be 6 n.
Lemma six_eq a b : six a -> six b -> seq_cmp a b = Eq -> a = b.
Proof. intros (x & Hx & ->) (y & Hy & ->). rewrite seq_cmp_be by assumption. intros H. apply N.compare_eq in H. congruence. Qed.
Lemma six_dok d : dok d -> six (be 6 (di_db_seq d)).
Proof. intros H. exists (di_db_seq d). split; [now apply dok_seq|reflexivity]. Qed.
Lemma is_dok i : In i is -> dok i. Proof. rewrite Forall_forall in Hok. auto. Qed.
Lemma new_dok x : In x ds -> dok (fst x). Proof. rewrite Forall_forall in Dok. intros H. apply Dok. now apply in_map. Qed.
Lemma seq_actions_six a : In a (seq_actions (removals events) ds) -> six (a_key a).
Proof.
  intros H. apply in_seq_actions in H. destruct H as [H|(x & Hx & ->)].
  - apply in_removals in H. destruct H as (x & i & Hx & Hi & _ & ->). cbn [a_key]. apply six_dok. now apply is_dok.
  - cbn [seq_action a_key]. apply six_dok. now apply new_dok.
Qed.
Lemma sag_total a b : seq_action_gt a b = true -> seq_action_gt b a = false.
Proof.
  unfold seq_action_gt. rewrite (o_anti ord_seq (a_key a) (a_key b)). destruct (seq_cmp (a_key a) (a_key b)); cbn [CompOpp]; intros H; try congruence.
  apply N.ltb_lt in H. apply N.ltb_ge. lia.
Qed.
Lemma sag_trans a b c : seq_action_gt a b = false -> seq_action_gt b c = false -> seq_action_gt a c = false.
Proof.
  unfold seq_action_gt, seq_cmp. destruct (N.compare_spec (unbe (take 6 (a_key a))) (unbe (take 6 (a_key b)))) as [H|H|H]; try discriminate;
  destruct (N.compare_spec (unbe (take 6 (a_key b))) (unbe (take 6 (a_key c)))) as [H'|H'|H']; try discriminate;
  destruct (N.compare_spec (unbe (take 6 (a_key a))) (unbe (take 6 (a_key c)))) as [H''|H''|H'']; try reflexivity; try lia;
  rewrite ?N.ltb_ge; intros; try lia; try reflexivity.
Qed.
Lemma seq_actions_sorted : StronglySorted (fun a b => seq_action_gt a b = false) (seq_actions (removals events) ds).
Proof. apply isort_sorted; [exact sag_total|exact sag_trans]. Qed.
Lemma seq_actions_asorted : asorted seq_cmp (seq_actions (removals events) ds).
Proof.
  eapply ss_impl; [|exact seq_actions_sorted]. intros a b _ _. unfold seq_action_gt. destruct (seq_cmp (a_key a) (a_key b)); discriminate || (intros _; discriminate).
Qed.
Lemma seq_actions_types a : In a (seq_actions (removals events) ds) -> a_type a = A_REMOVE \/ a_type a = A_INSERT.
Proof.
  intros H. apply in_seq_actions in H. destruct H as [H|(x & Hx & ->)]; [|now right]. apply in_removals in H. destruct H as (x & i & _ & _ & _ & ->). now left.
Qed.
Lemma seq_actions_single : single seq_cmp (seq_actions (removals events) ds).
Proof.
  apply (@single_nodup seq_cmp six six_eq).
  - eapply ss_impl; [|exact seq_actions_sorted]. intros a b Ha Hb Hg Hi He. unfold seq_action_gt in Hg. rewrite He in Hg. apply N.ltb_ge in Hg.
    destruct (seq_actions_types _ Ha) as [Ht|Ht], (seq_actions_types _ Hb) as [Ht'|Ht']; unfold inserts in *; rewrite Ht, Ht' in *; try discriminate; try reflexivity.
    cbn in Hg. lia.
  - exact seq_actions_six.
  - assert (Hp : Permutation (filter inserts (seq_actions (removals events) ds)) (map seq_action ds)).
    { eapply perm_trans; [apply perm_filter, Permutation_sym, isort_perm|]. rewrite filter_app.
      assert (H1 : filter inserts (removals events) = []).
      { assert (Hr : forall a, In a (removals events) -> inserts a = false).
        { intros a Ha. apply in_removals in Ha. destruct Ha as (x & i & _ & _ & _ & ->). reflexivity. }
        clear - Hr. induction (removals events) as [|a l IH]; [reflexivity|]. cbn [filter]. rewrite (Hr a) by (now left). apply IH. intros; apply Hr; now right. }
      assert (H2 : filter inserts (map seq_action ds) = map seq_action ds).
      { clear. induction ds as [|x l IH]; [reflexivity|]. cbn [map filter seq_action inserts a_type]. now rewrite IH. }
      rewrite H1, H2. apply Permutation_refl. }
    eapply Permutation_NoDup; [apply Permutation_map, Permutation_sym, Hp|]. rewrite map_map. cbn [seq_action a_key].
    rewrite <- (map_map fst (fun d => be 6 (di_db_seq d)) ds). fold news. apply nodup_map_inj; [eapply nodup_of_map; exact Dseqs|].
    intros x y Hx Hy He. eapply nodup_map_eq; [exact Dseqs|exact Hx|exact Hy|]. rewrite Forall_forall in Dok.
    eapply be_inj; [| |exact He]; [exact (dok_seq (Dok x Hx))|exact (dok_seq (Dok y Hy))].
Qed.

Lemma seq_merge : merge seq_cmp (map seq_entry (by_seq is)) (seq_actions (removals events) ds) = map seq_entry (by_seq is').
Proof.
  pose proof (by_seq_sorted Hok Hseqs) as Hs.
  apply (sorted_ext ord_seq).
  - apply (merge_sorted ord_seq); [exact Hs|exact seq_actions_asorted|exact seq_actions_single].
  - apply by_seq_sorted; [exact is'_ok|exact is'_seqs].
  - intros x. rewrite (@merge_members seq_cmp ord_seq six six_eq); [|exact Hs|exact seq_actions_asorted|exact seq_actions_single| |exact seq_actions_six].
    2:{ intros y Hy. apply in_map_iff in Hy. destruct Hy as (i & <- & Hi). rewrite in_by_seq in Hi. cbn [seq_entry fst]. apply six_dok. now apply is_dok. }
    split.
    + intros [(a & Ha & Hi & ->)|[Hx Hn]].
      * apply in_seq_actions in Ha. destruct Ha as [Ha|(y & Hy & ->)].
        { apply in_removals in Ha. destruct Ha as (y & i & _ & _ & _ & ->). discriminate. }
        change (a_key (seq_action y), a_data (seq_action y)) with (seq_entry (fst y)). apply in_map. apply in_by_seq, in_is'. left. unfold news. now apply in_map.
      * apply in_map_iff in Hx. destruct Hx as (i & <- & Hi). rewrite in_by_seq in Hi. apply in_map. apply in_by_seq, in_is'. right. split; [exact Hi|].
        intros y Hy He. unfold news in Hy. apply in_map_iff in Hy. destruct Hy as (z & <- & Hz).
        assert (Hf : a_type (Action A_REMOVE (be 6 (di_db_seq i)) [] 0) = A_FETCH); [|discriminate].
        apply Hn; [|reflexivity]. apply in_seq_actions. left. apply in_removals. exists z, i. auto.
    + intros Hx. apply in_map_iff in Hx. destruct Hx as (i & <- & Hi). rewrite in_by_seq, in_is' in Hi. destruct Hi as [Hi|[Hi Hn]].
      * left. unfold news in Hi. apply in_map_iff in Hi. destruct Hi as (z & <- & Hz). exists (seq_action z). split; [apply in_seq_actions; right; eauto|]. split; reflexivity.
      * right. split; [apply in_map; now apply in_by_seq|]. intros a Ha He. exfalso. cbn [seq_entry fst] in He. apply in_seq_actions in Ha. destruct Ha as [Ha|(z & Hz & ->)].
        -- apply in_removals in Ha. destruct Ha as (x & j & Hx & Hj & Hid & ->). cbn [a_key] in He.
           assert (Hij : j = i).
           { eapply nodup_map_eq; [exact Hseqs|exact Hj|exact Hi|]. eapply be_inj; [| |exact He]; [exact (dok_seq (is_dok _ Hj))|exact (dok_seq (is_dok _ Hi))]. }
           subst j. eapply Hn; [|symmetry; exact Hid]. unfold news. now apply in_map.
        -- cbn [seq_action a_key] in He. assert (Hq : di_db_seq i = di_db_seq (fst z)).
           { eapply be_inj; [| |symmetry; exact He]; [exact (dok_seq (is_dok _ Hi))|exact (dok_seq (new_dok _ Hz))]. }
           destruct (Dfresh _ (fst z) Hi) as (w & Hw & Hw'); [unfold news; now apply in_map|exact Hq|]. exact (Hn w Hw Hw').
Qed.
End Lists.

Section WithEnv.
Context {E : Env} (EO : EnvOk E).
Section Save.
Variable okf : file -> Prop.
Variable allowed : err -> Prop.
Hypothesis OE : okerr okf allowed.
Variable c : cfg.
Hypothesis Hc : 2 <= c_kv c.

(** The pairs of stored information and revision after a save. *)
Definition newp (ds : list (doc_info * N)) (rs : list revision) : list (doc_info * revision) := combine (map fst ds) rs.

Lemma run_mod rq kvP redP root kvs acts f r s' : rq_ok rq kvP redP okf allowed -> ord (r_cmp rq) -> good f -> okf f -> fin (st_f s') ->
  asorted (r_cmp rq) acts -> acts_ok rq kvP acts -> rtree rq kvP redP f root kvs -> sorted (r_cmp rq) kvs ->
  modify_btree rq root acts (St f [] false) = (r, s') ->
  (exists log, writes f log (st_f s')) /\ le f (st_f s') /\ okf (st_f s') /\
  match r with
  | Ok root' => rtree rq kvP redP (st_f s') root' (merge (r_cmp rq) kvs acts) /\
      rev (st_ev s') = evs (r_cmp rq) (match r_fetch rq with Some _ => true | None => false end) (match r_save rq with Some _ => true | None => false end) kvs acts
  | Err e => allowed e
  end.
Proof.
  intros RO O G Ho F Ha Hk Hr Hs Hm. destruct (@ow_modify E rq root acts _ _ _ Hm) as [log W]. cbn [st_f] in W.
  pose proof (writes_le EO G W) as L. split; [eauto|]. split; [exact L|]. split; [exact (okf_writes' EO OE G Ho W)|].
  pose proof (@run_modify_btree E EO rq kvP redP okf allowed RO O root kvs acts (St f [] false) (conj G Ho) eq_refl Ha Hk Hr Hs r s' Hm F) as Hrun.
  destruct r as [root'|e]; [|exact Hrun]. destruct Hrun as [H1 [H2 _]]. split; [exact H1|]. rewrite H2. cbn [st_ev]. rewrite app_nil_r, rev_involutive. reflexivity.
Qed.

Lemma update_indexes_ok cb d ds is r d' ev : good (dbf d) -> okf (dbf d) ->
  Forall dok is -> NoDup (map di_id is) -> NoDup (map di_db_seq is) ->
  id_tree (dbf d) (h_by_id (dbh d)) (map id_entry (by_id is)) -> seq_tree (dbf d) (h_by_seq (dbh d)) (map seq_entry (by_seq is)) ->
  Forall dok (map fst ds) -> NoDup (map di_id (map fst ds)) -> NoDup (map di_db_seq (map fst ds)) ->
  (forall i y, In i is -> In y (map fst ds) -> di_db_seq i = di_db_seq y -> exists z, In z (map fst ds) /\ di_id z = di_id i) ->
  update_indexes c cb d ds = (r, d', ev) -> fin (dbf d') ->
  (exists log, writes (dbf d) log (dbf d')) /\ le (dbf d) (dbf d') /\ okf (dbf d') /\ dropped d' = dropped d /\
  match r with
  | Ok _ => exists a b, dbh d' = set_roots (dbh d) a b (h_local (dbh d)) /\
      id_tree (dbf d') a (map id_entry (by_id (gputs di_id (map fst ds) is))) /\
      seq_tree (dbf d') b (map seq_entry (by_seq (gputs di_id (map fst ds) is))) /\
      ev = flat_map (fun x => ev_a true cb x (option_map assemble_id_index_value (old_of is (a_key x)))) (id_actions ds)
  | Err e => allowed e /\ dbh d' = dbh d
  end.
Proof.
  intros G Ho Hok Hids Hseqs Hti Hts Dok Dids Dseqs Dfresh Hu F. unfold update_indexes in Hu.
  destruct (modify_btree (id_request c cb) (h_by_id (dbh d)) (id_actions ds) (St (dbf d) [] false)) as [r1 s1] eqn:Hm1.
  assert (Hcb : (match r_save (id_request c cb) with Some _ => true | None => false end) = cb) by (cbn [id_request r_save]; now destruct cb).
  assert (Hact : acts_ok (id_request c cb) idP (id_actions ds)).
  { split; [|left; intros g a [b|] [= <-]; cbn; [destruct (lenN b <? 23)|]; discriminate]. apply Forall_forall. intros a Ha _. apply in_id_actions in Ha. destruct Ha as (x & Hx & ->). exists (fst x). split; [|reflexivity].
    rewrite Forall_forall in Dok. apply Dok. now apply in_map. }
  pose proof (fun F1 => @run_mod (id_request c cb) idP id_redP (h_by_id (dbh d)) (map id_entry (by_id is)) (id_actions ds) (dbf d) r1 s1
     (@id_rq E okf allowed OE c Hc cb) ord_ebin G Ho F1 (@strict_asorted ebin_cmp _ (@id_actions_strict ds Dids)) Hact Hti (by_id_sorted _ Hids) Hm1) as H1.
  destruct r1 as [a|e].
  - set (acts2 := seq_actions (removals (rev (st_ev s1))) ds) in *.
    destruct (modify_btree (seq_request c) (h_by_seq (dbh d)) acts2 (St (st_f s1) [] false)) as [r2 s2] eqn:Hm2.
    assert (Hf2 : dbf d' = st_f s2) by (destruct r2; injection Hu as <- <- <-; reflexivity). rewrite Hf2 in F.
    assert (F1 : fin (st_f s1)).
    { destruct (@ow_modify E _ _ _ _ _ _ Hm2) as [log W]. cbn [st_f] in W.
      assert (L2 : le (st_f s1) (st_f s2)); [|exact (fin_le L2 F)]. apply (writes_le EO) with (l := log); [|exact W].
      destruct (@ow_modify E _ _ _ _ _ _ Hm1) as [log1 W1]. exact (le_good (writes_le EO G W1)). }
    destruct (H1 F1) as ((log1 & W1) & L1 & O1 & T1 & E1). clear H1. rewrite Hcb in E1. cbn [id_request r_cmp r_fetch] in E1, T1.
    assert (Hacts2 : acts2 = seq_actions (removals (evs ebin_cmp true cb (map id_entry (by_id is)) (id_actions ds))) ds) by (unfold acts2; now rewrite E1).
    assert (Hact2 : acts_ok (seq_request c) seqP acts2).
    { split; [|left; intros; discriminate]. rewrite Hacts2. apply Forall_forall. intros x Hx Hi. apply in_seq_actions in Hx. destruct Hx as [Hx|(y & Hy & ->)].
      - apply (@in_removals is ds Hok Hids Dids cb) in Hx. destruct Hx as (y & i & _ & _ & _ & ->). discriminate.
      - exists (fst y). split; [|reflexivity]. rewrite Forall_forall in Dok. apply Dok. now apply in_map. }
    assert (Has2 : asorted seq_cmp acts2) by (rewrite Hacts2; apply seq_actions_asorted).
    destruct (@run_mod (seq_request c) seqP seq_redP (h_by_seq (dbh d)) (map seq_entry (by_seq is)) acts2 (st_f s1) r2 s2
      (@seq_rq E okf allowed OE c Hc) ord_seq (le_good L1) O1 F Has2 Hact2 (@rtree_keeps E _ _ _ _ _ _ _ (le_keeps L1) Hts) (@by_seq_sorted is Hok Hseqs) Hm2) as ((log2 & W2) & L2 & O2 & T2).
    rewrite Hf2. split; [exists (log2 ++ log1); eapply writes_trans; eassumption|]. split; [eapply le_trans; eassumption|]. split; [exact O2|].
    destruct r2 as [b|e]; injection Hu as <- <- <-; cbn [dropped dbh dbf]; (split; [reflexivity|]).
    + destruct T2 as [T2 _]. exists a, b. split; [reflexivity|]. split; [|split].
      * rewrite <- (@id_merge is ds Hids Dids). eapply rtree_keeps; [apply le_keeps; exact L2|exact T1].
      * cbn [seq_request r_cmp] in T2. rewrite Hacts2 in T2. rewrite (@seq_merge is ds Hok Hids Hseqs Dok Dids cb Dseqs Dfresh) in T2. exact T2.
      * rewrite E1. now apply events_eq.
    + split; [exact T2|reflexivity].
  - injection Hu as <- <- <-. cbn [dbf dbh dropped] in *. destruct (H1 F) as (W & L & O1 & T). auto 10.
Qed.

(** ** New sequence numbers *)

Lemma new_revs_ids o l : forall seq, map rv_id (new_revs o seq l) = map (fun x => di_id (sb_info x)) l.
Proof.
  induction l as [|x l IH]; intros seq; [reflexivity|]. cbn [new_revs]. destruct (so_as_is o) eqn:Ho; cbn [map new_rev rv_id]; f_equal; apply IH.
Qed.
Lemma new_revs_given o l : so_as_is o = true -> forall seq, map rv_seq (new_revs o seq l) = map (fun x => di_db_seq (sb_info x)) l.
Proof.
  intros Ho. induction l as [|x l IH]; intros seq; [reflexivity|]. cbn [new_revs]. rewrite Ho. cbn [map new_rev rv_seq]. f_equal; apply IH.
Qed.
Lemma new_revs_above o l : so_as_is o = false -> forall seq r, In r (new_revs o seq l) -> seq < rv_seq r /\ rv_seq r <= last_seq o seq l.
Proof.
  intros Ho. induction l as [|x l IH]; intros seq r Hr; [destruct Hr|]. cbn [new_revs] in Hr. rewrite Ho in Hr. rewrite last_seq_cons, Ho.
  destruct Hr as [<-|Hr].
  - cbn [new_rev rv_seq]. pose proof (last_seq_ge o l (seq + 1)). lia.
  - destruct (IH _ _ Hr). lia.
Qed.
Lemma new_revs_distinct o l : so_as_is o = false -> forall seq, NoDup (map rv_seq (new_revs o seq l)).
Proof.
  intros Ho. induction l as [|x l IH]; intros seq; [constructor|]. cbn [new_revs]. rewrite Ho. cbn [map]. constructor; [|apply IH].
  intros Hi. apply in_map_iff in Hi. destruct Hi as (r & He & Hr). apply (@new_revs_above o l Ho) in Hr. cbn [new_rev rv_seq] in He. lia.
Qed.
Lemma last_seq_given o l : so_as_is o = true -> forall seq x, In x l -> di_db_seq (sb_info x) <= last_seq o seq l.
Proof.
  intros Ho. induction l as [|y l IH]; intros seq x Hx; [destruct Hx|]. rewrite last_seq_cons, Ho. destruct Hx as [->|Hx]; [|now apply IH].
  pose proof (last_seq_ge o l (N.max seq (di_db_seq (sb_info x)))). lia.
Qed.
Lemma new_revs_le o l seq r : In r (new_revs o seq l) -> rv_seq r <= last_seq o seq l.
Proof.
  intros Hr. destruct (so_as_is o) eqn:Ho; [|now apply (@new_revs_above o l Ho)].
  apply (in_map rv_seq) in Hr. rewrite (@new_revs_given o l Ho) in Hr. apply in_map_iff in Hr. destruct Hr as (x & <- & Hx). now apply last_seq_given.
Qed.

Lemma Forall2_split A B (P : A -> B -> Prop) l l' : Forall2 P l l' -> Forall (fun p => P (fst p) (snd p)) (combine l l') /\ map fst (combine l l') = l /\ map snd (combine l l') = l'.
Proof. induction 1 as [|a b l l' H _ IH]; cbn; [repeat split; constructor|]. destruct IH as (I1 & -> & ->). repeat split. now constructor. Qed.
Lemma Forall2_map_l A B C (g : A -> C) (P : C -> B -> Prop) l l' : Forall2 (fun a b => P (g a) b) l l' -> Forall2 P (map g l) l'.
Proof. induction 1; cbn; constructor; assumption. Qed.
Lemma map_eq2 A B C (g : A -> C) (h : B -> C) (P : A -> B -> Prop) l l' : (forall a b, P a b -> g a = h b) -> Forall2 P l l' -> map g l = map h l'.
Proof. intros H. induction 1 as [|a b l l' Hp _ IH]; [reflexivity|]. cbn [map]. now rewrite (H _ _ Hp), IH. Qed.

Lemma save_documents_ok cb o l d v ps R : save_documents c o cb l d = R ->
  good (dbf d) -> okf (dbf d) -> 1 <= fpos (dbf d) -> dropped d = false -> stored (dbf d) (dbh d) v ps -> batch_ok o l v -> fin47 (dbf (sv_db R)) ->
  (exists log, writes (dbf d) log (dbf (sv_db R))) /\ le (dbf d) (dbf (sv_db R)) /\ okf (dbf (sv_db R)) /\ dropped (sv_db R) = false /\
  match sv_res R with
  | Ok _ => exists a b ds, dbh (sv_db R) = set_seq_num (set_roots (dbh d) a b (h_local (dbh d))) (last_seq o (v_seq v) l) /\
      Forall2 (fun x r => rep (dbf (sv_db R)) (fst x) r) ds (new_revs o (v_seq v) l) /\ map snd ds = map sb_req l /\
      stored (dbf (sv_db R)) (dbh (sv_db R)) (save o l v) (gputs pid (newp ds (new_revs o (v_seq v) l)) ps) /\
      sv_events R = flat_map (fun x => ev_a true cb x (option_map assemble_id_index_value (old_of (map fst ps) (a_key x)))) (id_actions ds)
  | Err e => allowed e /\ dbh (sv_db R) = dbh d
  end.
Proof.
  intros HR G Ho H1 Hd S B F. unfold save_documents in HR. rewrite Hd in HR. destruct B as [B1 B2 B3 B4].
  destruct (add_docs o (h_update_seq (dbh d)) (dbf d) l) as [[r1 f1] infos] eqn:Ha. rewrite (sd_seq S) in Ha.
  destruct r1 as [[ds sq]|e].
  2:{ subst R. cbn [sv_db dbf sv_res dbh dropped] in *. destruct (@add_docs_ok E EO okf allowed OE o l _ _ _ _ _ G Ho H1 Ha F B1 B3) as (W & L & O1 & A). auto 10. }
  destruct (update_indexes c cb (Db f1 (dbh d) false) ds) as [[r2 d2] ev] eqn:Hu.
  assert (W1 : exists log, writes (dbf d) log f1).
  { clear - Ha OE. revert Ha. generalize (v_seq v). generalize (dbf d). revert ds sq f1 infos. induction l as [|x l IH]; intros ds sq f1 infos f seq Ha.
    - cbn [add_docs] in Ha. injection Ha as _ _ <- _. exists []. constructor.
    - cbn [add_docs] in Ha.
      match type of Ha with (match ?t with _ => _ end = _) => destruct t as [[d0|e0] f0] eqn:Hd0 end; [|discriminate].
      match type of Ha with context [add_docs o ?q f0 l] => destruct (add_docs o q f0 l) as [[r1 f2] i1] eqn:Hr end.
      destruct r1 as [[ds1 s1]|]; [|discriminate]. assert (f2 = f1) by congruence. subst f2. destruct (IH _ _ _ _ _ _ Hr) as [log2 W2].
      assert (Hw : exists log, writes f log f0).
      { clear - Hd0. unfold add_doc in Hd0. destruct (sb_body x) as [b|]; [|injection Hd0 as <- <-; exists []; constructor].
        match type of Hd0 with (match (if ?t then _ else _) with _ => _ end = _) => destruct t end; unfold db_write_buf_compressed in Hd0.
        - destruct (compress b) as [z|]; [|discriminate]. destruct (db_write_buf f z) as [[[p sz]|e] f2] eqn:Hw; [|discriminate]. injection Hd0 as _ <-.
          eexists. eapply wr_step; [constructor|exact Hw].
        - destruct (db_write_buf f b) as [[[p sz]|e] f2] eqn:Hw; [|discriminate]. injection Hd0 as _ <-. eexists. eapply wr_step; [constructor|exact Hw]. }
      destruct Hw as [log1 W1]. exists (log2 ++ log1). eapply writes_trans; eassumption. }
  destruct W1 as [log1 W1]. pose proof (writes_le EO G W1) as L1. pose proof (le_good L1) as G1.
  assert (Hf : dbf (sv_db R) = dbf d2) by (subst R; destruct r2; reflexivity). rewrite Hf in *.
  assert (L2 : le f1 (dbf d2) /\ exists log, writes f1 log (dbf d2)).
  { clear - Hu EO G1. unfold update_indexes in Hu. cbn [dbf dbh] in Hu.
    destruct (modify_btree (id_request c cb) _ _ _) as [r1 s1] eqn:Hm1. destruct (@ow_modify E _ _ _ _ _ _ Hm1) as [log1 W1]. cbn [st_f] in W1.
    destruct r1 as [a|e]; [|injection Hu as _ <- _; cbn [dbf]; split; [exact (writes_le EO G1 W1)|eauto]].
    destruct (modify_btree (seq_request c) _ _ _) as [r2' s2] eqn:Hm2. destruct (@ow_modify E _ _ _ _ _ _ Hm2) as [log2 W2]. cbn [st_f] in W2.
    assert (Hd2 : dbf d2 = st_f s2) by (destruct r2'; injection Hu as _ <- _; reflexivity). rewrite Hd2.
    pose proof (writes_trans W1 W2) as W. split; [exact (writes_le EO G1 W)|eauto]. }
  destruct L2 as [L2 [log2 W2]]. assert (F1 : fin47 f1) by (exact (fin47_le L2 F)).
  destruct (@add_docs_ok E EO okf allowed OE o l _ _ _ _ _ G Ho H1 Ha F1 B1 B3) as (_ & _ & O1 & A1 & A2 & A3 & A4 & _).
  set (rs := new_revs o (v_seq v) l) in *.
  assert (Hab : Forall2 (fun x r => about (fst x) r) ds rs) by (eapply Forall2_impl; [|exact A1]; intros x r [H _]; exact H).
  assert (Nids : map di_id (map fst ds) = map rv_id rs) by (rewrite map_map; eapply map_eq2; [|exact Hab]; intros a b H; exact (ab_id H)).
  assert (Nseqs : map di_db_seq (map fst ds) = map rv_seq rs) by (rewrite map_map; eapply map_eq2; [|exact Hab]; intros a b H; exact (ab_seq H)).
  assert (Dids : NoDup (map di_id (map fst ds))) by (rewrite Nids; unfold rs; rewrite new_revs_ids; exact B2).
  assert (Dseqs : NoDup (map di_db_seq (map fst ds))).
  { rewrite Nseqs. unfold rs. destruct (so_as_is o) eqn:Hoo; [|now apply new_revs_distinct]. rewrite new_revs_given by exact Hoo. now apply B4. }
  assert (Hin : forall y, In y (map fst ds) -> exists r, In r rs /\ about y r).
  { intros y Hy. apply in_map_iff in Hy. destruct Hy as (x & <- & Hx). clear - Hab Hx. induction Hab as [|x' r k k' H _ IH]; [destruct Hx|].
    destruct Hx as [->|Hx]; [exists r; split; [now left|exact H]|]. destruct (IH Hx) as (r' & H1 & H2). exists r'. split; [now right|exact H2]. }
  assert (Dfresh : forall i y, In i (map fst ps) -> In y (map fst ds) -> di_db_seq i = di_db_seq y -> exists z, In z (map fst ds) /\ di_id z = di_id i).
  { intros i y Hi Hy He. apply in_map_iff in Hi. destruct Hi as (p & <- & Hp). destruct (Hin y Hy) as (r & Hr & Hyr). rewrite (ab_seq Hyr) in He.
    pose proof (sd_rep S) as Hrep. rewrite Forall_forall in Hrep. destruct (Hrep p Hp) as [Hpa _].
    destruct (so_as_is o) eqn:Hoo.
    - destruct (B4 eq_refl) as [_ B5]. pose proof (in_map rv_seq _ _ Hr) as Hr'. unfold rs in Hr'. rewrite new_revs_given in Hr' by exact Hoo.
      apply in_map_iff in Hr'. destruct Hr' as (x & Hx & Hxl).
      destruct (B5 (snd p) x) as (w & Hw & Hwid).
      + rewrite <- (sd_docs S). now apply in_map.
      + exact Hxl.
      + rewrite <- (ab_seq Hpa), He. auto.
      + assert (Hq : In (di_id (fst p)) (map di_id (map fst ds))).
        { rewrite Nids. unfold rs. rewrite new_revs_ids, (ab_id Hpa), <- Hwid. exact (in_map (fun x => di_id (sb_info x)) _ _ Hw). }
        apply in_map_iff in Hq. destruct Hq as (z & Hz & Hz'). exists z. auto.
    - apply (@new_revs_above o l Hoo) in Hr. pose proof (sd_max S _ Hp). lia. }
  assert (Hu0 := @update_indexes_ok cb (Db f1 (dbh d) false) ds (map fst ps) r2 d2 ev G1 O1 (sd_ok S)). cbn [dbf dbh dropped] in Hu0.
  assert (Hids : NoDup (map di_id (map fst ps))) by (rewrite map_map; exact (sd_ids S)).
  specialize (Hu0 Hids (sd_seqs S) (@rtree_keeps E _ _ _ _ _ _ _ (le_keeps L1) (sd_id S)) (@rtree_keeps E _ _ _ _ _ _ _ (le_keeps L1) (sd_sq S)) A2 Dids Dseqs Dfresh Hu (fin47_fin F)).
  destruct Hu0 as (_ & _ & O2 & Hdr & Hu0).
  split; [exists (log2 ++ log1); eapply writes_trans; eassumption|]. split; [eapply le_trans; eassumption|]. split; [exact O2|].
  split; [subst R; destruct r2; exact Hdr|].
  destruct r2 as [[]|e]; [|subst R; exact Hu0]. subst R. cbn [sv_res sv_db sv_events dbh dbf].
  destruct Hu0 as (a & b & Hh & Ti & Ts & Hev). exists a, b, ds. rewrite Hh, A4. split; [reflexivity|].
  assert (A1' : Forall2 (fun x r => rep (dbf d2) (fst x) r) ds rs) by (eapply Forall2_impl; [|exact A1]; intros x r H; eapply rep_keeps; [apply le_keeps; exact L2|exact H]).
  split; [exact A1'|]. split; [exact A3|]. split; [|exact Hev].
  destruct (Forall2_split (@Forall2_map_l _ _ _ fst (rep (dbf d2)) _ _ A1')) as (N1 & N2 & N3). fold (newp ds rs) in N1, N2, N3.
  assert (Hkey : forall p : doc_info * revision, In p (newp ds rs) \/ In p ps -> pid p = rv_id (snd p)).
  { intros p [Hp|Hp]; [rewrite Forall_forall in N1; destruct (N1 p Hp) as [Hx _]; exact (ab_id Hx)|].
    pose proof (sd_rep S) as Hr. rewrite Forall_forall in Hr. destruct (Hr p Hp) as [Hx _]. exact (ab_id Hx). }
  assert (Hfst : map fst (gputs pid (newp ds rs) ps) = gputs di_id (map fst ds) (map fst ps)).
  { rewrite <- N2. apply gputs_map; reflexivity. }
  assert (Hinp : forall p, In p (gputs pid (newp ds rs) ps) -> In p (newp ds rs) \/ In p ps).
  { intros p Hp. apply gputs_in in Hp; [|]. 2:{ assert (Hm : map pid (newp ds rs) = map di_id (map fst ds)) by (rewrite <- N2, map_map; reflexivity). rewrite Hm. exact Dids. }
    destruct Hp as [Hp|[Hp _]]; auto. }
  constructor.
  - cbn [save v_docs]. change (fold_left (fun d r => put r d) (new_revs o (v_seq v) l) (v_docs v)) with (gputs rv_id rs (v_docs v)).
    rewrite <- (sd_docs S). etransitivity; [apply gputs_map with (kb := rv_id); intros p Hp; apply Hkey; auto|]. now rewrite N3.
  - apply Forall_forall. intros p Hp. destruct (Hinp p Hp) as [Hp'|Hp'].
    + rewrite Forall_forall in N1. exact (N1 p Hp').
    + pose proof (sd_rep S) as Hr. rewrite Forall_forall in Hr. eapply rep_keeps; [apply le_keeps; exact (le_trans L1 L2)|exact (Hr p Hp')].
  - rewrite Hfst. apply is'_ok; [exact (sd_ok S)|exact A2|exact Dids].
  - apply gputs_nodup. exact (sd_ids S).
  - rewrite Hfst. apply is'_seqs; [exact Hids|exact (sd_seqs S)|exact Dids|exact Dseqs|exact Dfresh].
  - intros p Hp. cbn [save v_seq]. destruct (Hinp p Hp) as [Hp'|Hp'].
    + assert (Hq : In (fst p) (map fst ds)) by (rewrite <- N2; now apply in_map). destruct (Hin _ Hq) as (r & Hr & Hx). rewrite (ab_seq Hx). now apply new_revs_le.
    + pose proof (sd_max S _ Hp'). pose proof (last_seq_ge o l (v_seq v)). lia.
  - reflexivity.
  - exact B3.
  - rewrite Hfst. exact Ti.
  - rewrite Hfst. exact Ts.
  - exact (sd_lids S).
  - cbn [set_seq_num set_roots h_local save v_locals]. eapply rtree_keeps; [apply le_keeps; exact (le_trans L1 L2)|exact (sd_loc S)].
Qed.

(** ** Local documents *)

Lemma put_local_in x l y : In y (put_local x l) <-> (ld_deleted x = false /\ y = (ld_id x, ld_json x)) \/ (In y l /\ fst y <> ld_id x).
Proof.
  unfold put_local. destruct (ld_deleted x); cbn [In]; rewrite filter_In, negb_true_iff, same_false; split.
  - intros H. now right.
  - intros [[H _]|H]; [discriminate|exact H].
  - intros [H|H]; [left; auto|now right].
  - intros [[_ H]|H]; [left; auto|now right].
Qed.
Lemma put_locals_in l : NoDup (map ld_id l) -> forall v y, In y (fold_left (fun d x => put_local x d) l v) <->
  (exists x, In x l /\ ld_deleted x = false /\ y = (ld_id x, ld_json x)) \/ (In y v /\ forall x, In x l -> ld_id x <> fst y).
Proof.
  induction l as [|x l IH]; intros Hn v y; cbn [fold_left].
  - split; [intros H; right; split; [exact H|intros ? []]|intros [(? & [] & _)|[H _]]; exact H].
  - cbn [map] in Hn. inversion Hn as [|? ? H1 H2]; subst. rewrite (IH H2), put_local_in. split.
    + intros [(z & Hz & H)|[[[Hd ->]|[H H']] H'']].
      * left. exists z. split; [now right|exact H].
      * left. exists x. split; [now left|auto].
      * right. split; [exact H|]. intros z [<-|Hz]; [congruence|auto].
    + intros [(z & [<-|Hz] & H)|[H H']].
      * right. split; [left; exact H|]. intros z Hz He. apply H1. destruct H as [_ ->]. cbn [fst] in He. rewrite <- He. now apply in_map.
      * left. exists z. auto.
      * right. split; [right; split; [exact H|intros He; apply (H' x); [now left|congruence]]|]. intros z Hz. apply H'. now right.
Qed.
Lemma put_local_nodup x l : NoDup (map fst l) -> NoDup (map fst (put_local x l)).
Proof.
  intros H. unfold put_local. assert (Hf : NoDup (map fst (filter (fun y : kv => negb (same (fst y) (ld_id x))) l))) by (now apply nodup_filter).
  destruct (ld_deleted x); [exact Hf|]. cbn [map fst]. constructor; [|exact Hf].
  intros Hi. apply in_map_iff in Hi. destruct Hi as (y & He & Hy). apply filter_In in Hy. destruct Hy as [_ Hy]. rewrite negb_true_iff, same_false in Hy. auto.
Qed.
Lemma put_locals_nodup l : forall v, NoDup (map fst v) -> NoDup (map fst (fold_left (fun d x => put_local x d) l v)).
Proof. induction l as [|x l IH]; intros v H; [exact H|]. cbn [fold_left]. apply IH. now apply put_local_nodup. Qed.

Lemma update_locals_ok rq act l acts d v ps r d' : r_cmp rq = ebin_cmp -> rq_ok rq kv_ok loc_redP okf allowed ->
  (forall f r l, loc_tree f r l <-> rtree rq kv_ok loc_redP f r l) ->
  (forall x, a_key (act x) = ld_id x /\ a_data (act x) = ld_json x /\ a_type (act x) <> A_FETCH) -> Forall (fun x => inserts (act x) = negb (ld_deleted x)) l -> once rq acts ->
  good (dbf d) -> okf (dbf d) -> stored (dbf d) (dbh d) v ps ->
  NoDup (map ld_id l) -> Forall local_fits l -> Permutation (map act l) acts ->
  StronglySorted (fun a b => ebin_cmp (a_key a) (a_key b) = Lt) acts ->
  update_locals rq d acts = (r, d') -> fin (dbf d') ->
  (exists log, writes (dbf d) log (dbf d')) /\ le (dbf d) (dbf d') /\ okf (dbf d') /\ dropped d' = dropped d /\
  match r with
  | Ok _ => exists a, dbh d' = set_roots (dbh d) (h_by_id (dbh d)) (h_by_seq (dbh d)) a /\ stored (dbf d') (dbh d') (save_locals l v) ps
  | Err e => allowed e /\ dbh d' = dbh d
  end.
Proof.
  intros Hcmp RO Htr Hx0 Hins On G Ho S Hn Hf Hp Hst Hu F. unfold update_locals in Hu. rewrite Forall_forall in Hins.
  assert (Ha1 : forall x, a_key (act x) = ld_id x) by (intros x; apply Hx0). assert (Ha2 : forall x, a_data (act x) = ld_json x) by (intros x; apply Hx0).
  assert (Ha3 : forall x, a_type (act x) <> A_FETCH) by (intros x; apply Hx0). clear Hx0.
  destruct (modify_btree rq (h_local (dbh d)) acts (St (dbf d) [] false)) as [r1 s1] eqn:Hm.
  assert (Hfd : dbf d' = st_f s1) by (destruct r1; injection Hu as _ <-; reflexivity). rewrite Hfd in *.
  assert (Hin : forall a, In a acts <-> exists x, In x l /\ a = act x).
  { intros a. split.
    - intros Ha. apply (Permutation_in _ (Permutation_sym Hp)) in Ha. apply in_map_iff in Ha. destruct Ha as (x & <- & Hx). eauto.
    - intros (x & Hx & ->). apply (Permutation_in _ Hp). now apply in_map. }
  assert (Hact : acts_ok rq kv_ok acts).
  { split; [|exact On]. apply Forall_forall. intros a Ha _. apply Hin in Ha. destruct Ha as (x & Hx & ->). rewrite Forall_forall in Hf. destruct (Hf x Hx) as [F1 F2].
    rewrite Ha1, Ha2. split; assumption. }
  assert (Hr1 : ord (r_cmp rq)) by (rewrite Hcmp; exact ord_ebin). assert (Hr2 : asorted (r_cmp rq) acts) by (rewrite Hcmp; exact (@strict_asorted ebin_cmp _ Hst)).
  assert (Hr3 : sorted (r_cmp rq) (by_key (v_locals v))) by (rewrite Hcmp; exact (by_key_sorted _ (sd_lids S))).
  destruct (@run_mod rq kv_ok loc_redP (h_local (dbh d)) (by_key (v_locals v)) acts (dbf d) r1 s1 RO Hr1 G Ho F Hr2 Hact (proj1 (Htr _ _ _) (sd_loc S)) Hr3 Hm) as (W & L & O1 & T).
  split; [exact W|]. split; [exact L|]. split; [exact O1|].
  destruct r1 as [a|e]; injection Hu as <- <-; cbn [dropped dbh dbf]; (split; [reflexivity|]); [|auto].
  destruct T as [T _]. exists a. split; [reflexivity|]. rewrite Hcmp in T. apply Htr in T.
  pose proof (by_key_sorted _ (sd_lids S)) as Hs. pose proof (put_locals_nodup l _ (sd_lids S)) as Hs'.
  assert (Hm' : merge ebin_cmp (by_key (v_locals v)) acts = by_key (v_locals (save_locals l v))).
  { assert (Hsi : single ebin_cmp acts) by (apply fold_single; [apply ebin_refl|exact Hst]).
    apply (sorted_ext ord_ebin).
    - apply (merge_sorted ord_ebin); [exact Hs|now apply strict_asorted|exact Hsi].
    - apply by_key_sorted. exact Hs'.
    - intros x. rewrite (@merge_members ebin_cmp ord_ebin (fun _ => True)); auto using strict_asorted.
      2:{ intros y z _ _. now rewrite ebin_eq. }
      rewrite !in_by_key. cbn [save_locals v_locals]. rewrite (put_locals_in _ Hn). split.
      + intros [(y & Hy & Hi & ->)|[Hx Hz]].
        * left. apply Hin in Hy. destruct Hy as (z & Hz & ->). exists z. split; [exact Hz|]. rewrite (Hins z Hz) in Hi.
          destruct (ld_deleted z); [discriminate|]. rewrite Ha1, Ha2. split; reflexivity.
        * right. split; [exact Hx|]. intros z Hzl He. apply (Ha3 z). apply Hz; [apply Hin; eauto|rewrite Ha1; exact He].
      + intros [(z & Hz & Hd & ->)|[Hx Hz]].
        * left. exists (act z). split; [apply Hin; eauto|]. rewrite (Hins z Hz), Hd, Ha1, Ha2. auto.
        * right. split; [exact Hx|]. intros y Hy He. apply Hin in Hy. destruct Hy as (z & Hzl & ->). rewrite Ha1 in He. exfalso. exact (Hz z Hzl He). }
  rewrite Hm' in T. pose proof (stored_keeps (le_keeps L) S) as S1. destruct S1 as [S1 S2 S3 S4 S5 S6 S7 S8 S9 S10 S11 S12].
  constructor; assumption.
Qed.

Lemma save_local_documents_ok l d v ps r d' : good (dbf d) -> okf (dbf d) -> dropped d = false -> stored (dbf d) (dbh d) v ps ->
  NoDup (map ld_id l) -> Forall local_fits l -> save_local_documents c d l = (r, d') -> fin (dbf d') ->
  (exists log, writes (dbf d) log (dbf d')) /\ le (dbf d) (dbf d') /\ okf (dbf d') /\ dropped d' = false /\
  match r with
  | Ok _ => exists a, dbh d' = set_roots (dbh d) (h_by_id (dbh d)) (h_by_seq (dbh d)) a /\ stored (dbf d') (dbh d') (save_locals l v) ps
  | Err e => allowed e /\ dbh d' = dbh d
  end.
Proof.
  intros G Ho Hd S Hn Hf Hr F. unfold save_local_documents in Hr. rewrite Hd in Hr. rewrite <- Hd at 1.
  eapply update_locals_ok with (rq := local_request c) (act := local_action) (acts := map local_action (isort (fun a b => gtc (ebin_cmp (ld_id a) (ld_id b))) l)); try eassumption.
  - reflexivity.
  - exact (@loc_rq E okf allowed OE c Hc).
  - apply loc_tree_any.
  - intros x. repeat split. unfold local_action. destruct (ld_deleted x); discriminate.
  - apply Forall_forall. intros x _. unfold inserts, local_action. now destruct (ld_deleted x).
  - left. intros; discriminate.
  - apply Permutation_map. apply isort_perm.
  - rewrite <- ss_map. cbn [local_action a_key]. apply (@isort_ss _ ld_id ebin_cmp); [apply ord_ebin| |exact Hn]. intros a b _ _. now rewrite ebin_eq.
Qed.
Lemma save_local_document_ok x d v ps r d' : good (dbf d) -> okf (dbf d) -> dropped d = false -> stored (dbf d) (dbh d) v ps ->
  local_fits x -> save_local_document c d x = (r, d') -> fin (dbf d') ->
  (exists log, writes (dbf d) log (dbf d')) /\ le (dbf d) (dbf d') /\ okf (dbf d') /\ dropped d' = false /\
  match r with
  | Ok _ => exists a, dbh d' = set_roots (dbh d) (h_by_id (dbh d)) (h_by_seq (dbh d)) a /\ stored (dbf d') (dbh d') (save_locals [x] v) ps
  | Err e => allowed e /\ dbh d' = dbh d
  end.
Proof.
  intros G Ho Hd S Hf Hr F. unfold save_local_document in Hr. rewrite Hd in Hr. rewrite <- Hd at 1.
  eapply update_locals_ok with (rq := local_request c) (act := local_action) (l := [x]) (acts := [local_action x]); try eassumption.
  - reflexivity.
  - exact (@loc_rq E okf allowed OE c Hc).
  - apply loc_tree_any.
  - intros y. repeat split. unfold local_action. destruct (ld_deleted y); discriminate.
  - constructor; [|constructor]. unfold inserts, local_action. now destruct (ld_deleted x).
  - left. intros; discriminate.
  - cbn [map]. constructor; [intros []|constructor].
  - constructor; [exact Hf|constructor].
  - apply Permutation_refl.
  - constructor; constructor.
Qed.
End Save.
End WithEnv.
