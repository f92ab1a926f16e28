(** What the reading functions deliver from stored contents. *)
From Verif Require Import Base Codec CodecFacts File FileFacts ChunkFacts Header Btree TreeStore SpecMap MergeFacts ModifyFacts BtreeRead LookupFacts Db SortFacts ReduceFacts SpecDb DbFacts DbSave.
Local Open Scope N_scope.
Unset Strict Implicit.

(** ** Comparisons in lookups *)

Lemma lookup_ebin a b : lookup_compare ebin_cmp a b = ebin_cmp a b.
Proof. destruct a as [|x a], b as [|y b]; reflexivity. Qed.
Lemma lookup_seq a b : lookup_compare seq_cmp (be 6 a) (be 6 b) = seq_cmp (be 6 a) (be 6 b).
Proof.
  pose proof (be_length 6 a) as Ha. pose proof (be_length 6 b) as Hb. destruct (be 6 a) as [|x l]; [discriminate|]. destruct (be 6 b) as [|y l']; [discriminate|]. reflexivity.
Qed.
Lemma sorted_lookup_ebin l : sorted ebin_cmp l -> sorted (lookup_compare ebin_cmp) l.
Proof. apply ss_impl. intros a b _ _ H. now rewrite lookup_ebin. Qed.
Lemma sorted_lookup_seq is : sorted seq_cmp (map seq_entry is) -> sorted (lookup_compare seq_cmp) (map seq_entry is).
Proof.
  apply ss_impl. intros a b Ha Hb H. apply in_map_iff in Ha. apply in_map_iff in Hb. destruct Ha as (x & <- & _), Hb as (y & <- & _). cbn [seq_entry fst] in *. now rewrite lookup_seq.
Qed.

(** ** The calls of a lookup of keys *)

Section Calls.
Variable U : Type.
Variable rq : lreq U.
Let cmp := lookup_compare (l_cmp rq).
Hypothesis OL : ord cmp.

Definition requested (ks : list bytes) (x : kv) : bool := existsb (fun k => match cmp (fst x) k with Eq => true | _ => false end) ks.
Definition isfound (c : call) : bool := match snd c with Some _ => true | None => false end.
Lemma absent_none ks : filter isfound (map absent ks) = [].
Proof. induction ks as [|k ks IH]; [reflexivity|exact IH]. Qed.

Lemma nfe_spec k v ks : ksorted rq ks -> let '(c, r) := nfe rq k v ks in
  (filter isfound c = if requested ks (k, v) then [(k, Some v)] else []) /\
  (forall x, cmp k (fst x) = Lt -> requested r x = requested ks x) /\ ksorted rq r.
Proof.
  intros Hk. induction Hk as [|k0 ks Hk IH Hall]; cbn [nfe].
  - repeat split. constructor.
  - fold cmp. destruct (cmp k k0) eqn:Hc.
    + split; [|split; [|exact Hk]].
      * cbn [requested existsb fst]. rewrite Hc. reflexivity.
      * intros x Hx. cbn [requested existsb]. assert (Hn : cmp (fst x) k0 <> Eq); [|destruct (cmp (fst x) k0); try reflexivity; congruence].
        intros He. pose proof (o_eq OL _ _ k He) as H1. rewrite (o_anti OL k (fst x)), Hx in H1. rewrite (o_anti OL k k0), Hc in H1. discriminate.
    + split; [|split; [reflexivity|constructor; assumption]].
      assert (Hr : requested (k0 :: ks) (k, v) = false); [|now rewrite Hr].
      unfold requested. apply not_true_iff_false. intros H. apply existsb_exists in H. destruct H as (q & [<-|Hq] & H); cbn [fst] in H; [now rewrite Hc in H|].
      rewrite Forall_forall in Hall. specialize (Hall q Hq). rewrite (@c_lt_le _ OL k k0 q Hc Hall) in H. discriminate.
    + destruct (nfe rq k v ks) as [c r]. destruct IH as (I1 & I2 & I3). cbn [filter isfound snd]. split; [|split; [|exact I3]].
      * rewrite I1. cbn [requested existsb fst]. rewrite Hc. reflexivity.
      * intros x Hx. rewrite (I2 x Hx). cbn [requested existsb]. assert (Hn : cmp (fst x) k0 = Gt); [|now rewrite Hn].
        apply (c_gt OL). apply (c_gt OL) in Hc. eapply (o_lt OL); eassumption.
Qed.

Lemma nf_found l : forall ks, sorted cmp l -> ksorted rq ks -> filter isfound (nf rq ks l) = map found (filter (requested ks) l).
Proof.
  induction l as [|[k v] l IH]; intros ks Hs Hk; cbn [nf]; [apply absent_none|]. inversion Hs as [|? ? Hs' Hall]; subst. rewrite Forall_forall in Hall.
  pose proof (nfe_spec k v Hk) as H. destruct (nfe rq k v ks) as [c r]. destruct H as (H1 & H2 & H3). rewrite filter_app, H1, (IH r Hs' H3).
  cbn [filter]. assert (Hf : filter (requested r) l = filter (requested ks) l).
  { apply filter_ext_in. intros x Hx. apply H2. exact (Hall x Hx). }
  rewrite Hf. destruct (requested ks (k, v)); reflexivity.
Qed.

(** Calls for absent keys without effect. *)
Hypothesis Habs : forall k u, l_fetch rq k None u = (Ok tt, u).
Lemma run_found l : forall u, run_calls rq l u = run_calls rq (filter isfound l) u.
Proof.
  induction l as [|[k [v|]] l IH]; intros u; [reflexivity| |]; cbn [filter isfound snd run_calls].
  - destruct (l_fetch rq k (Some v) u) as [[[]|e] u']; [apply IH|reflexivity].
  - rewrite Habs. apply IH.
Qed.
End Calls.

Lemma nf_one U (rq : lreq U) k l : ord (lookup_compare (l_cmp rq)) -> sorted (lookup_compare (l_cmp rq)) l ->
  nf rq [k] l = match find (fun x => match lookup_compare (l_cmp rq) (fst x) k with Eq => true | _ => false end) l with Some x => [found x] | None => [(k, None)] end.
Proof.
  intros O. induction l as [|[a v] l IH]; intros Hs; [reflexivity|]. inversion Hs as [|? ? Hs' Hall]; subst. rewrite Forall_forall in Hall. cbn [nf nfe find fst].
  destruct (lookup_compare (l_cmp rq) a k) eqn:Hc.
  - rewrite nf_nil. reflexivity.
  - cbn [app]. apply IH. exact Hs'.
  - rewrite nf_nil. cbn [app]. assert (Hf : find (fun x : kv => match lookup_compare (l_cmp rq) (fst x) k with Eq => true | _ => false end) l = None).
    { destruct (find _ l) as [x|] eqn:Hf; [|reflexivity]. exfalso. apply find_some in Hf. destruct Hf as [Hx Hf]. specialize (Hall x Hx). cbn [fst] in Hall.
      apply (c_gt O) in Hc. pose proof (o_lt O _ _ _ Hc Hall) as H. rewrite (o_anti O), H in Hf. discriminate. }
    now rewrite Hf.
Qed.

(** ** Enumerations as calls of the user's function *)

Definition chosen (o : enumopts) (i : doc_info) : bool := negb (eo_deletes_only o && negb (di_deleted i)) && negb (eo_no_deletes o && di_deleted i).

Lemma calls_feed U (rq : lreq U) o read cb (ent : doc_info -> kv) l : l_fetch rq = lookup_callback o read cb -> (forall i, In i l -> read (fst (ent i)) (snd (ent i)) = Ok i) ->
  forall u, run_calls rq (map found (map ent l)) u = feed cb (filter (chosen o) l) u.
Proof.
  intros Hrq. induction l as [|i l IH]; intros Hr u; [reflexivity|]. cbn [map run_calls found filter]. rewrite Hrq. cbn [lookup_callback].
  rewrite (Hr i (or_introl eq_refl)). specialize (IH (fun j Hj => Hr j (or_intror Hj))). unfold chosen at 1.
  destruct (eo_deletes_only o && negb (di_deleted i)); cbn [negb andb]; [apply IH|].
  destruct (eo_no_deletes o && di_deleted i); cbn [negb]; [apply IH|]. cbn [feed]. destruct (cb i u) as [[[]|e] u']; [apply IH|reflexivity].
Qed.
Lemma filter_map A B (g : A -> B) p l : filter p (map g l) = map g (filter (fun x => p (g x)) l).
Proof. induction l as [|x l IH]; [reflexivity|]. cbn [map filter]. rewrite IH. destruct (p (g x)); reflexivity. Qed.

Section WithEnv.
Context {E : Env} (EO : EnvOk E).
Section Read.
Variable d : db.
Variable v : contents.
Variable ps : list (doc_info * revision).
Hypothesis G : good (dbf d).
Hypothesis Hd : dropped d = false.
Hypothesis S : stored (dbf d) (dbh d) v ps.

Lemma in_ok i : In i (map fst ps) -> dok i.
Proof. pose proof (sd_ok S) as H. rewrite Forall_forall in H. auto. Qed.
Lemma read_id i : In i (map fst ps) -> by_id_read_docinfo (di_id i) (assemble_id_index_value i) = Ok i.
Proof. intros H. apply by_id_roundtrip. exact (proj1 (in_ok H)). Qed.
Lemma read_seq i : In i (map fst ps) -> by_seq_read_docinfo (be 6 (di_db_seq i)) (assemble_seq_index_value i) = Ok i.
Proof. intros H. apply by_seq_roundtrip. exact (proj1 (in_ok H)). Qed.
Lemma ids_nodup : NoDup (map di_id (map fst ps)).
Proof. rewrite map_map. exact (sd_ids S). Qed.
Lemma id_sorted : sorted (lookup_compare ebin_cmp) (map id_entry (by_id (map fst ps))).
Proof. apply sorted_lookup_ebin, by_id_sorted, ids_nodup. Qed.
Lemma seq_sorted : sorted (lookup_compare seq_cmp) (map seq_entry (by_seq (map fst ps))).
Proof. apply sorted_lookup_seq. apply by_seq_sorted; [exact (sd_ok S)|exact (sd_seqs S)]. Qed.

Lemma HidP : forall x, idP x -> kv_ok x. Proof. apply idP_ok. Qed.
Lemma HseqP : forall x, seqP x -> kv_ok x. Proof. apply seqP_ok. Qed.
Lemma Hid_red : forall r, id_redP r -> lenN r < 2^16. Proof. intros r Hr. rewrite Hr. reflexivity. Qed.
Lemma Hseq_red : forall r, seq_redP r -> lenN r < 2^16. Proof. intros r Hr. rewrite Hr. reflexivity. Qed.
Lemma Hloc_red : forall r, loc_redP r -> lenN r < 2^16. Proof. intros r Hr. rewrite Hr. reflexivity. Qed.

Lemma id_lookup_keys U (rq : lreq U) p ks u : l_tol rq = false -> l_node rq = None -> l_cmp rq = ebin_cmp -> h_by_id (dbh d) = Some p -> ksorted rq ks ->
  btree_lookup rq (dbf d) (np_pointer p) ks false u = run_calls rq (nf rq ks (map id_entry (by_id (map fst ps)))) u.
Proof.
  intros H1 H2 H3 Hp Hk. pose proof (sd_id S) as T. rewrite Hp in T.
  eapply (@btree_lookup_keys U rq H1 H2); [rewrite H3; apply ord_lookup, ord_ebin|exact EO|exact HidP|exact Hid_red|exact G|exact T|rewrite H3; exact id_sorted|exact Hk].
Qed.
Lemma seq_lookup_keys U (rq : lreq U) p ks u : l_tol rq = false -> l_node rq = None -> l_cmp rq = seq_cmp -> h_by_seq (dbh d) = Some p -> ksorted rq ks ->
  btree_lookup rq (dbf d) (np_pointer p) ks false u = run_calls rq (nf rq ks (map seq_entry (by_seq (map fst ps)))) u.
Proof.
  intros H1 H2 H3 Hp Hk. pose proof (sd_sq S) as T. rewrite Hp in T.
  eapply (@btree_lookup_keys U rq H1 H2); [rewrite H3; apply ord_lookup, ord_seq|exact EO|exact HseqP|exact Hseq_red|exact G|exact T|rewrite H3; exact seq_sorted|exact Hk].
Qed.
Lemma loc_lookup_keys U (rq : lreq U) p ks u : l_tol rq = false -> l_node rq = None -> l_cmp rq = ebin_cmp -> h_local (dbh d) = Some p -> ksorted rq ks ->
  btree_lookup rq (dbf d) (np_pointer p) ks false u = run_calls rq (nf rq ks (by_key (v_locals v))) u.
Proof.
  intros H1 H2 H3 Hp Hk. pose proof (sd_loc S) as T. rewrite Hp in T.
  eapply (@btree_lookup_keys U rq H1 H2); [rewrite H3; apply ord_lookup, ord_ebin|exact EO|exact (fun (x : kv) (H : kv_ok x) => H)|exact Hloc_red|exact G|exact T|rewrite H3|exact Hk].
  apply sorted_lookup_ebin, by_key_sorted. exact (sd_lids S).
Qed.
Lemma id_lookup_range U (rq : lreq U) p k0 hi u : l_tol rq = false -> l_node rq = None -> l_cmp rq = ebin_cmp -> h_by_id (dbh d) = Some p -> (length hi <= 1)%nat ->
  btree_lookup rq (dbf d) (np_pointer p) (k0 :: hi) true u = run_calls rq (fc rq k0 hi (map id_entry (by_id (map fst ps)))) u.
Proof.
  intros H1 H2 H3 Hp Hh. pose proof (sd_id S) as T. rewrite Hp in T.
  eapply (@btree_lookup_range U rq H1 H2); [rewrite H3; apply ord_lookup, ord_ebin|exact EO|exact HidP|exact Hid_red|exact G|exact T|rewrite H3; exact id_sorted|exact Hh].
Qed.
Lemma seq_lookup_range U (rq : lreq U) p k0 hi u : l_tol rq = false -> l_node rq = None -> l_cmp rq = seq_cmp -> h_by_seq (dbh d) = Some p -> (length hi <= 1)%nat ->
  btree_lookup rq (dbf d) (np_pointer p) (k0 :: hi) true u = run_calls rq (fc rq k0 hi (map seq_entry (by_seq (map fst ps)))) u.
Proof.
  intros H1 H2 H3 Hp Hh. pose proof (sd_sq S) as T. rewrite Hp in T.
  eapply (@btree_lookup_range U rq H1 H2); [rewrite H3; apply ord_lookup, ord_seq|exact EO|exact HseqP|exact Hseq_red|exact G|exact T|rewrite H3; exact seq_sorted|exact Hh].
Qed.

Lemma one_sorted U (rq : lreq U) k : ksorted rq [k].
Proof. constructor; constructor. Qed.

Lemma no_id : h_by_id (dbh d) = None -> ps = [].
Proof.
  intros H. pose proof (sd_id S) as T. rewrite H in T. cbn in T. apply map_eq_nil in T. assert (Hn : map fst ps = []).
  { destruct (map fst ps) as [|i l] eqn:He; [reflexivity|]. exfalso. assert (Hi : In i (by_id (i :: l))) by (rewrite in_by_id; now left). rewrite T in Hi. destruct Hi. }
  now apply map_eq_nil in Hn.
Qed.
Lemma no_seq : h_by_seq (dbh d) = None -> ps = [].
Proof.
  intros H. pose proof (sd_sq S) as T. rewrite H in T. cbn in T. apply map_eq_nil in T. assert (Hn : map fst ps = []).
  { destruct (map fst ps) as [|i l] eqn:He; [reflexivity|]. exfalso. assert (Hi : In i (by_seq (i :: l))) by (rewrite in_by_seq; now left). rewrite T in Hi. destruct Hi. }
  now apply map_eq_nil in Hn.
Qed.
Lemma tree_not_nil rq kvP redP f r : rtree rq kvP redP f r [] -> r = None.
Proof. destruct r as [p|]; [|auto]. intros (k & p' & T & _). exfalso. exact (tree_nonempty T eq_refl). Qed.
Lemma some_id p : h_by_id (dbh d) = Some p -> ps <> [].
Proof. intros H ->. pose proof (sd_id S) as T. apply tree_not_nil in T. congruence. Qed.
Lemma some_seq : ps <> [] -> exists p, h_by_seq (dbh d) = Some p.
Proof. intros H. destruct (h_by_seq (dbh d)) as [p|] eqn:Hp; [eauto|]. exfalso. apply H. now apply no_seq. Qed.

(** ** Single documents *)

Lemma find_entry id : find (fun x => match lookup_compare ebin_cmp (fst x) id with Eq => true | _ => false end) (map id_entry (by_id (map fst ps))) =
  option_map id_entry (old_of (map fst ps) id).
Proof.
  destruct (old_of (map fst ps) id) as [i|] eqn:Ho; cbn [option_map].
  - apply (old_of_some _ ids_nodup) in Ho. destruct Ho as [Hi He].
    destruct (find _ (map id_entry (by_id (map fst ps)))) as [x|] eqn:Hf.
    + apply find_some in Hf. destruct Hf as [Hx Hf]. apply in_map_iff in Hx. destruct Hx as (j & <- & Hj). rewrite in_by_id in Hj. rewrite lookup_ebin in Hf. cbn [id_entry fst] in Hf.
      destruct (ebin_cmp (di_id j) id) eqn:Hc; try discriminate. apply ebin_eq in Hc. assert (j = i) by (eapply nodup_map_eq; [exact ids_nodup|exact Hj|exact Hi|congruence]). now subst.
    + exfalso. assert (Hx : In (id_entry i) (map id_entry (by_id (map fst ps)))) by (apply in_map; now rewrite in_by_id).
      eapply find_none in Hf; [|exact Hx]. rewrite lookup_ebin in Hf. cbn [id_entry fst] in Hf. rewrite He, ebin_refl in Hf. discriminate.
  - destruct (find _ (map id_entry (by_id (map fst ps)))) as [x|] eqn:Hf; [|reflexivity]. exfalso.
    apply find_some in Hf. destruct Hf as [Hx Hf]. apply in_map_iff in Hx. destruct Hx as (j & <- & Hj). rewrite in_by_id in Hj. rewrite lookup_ebin in Hf. cbn [id_entry fst] in Hf.
    destruct (ebin_cmp (di_id j) id) eqn:Hc; try discriminate. apply ebin_eq in Hc.
    assert (Hx : old_of (map fst ps) id = Some j) by (apply old_of_some; [exact ids_nodup|auto]). congruence.
Qed.

Lemma docinfo_by_id_eq id : docinfo_by_id d id = match old_of (map fst ps) id with Some i => Ok i | None => Err E_DOC_NOT_FOUND end.
Proof.
  unfold docinfo_by_id. rewrite Hd. destruct (h_by_id (dbh d)) as [p|] eqn:Hp.
  - set (rq := LReq ebin_cmp (docinfo_fetch by_id_read_docinfo) None false).
    rewrite (@id_lookup_keys _ rq p [id] None eq_refl eq_refl eq_refl Hp (one_sorted rq id)).
    rewrite nf_one; [|apply ord_lookup, ord_ebin|exact id_sorted]. cbn [rq l_cmp]. rewrite find_entry.
    destruct (old_of (map fst ps) id) as [i|] eqn:Ho; cbn [option_map].
    + apply (old_of_some _ ids_nodup) in Ho. cbn [found run_calls id_entry fst snd rq l_fetch docinfo_fetch]. rewrite read_id by tauto. reflexivity.
    + reflexivity.
  - now rewrite (no_id Hp).
Qed.

Lemma in_revs r : In r (v_docs v) -> exists i, In (i, r) ps /\ rep (dbf d) i r.
Proof.
  rewrite <- (sd_docs S). intros H. apply in_map_iff in H. destruct H as ([i r'] & He & Hp). cbn [snd] in He. subst r'. exists i. split; [exact Hp|].
  pose proof (sd_rep S) as Hr. rewrite Forall_forall in Hr. exact (Hr _ Hp).
Qed.
Lemma pair_rep i r : In (i, r) ps -> rep (dbf d) i r.
Proof. pose proof (sd_rep S) as Hr. rewrite Forall_forall in Hr. intros Hp. exact (Hr _ Hp). Qed.

Lemma find_pair id : match find_doc id (v_docs v) with
  | Some r => exists i, old_of (map fst ps) id = Some i /\ In (i, r) ps
  | None => old_of (map fst ps) id = None
  end.
Proof.
  unfold find_doc. destruct (find (fun x => same (rv_id x) id) (v_docs v)) as [r|] eqn:Hf.
  - apply find_some in Hf. destruct Hf as [Hr He]. apply same_true in He. destruct (in_revs Hr) as (i & Hi & [Ha _]). exists i. split; [|exact Hi].
    apply old_of_some; [exact ids_nodup|]. split; [exact (in_map fst _ _ Hi)|]. rewrite (ab_id Ha). exact He.
  - destruct (old_of (map fst ps) id) as [i|] eqn:Ho; [|reflexivity]. exfalso. apply (old_of_some _ ids_nodup) in Ho. destruct Ho as [Hi He].
    apply in_map_iff in Hi. destruct Hi as ([i' r] & Hx & Hp). cbn [fst] in Hx. subst i'. destruct (pair_rep Hp) as [Ha _].
    assert (Hr : In r (v_docs v)) by (rewrite <- (sd_docs S); exact (in_map snd _ _ Hp)). eapply find_none in Hf; [|exact Hr]. apply same_false in Hf. apply Hf. rewrite <- (ab_id Ha). exact He.
Qed.

Lemma open_ok i r dec : rep (dbf d) i r -> body_read r dec (open_doc_with_docinfo d i dec).
Proof.
  intros [Ha Hb]. unfold body_read, open_doc_with_docinfo. destruct (rv_body r) as [c|].
  - destruct Hb as (Hn & z & Hz & Hst & _). apply N.eqb_neq in Hn. rewrite Hn, Hd. unfold flagged. rewrite (ab_content_meta Ha).
    pose proof (@has_read E EO (dbf d) _ _ G Hz) as Hr.
    destruct (dec && negb (N.land (rv_content_meta r) DOC_IS_COMPRESSED =? 0)).
    + unfold pread_compressed. unfold pread_bin in Hr. rewrite Hr. cbn [bind]. destruct c as [b|b]; cbn [stored_as] in Hst; [subst z; reflexivity|]. now rewrite (ok_compress EO b Hst).
    + exists z. split; [exact Hst|exact Hr].
  - destruct Hb as [-> _]. reflexivity.
Qed.

Lemma docinfo_by_sequence_eq n : n < 2^48 -> docinfo_by_sequence d n =
  match find (fun i => di_db_seq i =? n) (map fst ps) with Some i => Ok i | None => Err E_DOC_NOT_FOUND end.
Proof.
  intros Hn. unfold docinfo_by_sequence. rewrite Hd. destruct (h_by_id (dbh d)) as [p0|] eqn:Hp0.
  - destruct (some_seq (some_id Hp0)) as [p Hp]. rewrite Hp.
    set (rq := LReq seq_cmp (docinfo_fetch by_seq_read_docinfo) None false).
    rewrite (@seq_lookup_keys _ rq p [be 6 n] None eq_refl eq_refl eq_refl Hp (one_sorted rq (be 6 n))).
    rewrite nf_one; [|apply ord_lookup, ord_seq|exact seq_sorted]. cbn [rq l_cmp].
    assert (Hf : find (fun x => match lookup_compare seq_cmp (fst x) (be 6 n) with Eq => true | _ => false end) (map seq_entry (by_seq (map fst ps))) =
      option_map seq_entry (find (fun i => di_db_seq i =? n) (map fst ps))).
    { assert (Hk : forall i, In i (map fst ps) -> (match lookup_compare seq_cmp (fst (seq_entry i)) (be 6 n) with Eq => true | _ => false end) = (di_db_seq i =? n)).
      { intros i Hi. cbn [seq_entry fst]. rewrite lookup_seq, seq_cmp_be; [|exact (dok_seq (in_ok Hi))|exact Hn].
        destruct (N.compare_spec (di_db_seq i) n) as [->|H|H]; [now rewrite N.eqb_refl| |]; symmetry; apply N.eqb_neq; lia. }
      destruct (find (fun i => di_db_seq i =? n) (map fst ps)) as [i|] eqn:Hi; cbn [option_map].
      - apply find_some in Hi. destruct Hi as [Hi He]. apply N.eqb_eq in He.
        destruct (find _ (map seq_entry (by_seq (map fst ps)))) as [x|] eqn:Hx.
        + apply find_some in Hx. destruct Hx as [Hx Hx']. apply in_map_iff in Hx. destruct Hx as (j & <- & Hj). rewrite in_by_seq in Hj.
          rewrite (Hk j Hj) in Hx'. apply N.eqb_eq in Hx'. f_equal. f_equal. eapply nodup_map_eq; [exact (sd_seqs S)|exact Hj|exact Hi|congruence].
        + exfalso. assert (Hin : In (seq_entry i) (map seq_entry (by_seq (map fst ps)))) by (apply in_map; now rewrite in_by_seq).
          eapply find_none in Hx; [|exact Hin]. rewrite (Hk i Hi) in Hx. apply N.eqb_neq in Hx. congruence.
      - destruct (find _ (map seq_entry (by_seq (map fst ps)))) as [x|] eqn:Hx; [|reflexivity]. exfalso.
        apply find_some in Hx. destruct Hx as [Hx Hx']. apply in_map_iff in Hx. destruct Hx as (j & <- & Hj). rewrite in_by_seq in Hj.
        rewrite (Hk j Hj) in Hx'. eapply find_none in Hi; [|exact Hj]. cbn beta in Hi. congruence. }
    rewrite Hf. destruct (find (fun i => di_db_seq i =? n) (map fst ps)) as [i|] eqn:Hi; cbn [option_map].
    + apply find_some in Hi. cbn [found run_calls seq_entry fst snd rq l_fetch docinfo_fetch]. rewrite read_seq by tauto. reflexivity.
    + reflexivity.
  - now rewrite (no_id Hp0).
Qed.

Lemma open_document_eq id dec : open_document d id dec =
  match old_of (map fst ps) id with Some i => open_doc_with_docinfo d i dec | None => Err E_DOC_NOT_FOUND end.
Proof. unfold open_document. rewrite Hd, docinfo_by_id_eq. destruct (old_of (map fst ps) id); reflexivity. Qed.

(** ** Enumerations *)

Lemma all_docs_eq U start o (cb : doc_info -> U -> res unit * U) u : eo_tolerate o = false ->
  all_docs d start o cb u = feed cb (filter (fun i => ge (ebin_cmp (di_id i) start) && chosen o i) (by_id (map fst ps))) u.
Proof.
  intros Ht. unfold all_docs. rewrite Hd. destruct (h_by_id (dbh d)) as [p|] eqn:Hp; [|now rewrite (no_id Hp)].
  set (rq := enum_request ebin_cmp o (eo_tolerate o) by_id_read_docinfo cb).
  rewrite (@id_lookup_range _ rq p start [] u); [|exact Ht|reflexivity|reflexivity|exact Hp|cbn; lia].
  unfold fc. rewrite filter_map.
  rewrite (@calls_feed _ rq o by_id_read_docinfo cb id_entry); [|reflexivity|].
  - f_equal.
    set (l := by_id (map fst ps)). clearbody l. induction l as [|i l IH]; [reflexivity|]. cbn [filter]. unfold inrange at 1. cbn [rq enum_request l_cmp id_entry fst]. rewrite lookup_ebin, andb_true_r.
    destruct (ge (ebin_cmp (di_id i) start)); cbn [andb filter]; [|exact IH]. destruct (chosen o i); [now rewrite IH|exact IH].
  - intros i Hi. apply filter_In in Hi. destruct Hi as [Hi _]. rewrite in_by_id in Hi. exact (read_id Hi).
Qed.
Lemma changes_since_eq U n o (cb : doc_info -> U -> res unit * U) u : eo_tolerate o = false -> n < 2^48 ->
  changes_since d n o cb u = feed cb (filter (fun i => (n <=? di_db_seq i) && chosen o i) (by_seq (map fst ps))) u.
Proof.
  intros Ht Hn. unfold changes_since. rewrite Hd. destruct (h_by_seq (dbh d)) as [p|] eqn:Hp; [|now rewrite (no_seq Hp)].
  set (rq := enum_request seq_cmp o (eo_tolerate o) by_seq_read_docinfo cb).
  rewrite (@seq_lookup_range _ rq p (be 6 n) [] u); [|exact Ht|reflexivity|reflexivity|exact Hp|cbn; lia].
  unfold fc. rewrite filter_map.
  rewrite (@calls_feed _ rq o by_seq_read_docinfo cb seq_entry); [|reflexivity|].
  - f_equal. assert (Hl : forall i, In i (by_seq (map fst ps)) -> di_db_seq i < 2^48) by (intros i Hi; rewrite in_by_seq in Hi; exact (dok_seq (in_ok Hi))).
    revert Hl. generalize (by_seq (map fst ps)). intros l Hl. induction l as [|i l IH]; [reflexivity|]. specialize (IH (fun j Hj => Hl j (or_intror Hj))).
    cbn [filter]. unfold inrange at 1. cbn [rq enum_request l_cmp seq_entry fst]. rewrite lookup_seq, andb_true_r, seq_cmp_be; [|apply Hl; now left|exact Hn].
    assert (Hg : ge (di_db_seq i ?= n) = (n <=? di_db_seq i)) by (unfold N.leb; rewrite (N.compare_antisym (di_db_seq i) n); destruct (di_db_seq i ?= n); reflexivity).
    rewrite Hg. destruct (n <=? di_db_seq i); cbn [andb filter]; [|exact IH]. destruct (chosen o i); [now rewrite IH|exact IH].
  - intros i Hi. apply filter_In in Hi. destruct Hi as [Hi _]. rewrite in_by_seq in Hi. exact (read_seq Hi).
Qed.

Lemma chosen_all i : chosen (EnumOpts false false false) i = true. Proof. reflexivity. Qed.

Lemma docinfos_by_id_eq U ids (cb : doc_info -> U -> res unit * U) u : ids <> [] \/ ps = [] ->
  docinfos_by_id d ids false false cb u = feed cb (filter (fun i => existsb (same (di_id i)) ids) (by_id (map fst ps))) u.
Proof.
  intros Hne. unfold docinfos_by_id, iterate_docinfos. rewrite Hd. destruct (h_by_id (dbh d)) as [p|] eqn:Hp; [|now rewrite (no_id Hp)].
  destruct ids as [|k0 ids0]; [exfalso; destruct Hne as [H|H]; [congruence|exact (some_id Hp H)]|]. set (ids := k0 :: ids0). clearbody ids. clear k0 ids0 Hne.
  set (ks := isort (fun a b => gtc (ebin_cmp a b)) ids). set (rq := enum_request ebin_cmp (EnumOpts false false false) false by_id_read_docinfo cb).
  assert (Hk : ksorted rq ks).
  { unfold ks, ksorted. cbn [rq enum_request l_cmp]. eapply ss_impl; [|apply isort_sorted].
    - intros a b _ _ H. rewrite lookup_ebin. cbn beta in H. destruct (ebin_cmp a b); discriminate.
    - intros a b. apply (gtc_total ord_ebin).
    - intros a b c0. apply (gtc_trans ord_ebin). }
  rewrite (@id_lookup_keys _ rq p ks u eq_refl eq_refl eq_refl Hp Hk). rewrite run_found by reflexivity.
  rewrite nf_found; [|apply ord_lookup, ord_ebin|exact id_sorted|exact Hk]. rewrite filter_map.
  rewrite (@calls_feed _ rq (EnumOpts false false false) by_id_read_docinfo cb id_entry); [|reflexivity|].
  - f_equal. assert (He : forall l, filter (chosen (EnumOpts false false false)) l = l) by (intros l; induction l as [|i l IH]; [reflexivity|]; cbn [filter]; rewrite chosen_all; now rewrite IH).
    rewrite He. apply filter_ext. intros i. unfold requested. cbn [rq enum_request l_cmp id_entry fst].
    apply eq_true_iff_eq. rewrite !existsb_exists. unfold ks. split; intros (k & H1 & H2); exists k.
    + rewrite isort_in in H1. split; [exact H1|]. rewrite lookup_ebin in H2. destruct (ebin_cmp (di_id i) k) eqn:Hc; try discriminate. apply same_true. now apply ebin_eq.
    + rewrite isort_in. split; [exact H1|]. apply same_true in H2. now rewrite H2, lookup_ebin, ebin_refl.
  - intros i Hi. apply filter_In in Hi. destruct Hi as [Hi _]. rewrite in_by_id in Hi. exact (read_id Hi).
Qed.

Lemma docinfos_by_sequence_eq U ns (cb : doc_info -> U -> res unit * U) u : ns <> [] \/ ps = [] -> Forall (fun n => n < 2^48) ns ->
  docinfos_by_sequence d ns false false cb u = feed cb (filter (fun i => existsb (N.eqb (di_db_seq i)) ns) (by_seq (map fst ps))) u.
Proof.
  intros Hne Hns. unfold docinfos_by_sequence, iterate_docinfos. rewrite Hd. destruct (h_by_seq (dbh d)) as [p|] eqn:Hp; [|now rewrite (no_seq Hp)].
  assert (Hne' : ns <> []).
  { destruct Hne as [H|H]; [exact H|]. exfalso. pose proof (sd_sq S) as T. rewrite H in T. apply tree_not_nil in T. congruence. }
  destruct (map (be 6) ns) as [|k0 ids0] eqn:Hm; [destruct ns; [congruence|discriminate]|]. rewrite <- Hm. clear k0 ids0 Hm Hne.
  set (ks := isort (fun a b => gtc (seq_cmp a b)) (map (be 6) ns)). set (rq := enum_request seq_cmp (EnumOpts false false false) false by_seq_read_docinfo cb).
  assert (Hin : forall k, In k ks <-> exists n, In n ns /\ k = be 6 n).
  { intros k. unfold ks. rewrite isort_in, in_map_iff. split; intros (n & H1 & H2); exists n; auto. }
  assert (Hk : ksorted rq ks).
  { unfold ksorted. cbn [rq enum_request l_cmp]. eapply ss_impl; [|apply isort_sorted].
    - intros a b Ha Hb H. fold ks in Ha, Hb. apply Hin in Ha. apply Hin in Hb. destruct Ha as (x & _ & ->), Hb as (y & _ & ->). rewrite lookup_seq. cbn beta in H. destruct (seq_cmp (be 6 x) (be 6 y)); discriminate.
    - intros a b. apply (gtc_total ord_seq).
    - intros a b c0. apply (gtc_trans ord_seq). }
  rewrite (@seq_lookup_keys _ rq p ks u eq_refl eq_refl eq_refl Hp Hk). rewrite run_found by reflexivity.
  rewrite nf_found; [|apply ord_lookup, ord_seq|exact seq_sorted|exact Hk]. rewrite filter_map.
  rewrite (@calls_feed _ rq (EnumOpts false false false) by_seq_read_docinfo cb seq_entry); [|reflexivity|].
  - f_equal. assert (He : forall l, filter (chosen (EnumOpts false false false)) l = l) by (intros l; induction l as [|i l IH]; [reflexivity|]; cbn [filter]; rewrite chosen_all; now rewrite IH).
    rewrite He. apply filter_ext_in. intros i Hi. rewrite in_by_seq in Hi. pose proof (dok_seq (in_ok Hi)) as Hq. rewrite Forall_forall in Hns.
    unfold requested. cbn [rq enum_request l_cmp seq_entry fst].
    apply eq_true_iff_eq. rewrite !existsb_exists. split.
    + intros (k & H1 & H2). apply Hin in H1. destruct H1 as (n & H1 & ->). exists n. split; [exact H1|]. rewrite lookup_seq, seq_cmp_be in H2 by auto.
      destruct (N.compare_spec (di_db_seq i) n); try discriminate. now apply N.eqb_eq.
    + intros (n & H1 & H2). exists (be 6 n). split; [apply Hin; eauto|]. apply N.eqb_eq in H2. rewrite <- H2, lookup_seq, seq_cmp_be, N.compare_refl by assumption. reflexivity.
  - intros i Hi. apply filter_In in Hi. destruct Hi as [Hi _]. rewrite in_by_seq in Hi. exact (read_seq Hi).
Qed.

(** Ranges: one begin, at most one end. *)
Lemma docinfos_range_id_eq U lo hi (cb : doc_info -> U -> res unit * U) u : (length hi <= 1)%nat ->
  docinfos_by_id d (lo :: hi) true false cb u =
  feed cb (filter (fun i => ge (ebin_cmp (di_id i) lo) && match hi with [] => true | h :: _ => negb (gtc (ebin_cmp (di_id i) h)) end) (by_id (map fst ps))) u.
Proof.
  intros Hh. unfold docinfos_by_id, iterate_docinfos. rewrite Hd. destruct (h_by_id (dbh d)) as [p|] eqn:Hp; [|now rewrite (no_id Hp)].
  set (rq := enum_request ebin_cmp (EnumOpts false false false) false by_id_read_docinfo cb).
  rewrite (@id_lookup_range _ rq p lo hi u); [|reflexivity|reflexivity|reflexivity|exact Hp|exact Hh].
  unfold fc. rewrite filter_map.
  rewrite (@calls_feed _ rq (EnumOpts false false false) by_id_read_docinfo cb id_entry); [|reflexivity|].
  - f_equal. assert (He : forall l, filter (chosen (EnumOpts false false false)) l = l) by (intros l; induction l as [|i l IH]; [reflexivity|]; cbn [filter]; rewrite chosen_all; now rewrite IH).
    rewrite He. apply filter_ext. intros i. unfold inrange. cbn [rq enum_request l_cmp id_entry fst]. rewrite lookup_ebin. f_equal. destruct hi as [|h ?]; [reflexivity|]. rewrite lookup_ebin.
    destruct (ebin_cmp (di_id i) h); reflexivity.
  - intros i Hi. apply filter_In in Hi. destruct Hi as [Hi _]. rewrite in_by_id in Hi. exact (read_id Hi).
Qed.
Lemma docinfos_range_seq_eq U lo hi (cb : doc_info -> U -> res unit * U) u : (length hi <= 1)%nat -> lo < 2^48 -> Forall (fun n => n < 2^48) hi ->
  docinfos_by_sequence d (lo :: hi) true false cb u =
  feed cb (filter (fun i => (lo <=? di_db_seq i) && match hi with [] => true | h :: _ => di_db_seq i <=? h end) (by_seq (map fst ps))) u.
Proof.
  intros Hh Hlo Hhi. unfold docinfos_by_sequence, iterate_docinfos. rewrite Hd. destruct (h_by_seq (dbh d)) as [p|] eqn:Hp; [|now rewrite (no_seq Hp)].
  set (rq := enum_request seq_cmp (EnumOpts false false false) false by_seq_read_docinfo cb). cbn [map].
  rewrite (@seq_lookup_range _ rq p (be 6 lo) (map (be 6) hi) u); [|reflexivity|reflexivity|reflexivity|exact Hp|now rewrite map_length].
  unfold fc. rewrite filter_map.
  rewrite (@calls_feed _ rq (EnumOpts false false false) by_seq_read_docinfo cb seq_entry); [|reflexivity|].
  - f_equal. assert (He : forall l, filter (chosen (EnumOpts false false false)) l = l) by (intros l; induction l as [|i l IH]; [reflexivity|]; cbn [filter]; rewrite chosen_all; now rewrite IH).
    rewrite He. apply filter_ext_in. intros i Hi. rewrite in_by_seq in Hi. pose proof (dok_seq (in_ok Hi)) as Hq.
    unfold inrange. cbn [rq enum_request l_cmp seq_entry fst]. rewrite lookup_seq, seq_cmp_be by assumption.
    assert (Hg : ge (di_db_seq i ?= lo) = (lo <=? di_db_seq i)) by (unfold N.leb; rewrite (N.compare_antisym (di_db_seq i) lo); destruct (di_db_seq i ?= lo); reflexivity).
    rewrite Hg. f_equal. destruct hi as [|h ?]; [reflexivity|]. cbn [map]. inversion Hhi; subst. rewrite lookup_seq, seq_cmp_be by assumption. unfold N.leb. destruct (di_db_seq i ?= h); reflexivity.
  - intros i Hi. apply filter_In in Hi. destruct Hi as [Hi _]. rewrite in_by_seq in Hi. exact (read_seq Hi).
Qed.

(** ** Local documents *)

Lemma open_local_eq id : open_local_document d id = match find_local id (v_locals v) with Some x => Ok (LocalDoc (fst x) (snd x) false) | None => Err E_DOC_NOT_FOUND end.
Proof.
  unfold open_local_document, find_local. rewrite Hd. destruct (h_local (dbh d)) as [p|] eqn:Hp.
  - set (rq := LReq ebin_cmp local_doc_fetch None false).
    rewrite (@loc_lookup_keys _ rq p [id] None eq_refl eq_refl eq_refl Hp (one_sorted rq id)).
    rewrite nf_one; [|apply ord_lookup, ord_ebin|apply sorted_lookup_ebin, by_key_sorted; exact (sd_lids S)]. cbn [rq l_cmp].
    assert (Hf : find (fun x => match lookup_compare ebin_cmp (fst x) id with Eq => true | _ => false end) (by_key (v_locals v)) = find (fun x => same (fst x) id) (v_locals v)).
    { assert (Hk : forall x : kv, (match lookup_compare ebin_cmp (fst x) id with Eq => true | _ => false end) = same (fst x) id).
      { intros x. rewrite lookup_ebin. destruct (same (fst x) id) eqn:Hs; [apply same_true in Hs; now rewrite Hs, ebin_refl|]. apply same_false in Hs.
        destruct (ebin_cmp (fst x) id) eqn:Hc; try reflexivity. apply ebin_eq in Hc. congruence. }
      destruct (find (fun x => same (fst x) id) (v_locals v)) as [x|] eqn:Hx.
      - apply find_some in Hx. destruct Hx as [Hx He]. destruct (find _ (by_key (v_locals v))) as [y|] eqn:Hy.
        + apply find_some in Hy. destruct Hy as [Hy Hy']. rewrite in_by_key in Hy. rewrite Hk in Hy'. apply same_true in He, Hy'. f_equal. eapply nodup_map_eq; [exact (sd_lids S)|exact Hy|exact Hx|congruence].
        + exfalso. rewrite <- in_by_key in Hx. eapply find_none in Hy; [|exact Hx]. cbn beta in Hy. rewrite Hk in Hy. congruence.
      - destruct (find _ (by_key (v_locals v))) as [y|] eqn:Hy; [|reflexivity]. exfalso. apply find_some in Hy. destruct Hy as [Hy Hy']. rewrite in_by_key in Hy. rewrite Hk in Hy'.
        eapply find_none in Hx; [|exact Hy]. cbn beta in Hx. congruence. }
    rewrite Hf. destruct (find (fun x => same (fst x) id) (v_locals v)) as [[k b]|]; reflexivity.
  - pose proof (sd_loc S) as T. rewrite Hp in T. cbn in T. assert (Hn : v_locals v = []).
    { destruct (v_locals v) as [|i l] eqn:He; [reflexivity|]. exfalso. assert (Hi : In i (by_key (i :: l))) by (rewrite in_by_key; now left). rewrite T in Hi. destruct Hi. }
    rewrite Hn. reflexivity.
Qed.

(** ** Counts *)

Lemma perm_alive l l' : Permutation l l' -> alive l = alive l'.
Proof. intros H. unfold alive, lenN. f_equal. apply Permutation_length, perm_filter, H. Qed.
Lemma perm_gone l l' : Permutation l l' -> gone l = gone l'.
Proof. intros H. unfold gone, lenN. f_equal. apply Permutation_length, perm_filter, H. Qed.
Lemma perm_sizes l l' : Permutation l l' -> sizes l = sizes l'.
Proof. induction 1; cbn [sizes]; lia. Qed.

Definition sub (r : option node_pointer) : N := match r with Some p => np_subtree p | None => 0 end.
Lemma db_info_eq : db_info d = Ok (DbInfo (v_seq v) (h_purge_seq (dbh d)) (alive (map fst ps) mod 2^40) (gone (map fst ps) mod 2^40)
    ((sizes (map fst ps) mod 2^48 + sub (h_by_id (dbh d)) + sub (h_by_seq (dbh d)) + sub (h_local (dbh d))) mod 2^64)
    (fpos (dbf d)) (h_position (dbh d))).
Proof.
  unfold db_info. rewrite (sd_seq S). fold (sub (h_by_id (dbh d))) (sub (h_by_seq (dbh d))) (sub (h_local (dbh d))).
  destruct (h_by_id (dbh d)) as [p|] eqn:Hp.
  - pose proof (sd_id S) as T. rewrite Hp in T. destruct T as (k & p' & T & _ & Hr & _).
    assert (Hok : Forall dok (by_id (map fst ps))) by (apply Forall_forall; intros i Hi; rewrite in_by_id in Hi; exact (in_ok Hi)).
    pose proof (@id_tree_reduce E cfg0 false (dbf d) k p' _ Hok T) as Hs. rewrite Hr in Hs. rewrite Hs. unfold id_sum. rewrite lenN_id_reduce. change (16 <? 16) with false. cbv iota.
    destruct (rd_id_reduce (alive (by_id (map fst ps))) (gone (by_id (map fst ps))) (sizes (by_id (map fst ps)))) as (-> & -> & ->). cbn [bind].
    assert (HP : Permutation (map fst ps) (by_id (map fst ps))) by apply isort_perm.
    now rewrite (perm_alive HP), (perm_gone HP), (perm_sizes HP).
  - rewrite (no_id Hp). cbn [bind sub]. reflexivity.
Qed.

Lemma changes_count_eq a b : a < 2^48 -> b < 2^48 -> lenN ps < 2^40 ->
  changes_count d a b = Ok (lenN (filter (fun i => (a <=? di_db_seq i) && (di_db_seq i <=? b)) (map fst ps))).
Proof.
  intros Ha Hb Hn. unfold changes_count. destruct (h_by_seq (dbh d)) as [p|] eqn:Hp; [|now rewrite (no_seq Hp)].
  pose proof (sd_sq S) as T. rewrite Hp in T. destruct T as (k & p' & T & Hpp & _). rewrite <- Hpp.
  assert (HP : Permutation (map fst ps) (by_seq (map fst ps))) by apply isort_perm.
  assert (Hlen : lenN (map seq_entry (by_seq (map fst ps))) = lenN ps).
  { unfold lenN. rewrite map_length, <- (Permutation_length HP), map_length. reflexivity. }
  rewrite (@eval_ok E EO cfg0 (dbf d) (be 6 a) (be 6 b) G k (depth_fuel (dbf d))) with (kvs := map seq_entry (by_seq (map fst ps))); [|unfold depth_fuel; pose proof (tree_depth T); pose proof (tree_pos T); lia|exact T| |discriminate| |].
  - rewrite N.add_0_l. f_equal. unfold count. rewrite filter_map. unfold lenN. rewrite map_length. f_equal.
    transitivity (length (filter (fun i => (a <=? di_db_seq i) && (di_db_seq i <=? b)) (by_seq (map fst ps)))).
    + f_equal. apply filter_ext_in. intros i Hi. rewrite in_by_seq in Hi. pose proof (dok_seq (in_ok Hi)) as Hq.
      unfold within. cbn [seq_entry fst]. rewrite !seq_cmp_be by assumption.
      assert (Hg : ge (di_db_seq i ?= a) = (a <=? di_db_seq i)) by (unfold N.leb; rewrite (N.compare_antisym (di_db_seq i) a); destruct (di_db_seq i ?= a); reflexivity).
      rewrite Hg. f_equal. unfold N.leb. destruct (di_db_seq i ?= b); reflexivity.
    + apply Permutation_length, perm_filter, Permutation_sym, HP.
  - apply by_seq_sorted; [exact (sd_ok S)|exact (sd_seqs S)].
  - now rewrite Hlen.
  - rewrite Hlen. eapply N.lt_trans; [exact Hn|reflexivity].
Qed.
End Read.
End WithEnv.
