(** Property C70: enumerating damaged databases. *)
From Coq Require Import Sorting.Permutation.
From Verif Require Import Base SpecOrder Codec CodecFacts File FileFacts ChunkFacts Header HeaderFacts History CrashFacts DataFacts SpecCrash NavFacts ReachNav OpenFacts CommitFacts SpecFile PropertiesCrash
  Btree BtreeRead TreeStore SpecMap MergeFacts ModifyFacts LookupFacts Db SpecDb SortFacts ReduceFacts DbFacts DbSave DbRead TreeWriter Compact SpecCompact CompactFacts
  SpecSession ShowFacts SessionFacts ReadFacts SaveFacts ErrorFacts EnvExample SessionExample PropertiesDb PropertiesSave PropertiesTree PropertiesCompact
  SpecRecover RecoverFacts RecoverCopy RecoverLink PropertiesRecover.
Local Open Scope N_scope.
Unset Strict Implicit.

Lemma filter_and A (p q : A -> bool) l : filter p (filter q l) = filter (fun x => q x && p x) l.
Proof. induction l as [|x l IH]; [reflexivity|]. cbn [filter]. destruct (q x); cbn [andb filter]; [|exact IH]. destruct (p x); now rewrite IH. Qed.
Lemma filter_same A (p q : A -> bool) l : filter (fun x => q x && p x) l = filter p l <-> forall x, In x l -> p x = true -> q x = true.
Proof.
  induction l as [|x l IH]; [cbn; split; [intros _ y []|reflexivity]|]. cbn [filter]. destruct (p x) eqn:Hp; destruct (q x) eqn:Hq; cbn [andb].
  - split.
    + intros H. injection H as H. intros y [<-|Hy] H1; [exact Hq|]. exact (proj1 IH H y Hy H1).
    + intros H. f_equal. apply IH. intros y Hy. apply H. now right.
  - split.
    + intros H. exfalso. assert (Hl : (length (filter (fun x0 => q x0 && p x0) l) <= length (filter p l))%nat).
      { clear. induction l as [|y l IH]; [cbn; lia|]. cbn [filter]. destruct (p y), (q y); cbn [andb length]; lia. }
      rewrite H in Hl. cbn [length] in Hl. lia.
    + intros H. rewrite (H x (or_introl eq_refl) Hp) in Hq. discriminate.
  - rewrite IH. split; intros H y; [intros [<-|Hy] H1; [congruence|auto]|intros Hy; apply H; now right].
  - rewrite IH. split; intros H y; [intros [<-|Hy] H1; [congruence|auto]|intros Hy; apply H; now right].
Qed.
Lemma tol_feed U (rq : lreq U) o read cb (ent : doc_info -> kv) l : l_fetch rq = lookup_callback o read cb -> (forall i, In i l -> read (fst (ent i)) (snd (ent i)) = Ok i) ->
  forall u, run_tol rq (map ent l) u = feed_on cb (filter (chosen o) l) u.
Proof.
  intros Hrq. induction l as [|i l IH]; intros Hr u; [reflexivity|]. cbn [map run_tol filter]. rewrite Hrq. cbn [lookup_callback].
  rewrite (Hr i (or_introl eq_refl)). specialize (IH (fun j Hj => Hr j (or_intror Hj))). unfold chosen at 1.
  destruct (eo_deletes_only o && negb (di_deleted i)); cbn [negb andb]; [rewrite IH; destruct (feed_on cb _ u); reflexivity|].
  destruct (eo_no_deletes o && di_deleted i); cbn [negb]; [rewrite IH; destruct (feed_on cb _ u); reflexivity|]. cbn [feed_on]. destruct (cb i u) as [y u']. rewrite IH. reflexivity.
Qed.

Section WithEnv.
Context {E : Env} (EO : EnvOk E).
Section One.
Variable src : db.
Variable v : contents.
Variable ps : list (doc_info * revision).
Hypothesis S : stored (dbf src) (dbh src) v ps.
Variable g : file.
Variable cmp0 : bytes -> bytes -> comparison.
Variable ent : doc_info -> kv.
Variable read : bytes -> bytes -> res doc_info.
Variable srt : list doc_info -> list doc_info.
Hypothesis Hsrt : forall l i, In i (srt l) <-> In i l.
Hypothesis Hread : forall i, In i (map fst ps) -> read (fst (ent i)) (snd (ent i)) = Ok i.
Variable q : kv -> bool.
Variable pos : N.
Notation K := (map ent (srt (map fst ps))).
Hypothesis L : leaves cmp0 (dbf src) g (depth_fuel g) pos K (filter q K).
Variable P : doc_info -> doc_info -> Prop.
Hypothesis HP : StronglySorted P (srt (map fst ps)).
Variable before : revision -> revision -> Prop.
Hypothesis Hbefore : forall i i' r r', In (i, r) ps -> In (i', r') ps -> P i i' -> before r r'.
Variables there range : revision -> Prop.
Hypothesis Hthere : forall i r, In (i, r) ps -> (q (ent i) = true <-> there r).
Variable k0 : bytes.
Hypothesis Hrange : forall i r, In (i, r) ps -> (ge (lookup_compare cmp0 (fst (ent i)) k0) = true <-> range r).
Variable o : enumopts.

Lemma deliver_left : delivers_left v before there range (picked o) (fun U cb u => btree_lookup (enum_request cmp0 o true read cb) g pos [k0] true u).
Proof.
  set (b := fun i => (q (ent i) && ge (lookup_compare cmp0 (fst (ent i)) k0)) && chosen o i). set (X := srt (map fst ps)). set (Lx := filter b X).
  assert (HL : forall i, In i Lx <-> In i (map fst ps) /\ b i = true) by (intros i; unfold Lx, X; rewrite filter_In, Hsrt; reflexivity).
  destruct (@pairs_of ps Lx) as [rs Hrs]; [intros i Hi; now apply HL|].
  assert (Hdocs : forall r, In r (v_docs v) <-> exists i, In (i, r) ps).
  { intros r. rewrite <- (sd_docs S). rewrite in_map_iff. split; [intros ([i r'] & <- & Hp); now exists i|intros (i & Hp); exists (i, r); auto]. }
  assert (Hb : forall i r, In (i, r) ps -> (b i = true <-> there r /\ range r /\ picked o r)).
  { intros i r Hp. unfold b. rewrite !andb_true_iff, (Hthere Hp), (Hrange Hp), (chosen_picked S o Hp). tauto. }
  exists rs, Lx. split; [|split; [|split]].
  - intros r. split.
    + intros Hr. assert (He : exists i, In i Lx /\ In (i, r) ps).
      { clear - Hrs Hr. induction Hrs as [|i r' l rs HR F IH]; [destruct Hr|]. destruct Hr as [->|Hr]; [exists i; split; [now left|exact HR]|].
        destruct (IH Hr) as (j & H1 & H2). exists j. split; [now right|exact H2]. }
      destruct He as (i & Hi & Hp). split; [apply Hdocs; now exists i|]. apply HL in Hi. now apply (Hb i r Hp).
    + intros [Hr Hsel]. apply Hdocs in Hr. destruct Hr as (i & Hp).
      assert (Hi : In i Lx) by (apply HL; split; [apply in_map_iff; exists (i, r); auto|now apply (Hb i r Hp)]).
      assert (He : exists r', In r' rs /\ In (i, r') ps).
      { clear - Hrs Hi. induction Hrs as [|j r' l rs HR F IH]; [destruct Hi|]. destruct Hi as [->|Hi]; [exists r'; split; [now left|exact HR]|].
        destruct (IH Hi) as (x & H1 & H2). exists x. split; [now right|exact H2]. }
      destruct He as (r' & H1 & H2). now rewrite (pair_fun S Hp H2).
  - eapply ss_forall2; [|apply (ss_filter b HP)|exact Hrs]. intros a a' r r' _ _ H1 H2. now apply Hbefore.
  - eapply Forall2_impl; [|exact Hrs]. intros i r. apply (pair_about S).
  - intros U cb u. unfold btree_lookup. set (rq := enum_request cmp0 o true read cb).
    destruct (lv_from L (rq := rq) eq_refl eq_refl eq_refl k0 u false) as (x & i' & A1 & _ & A3 & A4). rewrite A1. cbn [fst snd l_u]. clear A1.
    assert (Hf : from rq k0 (filter q K) = map ent (filter (fun i => q (ent i) && ge (lookup_compare cmp0 (fst (ent i)) k0)) X)).
    { unfold from. rewrite filter_and, filter_map. reflexivity. }
    assert (Hk : from rq k0 K = map ent (filter (fun i => ge (lookup_compare cmp0 (fst (ent i)) k0)) X)) by (unfold from; rewrite filter_map; reflexivity).
    assert (Hrun : run_tol rq (from rq k0 (filter q K)) u = feed_on cb Lx u).
    { rewrite Hf, (@tol_feed U rq o read cb ent); [|reflexivity|intros i Hi; apply filter_In in Hi; apply Hread, Hsrt; apply Hi]. rewrite filter_and. reflexivity. }
    rewrite Hrun in A3, A4 |- *. split; [reflexivity|].
    assert (Hall : from rq k0 (filter q K) = from rq k0 K <-> forall r, In r (v_docs v) -> range r -> there r).
    { split.
      - intros H r Hr Hg. apply Hdocs in Hr. destruct Hr as (i & Hp). apply (Hthere Hp). apply (Hrange Hp) in Hg.
        assert (Hin : In (ent i) (from rq k0 K)) by (unfold from; apply filter_In; split; [apply in_map, Hsrt, in_map_iff; now exists (i, r)|exact Hg]).
        rewrite <- H in Hin. unfold from in Hin. apply filter_In in Hin. destruct Hin as [Hin _]. apply filter_In in Hin. apply Hin.
      - intros H. rewrite Hf, Hk. f_equal. apply filter_same. intros i Hi Hg. unfold X in Hi. rewrite Hsrt in Hi. apply in_map_iff in Hi. destruct Hi as ([i2 r] & He & Hp). cbn [fst] in He. subst i2.
        apply (Hthere Hp). apply H; [apply Hdocs; now exists i|]. now apply (Hrange Hp). }
    split.
    + intros Hx. destruct (A3 Hx) as [B1 B2]. split; [exact B2|]. now apply Hall.
    + intros H1 H2 (r & Hr & Hg). apply A4; [now apply Hall|exact H1|]. apply Hdocs in Hr. destruct Hr as (i & Hp). apply (Hrange Hp) in Hg. intros H0.
      assert (Hin : In (ent i) (from rq k0 K)) by (unfold from; apply filter_In; split; [apply in_map, Hsrt, in_map_iff; now exists (i, r)|exact Hg]).
      rewrite H0 in Hin. destruct Hin.
Qed.
End One.

Section Two.
Variable src : db.
Variable g : file.
Variable v : contents.
Variable ps : list (doc_info * revision).
Hypothesis Gs : good (dbf src).
Hypothesis Sp : spoiled (dbf src) g.
Hypothesis S : stored (dbf src) (dbh src) v ps.
Let d : db := Db g (dbh src) false.

Lemma ids_distinct : NoDup (map id_entry (by_id (map fst ps))).
Proof.
  apply (NoDup_map_inv fst). rewrite map_map. assert (Hn : NoDup (map di_id (by_id (map fst ps)))); [|exact Hn].
  eapply Permutation_NoDup; [apply Permutation_map; apply isort_perm|exact (ids_nodup S)].
Qed.
Lemma id_left p0 : h_by_id (dbh src) = Some p0 -> exists q : kv -> bool,
  leaves ebin_cmp (dbf src) g (depth_fuel g) (np_pointer p0) (map id_entry (by_id (map fst ps))) (filter q (map id_entry (by_id (map fst ps)))).
Proof.
  intros Hp. pose proof (sd_id S) as T. rewrite Hp in T. destruct T as (n & p' & T & Hp' & _).
  assert (Hdp : (n < depth_fuel g)%nat) by (rewrite (same_depth Sp); exact (@depth_ok unit (LReq ebin_cmp (fun _ _ u => (Ok tt, u)) None false) E _ _ _ _ _ _ _ T)).
  destruct (@left_over E EO (id_request cfg0 false) idP id_redP HidP Hid_red ebin_cmp (ord_lookup ord_ebin) (dbf src) g Gs Sp n _ Hdp p' _ T (id_sorted S)) as [k' L].
  destruct (part_filter (lv_part L) ids_distinct) as [q Hq]. exists q. rewrite Hp' in L. rewrite Hq in L. exact L.
Qed.
Lemma seq_there p0 q : h_by_seq (dbh src) = Some p0 -> leaves seq_cmp (dbf src) g (depth_fuel g) (np_pointer p0) (map seq_entry (by_seq (map fst ps))) (filter q (map seq_entry (by_seq (map fst ps)))) ->
  forall i r, In (i, r) ps -> (q (seq_entry i) = true <-> exists j, docinfo_by_sequence d (rv_seq r) = Ok j).
Proof.
  intros Hp0 L i r Hp. assert (Di : dok i) by (apply (in_ok S); apply in_map_iff; exists (i, r); auto).
  assert (Hne : ps <> []) by (intros H0; rewrite H0 in Hp; destruct Hp).
  destruct (h_by_id (dbh src)) as [p1|] eqn:Hp1; [|exfalso; apply Hne; exact (DbRead.no_id S Hp1)].
  assert (Hx : In (seq_entry i) (map seq_entry (by_seq (map fst ps)))) by (apply in_map; rewrite in_by_seq; apply in_map_iff; exists (i, r); auto).
  pose proof (lv_find L (rq := LReq seq_cmp (docinfo_fetch by_seq_read_docinfo) None false) eq_refl eq_refl eq_refl Hx None) as Hf.
  unfold docinfo_by_sequence. cbn [d dropped dbh dbf]. rewrite Hp0, Hp1. unfold btree_lookup. rewrite <- (ab_seq (pair_about S Hp)). cbn [seq_entry fst] in Hf. rewrite filter_In in Hf.
  destruct Hf as [[[_ Hi] Hf]|[Hi (e & Hf)]]; rewrite Hf.
  - split; [|auto]. intros _. unfold out. cbn [run_calls found l_fetch docinfo_fetch fst snd seq_entry]. rewrite (by_seq_roundtrip (proj1 Di)). eexists. reflexivity.
  - split; [intros H; exfalso; apply Hi; split; [exact Hx|exact H]|intros [j H]; discriminate].
Qed.
Lemma id_there p0 q : h_by_id (dbh src) = Some p0 -> leaves ebin_cmp (dbf src) g (depth_fuel g) (np_pointer p0) (map id_entry (by_id (map fst ps))) (filter q (map id_entry (by_id (map fst ps)))) ->
  forall i r, In (i, r) ps -> (q (id_entry i) = true <-> exists j, docinfo_by_id d (rv_id r) = Ok j).
Proof.
  intros Hp0 L i r Hp. assert (Di : dok i) by (apply (in_ok S); apply in_map_iff; exists (i, r); auto).
  assert (Hx : In (id_entry i) (map id_entry (by_id (map fst ps)))) by (apply in_map; rewrite in_by_id; apply in_map_iff; exists (i, r); auto).
  pose proof (lv_find L (rq := LReq ebin_cmp (docinfo_fetch by_id_read_docinfo) None false) eq_refl eq_refl eq_refl Hx None) as Hf.
  unfold docinfo_by_id. cbn [d dropped dbh dbf]. rewrite Hp0. unfold btree_lookup. rewrite <- (ab_id (pair_about S Hp)). cbn [id_entry fst] in Hf. rewrite filter_In in Hf.
  destruct Hf as [[[_ Hi] Hf]|[Hi (e & Hf)]]; rewrite Hf.
  - split; [|auto]. intros _. unfold out. cbn [run_calls found l_fetch docinfo_fetch fst snd id_entry]. rewrite (by_id_roundtrip (proj1 Di)). eexists. reflexivity.
  - split; [intros H; exfalso; apply Hi; split; [exact Hx|exact H]|intros [j H]; discriminate].
Qed.

Lemma none_left before there range sel (run : forall U : Type, (doc_info -> U -> res unit * U) -> U -> res unit * U) : ps = [] -> (forall U cb (u : U), run U cb u = (Ok tt, u)) -> delivers_left v before there range sel run.
Proof.
  intros Hps Hrun. assert (Hv : v_docs v = []) by (rewrite <- (sd_docs S), Hps; reflexivity).
  exists [], []. rewrite Hv. split; [intros r; split; [intros []|intros [[] _]]|]. split; [constructor|]. split; [constructor|]. intros U cb u. rewrite Hrun. cbn [feed_on fst snd].
  split; [reflexivity|]. split; [|reflexivity]. intros _. split; [reflexivity|intros r []].
Qed.
Theorem changes_left since o : eo_tolerate o = true -> since < 2^48 ->
  delivers_left v seq_before (fun r => exists i, docinfo_by_sequence d (rv_seq r) = Ok i) (fun r => since <= rv_seq r) (picked o) (fun U cb u => changes_since d since o cb u).
Proof.
  intros Ht Hn. destruct (h_by_seq (dbh src)) as [p0|] eqn:Hp.
  2:{ apply none_left; [exact (DbRead.no_seq S Hp)|]. intros U cb u. unfold changes_since. cbn [d dropped dbh]. rewrite Hp. reflexivity. }
  destruct (seq_left EO Gs Sp S) as [q Hq]. specialize (Hq p0 Hp). unfold changes_since. cbn [d dropped dbh dbf]. rewrite Hp, Ht.
  eapply (@deliver_left src v ps S g seq_cmp seq_entry by_seq_read_docinfo by_seq); [intros; apply in_by_seq| |exact Hq|exact (seq_strict S)| | |].
  - intros i Hi. exact (by_seq_roundtrip (proj1 (in_ok S Hi))).
  - intros i i' r r' H1 H2 Hlt. unfold seq_before. rewrite <- (ab_seq (pair_about S H1)), <- (ab_seq (pair_about S H2)). exact Hlt.
  - exact (@seq_there p0 q Hp Hq).
  - intros i r Hi. cbn [seq_entry fst]. assert (Di : dok i) by (apply (in_ok S); apply in_map_iff; exists (i, r); auto). rewrite lookup_seq, seq_cmp_be; [|exact (dok_seq Di)|exact Hn].
    rewrite (ab_seq (pair_about S Hi)). unfold ge. destruct (N.compare_spec (rv_seq r) since); split; intros; try reflexivity; try discriminate; lia.
Qed.
Theorem all_left start o : eo_tolerate o = true ->
  delivers_left v id_before (fun r => exists i, docinfo_by_id d (rv_id r) = Ok i) (fun r => lex_le start (rv_id r)) (picked o) (fun U cb u => all_docs d start o cb u).
Proof.
  intros Ht. destruct (h_by_id (dbh src)) as [p0|] eqn:Hp.
  2:{ apply none_left; [exact (DbRead.no_id S Hp)|]. intros U cb u. unfold all_docs. cbn [d dropped dbh]. rewrite Hp. reflexivity. }
  destruct (id_left Hp) as [q Hq]. unfold all_docs. cbn [d dropped dbh dbf]. rewrite Hp, Ht.
  eapply (@deliver_left src v ps S g ebin_cmp id_entry by_id_read_docinfo by_id); [intros; apply in_by_id| |exact Hq|exact (id_strict S)| | |].
  - intros i Hi. exact (by_id_roundtrip (proj1 (in_ok S Hi))).
  - intros i i' r r' H1 H2 Hlt. unfold id_before. rewrite <- ebin_lex. rewrite <- (ab_id (pair_about S H1)), <- (ab_id (pair_about S H2)). exact Hlt.
  - exact (@id_there p0 q Hp Hq).
  - intros i r Hi. cbn [id_entry fst]. rewrite lookup_ebin, ge_lex, (ab_id (pair_about S Hi)). reflexivity.
Qed.
End Two.
End WithEnv.

(** ** C70 *)

(** A snapshot (header [h], contents [v]) of a database is enumerated with the option to tolerate errors, from a file [g] in which parts have been damaged so that reading them fails.
    Exactly the documents of the range are delivered that are still found when they are looked up one by one - by their sequence number, or by their id -, each once, with their information, in order;
    the callback is called for all of them whatever it returns. Success is reported only if no document of the range is missing and no call failed. *)
Theorem C70_changes : forall (E : Env), EnvOk E -> forall key getkey, key_ok key getkey -> forall s h v, sessions key getkey s -> snapshot s h v ->
  forall p, fpos (dbf (ss_db s)) <= p <= size (dbf (ss_db s)) -> forall g, spoiled (dbf (reader s h p)) g ->
  forall since o, since < 2^48 -> eo_tolerate o = true ->
  let d := Db g h false in
  delivers_left v seq_before (fun r => exists i, docinfo_by_sequence d (rv_seq r) = Ok i) (fun r => since <= rv_seq r) (picked o) (fun U cb u => changes_since d since o cb u).
Proof.
  intros E EO key getkey KO s h v H Sn p Hp g Sp since o Hn Ht. destruct (sessions_linked EO KO H) as [t L]. destruct (linked_snapshot EO KO L Sn) as [ps S]. destruct (sessions_stored EO KO H) as (G & _).
  assert (G' : good (dbf (reader s h p))) by (apply good_fpos; [exact G|apply Hp]).
  assert (S' : stored (dbf (reader s h p)) (dbh (reader s h p)) v ps) by (eapply stored_keeps; [apply set_fpos_keeps; apply Hp|exact S]).
  exact (@changes_left E EO (reader s h p) g v ps G' Sp S' since o Ht Hn).
Qed.
Print Assumptions C70_changes.
Theorem C70_all : forall (E : Env), EnvOk E -> forall key getkey, key_ok key getkey -> forall s h v, sessions key getkey s -> snapshot s h v ->
  forall p, fpos (dbf (ss_db s)) <= p <= size (dbf (ss_db s)) -> forall g, spoiled (dbf (reader s h p)) g ->
  forall start o, eo_tolerate o = true ->
  let d := Db g h false in
  delivers_left v id_before (fun r => exists i, docinfo_by_id d (rv_id r) = Ok i) (fun r => lex_le start (rv_id r)) (picked o) (fun U cb u => all_docs d start o cb u).
Proof.
  intros E EO key getkey KO s h v H Sn p Hp g Sp start o Ht. destruct (sessions_linked EO KO H) as [t L]. destruct (linked_snapshot EO KO L Sn) as [ps S]. destruct (sessions_stored EO KO H) as (G & _).
  assert (G' : good (dbf (reader s h p))) by (apply good_fpos; [exact G|apply Hp]).
  assert (S' : stored (dbf (reader s h p)) (dbh (reader s h p)) v ps) by (eapply stored_keeps; [apply set_fpos_keeps; apply Hp|exact S]).
  exact (@all_left E EO (reader s h p) g v ps G' Sp S' start o Ht).
Qed.
Print Assumptions C70_all.

(** *** A damaged index of several nodes *)

Definition batch3 : list submit := [mk [97] 1 false 0 None 1; mk [98] 1 true 0 None 2; mk [99] 1 false 0 (Some [7]) 3; mk [100] 1 false 0 None 4; mk [101] 1 true 0 None 5].
Definition sy1 : session := @after_docs env0 sx0 (Cfg 30 30) so false batch3.
Lemma sy01 : @write env0 sx0 sy1.
Proof. apply docs_write; [discriminate| |vm_compute; reflexivity]. apply batch_check; vm_compute; reflexivity. Qed.
Lemma sy1_session : @sessions env0 None gks sy1. Proof. exact (sess_write sx0_session sy01). Qed.
Definition tolerant : enumopts := EnumOpts false false true.
Definition ysrc : db := reader sy1 (dbh (ss_db sy1)) (fpos (dbf (ss_db sy1))).
(** The node of the index by sequence numbers that has "b", or that of the index by ids, is damaged. *)
Definition seq_hit : db := Db (hit (dbf ysrc) 429) (dbh (ss_db sy1)) false.
Definition id_hit : db := Db (hit (dbf ysrc) 109) (dbh (ss_db sy1)) false.
Definition gather (i : doc_info) (u : list bytes) : res unit * list bytes := (Ok tt, u ++ [di_id i]).
Example C70_ex : key_ok None gks /\ @sessions env0 None gks sy1 /\ @snapshot env0 sy1 (dbh (ss_db sy1)) (ss_now sy1) /\
  (fpos (dbf (ss_db sy1)) <=? size (dbf (ss_db sy1))) = true /\ @spoiled env0 (dbf ysrc) (dbf seq_hit) /\ @spoiled env0 (dbf ysrc) (dbf id_hit) /\
  @changes_since env0 _ seq_hit 0 tolerant gather [] = (Err E_CHECKSUM, [[97]; [99]; [100]; [101]]) /\ @docinfo_by_sequence env0 seq_hit 2 = Err E_CHECKSUM /\
  @changes_since env0 _ seq_hit 3 tolerant gather [] = (Ok tt, [[99]; [100]; [101]]) /\
  @changes_since env0 _ seq_hit 0 (EnumOpts false false false) gather [] = (Err E_CHECKSUM, [[97]]) /\
  @all_docs env0 _ seq_hit [] tolerant gather [] = (Ok tt, [[97]; [98]; [99]; [100]; [101]]) /\
  @all_docs env0 _ id_hit [] (EnumOpts true false true) gather [] = (Err E_CHECKSUM, [[97]; [100]; [101]]) /\ @docinfo_by_id env0 id_hit [98] = Err E_CHECKSUM.
Proof.
  split; [exact sx_key|]. split; [exact sy1_session|]. split; [left; split; reflexivity|]. split; [vm_compute; reflexivity|].
  split; [apply spoiled_check; vm_compute; reflexivity|]. split; [apply spoiled_check; vm_compute; reflexivity|]. repeat split; vm_compute; reflexivity.
Qed.

(** The callback cannot end a tolerant enumeration: an error that it returns is treated like a damaged node. Here it asks to stop at the first document and is called for the four others. *)
Definition stop (i : doc_info) (u : list bytes) : res unit * list bytes := (Err E_CANCEL, u ++ [di_id i]).
Theorem C70_cancel_refuted : exists (E : Env) s, EnvOk E /\ sessions None gks s /\
  changes_since (ss_db s) 0 (EnumOpts false false false) stop [] = (Err E_CANCEL, [[97]]) /\
  changes_since (ss_db s) 0 tolerant stop [] = (Err E_CANCEL, [[97]; [98]; [99]; [100]; [101]]) /\ all_docs (ss_db s) [] tolerant stop [] = (Err E_CANCEL, [[97]; [98]; [99]; [100]; [101]]).
Proof. exists env0, sy1. split; [exact env0_ok|]. split; [exact sy1_session|]. repeat split; vm_compute; reflexivity. Qed.
Print Assumptions C70_cancel_refuted.
