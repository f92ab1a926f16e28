(** Looking up keys in a stored index gives what a search in its list of entries gives. *)
From Verif Require Import Base Codec CodecFacts File FileFacts ChunkFacts Btree BtreeRead TreeStore SpecMap MergeFacts ModifyFacts.
Local Open Scope N_scope.

Lemma ord_lookup cmp : ord cmp -> ord (lookup_compare cmp).
Proof.
  intros O. constructor.
  - intros [|a l]; [reflexivity|]. apply (o_refl O).
  - intros [|a l] [|b l']; try reflexivity. apply (o_anti O).
  - intros [|a l] [|b l'] [|c l'']; cbn; try congruence. apply (o_lt O).
  - intros [|a l] [|b l'] [|c l'']; cbn; try congruence. apply (o_eq O).
Qed.

Section WithU.
Variable U : Type.
Variable rq : lreq U.
Hypothesis Htol : l_tol rq = false.
Hypothesis Hnode : l_node rq = None.
Let cmp := lookup_compare (l_cmp rq).
Hypothesis OL : ord cmp.

Definition call := (bytes * option bytes)%type.
Fixpoint run_calls (l : list call) (u : U) : res unit * U :=
  match l with
  | [] => (Ok tt, u)
  | (k, v) :: r => match l_fetch rq k v u with (Ok _, u') => run_calls r u' | (Err e, u') => (Err e, u') end
  end.
Lemma run_calls_app a b u : run_calls (a ++ b) u = match run_calls a u with (Ok _, u') => run_calls b u' | (Err e, u') => (Err e, u') end.
Proof.
  revert u. induction a as [|[k v] a IH]; intros u; [reflexivity|]. cbn [app run_calls].
  destruct (l_fetch rq k v u) as [[[]|e] u']; [apply IH|reflexivity].
Qed.

(** ** Single keys *)

Fixpoint nfe (k v : bytes) (ks : list bytes) : list call * list bytes :=
  match ks with
  | [] => ([], [])
  | k0 :: kr => match cmp k k0 with
                | Lt => ([], ks)
                | Eq => ([(k, Some v)], kr)
                | Gt => let '(c, r) := nfe k v kr in ((k0, None) :: c, r)
                end
  end.
Definition absent (k : bytes) : call := (k, None).
Fixpoint nf (ks : list bytes) (l : list kv) : list call :=
  match l with
  | [] => map absent ks
  | (k, v) :: r => let '(c, ks') := nfe k v ks in c ++ nf ks' r
  end.
Lemma nf_nil l : nf [] l = [].
Proof. induction l as [|[k v] l IH]; [reflexivity|exact IH]. Qed.

Lemma nfe_app k v here later : (forall q, In q later -> cmp k q = Lt) ->
  nfe k v (here ++ later) = let '(c, r) := nfe k v here in (c, r ++ later).
Proof.
  intros H. induction here as [|q here IH]; cbn [app nfe].
  - destruct later as [|q later]; cbn [nfe]; [reflexivity|]. rewrite H by (now left). reflexivity.
  - destruct (cmp k q); try reflexivity. rewrite IH. destruct (nfe k v here). reflexivity.
Qed.
Lemma nfe_in k v ks q : In q (snd (nfe k v ks)) -> In q ks.
Proof.
  induction ks as [|b ks IH]; cbn; [auto|]. destruct (cmp k b); cbn; auto. destruct (nfe k v ks). auto.
Qed.
Lemma nf_gt l here later : (forall q x, In q here -> In x l -> cmp (fst x) q = Gt) ->
  nf (here ++ later) l = map absent here ++ nf later l.
Proof.
  destruct l as [|[k v] l]; cbn [nf]; [intros; apply map_app|].
  induction here as [|q here IH]; intros H; cbn [app nfe map]; [reflexivity|].
  pose proof (H q (k, v) (or_introl eq_refl) (or_introl eq_refl)) as Hg. cbn [fst] in Hg. rewrite Hg.
  specialize (IH (fun a x Ha Hx => H a x (or_intror Ha) Hx)).
  destruct (nfe k v (here ++ later)) as [c r]. destruct (nfe k v later) as [c' r']. cbn [app]. f_equal. exact IH.
Qed.
Lemma nf_app l1 l2 : forall here later,
  (forall q x, In q here -> In x l2 -> cmp (fst x) q = Gt) ->
  (forall q x, In q later -> In x l1 -> cmp (fst x) q = Lt) ->
  nf (here ++ later) (l1 ++ l2) = nf here l1 ++ nf later l2.
Proof.
  induction l1 as [|[k v] l1 IH]; intros here later H1 H2; cbn [app nf]; [now apply nf_gt|].
  rewrite nfe_app by (intros q Hq; exact (H2 q (k, v) Hq (or_introl eq_refl))).
  pose proof (@nfe_in k v here) as Hin. destruct (nfe k v here) as [c r].
  rewrite <- app_assoc. f_equal. apply IH.
  - intros q y Hq Hy. apply H1; auto.
  - intros q y Hq Hy. apply H2; auto. now right.
Qed.

Definition out (x : res unit * U) (fold inn : bool) : res unit * lst U := (fst x, Lst (snd x) fold inn).

Lemma rest_nf ks : forall u, lk_rest rq ks (Ok tt) (Lst u false false) = out (run_calls (map absent ks) u) false false.
Proof.
  induction ks as [|k ks IH]; intros u; [reflexivity|]. cbn [lk_rest map run_calls absent l_fold l_u].
  destruct (l_fetch rq k None u) as [[[]|e] u'].
  - apply IH.
  - reflexivity.
Qed.
Lemma entry_nf k v r ks : forall u,
  lk_kv rq ((k, v) :: r) TEnd ks (Ok tt) (Lst u false false) =
  match run_calls (fst (nfe k v ks)) u with
  | (Ok _, u') => lk_kv rq r TEnd (snd (nfe k v ks)) (Ok tt) (Lst u' false false)
  | (Err e, u') => (Err e, Lst u' false false)
  end.
Proof.
  induction ks as [|k0 kr IH]; intros u.
  - cbn. destruct r as [|[? ?] ?]; reflexivity.
  - cbn [lk_kv kv_entry nfe]. unfold lcmp. fold cmp. cbn [l_fold l_in set_u l_u]. rewrite andb_false_r. cbn [andb l_in l_u orb].
    destruct (cmp k k0) eqn:Hc; cbn [ge andb fst snd run_calls l_in].
    + cbn [orb]. rewrite Htol. destruct (l_fetch rq k (Some v) u) as [[[]|e] u']; reflexivity.
    + reflexivity.
    + cbn [orb]. rewrite Htol. specialize (IH (snd (l_fetch rq k0 None u))). destruct (nfe k v kr) as [c ks'].
      cbn [fst snd run_calls] in *. destruct (l_fetch rq k0 None u) as [[[]|e] u']; cbn [set_u l_fold l_in snd] in *; [|reflexivity].
      rewrite <- IH. cbn [lk_kv]. destruct kr as [|k1 kr']; [reflexivity|]. reflexivity.
Qed.
Lemma leaf_nf l : forall ks u, lk_kv rq l TEnd ks (Ok tt) (Lst u false false) = out (run_calls (nf ks l) u) false false.
Proof.
  induction l as [|[k v] l IH]; intros ks u.
  - destruct ks as [|k ks]; [reflexivity|]. exact (rest_nf (k :: ks) u).
  - rewrite entry_nf. cbn [nf]. destruct (nfe k v ks) as [c ks']. cbn [fst snd]. rewrite run_calls_app.
    destruct (run_calls c u) as [[[]|e] u']; [apply IH|reflexivity].
Qed.

(** ** Ranges *)

Definition inrange (k0 : bytes) (hi : list bytes) (x : kv) : bool :=
  ge (cmp (fst x) k0) && match hi with [] => true | k1 :: _ => match cmp (fst x) k1 with Gt => false | _ => true end end.
Definition found (x : kv) : call := (fst x, Some (snd x)).
Definition fc (k0 : bytes) (hi : list bytes) (l : list kv) : list call := map found (filter (inrange k0 hi) l).
Definition fpost (k0 : bytes) (hi : list bytes) (l : list kv) (i : bool) (u : U) (r : res unit * lst U) : Prop :=
  (fst r, l_u (snd r)) = run_calls (fc k0 hi l) u /\
  (fst r = Ok tt ->
     (l_fold (snd r) = true /\ (i = true -> l_in (snd r) = true)) \/
     (l_fold (snd r) = false /\ l_in (snd r) = false /\ exists k1 e, hi = [k1] /\ In e l /\ cmp (fst e) k1 = Gt)).
Lemma fc_app k0 hi a b : fc k0 hi (a ++ b) = fc k0 hi a ++ fc k0 hi b.
Proof. unfold fc. rewrite filter_app, map_app. reflexivity. Qed.
Lemma fc_nil k0 hi l : (forall x, In x l -> inrange k0 hi x = false) -> fc k0 hi l = [].
Proof.
  unfold fc. induction l as [|x l IH]; intros H; [reflexivity|]. cbn [filter]. rewrite (H x) by (now left). apply IH. intros; apply H. now right.
Qed.
Lemma fc_ext k0 hi hi' l : (forall x, In x l -> inrange k0 hi x = inrange k0 hi' x) -> fc k0 hi l = fc k0 hi' l.
Proof. unfold fc. intros H. f_equal. apply filter_ext_in. exact H. Qed.
Lemma above k0 k1 x : cmp (fst x) k1 = Gt -> inrange k0 [k1] x = false.
Proof. intros H. unfold inrange. rewrite H. apply andb_false_r. Qed.

Lemma leaf_fold k0 hi l : (length hi <= 1)%nat -> sorted cmp l -> forall u i, fpost k0 hi l i u (lk_kv rq l TEnd (k0 :: hi) (Ok tt) (Lst u true i)).
Proof.
  intros Hh Hs. induction Hs as [|[k v] l Hs IH Hall]; intros u i.
  - cbn. split; [reflexivity|]. intros _. left. auto.
  - cbn [lk_kv kv_entry]. unfold lcmp. fold cmp. cbn [l_fold l_in l_u]. rewrite andb_true_r.
    set (s1 := if ge (cmp k k0) && negb i then set_in true (Lst u true i) else Lst u true i).
    assert (Hs1 : s1 = Lst u true (ge (cmp k k0) || i)) by (unfold s1; destruct (ge (cmp k k0)), i; reflexivity). rewrite Hs1. clear s1 Hs1.
    cbn [l_in l_u l_fold].
    destruct ((ge (cmp k k0) || i) && match hi with [] => false | k1 :: _ => match cmp k k1 with Gt => true | _ => false end end) eqn:He.
    { apply andb_true_iff in He. destruct He as [_ He]. destruct hi as [|k1 [|? ?]]; [discriminate| |cbn in Hh; lia].
      destruct (cmp k k1) eqn:Hk1; try discriminate.
      assert (Hz : fc k0 [k1] ((k, v) :: l) = []).
      { apply fc_nil. intros x [<-|Hx]; apply above; [exact Hk1|]. rewrite Forall_forall in Hall. specialize (Hall x Hx). cbn [fst] in Hall.
        apply (c_gt OL). apply (c_gt OL) in Hk1. eapply (o_lt OL); eassumption. }
      split; cbn [fst snd l_u l_fold l_in].
      - now rewrite Hz.
      - intros _. right. split; [reflexivity|]. split; [reflexivity|]. exists k1, (k, v). split; [reflexivity|]. split; [now left|exact Hk1]. }
    assert (Htail : forall u' i', (i = true -> i' = true) -> fpost k0 hi l i' u' (lk_kv rq l TEnd (k0 :: hi) (Ok tt) (Lst u' true i')) ->
      forall a, (forall w, run_calls (fc k0 hi ((k, v) :: l)) w = match run_calls a w with (Ok _, w') => run_calls (fc k0 hi l) w' | (Err e, w') => (Err e, w') end) ->
      run_calls a u = (Ok tt, u') -> fpost k0 hi ((k, v) :: l) i u (lk_kv rq l TEnd (k0 :: hi) (Ok tt) (Lst u' true i'))).
    { intros u' i' Hi [H1 H2] a Ha Hr. split; [rewrite H1, Ha, Hr; reflexivity|]. intros Hok. destruct (H2 Hok) as [[A1 A2]|(A1 & A2 & k1 & e & A3 & A4 & A5)].
      - left. auto.
      - right. repeat split; auto. exists k1, e. repeat split; auto. now right. }
    destruct (ge (cmp k k0)) eqn:Hg; cbn [orb andb] in *.
    + assert (Hin : inrange k0 hi (k, v) = true).
      { unfold inrange. cbn [fst]. rewrite Hg. cbn [andb]. destruct hi as [|k1 ?]; [reflexivity|]. destruct (cmp k k1); [reflexivity|reflexivity|discriminate]. }
      rewrite orb_true_r. destruct (l_fetch rq k (Some v) u) as [x u'] eqn:Hf. rewrite Htol. destruct x as [[]|e].
      * cbn [set_u l_in l_fold]. apply (Htail u' true) with (a := [(k, Some v)]); auto.
        -- intros w. unfold fc. cbn [filter]. rewrite Hin. cbn [map run_calls found fst snd]. destruct (l_fetch rq k (Some v) w) as [[[]|?] ?]; reflexivity.
        -- cbn. rewrite Hf. reflexivity.
      * split; [|discriminate]. cbn [fst snd set_u l_u]. unfold fc. cbn [filter]. rewrite Hin. cbn [map run_calls found fst snd]. now rewrite Hf.
    + assert (Hin : inrange k0 hi (k, v) = false) by (unfold inrange; cbn [fst]; rewrite Hg; reflexivity).
      apply (Htail u i) with (a := []); auto. intros w. unfold fc. cbn [filter]. rewrite Hin. reflexivity.
Qed.

(** ** Trees *)

Context {E : Env} (EO : EnvOk E).
Variable mq : request.
Variable kvP : kv -> Prop.
Variable redP : bytes -> Prop.
Hypothesis HkvP : forall x, kvP x -> kv_ok x.
Hypothesis HredP : forall r, redP r -> lenN r < 2^16.
Notation tree := (tree mq kvP redP).

Lemma read_child f d c kvs : tree f d c kvs -> read_pointer (np_key c) (encode_pointer c) = Ok (norm c).
Proof. intros T. destruct d; destruct T as (H1 & _ & H3 & _); rewrite read_encode_pointer; auto. Qed.
Lemma children_ok f d cs ks : Forall2 (tree f d) cs ks -> Forall kv_ok (map kp_entry cs).
Proof.
  induction 1 as [|c k cs ks H _ IH]; cbn [map]; constructor; auto.
  assert (Hk : lenN (np_key c) < 2^12 /\ lenN (np_reduce c) < 2^16) by (destruct d; destruct H as (_ & H2 & H3 & _); auto).
  split; cbn [kp_entry fst snd]; [tauto|]. rewrite lenN_encode_pointer. change (2^28) with 268435456. change (2^16) with 65536 in Hk. lia.
Qed.
Lemma node_at_has f q b sz : good f -> hasz f q b sz -> b <> [] -> node_at f q = Ok b.
Proof.
  intros G (z & H & Hu & _) Hb. unfold node_at, pread_compressed. pose proof (has_read EO q z G H) as Hr. unfold pread_bin in Hr.
  rewrite Hr. cbn [bind]. rewrite Hu. destruct b; [congruence|reflexivity].
Qed.

(** The child's entries lie below its key, those of the following children above. *)
Lemma child_bounds f d c k l : tree f d c k -> sorted cmp (k ++ l) ->
  sorted cmp k /\ sorted cmp l /\ (forall x, In x k -> cmp (fst x) (np_key c) <> Gt) /\ (forall x, In x l -> cmp (np_key c) (fst x) = Lt) /\
  (forall x y, In x k -> In y l -> cmp (fst x) (fst y) = Lt).
Proof.
  intros T Hs.
  assert (Happ : forall (a b : list kv), sorted cmp (a ++ b) -> sorted cmp a /\ sorted cmp b /\ forall x y, In x a -> In y b -> cmp (fst x) (fst y) = Lt).
  { induction a as [|z a IH]; cbn [app]; intros b H; [split; [constructor|split; [exact H|intros x y []]]|].
    inversion H as [|? ? H1 H2]; subst. destruct (IH b H1) as (A1 & A2 & A3). rewrite Forall_app in H2. destruct H2 as [H2 H3]. split; [constructor; assumption|].
    split; [exact A2|]. intros x y [<-|Hx] Hy; [|now apply A3]. rewrite Forall_forall in H3. now apply H3. }
  destruct (Happ k l Hs) as (H1 & H2 & H3). split; [exact H1|]. split; [exact H2|].
  pose proof (tree_key T) as Hk. pose proof (tree_nonempty T) as Hne.
  assert (Hin : exists y, In y k /\ fst y = np_key c).
  { rewrite Hk. assert (Hi : In (last (map fst k) []) (map fst k)) by (apply last_in; intros Hm'; apply map_eq_nil in Hm'; congruence).
    apply in_map_iff in Hi. destruct Hi as (y & Hy1 & Hy2). eauto. }
  split; [|split; [|exact H3]].
  - intros x Hx. rewrite Hk. clear - H1 Hx OL. revert x Hx. induction H1 as [|y l Hs IH Hall]; intros x Hx; [destruct Hx|]. destruct l as [|z l].
    + destruct Hx as [<-|[]]. cbn. rewrite (o_refl OL). discriminate.
    + change (last (map fst (y :: z :: l)) []) with (last (map fst (z :: l)) []). destruct Hx as [<-|Hx]; [|now apply IH].
      rewrite Forall_forall in Hall. intros Hg. apply (c_gt OL) in Hg.
      assert (Hl : cmp (fst z) (last (map fst (z :: l)) []) <> Gt) by (apply IH; now left).
      apply Hl. apply (c_gt OL). eapply (o_lt OL); [exact Hg|]. apply Hall. now left.
  - intros x Hx. destruct Hin as (y & Hy & <-). now apply H3.
Qed.

Arguments child_bounds {f d c k l}. Arguments read_child {f d c kvs}. Arguments children_ok {f d cs ks}. Arguments node_at_has {f q b sz}.
Definition ksorted (ks : list bytes) : Prop := StronglySorted (fun a b => cmp a b <> Gt) ks.
Lemma span_ge_spec ck ks : ksorted ks -> exists here later, span_ge rq ck ks = (here, later) /\ ks = here ++ later /\
  (forall q, In q here -> cmp ck q <> Lt) /\ (forall q, In q later -> cmp ck q = Lt).
Proof.
  intros Hs. induction Hs as [|q ks Hs IH Hall]; cbn [span_ge].
  - exists [], []. repeat split; intros q [].
  - unfold lcmp. fold cmp. destruct (cmp ck q) eqn:Hc; cbn [ge].
    + destruct IH as (h & l & -> & -> & H1 & H2). exists (q :: h), l. repeat split; auto. intros b [<-|Hb]; [congruence|auto].
    + exists [], (q :: ks). repeat split; [intros b []|]. intros b [<-|Hb]; [exact Hc|]. rewrite Forall_forall in Hall.
      eapply (c_lt_le OL); [exact Hc|now apply Hall].
    + destruct IH as (h & l & -> & -> & H1 & H2). exists (q :: h), l. repeat split; auto. intros b [<-|Hb]; [congruence|auto].
Qed.
Arguments span_ge_spec ck {ks}.
Lemma ksorted_app a b : ksorted (a ++ b) -> ksorted a /\ ksorted b.
Proof.
  induction a as [|z a IH]; cbn [app]; intros H; [split; [constructor|exact H]|].
  inversion H as [|? ? H1 H2]; subst. destruct (IH H1) as (A1 & A2). rewrite Forall_app in H2. split; [constructor; tauto|exact A2].
Qed.

Arguments ksorted_app : clear implicits.
Lemma kp_nf f d rec : (forall c k ks u, tree f d c k -> sorted cmp k -> ksorted ks -> rec (np_pointer c) ks (Lst u false false) = out (run_calls (nf ks k) u) false false) ->
  forall cs kss, Forall2 (tree f d) cs kss -> sorted cmp (concat kss) -> forall ks u, ksorted ks ->
  lk_kp rq rec (map kp_entry cs) TEnd ks (Ok tt) (Lst u false false) = out (run_calls (nf ks (concat kss)) u) false false.
Proof.
  intros Hrec cs kss Ht. induction Ht as [|c k cs kss Hc Ht IH]; intros Hs ks u Hks.
  - destruct ks as [|q ks]; [reflexivity|]. exact (rest_nf (q :: ks) u).
  - cbn [concat] in Hs |- *. destruct (child_bounds Hc Hs) as (S1 & S2 & S3 & S4 & _).
    destruct ks as [|k0 kr]; [rewrite nf_nil; reflexivity|].
    cbn [map lk_kp kp_entry]. unfold lcmp at 1. fold cmp. destruct (ge (cmp (np_key c) k0)) eqn:Hg.
    + destruct (span_ge_spec (np_key c) Hks) as (here & later & Esp & Eks & Hh & Hl).
      cbn [span_ge] in Esp. unfold lcmp at 1 in Esp. fold cmp in Esp. rewrite Hg in Esp.
      destruct (span_ge rq (np_key c) kr) as [h0 l0]. inv Esp. cbn [app] in Eks. 
      rewrite (read_child Hc). unfold call_node. rewrite Hnode. cbn [l_fold norm np_pointer].
      rewrite Eks in Hks. apply (ksorted_app (k0 :: h0) later) in Hks. destruct Hks as [Hk1 Hk2].
      rewrite (Hrec c k (k0 :: h0) u Hc S1 Hk1). rewrite Eks. change (k0 :: h0 ++ later) with ((k0 :: h0) ++ later).
      rewrite (@nf_app k (concat kss) (k0 :: h0) later).
      * rewrite run_calls_app. unfold out at 1. destruct (run_calls (nf (k0 :: h0) k) u) as [[[]|e] u']; cbn [fst snd]; rewrite Htol; [|reflexivity].
        cbn [l_in]. now apply IH.
      * intros q x Hq Hx. apply (c_gt OL). assert (Hqc : cmp q (np_key c) <> Gt) by (intros Hz; apply (c_gt OL) in Hz; now apply (Hh q Hq)).
        eapply (c_le_lt OL); [exact Hqc|now apply S4].
      * intros q x Hq Hx. eapply (c_le_lt OL); [now apply S3|now apply Hl].
    + rewrite IH by assumption. f_equal. f_equal. change (k0 :: kr) with ([] ++ k0 :: kr) at 2.
      rewrite (@nf_app k (concat kss) [] (k0 :: kr)); [now rewrite nf_nil|intros q x []|].
      intros q x Hq Hx. assert (Hq0 : cmp (np_key c) q = Lt).
      { assert (H0 : cmp (np_key c) k0 = Lt) by (destruct (cmp (np_key c) k0); cbn in Hg; congruence).
        destruct Hq as [<-|Hq]; [exact H0|]. inversion Hks as [|? ? ? Hall]; subst. rewrite Forall_forall in Hall.
        eapply (c_lt_le OL); [exact H0|now apply Hall]. }
      eapply (c_le_lt OL); [now apply S3|exact Hq0].
Qed.

Lemma lookup_nf f : good f -> forall d F, (d < F)%nat -> forall p k ks u, tree f d p k -> sorted cmp k -> ksorted ks ->
  lookup_inner rq F f (np_pointer p) ks (Lst u false false) = out (run_calls (nf ks k) u) false false.
Proof.
  intros G. induction d as [|d IH]; intros [|F] HF p k ks u T Hs Hks; try lia; destruct ks as [|k0 kr]; cbn [lookup_inner]; try (rewrite nf_nil; reflexivity).
  - destruct T as (_ & _ & _ & Hne & Hk & _ & _ & sz & Hh & _). rewrite (node_at_has G Hh) by discriminate.
    assert (Hkv : Forall kv_ok k) by (revert Hk; apply Forall_impl; exact HkvP). rewrite (node_items_mk KV_NODE Hkv). cbn [mk_node KV_NODE].
    apply leaf_nf.
  - destruct T as (_ & _ & _ & cs & kss & sz & Hne & Hcs & -> & _ & _ & Hh & _). rewrite (node_at_has G Hh) by discriminate.
    rewrite (node_items_mk KP_NODE (children_ok Hcs)). cbn [mk_node KP_NODE].
    eapply kp_nf; [|exact Hcs|exact Hs|exact Hks]. intros c k' ks' u' Tc Sc Kc. apply IH; auto. lia.
Qed.

Lemma kp_fold f d rec k0 : (forall c k hi u, (length hi <= 1)%nat -> tree f d c k -> sorted cmp k -> fpost k0 hi k true u (rec (np_pointer c) (k0 :: hi) (Lst u true true))) ->
  forall hi cs kss, (length hi <= 1)%nat -> Forall2 (tree f d) cs kss -> sorted cmp (concat kss) -> forall u i,
  fpost k0 hi (concat kss) i u (lk_kp rq rec (map kp_entry cs) TEnd (k0 :: hi) (Ok tt) (Lst u true i)).
Proof.
  intros Hrec hi cs kss Hhi Ht. induction Ht as [|c k cs kss Hc Ht IH]; intros Hs u i.
  - cbn. split; [reflexivity|]. intros _. left. auto.
  - cbn [concat] in Hs |- *. destruct (child_bounds Hc Hs) as (S1 & S2 & S3 & S4 & S5).
    cbn [map lk_kp kp_entry]. unfold lcmp at 1. fold cmp. destruct (ge (cmp (np_key c) k0)) eqn:Hg.
    + cbn [l_fold]. unfold set_in. cbn [l_u l_fold]. 
      destruct (span_ge rq (np_key c) hi) as [here later] eqn:Esp.
      assert (Hsp : (here = hi /\ later = []) \/ (exists k1, hi = [k1] /\ here = [] /\ later = [k1] /\ cmp (np_key c) k1 = Lt)).
      { destruct hi as [|k1 [|? ?]]; [left; cbn in Esp; inv Esp; auto| |cbn in Hhi; lia].
        cbn [span_ge] in Esp. unfold lcmp in Esp. fold cmp in Esp. destruct (cmp (np_key c) k1) eqn:Hc1; cbn [ge] in Esp; inv Esp; [left; auto| |left; auto].
        right. exists k1. auto. }
      rewrite (read_child Hc). unfold call_node. rewrite Hnode. cbn [norm np_pointer].
      assert (Hlen : (length here <= 1)%nat) by (destruct Hsp as [[-> _]|(? & _ & -> & _)]; cbn; lia).
      assert (Hfc : fc k0 here k = fc k0 hi k).
      { destruct Hsp as [[-> _]|(k1 & -> & -> & _ & Hc1)]; [reflexivity|]. apply fc_ext. intros x Hx. unfold inrange. f_equal.
        rewrite (@c_le_lt _ OL (fst x) (np_key c) k1); auto. }
      pose proof (Hrec c k here u Hlen Hc S1) as [P1 P2]. rewrite Hfc in P1.
      destruct (rec (np_pointer c) (k0 :: here) (Lst u true true)) as [x2 [u3 f3 i3]]. cbn [fst snd l_u l_fold l_in] in *.
      rewrite Htol. destruct x2 as [[]|e].
      * destruct (P2 eq_refl) as [[A1 A2]|(A1 & A2 & k1 & e & A3 & A4 & A5)].
        -- subst f3. rewrite (A2 eq_refl). specialize (IH S2 u3 true). destruct IH as [B1 B2]. split.
           ++ rewrite fc_app, run_calls_app, <- P1. exact B1.
           ++ intros Hok. destruct (B2 Hok) as [[C1 C2]|(C1 & C2 & k1 & e & C3 & C4 & C5)]; [left; auto|right].
              repeat split; auto. exists k1, e. repeat split; auto. apply in_or_app. now right.
        -- subst f3 i3. destruct Hsp as [[Hz ->]|(? & _ & Hz & _)]; [|congruence]. rewrite Hz in A3. 
           assert (Hr : forall r, lk_kp rq rec r TEnd [] (Ok tt) (Lst u3 false false) = (Ok tt, Lst u3 false false)) by (intros [|]; reflexivity).
           rewrite Hr. split; cbn [fst snd l_u l_fold l_in].
           ++ rewrite fc_app, run_calls_app, <- P1. rewrite (@fc_nil k0 hi (concat kss)); [reflexivity|].
              intros x Hx. rewrite A3. apply above. apply (c_gt OL) in A5. apply (c_gt OL). eapply (o_lt OL); [exact A5|]. now apply S5.
           ++ intros _. right. repeat split; auto. exists k1, e. repeat split; auto. apply in_or_app. now left.
      * split; [|discriminate]. cbn [fst snd l_u]. rewrite fc_app, run_calls_app, <- P1. reflexivity.
    + specialize (IH S2 u i). destruct IH as [B1 B2]. split.
      * rewrite fc_app, run_calls_app, (@fc_nil k0 hi k); [exact B1|]. intros x Hx. unfold inrange.
        rewrite (@c_le_lt _ OL (fst x) (np_key c) k0); [reflexivity|now apply S3|]. destruct (cmp (np_key c) k0); cbn in Hg; congruence.
      * intros Hok. destruct (B2 Hok) as [[C1 C2]|(C1 & C2 & k1 & e & C3 & C4 & C5)]; [left; auto|right].
        repeat split; auto. exists k1, e. repeat split; auto. apply in_or_app. now right.
Qed.

Lemma lookup_fold f k0 : good f -> forall d F, (d < F)%nat -> forall hi p k u i, (length hi <= 1)%nat -> tree f d p k -> sorted cmp k ->
  fpost k0 hi k i u (lookup_inner rq F f (np_pointer p) (k0 :: hi) (Lst u true i)).
Proof.
  intros G. induction d as [|d IH]; intros [|F] HF hi p k u i Hhi T Hs; try lia; cbn [lookup_inner].
  - destruct T as (_ & _ & _ & Hne & Hk & _ & _ & sz & Hh & _). rewrite (node_at_has G Hh) by discriminate.
    assert (Hkv : Forall kv_ok k) by (revert Hk; apply Forall_impl; exact HkvP). rewrite (node_items_mk KV_NODE Hkv). cbn [mk_node KV_NODE].
    now apply leaf_fold.
  - destruct T as (_ & _ & _ & cs & kss & sz & Hne & Hcs & -> & _ & _ & Hh & _). rewrite (node_at_has G Hh) by discriminate.
    rewrite (node_items_mk KP_NODE (children_ok Hcs)). cbn [mk_node KP_NODE].
    eapply kp_fold; [|exact Hhi|exact Hcs|exact Hs]. intros c k' hi' u' Hh' Tc Sc. apply IH; auto. lia.
Qed.

(** ** The lookup request *)

Lemma depth_ok f d p k : tree f d p k -> (d < depth_fuel f)%nat.
Proof. intros T. unfold depth_fuel. pose proof (tree_depth T). pose proof (tree_pos T). lia. Qed.

Arguments depth_ok {f d p k}. Arguments lookup_nf {f} _ {d F} _ {p k ks}.
Theorem btree_lookup_keys f p k ks u : good f -> rtree mq kvP redP f (Some p) k -> sorted cmp k -> ksorted ks ->
  btree_lookup rq f (np_pointer p) ks false u = run_calls (nf ks k) u.
Proof.
  intros G (d & p' & T & Hp & _) Hs Hk. unfold btree_lookup. rewrite <- Hp. rewrite (lookup_nf G (depth_ok T) u T Hs Hk).
  unfold out. cbn [l_u]. destruct (run_calls (nf ks k) u); reflexivity.
Qed.
Theorem btree_lookup_range f p k k0 hi u : good f -> rtree mq kvP redP f (Some p) k -> sorted cmp k -> (length hi <= 1)%nat ->
  btree_lookup rq f (np_pointer p) (k0 :: hi) true u = run_calls (fc k0 hi k) u.
Proof.
  intros G (d & p' & T & Hp & _) Hs Hh. unfold btree_lookup. rewrite <- Hp.
  pose proof (@lookup_fold f k0 G d _ (depth_ok T) hi p' k u false Hh T Hs) as [H _].
  destruct (lookup_inner rq (depth_fuel f) f (np_pointer p') (k0 :: hi) (Lst u true false)) as [x s]. exact H.
Qed.
End WithU.
