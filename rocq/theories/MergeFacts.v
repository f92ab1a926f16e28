(** The effect of a sorted batch of actions on a sorted list of entries. *)
From Verif Require Import Base Codec CodecFacts Btree SpecMap.
Local Open Scope N_scope.

Lemma ord_ebin : ord ebin_cmp.
Proof.
  constructor.
  - apply ebin_refl.
  - intros. apply ebin_antisym.
  - apply ebin_lt_trans.
  - intros a b c H. apply ebin_eq in H. now subst.
Qed.
Lemma ord_seq : ord seq_cmp.
Proof.
  constructor; unfold seq_cmp.
  - intros. apply N.compare_refl.
  - intros. apply N.compare_antisym.
  - intros a b c. rewrite !N.compare_lt_iff. lia.
  - intros a b c. rewrite N.compare_eq_iff. now intros ->.
Qed.

Section Ord.
Variable cmp : bytes -> bytes -> comparison.
Hypothesis O : ord cmp.

Lemma c_gt a b : cmp a b = Gt <-> cmp b a = Lt.
Proof. rewrite (o_anti O b a). destruct (cmp b a); cbn; split; congruence. Qed.
Lemma c_eq_sym a b : cmp a b = Eq -> cmp b a = Eq.
Proof. rewrite (o_anti O a b). now intros ->. Qed.
Lemma c_eq_r a b c : cmp a b = Eq -> cmp c a = cmp c b.
Proof. intros H. rewrite (o_anti O a c), (o_anti O b c). now rewrite (o_eq O _ _ c H). Qed.
Lemma c_le_lt a b c : cmp a b <> Gt -> cmp b c = Lt -> cmp a c = Lt.
Proof.
  intros H1 H2. destruct (cmp a b) eqn:Hc; [|eapply (o_lt O); eassumption|congruence].
  now rewrite (o_eq O _ _ c Hc).
Qed.
Lemma c_lt_le a b c : cmp a b = Lt -> cmp b c <> Gt -> cmp a c = Lt.
Proof.
  intros H1 H2. destruct (cmp b c) eqn:Hc; [|eapply (o_lt O); eassumption|congruence].
  now rewrite <- (@c_eq_r _ _ a Hc).
Qed.
Lemma c_le_trans a b c : cmp a b <> Gt -> cmp b c <> Gt -> cmp a c <> Gt.
Proof.
  intros H1 H2. destruct (cmp a b) eqn:Hc; [|rewrite (@c_lt_le _ _ _ Hc H2); discriminate|congruence].
  rewrite (o_eq O _ _ c Hc). exact H2.
Qed.

(** ** Merging *)

Definition new (a : action) : list kv := if inserts a then [(a_key a, a_data a)] else [].

Fixpoint m_entry (k v : bytes) (acts : list action) : list action * list kv :=
  match acts with
  | [] => ([], [(k, v)])
  | a :: r =>
      match cmp k (a_key a) with
      | Lt => (acts, [(k, v)])
      | Gt => let '(x, o) := m_entry k v r in (x, new a ++ o)
      | Eq => match a_type a with
              | A_FETCH => m_entry k v r
              | _ => (r, new a)
              end
      end
  end.
Fixpoint merge (l : list kv) (acts : list action) : list kv :=
  match l with
  | [] => flat_map new acts
  | (k, v) :: r => let '(a', o) := m_entry k v acts in o ++ merge r a'
  end.

Lemma merge_nil l : merge l [] = l.
Proof. induction l as [|[k v] l IH]; cbn; [reflexivity|now rewrite IH]. Qed.

Lemma m_entry_app k v here later :
  (forall a, In a later -> cmp k (a_key a) = Lt) ->
  m_entry k v (here ++ later) = let '(x, o) := m_entry k v here in (x ++ later, o).
Proof.
  intros H. induction here as [|a here IH]; cbn [app m_entry].
  - destruct later as [|a later]; cbn [m_entry]; [reflexivity|]. rewrite H by (now left). reflexivity.
  - destruct (cmp k (a_key a)); [|reflexivity|].
    + destruct (a_type a); try reflexivity. exact IH.
    + rewrite IH. destruct (m_entry k v here) as [x o]. reflexivity.
Qed.
Lemma merge_gt l here later :
  (forall a x, In a here -> In x l -> cmp (fst x) (a_key a) = Gt) ->
  merge l (here ++ later) = flat_map new here ++ merge l later.
Proof.
  destruct l as [|[k v] l]; cbn [merge]; [intros; now rewrite flat_map_app|].
  induction here as [|a here IH]; intros H; cbn [app m_entry flat_map]; [reflexivity|].
  pose proof (H a (k, v) (or_introl eq_refl) (or_introl eq_refl)) as Hg; cbn [fst] in Hg; rewrite Hg.
  specialize (IH (fun a' x Ha Hx => H a' x (or_intror Ha) Hx)).
  destruct (m_entry k v (here ++ later)) as [x o]. destruct (m_entry k v later) as [x' o'].
  rewrite <- !app_assoc. f_equal. exact IH.
Qed.
Lemma merge_app l1 l2 : forall here later,
  (forall a x, In a here -> In x l2 -> cmp (fst x) (a_key a) = Gt) ->
  (forall a x, In a later -> In x l1 -> cmp (fst x) (a_key a) = Lt) ->
  merge (l1 ++ l2) (here ++ later) = merge l1 here ++ merge l2 later.
Proof.
  induction l1 as [|[k v] l1 IH]; intros here later H1 H2; cbn [app merge]; [now apply merge_gt|].
  rewrite m_entry_app by (intros a Ha; exact (H2 a (k, v) Ha (or_introl eq_refl))).
  destruct (m_entry k v here) as [x o] eqn:Em.
  rewrite <- app_assoc. f_equal. apply IH.
  - intros a y Ha Hy. apply H1; auto. clear - Em Ha. revert x o Em Ha. induction here as [|b here IH]; intros x o Em Ha; cbn [m_entry] in Em.
    + inv Em. destruct Ha.
    + destruct (cmp k (a_key b)).
      * destruct (a_type b); try (inv Em; now right). right. eapply IH; eassumption.
      * inv Em. exact Ha.
      * destruct (m_entry k v here) as [x' o'] eqn:Em'. inv Em. right. eapply IH; [reflexivity|exact Ha].
  - intros a y Ha Hy. apply H2; auto. now right.
Qed.

(** ** Reported events *)

Variable fetch save : bool.
Definition ev_f (k : bytes) (v : option bytes) : list event := if fetch then [EvFetch k v] else [].
Definition ev_s (a : action) (old : option bytes) : list event :=
  if save then [EvSave (a_key a) old (a_data a) (a_req a)] else [].
Definition ev_a (a : action) (old : option bytes) : list event :=
  match a_type a with
  | A_FETCH => ev_f (a_key a) old
  | A_FETCH_INSERT => ev_f (a_key a) old ++ ev_s a old
  | A_INSERT => ev_s a old
  | A_REMOVE => []
  end.
Fixpoint e_entry (k v : bytes) (acts : list action) : list action * list event :=
  match acts with
  | [] => ([], [])
  | a :: r =>
      match cmp k (a_key a) with
      | Lt => (acts, [])
      | Gt => let '(x, o) := e_entry k v r in (x, ev_a a None ++ o)
      | Eq => match a_type a with
              | A_FETCH => let '(x, o) := e_entry k v r in (x, ev_a a (Some v) ++ o)
              | _ => (r, ev_a a (Some v))
              end
      end
  end.
Fixpoint evs (l : list kv) (acts : list action) : list event :=
  match l with
  | [] => flat_map (fun a => ev_a a None) acts
  | (k, v) :: r => let '(a', o) := e_entry k v acts in o ++ evs r a'
  end.
Lemma e_entry_fst k v acts : fst (e_entry k v acts) = fst (m_entry k v acts).
Proof.
  induction acts as [|a r IH]; cbn; [reflexivity|]. destruct (cmp k (a_key a)); [|reflexivity|].
  - destruct (a_type a); try reflexivity. rewrite <- IH. now destruct (e_entry k v r).
  - destruct (e_entry k v r), (m_entry k v r). exact IH.
Qed.
Lemma evs_nil l : evs l [] = [].
Proof. induction l as [|[k v] l IH]; cbn; auto. Qed.
Lemma e_entry_app k v here later :
  (forall a, In a later -> cmp k (a_key a) = Lt) ->
  e_entry k v (here ++ later) = let '(x, o) := e_entry k v here in (x ++ later, o).
Proof.
  intros H. induction here as [|a here IH]; cbn [app e_entry].
  - destruct later as [|a later]; cbn [e_entry]; [reflexivity|]. rewrite H by (now left). reflexivity.
  - destruct (cmp k (a_key a)); [|reflexivity|].
    + destruct (a_type a); try reflexivity. rewrite IH. now destruct (e_entry k v here).
    + rewrite IH. destruct (e_entry k v here) as [x o]. reflexivity.
Qed.
Lemma evs_gt l here later :
  (forall a x, In a here -> In x l -> cmp (fst x) (a_key a) = Gt) ->
  evs l (here ++ later) = flat_map (fun a => ev_a a None) here ++ evs l later.
Proof.
  destruct l as [|[k v] l]; cbn [evs]; [intros; now rewrite flat_map_app|].
  induction here as [|a here IH]; intros H; cbn [app e_entry flat_map]; [reflexivity|].
  pose proof (H a (k, v) (or_introl eq_refl) (or_introl eq_refl)) as Hg; cbn [fst] in Hg; rewrite Hg.
  specialize (IH (fun a' x Ha Hx => H a' x (or_intror Ha) Hx)).
  destruct (e_entry k v (here ++ later)) as [x o]. destruct (e_entry k v later) as [x' o'].
  rewrite <- !app_assoc. f_equal. exact IH.
Qed.
Lemma e_entry_in k v acts a : In a (fst (e_entry k v acts)) -> In a acts.
Proof.
  induction acts as [|b acts IH]; cbn; [auto|]. destruct (cmp k (a_key b)); [|auto|].
  - destruct (a_type b); try (cbn; auto; fail). destruct (e_entry k v acts). auto.
  - destruct (e_entry k v acts). auto.
Qed.
Lemma evs_app l1 l2 : forall here later,
  (forall a x, In a here -> In x l2 -> cmp (fst x) (a_key a) = Gt) ->
  (forall a x, In a later -> In x l1 -> cmp (fst x) (a_key a) = Lt) ->
  evs (l1 ++ l2) (here ++ later) = evs l1 here ++ evs l2 later.
Proof.
  induction l1 as [|[k v] l1 IH]; intros here later H1 H2; cbn [app evs]; [now apply evs_gt|].
  rewrite e_entry_app by (intros a Ha; exact (H2 a (k, v) Ha (or_introl eq_refl))).
  pose proof (@e_entry_in k v here) as Hin. destruct (e_entry k v here) as [x o] eqn:Em.
  rewrite <- app_assoc. f_equal. apply IH.
  - intros a y Ha Hy. apply H1; auto.
  - intros a y Ha Hy. apply H2; auto. now right.
Qed.

(** ** Merging as a map update *)

Definition from (acts : list action) (x : kv) : Prop :=
  exists a, In a acts /\ inserts a = true /\ x = (a_key a, a_data a).
Lemma from_cons a acts x : from acts x -> from (a :: acts) x.
Proof. intros (b & H & H'). exists b. split; [now right|exact H']. Qed.
Lemma from_new a acts x : In x (new a) -> from (a :: acts) x.
Proof. unfold new. destruct (inserts a) eqn:Hi; [|intros []]. intros [<-|[]]. exists a. split; [now left|auto]. Qed.

Lemma merge_in l : forall acts x, In x (merge l acts) -> In x l \/ from acts x.
Proof.
  induction l as [|[k v] l IH]; intros acts x; cbn [merge].
  - intros H. right. apply in_flat_map in H. destruct H as (a & Ha & Hx). unfold new in Hx.
    destruct (inserts a) eqn:Hi; [|destruct Hx]. destruct Hx as [<-|[]]. exists a. auto.
  - induction acts as [|a acts IHa]; cbn [m_entry].
    + cbn. rewrite merge_nil. auto.
    + assert (Hl : In x (merge l acts) -> In x ((k, v) :: l) \/ from (a :: acts) x).
      { intros H. apply IH in H. destruct H as [H|H]; [left; now right|right; now apply from_cons]. }
      destruct (cmp k (a_key a)).
      * destruct (a_type a) eqn:Ht.
        -- intros H. apply IHa in H. destruct H as [H|H]; [auto|right; now apply from_cons].
        -- intros H. apply in_app_or in H. destruct H as [H|H]; [right; now apply from_new|auto].
        -- intros H. apply in_app_or in H. destruct H as [H|H]; [right; now apply from_new|auto].
        -- intros H. apply in_app_or in H. destruct H as [H|H]; [right; now apply from_new|auto].
      * intros H. destruct H as [<-|H]; [left; now left|]. apply IH in H. destruct H as [H|H]; [left; now right|auto].
      * destruct (m_entry k v acts) as [x' o]. rewrite <- app_assoc. intros H. apply in_app_or in H.
        destruct H as [H|H]; [right; now apply from_new|]. apply IHa in H. destruct H as [H|H]; [auto|right; now apply from_cons].
Qed.

Lemma new_shape a : new a = if inserts a then [(a_key a, a_data a)] else [].
Proof. reflexivity. Qed.

Lemma sorted_cons k v l : (forall x, In x l -> cmp k (fst x) = Lt) -> sorted cmp l -> sorted cmp ((k, v) :: l).
Proof. intros H Hs. constructor; [exact Hs|]. apply Forall_forall. exact H. Qed.

Lemma after_insert a acts x : asorted cmp (a :: acts) -> single cmp (a :: acts) -> inserts a = true -> from acts x ->
  cmp (a_key a) (fst x) = Lt.
Proof.
  intros Hs [Hi _] Ha (b & Hb & Hbi & ->). cbn [fst]. inv Hs. rewrite Forall_forall in H2. specialize (H2 b Hb).
  specialize (Hi Ha). rewrite Forall_forall in Hi. specialize (Hi b Hb). cbn in H2. destruct (cmp (a_key a) (a_key b)); congruence.
Qed.

Lemma merge_sorted l : forall acts, sorted cmp l -> asorted cmp acts -> single cmp acts -> sorted cmp (merge l acts).
Proof.
  induction l as [|[k v] l IH].
  - induction acts as [|a acts IHa]; intros _ Ha Hs; cbn [merge flat_map] in *; [constructor|].
    assert (Hr : sorted cmp (flat_map new acts)).
    { apply IHa; [constructor|now inv Ha|exact (proj2 Hs)]. }
    rewrite new_shape. destruct (inserts a) eqn:Hi; [|exact Hr]. apply sorted_cons; [|exact Hr].
    intros x Hx. eapply after_insert; eauto. apply (merge_in [] acts) in Hx. destruct Hx as [[]|Hx]. exact Hx.
  - intros acts Hl. inversion Hl as [|y z Hl' Hf]; subst. rewrite Forall_forall in Hf. cbn [fst] in Hf.
    induction acts as [|a acts IHa]; intros Ha Hs; cbn [merge m_entry].
    + cbn. rewrite merge_nil. exact Hl.
    + assert (Ha' : asorted cmp acts) by now inv Ha. pose proof (proj2 Hs) as Hs'.
      specialize (IHa Ha' Hs'). cbn [merge] in IHa.
      assert (Hins : inserts a = true -> forall x, In x (merge l acts) -> cmp (a_key a) k <> Gt -> cmp (a_key a) (fst x) = Lt).
      { intros Hi x Hx Hk. apply merge_in in Hx. destruct Hx as [Hx|Hx].
        - eapply c_le_lt; [exact Hk|]. now apply Hf.
        - eapply after_insert; eauto. }
      destruct (cmp k (a_key a)) eqn:Hc.
      * assert (Hk : cmp (a_key a) k <> Gt) by (rewrite (c_eq_sym Hc); discriminate).
        assert (Hgen : sorted cmp (new a ++ merge l acts)).
        { rewrite new_shape. destruct (inserts a) eqn:Hi; [|now apply IH]. apply sorted_cons; [|now apply IH].
          intros x Hx. now apply Hins. }
        destruct (a_type a); [exact IHa|exact Hgen|exact Hgen|exact Hgen].
      * cbn [app]. apply sorted_cons; [|now apply IH]. intros x Hx. apply merge_in in Hx. destruct Hx as [Hx|Hx]; [now apply Hf|].
        destruct Hx as (b & Hb & _ & ->). cbn [fst]. eapply c_lt_le; [exact Hc|]. destruct Hb as [<-|Hb]; [rewrite (o_refl O); discriminate|].
        inversion Ha as [|? ? ? Hall]; subst. rewrite Forall_forall in Hall. now apply Hall.
      * destruct (m_entry k v acts) as [x o] eqn:Em. rewrite <- app_assoc. rewrite new_shape. destruct (inserts a) eqn:Hi; [|exact IHa].
        cbn [app]. apply sorted_cons; [|exact IHa]. intros y Hy.
        assert (Hy' : In y (merge ((k, v) :: l) acts)) by (cbn [merge]; rewrite Em; exact Hy).
        apply merge_in in Hy'. apply c_gt in Hc. destruct Hy' as [[<-|Hy']|Hy']; [exact Hc| |].
        -- eapply (o_lt O); [exact Hc|]. now apply Hf.
        -- eapply after_insert; eauto.
Qed.

Lemma fold_noeq q acts : forall c, (forall b, In b acts -> cmp (a_key b) q <> Eq) -> fold_left (act_on cmp q) acts c = c.
Proof.
  induction acts as [|a acts IH]; intros c H; cbn; [reflexivity|]. rewrite IH by (intros; apply H; now right).
  unfold act_on. pose proof (H a (or_introl eq_refl)). destruct (cmp (a_key a) q); congruence.
Qed.
Lemma lookup_lt q l : (forall x, In x l -> cmp q (fst x) = Lt) -> lookup cmp q l = None.
Proof.
  induction l as [|[k v] l IH]; intros H; cbn; [reflexivity|].
  pose proof (H (k, v) (or_introl eq_refl)) as Hk. cbn [fst] in Hk. apply c_gt in Hk. rewrite Hk. apply IH. intros; apply H. now right.
Qed.

Lemma merge_lookup q l : forall acts, sorted cmp l -> asorted cmp acts -> single cmp acts ->
  lookup cmp q (merge l acts) = fold_left (act_on cmp q) acts (lookup cmp q l).
Proof.
  assert (Hsame : forall a acts c, asorted cmp (a :: acts) -> single cmp (a :: acts) -> inserts a = true -> cmp (a_key a) q = Eq ->
            fold_left (act_on cmp q) acts c = c).
  { intros a acts c Ha [Hs _] Hi Hq. apply fold_noeq. intros b Hb. specialize (Hs Hi). rewrite Forall_forall in Hs.
    specialize (Hs b Hb). intros Hbq. apply Hs. rewrite (o_eq O _ _ (a_key b) Hq). now apply c_eq_sym. }
  assert (Hact : forall a c, act_on cmp q c a = match cmp (a_key a) q with
            | Eq => if inserts a then Some (a_data a) else match a_type a with A_REMOVE => None | _ => c end | _ => c end).
  { intros. unfold act_on, inserts. destruct (cmp (a_key a) q), (a_type a); reflexivity. }
  induction l as [|[k v] l IH].
  - induction acts as [|a acts IHa]; intros Hl Ha Hs; cbn [merge flat_map] in *; [reflexivity|].
    specialize (IHa Hl (ltac:(now inv Ha)) (proj2 Hs)). cbn [fold_left].
    rewrite Hact, new_shape. destruct (inserts a) eqn:Hi; cbn [app lookup].
    + destruct (cmp (a_key a) q) eqn:Hq; [|exact IHa|exact IHa]. symmetry. eapply Hsame; eauto.
    + cbn [lookup] in IHa. destruct (cmp (a_key a) q), (a_type a); exact IHa.
  - intros acts Hl. inversion Hl as [|y z Hl' Hf]; subst. rewrite Forall_forall in Hf. cbn [fst] in Hf.
    induction acts as [|a acts IHa]; intros Ha Hs.
    + cbn [merge m_entry app]. rewrite merge_nil. reflexivity.
    + assert (Ha' : asorted cmp acts) by now inv Ha. pose proof (proj2 Hs) as Hs'.
      specialize (IHa Ha' Hs'). cbn [merge] in IHa. cbn [merge m_entry fold_left].
      destruct (cmp k (a_key a)) eqn:Hc.
      * assert (Hgen : a_type a <> A_FETCH -> lookup cmp q (new a ++ merge l acts) = fold_left (act_on cmp q) acts (act_on cmp q (lookup cmp q ((k, v) :: l)) a)).
        { intros Hnf. rewrite Hact, new_shape. assert (Hkq : cmp k q = cmp (a_key a) q) by (apply (o_eq O); exact Hc).
          destruct (inserts a) eqn:Hi; cbn [app lookup]; rewrite ?Hkq.
          - destruct (cmp (a_key a) q) eqn:Hq; try (now apply IH). symmetry. eapply Hsame; eauto.
          - destruct (a_type a) eqn:Ht; try (unfold inserts in Hi; rewrite Ht in Hi; discriminate); [congruence|].
            rewrite IH by assumption. destruct (cmp (a_key a) q) eqn:Hq; auto. f_equal. apply lookup_lt. intros x Hx.
            rewrite <- (o_eq O k q) by congruence. now apply Hf. }
        destruct (a_type a) eqn:Ht; try (apply Hgen; discriminate).
        rewrite IHa. rewrite Hact. unfold inserts. rewrite Ht. destruct (cmp (a_key a) q); reflexivity.
      * cbn [app lookup]. destruct (cmp k q) eqn:Hq.
        -- assert (Hz : forall b, In b (a :: acts) -> cmp (a_key b) q <> Eq).
           { intros b Hb Hbq. assert (Hlt : cmp k (a_key b) = Lt).
             { eapply c_lt_le; [exact Hc|]. destruct Hb as [<-|Hb]; [rewrite (o_refl O); discriminate|].
               inversion Ha as [|? ? ? Hall]; subst. rewrite Forall_forall in Hall. now apply Hall. }
             rewrite (@c_eq_r _ _ k Hbq) in Hlt. congruence. }
           symmetry. exact (@fold_noeq q (a :: acts) (Some v) Hz).
        -- rewrite IH by assumption. reflexivity.
        -- rewrite IH by assumption. reflexivity.
      * destruct (m_entry k v acts) as [x o] eqn:Em. rewrite <- app_assoc. rewrite Hact, new_shape.
        apply c_gt in Hc.
        assert (Hn : cmp (a_key a) q = Eq -> lookup cmp q ((k, v) :: l) = None).
        { intros Hq. apply lookup_lt. rewrite (@o_eq _ O (a_key a) q) in Hc by exact Hq.
          intros y [<-|Hy]; [exact Hc|]. eapply (o_lt O); [exact Hc|]. now apply Hf. }
        destruct (inserts a) eqn:Hi.
        -- assert (Hcons : lookup cmp q ([(a_key a, a_data a)] ++ o ++ merge l x) =
             match cmp (a_key a) q with Eq => Some (a_data a) | _ => lookup cmp q (o ++ merge l x) end) by reflexivity.
           etransitivity; [exact Hcons|].
           destruct (cmp (a_key a) q) eqn:Hq; [|exact IHa|exact IHa]. symmetry. eapply Hsame; eauto.
        -- cbn [app]. rewrite IHa. destruct (cmp (a_key a) q) eqn:Hq; auto. pose proof (Hn eq_refl) as Hn0. f_equal. destruct (a_type a); first [reflexivity|exact Hn0].
Qed.

(** With pairwise different keys, each action is reported with the value stored before the batch. *)
Lemma evs_lookup l : forall acts, sorted cmp l -> StronglySorted (fun a b => cmp (a_key a) (a_key b) = Lt) acts ->
  evs l acts = flat_map (fun a => ev_a a (lookup cmp (a_key a) l)) acts.
Proof.
  induction l as [|[k v] l IH].
  - intros acts _ _. reflexivity.
  - intros acts Hl. inversion Hl as [|y z Hl' Hf]; subst. rewrite Forall_forall in Hf. cbn [fst] in Hf.
    assert (Hskip : forall acts, (forall b, In b acts -> cmp k (a_key b) = Lt) ->
        flat_map (fun a => ev_a a (lookup cmp (a_key a) ((k, v) :: l))) acts = flat_map (fun a => ev_a a (lookup cmp (a_key a) l)) acts).
    { intros as' H. rewrite !flat_map_concat_map. f_equal. apply map_ext_in. intros b Hb. cbn [lookup]. now rewrite (H b Hb). }
    induction acts as [|a acts IHa]; intros Ha; cbn [evs e_entry]; [apply evs_nil|].
    inversion Ha as [|? ? Ha' Hall]; subst. rewrite Forall_forall in Hall. specialize (IHa Ha'). cbn [evs] in IHa.
    destruct (cmp k (a_key a)) eqn:Hc.
    + assert (Hgt : forall b, In b acts -> cmp k (a_key b) = Lt).
      { intros b Hb. rewrite (@o_eq _ O k (a_key a)) by exact Hc. now apply Hall. }
      assert (Hlk : lookup cmp (a_key a) ((k, v) :: l) = Some v) by (cbn [lookup]; now rewrite Hc).
      assert (Hgen : ev_a a (Some v) ++ evs l acts = flat_map (fun a0 => ev_a a0 (lookup cmp (a_key a0) ((k, v) :: l))) (a :: acts)).
      { cbn [flat_map]. rewrite Hlk, Hskip by exact Hgt. f_equal. now apply IH. }
      destruct (a_type a) eqn:Ht; try exact Hgen.
      destruct (e_entry k v acts) as [x o] eqn:Ee. rewrite <- app_assoc.
      cbn [flat_map]. rewrite Hlk. f_equal. exact IHa.
    + cbn [app]. rewrite Hskip. { now apply IH. }
      intros b [<-|Hb]; [exact Hc|]. eapply (o_lt O); [exact Hc|]. now apply Hall.
    + destruct (e_entry k v acts) as [x o] eqn:Ee. rewrite <- app_assoc. cbn [flat_map]. rewrite IHa. f_equal. f_equal. symmetry.
      apply lookup_lt. apply c_gt in Hc. intros y [<-|Hy]; [exact Hc|]. eapply (o_lt O); [exact Hc|]. now apply Hf.
Qed.
End Ord.
