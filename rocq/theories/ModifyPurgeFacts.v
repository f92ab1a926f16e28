(** Correctness of modifications during which entries are purged (the updates of view indexes while a cleanup is going on). *)
From Verif Require Import Base Codec CodecFacts File FileFacts ChunkFacts Btree TreeStore SpecMap MergeFacts ModifyFacts SpecCleanup PurgeFacts.
Local Open Scope N_scope.
Unset Strict Implicit.
Local Arguments tree_norm {E rq kvP redP f d p kvs}.
Local Arguments tree_key {E rq kvP redP f d p kvs}.
Local Arguments tree_nonempty {E rq kvP redP f d p kvs}.
Local Arguments tree_pos {E rq kvP redP f d p kvs}.
Local Arguments tree_depth {E rq kvP redP f d p kvs}.
Local Arguments mrok_flushed {E rq kvP redP f leaf d m kvs}.
Local Arguments read_kp_entry {E rq kvP redP okf allowed} RO {f d c kvs}.
Local Arguments kp_entries_ok {E rq kvP redP okf allowed} RO {f d cs ks}.

(** ** Lists *)

Section Lists.
Variable cmp : bytes -> bytes -> comparison.
Hypothesis OC : ord cmp.
Variable gone : kv -> bool.
Local Notation kept := (kept gone).

(** The entry has no operation of its own. *)
Definition touches (k : bytes) (a : action) : bool :=
  match a_type a with A_FETCH => false | _ => match cmp k (a_key a) with Eq => true | _ => false end end.
Definition untouched (acts : list action) (l : list kv) : list kv := filter (fun x => negb (existsb (touches (fst x)) acts)) l.
Lemma untouched_nil l : untouched [] l = l.
Proof. induction l as [|x l IH]; [reflexivity|]. change (untouched [] (x :: l)) with (x :: untouched [] l). now rewrite IH. Qed.
Lemma touches_none acts k : (forall a, In a acts -> cmp k (a_key a) <> Eq) -> existsb (touches k) acts = false.
Proof.
  induction acts as [|a acts IH]; [reflexivity|]. intros H. cbn [existsb]. rewrite IH by (intros b Hb; apply H; now right). rewrite orb_false_r.
  pose proof (H a (or_introl eq_refl)) as Ha. unfold touches. destruct (a_type a); try reflexivity; destruct (cmp k (a_key a)); congruence.
Qed.
Lemma untouched_app l1 l2 here later :
  (forall a x, In a here -> In x l2 -> cmp (fst x) (a_key a) = Gt) ->
  (forall a x, In a later -> In x l1 -> cmp (fst x) (a_key a) = Lt) ->
  untouched (here ++ later) (l1 ++ l2) = untouched here l1 ++ untouched later l2.
Proof.
  intros H1 H2. unfold untouched. rewrite filter_app. f_equal; apply filter_ext_in; intros x Hx; rewrite existsb_app; f_equal.
  - rewrite (@touches_none later), orb_false_r; [reflexivity|]. intros a Ha. rewrite (H2 a x Ha Hx). discriminate.
  - rewrite (@touches_none here); [reflexivity|]. intros a Ha. rewrite (H1 a x Ha Hx). discriminate.
Qed.

(** One entry: what is pushed, and whether it is untouched. *)
Fixpoint p_out (k v : bytes) (acts : list action) : list kv :=
  match acts with
  | [] => kept [(k, v)]
  | a :: r => match cmp k (a_key a) with
              | Lt => kept [(k, v)]
              | Gt => new a ++ p_out k v r
              | Eq => match a_type a with A_FETCH => p_out k v r | _ => new a end
              end
  end.
Fixpoint unt (k v : bytes) (acts : list action) : list kv :=
  match acts with
  | [] => [(k, v)]
  | a :: r => match cmp k (a_key a) with
              | Lt => [(k, v)]
              | Gt => unt k v r
              | Eq => match a_type a with A_FETCH => unt k v r | _ => [] end
              end
  end.
Fixpoint pmerge (l : list kv) (acts : list action) : list kv :=
  match l with
  | [] => flat_map new acts
  | (k, v) :: r => p_out k v acts ++ pmerge r (fst (m_entry cmp k v acts))
  end.
Fixpoint punt (l : list kv) (acts : list action) : list kv :=
  match l with
  | [] => []
  | (k, v) :: r => unt k v acts ++ punt r (fst (m_entry cmp k v acts))
  end.

Lemma rest_split k v acts : exists here, acts = here ++ fst (m_entry cmp k v acts) /\ (forall a, In a here -> cmp (a_key a) k <> Gt) /\
  (gone (k, v) = true -> p_out k v acts = flat_map new here).
Proof.
  induction acts as [|a acts IH]; cbn [m_entry p_out].
  - exists []. split; [reflexivity|]. split; [intros a []|]. intros H. unfold PurgeFacts.kept. cbn [filter]. rewrite H. reflexivity.
  - destruct (cmp k (a_key a)) eqn:Hc.
    + assert (Ha : cmp (a_key a) k <> Gt) by (rewrite (@c_eq_sym cmp OC _ _ Hc); discriminate).
      destruct (a_type a) eqn:Ht.
      2-4: exists [a]; split; [reflexivity|]; split; [intros b [<-|[]]; exact Ha|]; intros _; cbn [flat_map]; now rewrite app_nil_r.
      destruct IH as (here & H1 & H2 & H3). exists (a :: here). split; [cbn [app]; f_equal; exact H1|]. split; [intros b [<-|Hb]; [exact Ha|auto]|].
      intros Hg. cbn [flat_map]. unfold new at 1. unfold inserts. rewrite Ht. cbn [app]. auto.
    + exists []. split; [reflexivity|]. split; [intros b []|]. intros H. unfold PurgeFacts.kept. cbn [filter]. rewrite H. reflexivity.
    + destruct IH as (here & H1 & H2 & H3). exists (a :: here). destruct (m_entry cmp k v acts) as [x o]. cbn [fst] in *. split; [cbn [app]; f_equal; exact H1|].
      split; [intros b [<-|Hb]; [|auto]|intros Hg; cbn [flat_map]; rewrite H3 by exact Hg; reflexivity].
      apply (c_gt OC) in Hc. rewrite Hc. discriminate.
Qed.
Lemma p_out_keep k v acts : gone (k, v) = false -> p_out k v acts = snd (m_entry cmp k v acts).
Proof.
  intros Hg. assert (Hk : kept [(k, v)] = [(k, v)]) by (unfold PurgeFacts.kept; cbn [filter]; rewrite Hg; reflexivity).
  induction acts as [|a acts IH]; cbn [p_out m_entry]; [exact Hk|]. destruct (cmp k (a_key a)); [|exact Hk|].
  - destruct (a_type a); try reflexivity. exact IH.
  - rewrite IH. now destruct (m_entry cmp k v acts).
Qed.
Lemma unt_spec k v acts : asorted cmp acts -> unt k v acts = untouched acts [(k, v)].
Proof.
  unfold untouched. cbn [filter fst]. induction acts as [|a acts IH]; intros Hs; cbn [unt existsb]; [reflexivity|].
  inversion Hs as [|? ? Hs' Hall]; subst. destruct (cmp k (a_key a)) eqn:Hc.
  - unfold touches at 1. rewrite Hc. destruct (a_type a) eqn:Ht; cbn [orb negb]; try reflexivity. now apply IH.
  - assert (Hn : existsb (touches k) (a :: acts) = false).
    { apply touches_none. rewrite Forall_forall in Hall. intros b [<-|Hb]; [rewrite Hc; discriminate|]. rewrite (@c_lt_le cmp OC _ _ _ Hc (Hall b Hb)). discriminate. }
    cbn [existsb] in Hn. rewrite Hn. reflexivity.
  - assert (Hn : touches k a = false) by (unfold touches; rewrite Hc; destruct (a_type a); reflexivity). rewrite Hn. now apply IH.
Qed.
Lemma m_entry_asorted k v acts : asorted cmp acts -> asorted cmp (fst (m_entry cmp k v acts)).
Proof. destruct (rest_split k v acts) as (here & H & _). intros Hs. rewrite H in Hs. clear H. revert Hs. induction here as [|b here IH]; cbn [app]; [auto|]. intros Hs. inversion Hs; subst. auto. Qed.

Lemma kept_in x l : In x (kept l) -> In x l.
Proof. intros H. apply filter_In in H. tauto. Qed.
Lemma pmerge_ok l : forall acts, sorted cmp l -> asorted cmp acts -> pmerge l acts = merge cmp (kept l) acts /\ punt l acts = untouched acts l.
Proof.
  induction l as [|[k v] l IH]; intros acts Hs Ha; [split; reflexivity|]. inversion Hs as [|? ? Hs' Hall]; subst. rewrite Forall_forall in Hall. cbn [fst] in Hall.
  destruct (rest_split k v acts) as (here & H1 & H2 & H3). destruct (IH _ Hs' (m_entry_asorted k v Ha)) as [I1 I2]. cbn [pmerge punt]. rewrite I1, I2.
  assert (Hgt : forall a x, In a here -> In x l -> cmp (fst x) (a_key a) = Gt) by (intros a x Hia Hx; apply (c_gt OC); apply (@c_le_lt cmp OC _ _ _ (H2 a Hia)); now apply Hall).
  split.
  - unfold PurgeFacts.kept at 2. cbn [filter]. destruct (gone (k, v)) eqn:Hg; cbn [negb].
    + rewrite (H3 eq_refl). rewrite H1 at 2. symmetry. apply merge_gt. intros a x Hia Hx. apply Hgt; [exact Hia|]. now apply kept_in.
    + rewrite p_out_keep by exact Hg. cbn [merge]. destruct (m_entry cmp k v acts). reflexivity.
  - rewrite (unt_spec k v Ha). change ((k, v) :: l) with ([(k, v)] ++ l). unfold untouched at 3. rewrite filter_app. f_equal. unfold untouched. apply filter_ext_in. intros x Hx.
    rewrite H1 at 2. rewrite existsb_app, (@touches_none here); [reflexivity|]. intros a Hia. rewrite (Hgt a x Hia Hx). discriminate.
Qed.
End Lists.

Lemma p_trans gone w pw a b c l l' : purges gone w pw a b l -> purges gone w pw b c l' -> purges gone w pw a c (l ++ l').
Proof.
  intros (e & H1 & H2) (e' & H3 & H4). exists (e ++ e'). split; [eapply logged_trans; eassumption|]. rewrite sum_of_app. intros H.
  rewrite filter_app, !sum_of_app, H2, H4 by lia. reflexivity.
Qed.
Lemma p_none gone w pw s s' : quiet s s' -> purges gone w pw s s' [].
Proof. intros Q. exists []. split; [exact Q|reflexivity]. Qed.
Lemma p_quiet gone w pw s s' s'' l : purges gone w pw s s' l -> quiet s' s'' -> purges gone w pw s s'' l.
Proof. intros (e & H1 & H2) Q. exists e. split; [eapply logged_quiet; eassumption|exact H2]. Qed.
Lemma purges_en gone w pw s s' l : purges gone w pw s s' l -> st_en s' = st_en s.
Proof. intros (ev & [_ H] & _). exact H. Qed.

Section WithEnv.
Context {E : Env} (EO : EnvOk E).
Variable rq : request.
Variable kvP : kv -> Prop.
Variable redP : bytes -> Prop.
Variable okf : file -> Prop.
Variable allowed : err -> Prop.
Hypothesis RO : rq_ok rq kvP redP okf allowed.
Hypothesis NC : r_compact rq = false.
Variable R : N.
Hypothesis HR : forall r, redP r -> lenN r <= R.
Variable gone : kv -> bool.
Variable w : kv -> N.
Variable pw : event -> N.
Local Notation tree := (tree rq kvP redP).
Local Notation mrok := (mrok rq kvP redP).
Local Notation run := (run allowed).
Local Notation okst := (okst okf).
Local Notation kept := (kept gone).
Local Notation purges := (purges gone w pw).
Hypothesis Hkv : exists g, r_purge_kv rq = Some g /\ forall k v, kvP (k, v) -> g k v = Ok (if gone (k, v) then P_ITEM else P_KEEP).
Hypothesis Hkp : exists g, r_purge_kp rq = Some g /\ forall f d p kvs, tree f d p kvs -> exists a, g p = Ok a /\
  match a with
  | P_ITEM => forallb gone kvs = true
  | P_KEEP => existsb gone kvs = false
  | P_PARTIAL => existsb gone kvs = true
  | P_STOP => False
  end.
Hypothesis Hwkv : forall k v, kvP (k, v) -> w (k, v) < limit -> pw (EvPurgeKv k v) = w (k, v).
Hypothesis Hwkp : forall f d p kvs, tree f d p kvs -> sum_of w kvs < limit -> pw (EvPurgeKp p) = sum_of w kvs.
Hypothesis NF : r_fetch rq = None.
Hypothesis NS : r_save rq = None.
Hypothesis OC : ord (r_cmp rq).
Let cmp := r_cmp rq.

Lemma ev_none a old : ev_a (fet rq) (sav rq) a old = [].
Proof. unfold ev_a, ev_f, ev_s, fet, sav. rewrite NF, NS. now destruct (a_type a). Qed.
Lemma evs_none acts : flat_map (fun a => ev_a (fet rq) (sav rq) a None) acts = [].
Proof. induction acts as [|a acts IH]; [reflexivity|]. cbn [flat_map]. now rewrite ev_none, IH. Qed.
Lemma once_any acts : once rq acts.
Proof. left. intros g a v H. rewrite NF in H. discriminate. Qed.
Definition okacts (acts : list action) : Prop := Forall (act_ok kvP) acts.
Lemma okacts_ok acts : okacts acts -> acts_ok rq kvP acts.
Proof. intros H. split; [exact H|apply once_any]. Qed.


(** What a step leaves behind: [o] instead of [orig], and the purge calls for [U]. *)
Definition ppost (leaf : bool) (d : nat) (s : st) (m : mr) (kvs o orig U : list kv) (m' : mr) (s' : st) : Prop :=
  mrok (st_f s') leaf d m' (kvs ++ o) /\ purges s s' U /\ (m_mod m' = false -> m_mod m = false /\ o = orig).

Lemma run_keep_p d m kvs k v s : okst s -> st_en s = true -> mrok (st_f s) true d m kvs -> kvP (k, v) ->
  run (maybe_purgekv rq k v m) s (ppost true d s m kvs (kept [(k, v)]) [(k, v)] [(k, v)]).
Proof.
  intros O En Hm Hx. eapply run_weaken; [exact (run_purge_kv EO RO NC HR Hkv Hwkv Hwkp O En Hm Hx)|]. intros m' s' (A1 & A2 & A3 & _). split; [exact A1|]. split; [exact A2|].
  rewrite A3. intros H. apply orb_false_iff in H. destruct H as [H1 H2]. split; [exact H1|]. unfold PurgeFacts.kept. cbn [filter]. now rewrite H2.
Qed.

Lemma run_leaf_entry_p d k v acts : forall m kvs s, okst s -> st_en s = true -> mrok (st_f s) true d m kvs -> kvP (k, v) -> okacts acts ->
  run (leaf_entry rq k v acts m) s (fun x s' => fst x = fst (m_entry cmp k v acts) /\
    ppost true d s m kvs (p_out cmp gone k v acts) [(k, v)] (unt cmp k v acts) (snd x) s').
Proof.
  induction acts as [|a acts IH]; intros m kvs s O En Hm Hk Ha; cbn [leaf_entry m_entry p_out unt].
  - eapply run_bind; [exact EO|exact RO|exact O|apply ow_purgekv|intros; apply ow_ret|apply run_keep_p; eassumption|].
    intros m1 s1 O1 L1 F1 A. apply run_ret. split; [reflexivity|exact A].
  - inversion Ha as [|? ? Ha1 Ha2]; subst. assert (Hold : forall x, Some v = Some x -> exists k', kvP (k', x)) by (intros x Hx; inv Hx; eauto).
    assert (Hf : forall b s1, do_fetch rq a b s1 = (Ok false, s1)) by (intros b s1; unfold do_fetch; rewrite NF; reflexivity).
    assert (Hins : inserts a = true -> run (do_insert rq a (Some v) m) s (ppost true d s m kvs (new a) [(k, v)] [])).
    { intros Hi. eapply run_weaken; [apply (@run_insert E EO rq kvP redP okf allowed RO d a (Some v) m kvs [(k, v)] s O Hm (Ha1 Hi) Hold)|].
      intros m' s' (A1 & A2 & A3). unfold new. rewrite Hi. split; [exact A1|]. split; [|exact A3]. apply p_none. unfold ev_s, sav in A2. rewrite NS in A2. exact A2. }
    assert (Hins' : inserts a = true -> run (let+ m' := do_insert rq a (Some v) m in ret (acts, m')) s
      (fun x s' => fst x = acts /\ ppost true d s m kvs (new a) [(k, v)] [] (snd x) s')).
    { intros Hi. eapply run_bind; [exact EO|exact RO|exact O|apply ow_do_insert|intros; apply ow_ret|exact (Hins Hi)|]. intros m1 s1 O1 L1 F1 A. apply run_ret. split; [reflexivity|exact A]. }
    fold cmp. destruct (cmp k (a_key a)) eqn:Hcm.
    + destruct (a_type a) eqn:Ht.
      * apply run_eq with (y := leaf_entry rq k v acts m); [unfold bindM at 1; rewrite Hf; reflexivity|]. now apply IH.
      * apply run_ret. split; [reflexivity|]. cbn [snd]. unfold new, inserts. rewrite Ht. split; [rewrite app_nil_r; now apply mrok_set_mod|].
        split; [apply p_none, quiet_refl|discriminate].
      * cbn [fst]. apply Hins'. unfold inserts. now rewrite Ht.
      * eapply run_eq; [unfold bindM at 1; rewrite Hf; reflexivity|]. cbn [fst]. apply Hins'. unfold inserts. now rewrite Ht.
    + eapply run_bind; [exact EO|exact RO|exact O|apply ow_purgekv|intros; apply ow_ret|apply run_keep_p; eassumption|].
      intros m1 s1 O1 L1 F1 A. apply run_ret. split; [reflexivity|exact A].
    + eapply run_bind; [exact EO|exact RO|exact O|apply ow_act_missing|intros; apply ow_leaf_entry|apply (@run_missing E EO rq kvP redP okf allowed RO d a m kvs s O Hm Ha1 (once_any _))|].
      intros m1 s1 O1 L1 F1 (A1 & A2 & A3). rewrite ev_none in A2. eapply run_weaken; [apply IH; [exact O1|rewrite (proj2 A2); exact En|exact A1|exact Hk|exact Ha2]|].
      intros x s' (B1 & B2 & B3 & B4). destruct (m_entry cmp k v acts) as [x1 o1]. cbn [fst] in *. split; [exact B1|]. split; [rewrite app_assoc; exact B2|].
      split; [change (unt cmp k v acts) with ([] ++ unt cmp k v acts); eapply p_trans; [apply p_none; exact A2|exact B3]|].
      intros Hmod. destruct (B4 Hmod) as [C1 C2]. destruct (A3 C1) as [C3 C4]. rewrite C2, C4. auto.
Qed.

Lemma m_entry_okacts k v acts : okacts acts -> okacts (fst (m_entry cmp k v acts)).
Proof. intros H. exact (proj1 (@m_entry_ok rq kvP k v acts (okacts_ok H))). Qed.

Lemma run_leaf_loop_p d items : forall acts m kvs s, okst s -> st_en s = true -> mrok (st_f s) true d m kvs -> Forall kvP items -> okacts acts ->
  run (leaf_loop rq items TEnd acts m) s (ppost true d s m kvs (pmerge cmp gone items acts) items (punt cmp items acts)).
Proof.
  induction items as [|[k v] items IH]; intros acts m kvs s O En Hm Hi Ha; cbn [leaf_loop pmerge punt].
  - eapply run_weaken; [apply (@run_missings E EO rq kvP redP okf allowed RO d acts m kvs s O Hm (okacts_ok Ha))|]. rewrite evs_none.
    intros m' s' (A1 & A2 & A3). split; [exact A1|]. split; [now apply p_none|exact A3].
  - inversion Hi as [|? ? Hkv1 Hi']; subst.
    eapply run_bind; [exact EO|exact RO|exact O|apply ow_leaf_entry|intros; apply ow_leaf_loop|apply run_leaf_entry_p; eassumption|].
    intros x s1 O1 L1 F1 (A0 & A1 & A2 & A3). pose proof (m_entry_okacts k v Ha) as Ha'. rewrite A0.
    eapply run_weaken; [apply IH; [exact O1|rewrite (purges_en A2); exact En|exact A1|exact Hi'|exact Ha']|].
    intros m' s' (B1 & B2 & B3). split; [rewrite app_assoc; exact B1|]. split; [eapply p_trans; eassumption|].
    intros Hmod. destruct (B3 Hmod) as [C1 C2]. destruct (A3 C1) as [C3 C4]. rewrite C2, C4. auto.
Qed.

(** ** Inner nodes *)

Definition mnspec_p (d : nat) (mn : node_pointer -> list action -> mr -> M mr) : Prop :=
  forall p ks acts m kvs s, okst s -> st_en s = true -> acts <> [] -> asorted cmp acts -> okacts acts ->
    tree (st_f s) d p ks -> sorted cmp ks -> mrok (st_f s) false d m kvs ->
    run (mn p acts m) s (ppost false d s m kvs (merge cmp (kept ks) acts) ks (untouched cmp acts ks)).

Lemma run_kp_p d pn m kvs c ks s : (forall p m, ow (pn p m)) -> pnspec rq kvP redP okf allowed R gone w pw d pn -> okst s -> st_en s = true ->
  mrok (st_f s) false d m kvs -> tree (st_f s) d c ks ->
  run (maybe_purgekp rq pn c m) s (ppost false d s m kvs (kept ks) ks ks).
Proof.
  intros Hpn PN O En Hm Ht. eapply run_weaken; [exact (run_purge_kp EO RO NC HR Hkp Hwkp Hpn PN O En Hm Ht)|]. intros m' s' (A1 & A2 & A3 & _). split; [exact A1|]. split; [exact A2|].
  rewrite A3. intros H. apply orb_false_iff in H. destruct H as [H1 H2]. split; [exact H1|]. exact (proj2 (existsb_false_filter H2)).
Qed.

Lemma okacts_app a b : okacts (a ++ b) -> okacts a /\ okacts b.
Proof. apply Forall_app. Qed.

Lemma run_kp_loop_p d pn mn : (forall p m, ow (pn p m)) -> (forall p a m, ow (mn p a m)) -> pnspec rq kvP redP okf allowed R gone w pw d pn -> mnspec_p d mn ->
  forall cs ks acts m kvs s, okst s -> st_en s = true -> asorted cmp acts -> okacts acts -> (acts <> [] -> cs <> []) ->
    Forall2 (tree (st_f s) d) cs ks -> sorted cmp (concat ks) -> mrok (st_f s) false d m kvs ->
    run (kp_loop rq pn mn (map kp_entry cs) TEnd acts m) s
      (ppost false d s m kvs (merge cmp (kept (concat ks)) acts) (concat ks) (untouched cmp acts (concat ks))).
Proof.
  intros Hpn Hmn PN MN. induction cs as [|c cs IH]; intros ks acts m kvs s O Hen Has Hao Hne Ht Hso Hm.
  - inv Ht. destruct acts as [|a acts]; [|exfalso; apply Hne; [discriminate|reflexivity]].
    cbn. apply run_ret. split; [rewrite app_nil_r; exact Hm|]. split; [apply p_none, quiet_refl|auto].
  - inversion Ht as [|? k ? ks' Hck Hrest]; subst. cbn [concat] in Hso. destruct (@sorted_app rq k (concat ks') Hso) as (Hs1 & Hs2 & Hs12).
    pose proof (read_kp_entry RO Hck) as Hread. cbn [kp_entry fst snd] in Hread. pose proof (tree_norm Hck) as Hcn.
    pose proof (tree_key Hck) as Hkey.
    assert (Hlow : forall x, In x k -> cmp (fst x) (np_key c) <> Gt) by (intros x Hx; rewrite Hkey; now apply (@sorted_last rq OC)).
    assert (Hhigh : forall x, In x (concat ks') -> cmp (np_key c) (fst x) = Lt).
    { intros x Hx. rewrite Hkey. assert (Hkn : k <> []) by (eapply tree_nonempty; exact Hck).
      assert (Hin : In (last (map fst k) []) (map fst k)) by (apply last_in; intros Hm'; apply map_eq_nil in Hm'; congruence).
      apply in_map_iff in Hin. destruct Hin as (y & <- & Hy). now apply Hs12. }
    assert (Hsplit : forall here later, (forall a, In a here -> cmp (a_key a) (np_key c) <> Gt) -> (forall a, In a later -> cmp (np_key c) (a_key a) = Lt) ->
      merge cmp (kept (concat (k :: ks'))) (here ++ later) = merge cmp (kept k) here ++ merge cmp (kept (concat ks')) later /\
      untouched cmp (here ++ later) (concat (k :: ks')) = untouched cmp here k ++ untouched cmp later (concat ks')).
    { intros here later Hh Hl.
      assert (P1 : forall a x, In a here -> In x (concat ks') -> cmp (fst x) (a_key a) = Gt)
        by (intros a x Ha Hx; apply (c_gt OC); eapply (c_le_lt OC); [now apply Hh|now apply Hhigh]).
      assert (P2 : forall a x, In a later -> In x k -> cmp (fst x) (a_key a) = Lt)
        by (intros a x Ha Hx; eapply (c_le_lt OC); [now apply Hlow|now apply Hl]).
      cbn [concat]. rewrite kept_app. split; [|now apply untouched_app]. apply merge_app.
      - intros a x Ha Hx. apply P1; [exact Ha|]. now apply kept_in in Hx.
      - intros a x Ha Hx. apply P2; [exact Ha|]. now apply kept_in in Hx. }
    assert (Hskip : forall acts, asorted cmp acts -> okacts acts -> (acts <> [] -> cs <> []) -> (forall a, In a acts -> cmp (np_key c) (a_key a) = Lt) ->
      run (let+ c0 := lift (read_pointer (np_key c) (encode_pointer c)) in let+ m' := maybe_purgekp rq pn c0 m in kp_loop rq pn mn (map kp_entry cs) TEnd acts m') s
        (ppost false d s m kvs (merge cmp (kept (concat (k :: ks'))) acts) (concat (k :: ks')) (untouched cmp acts (concat (k :: ks'))))).
    { clear acts Has Hao Hne. intros acts Has Hao Hne Hgt. rewrite Hread.
      apply run_bind with (rq := rq) (kvP := kvP) (redP := redP) (okf := okf) (Q := fun x s' => x = norm c /\ s' = s); [exact EO|exact RO|exact O|apply ow_lift| |apply run_lift; auto|].
      { intros. apply ow_bind; [now apply ow_purgekp|intros; now apply ow_kp_loop]. }
      intros ? ? _ _ _ [-> ->]. eapply run_bind; [exact EO|exact RO|exact O|now apply ow_purgekp|intros; now apply ow_kp_loop|apply run_kp_p; eassumption|].
      intros m1 s1 O1 L1 F1 (A1 & A2 & A3). eapply run_weaken.
      { apply IH; [exact O1|rewrite (purges_en A2); exact Hen|exact Has|exact Hao|exact Hne|eapply trees_le; eassumption|exact Hs2|exact A1]. }
      destruct (Hsplit [] acts) as [Em Eu]; [intros a []|exact Hgt|]. rewrite merge_nil in Em. rewrite untouched_nil in Eu. cbn [app] in Em, Eu.
      rewrite Em, Eu. intros m' s' (B1 & B2 & B3). split; [rewrite app_assoc; exact B1|]. split; [eapply p_trans; eassumption|].
      intros Hmod. destruct (B3 Hmod) as [C1 C2]. destruct (A3 C1) as [C3 C4]. cbn [concat]. rewrite C2, C4. auto. }
    cbn [map kp_loop kp_entry]. destruct acts as [|a0 acts0].
    + apply Hskip; auto. intros a [].
    + set (acts := a0 :: acts0) in *.
      destruct cs as [|c' cs'].
      * inv Hrest. cbn [map]. rewrite Hread. apply run_bind with (rq := rq) (kvP := kvP) (redP := redP) (okf := okf) (Q := fun x s' => x = norm c /\ s' = s); [exact EO|exact RO|exact O|apply ow_lift|intros; apply Hmn|apply run_lift; auto|].
        intros ? ? _ _ _ [-> ->]. cbn [concat]. rewrite app_nil_r. apply MN; auto. discriminate.
      * change (map kp_entry (c' :: cs')) with (kp_entry c' :: map kp_entry cs') in *. cbn [kp_entry] in *.
        destruct (r_cmp rq (np_key c) (a_key a0)) eqn:Hc0.
        2:{ apply (Hskip acts); auto; [discriminate|]. intros a [<-|Ha]; [exact Hc0|]. inversion Has as [|? ? ? Hall]; subst.
            rewrite Forall_forall in Hall. eapply (c_lt_le OC); [exact Hc0|now apply Hall]. }
        all: destruct (@span_spec rq OC (np_key c) _ Has) as (here & later & Esp & Eacts & Hh & Hl); rewrite Esp;
          (assert (Hhne : here <> []) by (intros Hz; rewrite Hz in Eacts; cbn [app] in Eacts;
             pose proof (Hl a0 ltac:(rewrite <- Eacts; now left)) as Hz'; rewrite Hz' in Hc0; discriminate));
          rewrite Hread; apply run_bind with (rq := rq) (kvP := kvP) (redP := redP) (okf := okf) (Q := fun x s' => x = norm c /\ s' = s);
          [exact EO|exact RO|exact O|apply ow_lift| |apply run_lift; auto|].
        all: try (intros; apply ow_bind; [apply Hmn|intros; now apply (@ow_kp_loop E rq pn mn TEnd (kp_entry c' :: map kp_entry cs'))]).
        all: intros ? ? _ _ _ [-> ->]; rewrite Eacts in Has, Hao; apply asorted_app in Has; destruct Has as [Has1 Has2];
          apply okacts_app in Hao; destruct Hao as [Hao1 Hao2];
          (eapply run_bind; [exact EO|exact RO|exact O|apply Hmn|intros; now apply (@ow_kp_loop E rq pn mn TEnd (kp_entry c' :: map kp_entry cs'))|apply MN; eassumption|]);
          intros m1 s1 O1 L1 F1 (A1 & A2 & A3);
          (eapply run_weaken; [apply IH; [exact O1|rewrite (purges_en A2); exact Hen|exact Has2|exact Hao2|discriminate|eapply trees_le; eassumption|exact Hs2|exact A1]|]);
          destruct (Hsplit here later Hh Hl) as [Em Eu]; rewrite Eacts, Em, Eu;
          intros m' s' (B1 & B2 & B3); (split; [rewrite app_assoc; exact B1|]); (split; [eapply p_trans; eassumption|]);
          intros Hmod; destruct (B3 Hmod) as [C1 C2]; destruct (A3 C1) as [C3 C4]; cbn [concat]; rewrite C2, C4; auto.
Qed.

(** ** Nodes *)

Definition locpost_p (d : nat) (s : st) (orig o U : list kv) (m' : mr) (s' : st) : Prop :=
  purges s s' U /\ (m_mod m' = false -> o = orig) /\
  (m_mod m' = true -> exists ks, Forall2 (tree (st_f s') d) (m_ptrs m') ks /\ o = concat ks).

Lemma loc_post leaf d s orig o U m1 s1 : okst s1 -> ppost leaf d s (make_modres (ty_of leaf)) [] o orig U m1 s1 ->
  run (flush_mr rq m1) s1 (locpost_p (lev leaf d) s orig o U).
Proof.
  intros O1 (A1 & A2 & A3). cbn [app] in A1. eapply run_weaken; [eapply (@run_flush E EO rq kvP redP okf allowed RO leaf d m1 o s1); [exact O1|exact A1]|].
  intros m' s' (B1 & B2 & B3 & B4 & _). split; [eapply p_quiet; eassumption|]. rewrite B3. split; [intros Hf; now apply A3|].
  intros Hm. destruct (B4 Hm) as [B5 _]. destruct (mrok_flushed B1 B5) as (k1 & C1 & C2). exists k1. split; [exact C1|]. exact C2.
Qed.

Lemma run_loc_leaf_p F p ks acts s : okst s -> st_en s = true -> asorted cmp acts -> okacts acts -> tree (st_f s) 0 p ks -> sorted cmp ks ->
  run (loc_node rq F (np_pointer p) acts) s (locpost_p 0 s ks (merge cmp (kept ks) acts) (untouched cmp acts ks)).
Proof.
  intros O Hen Has Ha (H1 & H2 & H3 & Hne & Hk & Hkey & Hred & sz & Hh & Hsz) Hso. unfold loc_node.
  assert (Hkvs : Forall kv_ok ks) by (revert Hk; apply Forall_impl; apply (ro_kvP RO)).
  destruct (pmerge_ok OC gone Hso Has) as [Epm Epu]. unfold cmp. rewrite <- Epm, <- Epu.
  apply run_eq with (y := (let+ loc := leaf_loop rq ks TEnd acts (make_modres KV_NODE) in flush_mr rq loc)).
  { unfold bindM at 1. rewrite (@run_read_node E EO okf _ _ _ _ O Hh) by discriminate. rewrite (node_items_mk KV_NODE Hkvs). cbn [mk_node KV_NODE]. reflexivity. }
  eapply run_bind; [exact EO|exact RO|exact O|apply ow_leaf_loop|intros; apply ow_flush| |].
  { apply (@run_leaf_loop_p 0%nat ks acts (make_modres KV_NODE) [] s O Hen); [apply (@mrok_empty E rq kvP redP (st_f s) true 0)|exact Hk|exact Ha]. }
  intros m1 s1 O1 L1 F1 A. exact (loc_post (leaf := true) (d := 0%nat) O1 A).
Qed.

Lemma run_loc_inner_p F d p ks acts s : pnspec rq kvP redP okf allowed R gone w pw d (purge_node F rq) ->
  mnspec_p d (fun c as_ m => modify_node F rq (Some c) as_ m) ->
  okst s -> st_en s = true -> asorted cmp acts -> okacts acts -> tree (st_f s) (S d) p ks -> sorted cmp ks ->
  run (loc_node rq F (np_pointer p) acts) s (locpost_p (S d) s ks (merge cmp (kept ks) acts) (untouched cmp acts ks)).
Proof.
  intros PN MN O Hen Has Ha (H1 & H2 & H3 & cs & k0 & sz & Hne & Hcs & -> & Hkey & Hred & Hh & Hsz & Hlt) Hso. unfold loc_node.
  assert (Hkvs : Forall kv_ok (map kp_entry cs)) by (eapply (kp_entries_ok RO); exact Hcs).
  apply run_eq with (y := (let+ loc := kp_loop rq (purge_node F rq) (fun c as_ m => modify_node F rq (Some c) as_ m) (map kp_entry cs) TEnd acts (make_modres KP_NODE) in flush_mr rq loc)).
  { unfold bindM at 1. rewrite (@run_read_node E EO okf _ _ _ _ O Hh) by discriminate. rewrite (node_items_mk KP_NODE Hkvs). cbn [mk_node KP_NODE]. reflexivity. }
  eapply run_bind; [exact EO|exact RO|exact O|apply ow_kp_loop; [apply ow_purge_node|intros; apply ow_modify_node]|intros; apply ow_flush| |].
  { apply run_kp_loop_p with (d := d) (ks := k0) (kvs := []); auto; [intros; apply ow_purge_node|intros; apply ow_modify_node|apply (@mrok_empty E rq kvP redP (st_f s) false d)]. }
  intros m1 s1 O1 L1 F1 A. exact (loc_post (leaf := false) (d := d) O1 A).
Qed.

Lemma run_loc_p F d p ks acts s : (d <= F)%nat -> (forall d', (d' < F)%nat -> mnspec_p d' (fun c as_ m => modify_node F rq (Some c) as_ m)) ->
  okst s -> st_en s = true -> asorted cmp acts -> okacts acts -> tree (st_f s) d p ks -> sorted cmp ks ->
  run (loc_node rq F (np_pointer p) acts) s (locpost_p d s ks (merge cmp (kept ks) acts) (untouched cmp acts ks)).
Proof.
  intros Hd MN O En Has Ha Ht Hso. destruct d as [|d]; [now apply run_loc_leaf_p|]. apply run_loc_inner_p; try assumption; [apply (run_purge_node EO RO NC HR Hkv Hkp Hwkv Hwkp); lia|apply MN; lia].
Qed.

Lemma run_modify_p F : forall d, (d < F)%nat -> mnspec_p d (fun c as_ m => modify_node F rq (Some c) as_ m).
Proof.
  induction F as [|F IH]; intros d Hd; [lia|]. intros p ks acts m kvs s O Hen Hne Has Hao Ht Hso Hm.
  eapply run_eq; [now apply modify_eq|].
  eapply run_bind; [exact EO|exact RO|exact O|apply ow_loc_node| | |].
  { intros. destruct (negb (m_mod a)); [apply ow_push|apply ow_move]. }
  { apply (@run_loc_p F d p ks acts s); auto. lia. }
  intros loc s1 O1 L1 F1 (A1 & A2 & A3). destruct (m_mod loc) eqn:Hmod; cbn [negb].
  - destruct (A3 eq_refl) as (k1 & C1 & C2). eapply run_weaken.
    { unfold move_pointers. apply (@run_push_ptrs E EO rq kvP redP okf allowed RO d (m_ptrs loc) (set_mod m) kvs k1 s1 O1); [apply mrok_set_mod; eapply mrok_le; eassumption|exact C1]. }
    intros m' s' (B1 & B2 & B3 & _). split; [rewrite C2; exact B1|]. split; [eapply p_quiet; eassumption|]. rewrite B3. discriminate.
  - specialize (A2 eq_refl). eapply run_weaken.
    { apply (@run_push_ptr E EO rq kvP redP okf allowed RO d m kvs p ks s1 O1); [eapply mrok_le; eassumption|eapply tree_le; eassumption]. }
    intros m' s' (B1 & B2 & B3 & _). rewrite A2. split; [exact B1|]. split; [eapply p_quiet; eassumption|]. rewrite B3. auto.
Qed.

(** ** The root *)

Local Notation rtree := (rtree rq kvP redP).
Theorem run_modify_purge root kvs acts s : okst s -> st_en s = true -> asorted cmp acts -> okacts acts -> acts <> [] ->
  rtree (st_f s) root kvs -> sorted cmp kvs ->
  run (modify_btree rq root acts) s (fun root' s' => rtree (st_f s') root' (merge cmp (kept kvs) acts) /\ purges s s' (untouched cmp acts kvs)).
Proof.
  intros O Hen Has Hao Hne Hr Hso. unfold modify_btree.
  assert (Hk : forall a : mr, ow (if m_mod a then top_pointer rq a else ret root)) by (intros a; destruct (m_mod a); [apply ow_top|apply ow_ret]).
  destruct root as [p|].
  - destruct Hr as (d & p' & Ht & Hp & Hpr & Hps).
    assert (Hd : (d <= N.to_nat (fpos (st_f s)))%nat) by (pose proof (tree_depth Ht); pose proof (tree_pos Ht); lia).
    apply run_eq with (y := (let+ loc := loc_node rq (N.to_nat (fpos (st_f s))) (np_pointer p) acts in
      let+ m := (if negb (m_mod loc) then push_pointerinfo rq p (make_modres KP_NODE) else move_pointers rq loc (set_mod (make_modres KP_NODE))) in
      if m_mod m then top_pointer rq m else ret (Some p))).
    { unfold bindM at 1. unfold depth_fuel. rewrite modify_eq by exact Hne. unfold bindM. destruct (loc_node rq (N.to_nat (fpos (st_f s))) (np_pointer p) acts s) as [[loc|e] s1]; reflexivity. }
    rewrite <- Hp. eapply run_bind; [exact EO|exact RO|exact O|apply ow_loc_node| | |].
    { intros. apply ow_bind; [|apply Hk]. destruct (negb (m_mod a)); [apply ow_push|apply ow_move]. }
    { apply (@run_loc_p (N.to_nat (fpos (st_f s))) d p' kvs acts s); auto. intros d' Hd'. now apply run_modify_p. }
    intros loc s1 O1 L1 F1 (A1 & A2 & A3). destruct (m_mod loc) eqn:Hmod; cbn [negb].
    + destruct (A3 eq_refl) as (k1 & C1 & C2). eapply run_bind; [exact EO|exact RO|exact O1|apply ow_move|apply Hk| |].
      { unfold move_pointers. apply (@run_push_ptrs E EO rq kvP redP okf allowed RO d (m_ptrs loc) (set_mod (make_modres KP_NODE)) [] k1 s1 O1);
          [apply mrok_set_mod; apply (@mrok_empty E rq kvP redP (st_f s1) false d)|exact C1]. }
      intros m2 s2 O2 L2 F2 (B1 & B2 & B3 & _). cbn [set_mod m_mod] in B3. rewrite B3. cbn [app] in B1. rewrite <- C2 in B1.
      eapply run_weaken; [eapply (@run_top E EO rq kvP redP okf allowed RO); eassumption|]. intros r s' (D1 & D2). split; [apply toptree_rtree; exact D1|].
      eapply p_quiet; [exact A1|eapply quiet_trans; eassumption].
    + specialize (A2 eq_refl). rewrite A2. apply run_eq with (y := ret (Some p)).
      { unfold bindM, push_pointerinfo, push, maybe_flush. cbn [make_modres m_mod andb]. destruct (r_compact rq); reflexivity. }
      apply run_ret. split; [|exact A1]. exists d, p'. split; [eapply tree_le; eassumption|auto].
  - cbn in Hr. subst kvs.
    apply run_eq with (y := (let+ loc := leaf_loop rq [] TEnd acts (make_modres KV_NODE) in let+ loc' := flush_mr rq loc in
      let+ m := move_pointers rq loc' (set_mod (make_modres KP_NODE)) in if m_mod m then top_pointer rq m else ret None)).
    { unfold depth_fuel. destruct acts as [|b bs]; [congruence|]. cbn [modify_node]. unfold bindM.
      destruct (leaf_loop rq [] TEnd (b :: bs) (make_modres KV_NODE) s) as [[loc|e] s1]; [|reflexivity].
      destruct (flush_mr rq loc s1) as [[loc'|e] s2]; reflexivity. }
    eapply run_bind; [exact EO|exact RO|exact O|apply ow_leaf_loop| | |].
    { intros. apply ow_bind; [apply ow_flush|]. intros. apply ow_bind; [apply ow_move|apply Hk]. }
    { apply (@run_leaf_loop_p 0%nat [] acts (make_modres KV_NODE) [] s O Hen); [apply (@mrok_empty E rq kvP redP (st_f s) true 0)|constructor|exact Hao]. }
    intros m1 s1 O1 L1 F1 (A1 & A2 & A3). cbn [app pmerge punt] in A1, A2, A3.
    eapply run_bind; [exact EO|exact RO|exact O1|apply ow_flush| |apply (@run_flush E EO rq kvP redP okf allowed RO true 0%nat m1 _ s1 O1 A1)|].
    { intros. apply ow_bind; [apply ow_move|apply Hk]. }
    intros m2 s2 O2 L2 F2 (B1 & B2 & B3 & B4 & _).
    assert (Hpt : exists ks, Forall2 (tree (st_f s2) 0) (m_ptrs m2) ks /\ flat_map new acts = concat ks).
    { destruct (m_mod m1) eqn:Hmod.
      - destruct (B4 eq_refl) as [B5 _]. exact (mrok_flushed B1 B5).
      - destruct (A3 eq_refl) as [_ Hz]. exists []. rewrite (mo_mod B1 B3). split; [constructor|]. exact Hz. }
    destruct Hpt as (ks & C1 & C2). eapply run_bind; [exact EO|exact RO|exact O2|apply ow_move|apply Hk| |].
    { unfold move_pointers. apply (@run_push_ptrs E EO rq kvP redP okf allowed RO 0%nat (m_ptrs m2) (set_mod (make_modres KP_NODE)) [] ks s2 O2);
        [apply mrok_set_mod; apply (@mrok_empty E rq kvP redP (st_f s2) false 0)|exact C1]. }
    intros m3 s3 O3 L3 F3 (D1 & D2 & D3 & _). cbn [set_mod m_mod] in D3. rewrite D3. cbn [app] in D1. rewrite <- C2 in D1.
    eapply run_weaken; [eapply (@run_top E EO rq kvP redP okf allowed RO); eassumption|]. intros r s' (E1 & E2). split; [apply toptree_rtree; exact E1|].
    change (untouched cmp acts []) with (@nil kv). eapply p_quiet; [exact A2|]. eapply quiet_trans; [exact B2|]. eapply quiet_trans; eassumption.
Qed.
End WithEnv.
