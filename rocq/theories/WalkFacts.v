(** A walk over a stored index calls the user's function along the shape of the index. *)
From Verif Require Import Base Codec CodecFacts File FileFacts ChunkFacts Header Btree BtreeRead TreeStore SpecMap MergeFacts ModifyFacts LookupFacts Db SpecDb ReduceFacts SpecSession Walk SpecWalk.
Local Open Scope N_scope.
Unset Strict Implicit.

Lemma flat_map_map A B C (g : A -> B) (h : B -> list C) l : flat_map h (map g l) = flat_map (fun x => h (g x)) l.
Proof. induction l as [|x l IH]; [reflexivity|]. cbn [map flat_map]. now rewrite IH. Qed.

(** ** The calls of a lookup with a node callback *)

Inductive act := AFetch (k v : bytes) | AEnter (size : N) (red : bytes) | ALeave.

Section WithU.
Variable U : Type.
Variable rq : lreq U.
Variable g : option (N * bytes) -> U -> res unit * U.
Hypothesis Htol : l_tol rq = false.
Hypothesis Hnode : l_node rq = Some g.
Let cmp := lookup_compare (l_cmp rq).
Hypothesis OL : ord cmp.

Definition act_step (a : act) (u : U) : res unit * U :=
  match a with
  | AFetch k v => l_fetch rq k (Some v) u
  | AEnter size red => g (Some (size, red)) u
  | ALeave => g None u
  end.
Definition run_acts (l : list act) (u : U) : res unit * U := feed act_step l u.
Lemma run_acts_app a b u : run_acts (a ++ b) u = match run_acts a u with (Ok _, u') => run_acts b u' | (Err e, u') => (Err e, u') end.
Proof.
  revert u. induction a as [|x a IH]; intros u; [reflexivity|]. unfold run_acts in *. cbn [app feed]. destruct (act_step x u) as [[[]|e] u']; [apply IH|reflexivity].
Qed.
Lemma run_calls_acts l u : run_calls rq (map found l) u = run_acts (map (fun x => AFetch (fst x) (snd x)) l) u.
Proof.
  revert u. induction l as [|x l IH]; intros u; [reflexivity|]. unfold run_acts in *. cbn [map run_calls found feed act_step fst snd].
  destruct (l_fetch rq (fst x) (Some (snd x)) u) as [[[]|e] u']; [apply IH|reflexivity].
Qed.

Context {E : Env} (EO : EnvOk E).
Variable mq : request.
Variable kvP : kv -> Prop.
Variable redP : bytes -> Prop.
Hypothesis HkvP : forall x, kvP x -> kv_ok x.
Hypothesis HredP : forall r, redP r -> lenN r < 2^16.
Notation tree := (tree mq kvP redP).
Variable A : Type.
Variable ent : A -> kv.
Variable good_doc : A -> Prop.
Variable sum : list A -> bytes.
Hypothesis Hsum : forall f d p ds, Forall good_doc ds -> tree f d p (map ent ds) -> np_reduce p = sum ds.
Variable k0 : bytes.
Definition kept (a : A) : bool := ge (cmp (fst (ent a)) k0).

Fixpoint below (t : shape A) : list act :=
  match t with
  | Leaf _ ds => map (fun a => AFetch (fst (ent a)) (snd (ent a))) (filter kept ds)
  | Inner _ cs => flat_map (fun c => if existsb kept (docs c) then AEnter (space c mod 2^48) (sum (docs c)) :: below c ++ [ALeave] else []) cs
  end.

(** The shape of a stored tree. *)
Fixpoint shaped (f : file) (d : nat) (p : node_pointer) (t : shape A) : Prop :=
  tree f d p (map ent (docs t)) /\ Forall good_doc (docs t) /\ np_subtree p mod 2^48 = space t mod 2^48 /\
  match d, t with
  | O, Leaf own ds => ds <> [] /\ hasz f (np_pointer p) (mk_node KV_NODE (map ent ds)) own
  | S d', Inner own ts => exists cs, cs <> [] /\ Forall2 (shaped f d') cs ts /\ hasz f (np_pointer p) (mk_node KP_NODE (map kp_entry cs)) own
  | _, _ => False
  end.
Lemma shaped_tree f d p t : shaped f d p t -> tree f d p (map ent (docs t)) /\ Forall good_doc (docs t) /\ np_subtree p mod 2^48 = space t mod 2^48.
Proof. destruct d; intros (H1 & H2 & H3 & _); auto. Qed.
Lemma psum_space f d cs ts : Forall2 (shaped f d) cs ts -> psum cs mod 2^48 = fold_right (fun c n => space c + n) 0 ts mod 2^48.
Proof.
  induction 1 as [|c t cs ts H _ IH]; [reflexivity|]. cbn [psum fold_right] in *. destruct (shaped_tree H) as (_ & _ & H1).
  unfold psum in *. cbn [map fold_right] in *. rewrite N.add_mod, H1, IH, <- N.add_mod by discriminate. reflexivity.
Qed.

Lemma tree_shape f d : forall p ds, Forall good_doc ds -> tree f d p (map ent ds) -> exists t, shaped f d p t /\ docs t = ds.
Proof.
  induction d as [|d IH]; intros p ds Hg T.
  - pose proof T as T'. destruct T as (_ & _ & _ & Hne & _ & _ & _ & sz & Hh & Hs). exists (Leaf sz ds). split; [|reflexivity].
    cbn [shaped docs space]. split; [exact T'|]. split; [exact Hg|]. split; [exact Hs|]. split; [|exact Hh]. intros ->. now apply Hne.
  - pose proof T as T'. destruct T as (_ & _ & _ & cs & ks & sz & Hne & Hcs & He & _ & _ & Hh & Hs & _).
    apply map_concat_split in He. destruct He as (dss & Hc & ->).
    assert (X : exists ts, Forall2 (shaped f d) cs ts /\ map (@docs A) ts = dss).
    { rewrite <- Hc in Hg. clear - IH Hcs Hg. revert dss Hcs Hg. induction cs as [|c cs IH2]; intros dss Hcs Hg; inversion Hcs as [|? k ? ks' H1 H2 He Hk]; subst.
      - destruct dss; [|discriminate]. exists []. split; [constructor|reflexivity].
      - destruct dss as [|ds dss]; [discriminate|]. cbn [map] in Hk. injection Hk as -> ->. cbn [concat] in Hg. apply Forall_app in Hg. destruct Hg as [G1 G2].
        destruct (IH c ds G1 H1) as (t & T1 & T2). destruct (IH2 dss H2 G2) as (ts & T3 & T4). exists (t :: ts). split; [constructor; assumption|]. cbn [map]. now rewrite T2, T4. }
    destruct X as (ts & Hts & Hd). exists (Inner sz ts). assert (Hdocs : docs (Inner sz ts) = ds) by (cbn [docs]; rewrite flat_map_concat_map, Hd; exact Hc).
    split; [|exact Hdocs]. cbn [shaped]. rewrite Hdocs. split; [exact T'|]. split; [exact Hg|]. split; [|exists cs; auto].
    rewrite Hs. cbn [space]. rewrite (N.add_comm sz), N.add_mod, (psum_space Hts), <- N.add_mod by discriminate. reflexivity.
Qed.
Lemma shaped_even f d : forall p t, shaped f d p t -> even d t.
Proof.
  induction d as [|d IH]; intros p [own ds|own ts] (_ & _ & _ & H); try contradiction; cbn [even].
  - exact (proj1 H).
  - destruct H as (cs & Hne & F & _). split; [intros ->; inversion F; subst; now apply Hne|]. clear - IH F. induction F as [|c t cs ts H _ IH2]; constructor; eauto.
Qed.

(** ** The lookup *)

Definition wpost (i : bool) (u : U) (l : list act) (r : res unit * lst U) : Prop :=
  (fst r, l_u (snd r)) = run_acts l u /\ (fst r = Ok tt -> l_fold (snd r) = true /\ (i = true -> l_in (snd r) = true)).

Lemma child_kept f d c t l : shaped f d c t -> sorted cmp (map ent (docs t) ++ l) -> existsb kept (docs t) = ge (cmp (np_key c) k0).
Proof.
  intros H Hs. destruct (shaped_tree H) as (T & _). destruct (@child_bounds U rq OL E mq kvP redP f d c _ _ T Hs) as (_ & _ & S3 & _ & _). fold cmp in S3.
  destruct (ge (cmp (np_key c) k0)) eqn:Hg.
  - apply existsb_exists. pose proof (tree_key T) as Hk. pose proof (tree_nonempty T) as Hne.
    assert (Hi : In (last (map fst (map ent (docs t))) []) (map fst (map ent (docs t)))) by (apply last_in; intros Hm; apply map_eq_nil in Hm; congruence).
    rewrite <- Hk, map_map in Hi. apply in_map_iff in Hi. destruct Hi as (a & Ha & Hin). exists a. split; [exact Hin|]. unfold kept. now rewrite Ha.
  - apply not_true_iff_false. intros He. apply existsb_exists in He. destruct He as (a & Hin & Ha). unfold kept in Ha.
    assert (Hlt : cmp (np_key c) k0 = Lt) by (destruct (cmp (np_key c) k0); cbn in Hg; congruence).
    rewrite (@c_le_lt _ OL (fst (ent a)) (np_key c) k0) in Ha; [discriminate| |exact Hlt]. apply S3. now apply in_map.
Qed.

Lemma kp_walk f d rec : (forall c t u, shaped f d c t -> sorted cmp (map ent (docs t)) -> wpost true u (below t) (rec (np_pointer c) [k0] (Lst u true true))) ->
  forall own cs ts, Forall2 (shaped f d) cs ts -> sorted cmp (map ent (docs (Inner own ts))) -> forall u i,
  wpost i u (below (Inner own ts)) (lk_kp rq rec (map kp_entry cs) TEnd [k0] (Ok tt) (Lst u true i)).
Proof.
  intros Hrec own cs ts F. cbn [docs below]. induction F as [|c t cs ts Hc F IH]; intros Hs u i.
  - cbn. split; [reflexivity|]. cbn. auto.
  - cbn [flat_map] in Hs |- *. rewrite map_app in Hs. destruct (shaped_tree Hc) as (T & Hgd & Hsp).
    destruct (@child_bounds U rq OL E mq kvP redP f d c _ _ T Hs) as (S1 & S2 & _). fold cmp in S1, S2.
    rewrite (child_kept Hc Hs). cbn [map lk_kp kp_entry]. unfold lcmp at 1. fold cmp. destruct (ge (cmp (np_key c) k0)) eqn:Hg; [|exact (IH S2 u i)].
    cbn [l_fold set_in l_u span_ge]. rewrite (@read_child E mq kvP redP HredP f d c _ T). unfold call_node. rewrite Hnode.
    cbn [norm np_subtree np_reduce l_u set_u l_fold l_in np_pointer set_in]. rewrite <- app_comm_cons, <- app_assoc.
    rewrite Hsp, (Hsum Hgd T). unfold run_acts. 
    assert (St : forall a r v, run_acts (a :: r) v = match act_step a v with (Ok _, v') => run_acts r v' | (Err e, v') => (Err e, v') end) by reflexivity.
    unfold wpost at 1. rewrite St. cbn [act_step]. destruct (g (Some (space t mod 2 ^ 48, sum (docs t))) u) as [[[]|e] u1]; cbn [l_u l_fold l_in].
    2:{ split; [reflexivity|discriminate]. }
    rewrite run_acts_app. pose proof (Hrec c t u1 Hc S1) as [P1 P2]. cbn [l_u l_fold l_in] in *.
    unfold set_u, set_in. cbn [l_u l_fold l_in].
    destruct (rec (np_pointer c) [k0] (Lst u1 true true)) as [x2 [u3 f3 i3]]. cbn [fst snd l_u l_fold l_in] in *. rewrite <- P1. rewrite Htol.
    destruct x2 as [[]|e]; cbn [l_in]; [|split; [reflexivity|discriminate]].
    destruct (P2 eq_refl) as [-> Hin]. rewrite (Hin eq_refl). cbn [app]. rewrite St. cbn [act_step].
    cbn [l_u]. destruct (g None u3) as [[[]|e] u4]; unfold set_u; cbn [l_u l_fold l_in]; [|split; [reflexivity|discriminate]].
    destruct (IH S2 u4 true) as [Q1 Q2]. cbn [set_u l_u l_fold l_in]. split; [exact Q1|]. intros Hok. destruct (Q2 Hok) as [Q3 Q4]. split; [exact Q3|]. intros _. now apply Q4.
Qed.

Lemma leaf_walk own ds : sorted cmp (map ent ds) -> forall u i, wpost i u (below (Leaf own ds)) (lk_kv rq (map ent ds) TEnd [k0] (Ok tt) (Lst u true i)).
Proof.
  intros Hs u i. pose proof (@leaf_fold U rq Htol OL k0 [] (map ent ds)) as L. specialize (L (Nat.le_0_l _) Hs u i). destruct L as [L1 L2].
  assert (He : run_calls rq (fc rq k0 [] (map ent ds)) u = run_acts (below (Leaf own ds)) u).
  { unfold fc. rewrite run_calls_acts. f_equal. cbn [below]. clear. induction ds as [|a ds IH]; [reflexivity|]. cbn [map filter]. unfold inrange at 1, kept at 1. fold cmp.
    rewrite andb_true_r. destruct (ge (cmp (fst (ent a)) k0)); cbn [map]; [f_equal|]; exact IH. }
  rewrite He in L1. split; [exact L1|]. intros Hok. destruct (L2 Hok) as [L3|(_ & _ & k1 & _ & Hx & _)]; [exact L3|discriminate].
Qed.

Lemma lookup_walk f : good f -> forall d F, (d < F)%nat -> forall p t u i, shaped f d p t -> sorted cmp (map ent (docs t)) ->
  wpost i u (below t) (lookup_inner rq F f (np_pointer p) [k0] (Lst u true i)).
Proof.
  intros G. induction d as [|d IH]; intros [|F] HF p t u i Sh Hs; try lia; cbn [lookup_inner].
  - destruct t as [own ds|own ts]; destruct Sh as (T & _ & _ & H); [|contradiction]. destruct H as [_ Hh].
    rewrite (@node_at_has E EO f _ _ _ G Hh) by discriminate.
    destruct T as (_ & _ & _ & _ & Hk & _). assert (Hkv : Forall kv_ok (map ent ds)) by (revert Hk; apply Forall_impl; exact HkvP).
    rewrite (node_items_mk KV_NODE Hkv). cbn [mk_node KV_NODE]. apply leaf_walk. exact Hs.
  - destruct t as [own ds|own ts]; destruct Sh as (T & _ & _ & H); [contradiction|]. destruct H as (cs & _ & Hcs & Hh).
    rewrite (@node_at_has E EO f _ _ _ G Hh) by discriminate.
    assert (Hkv : Forall kv_ok (map kp_entry cs)).
    { assert (X : Forall2 (tree f d) cs (map (fun t => map ent (docs t)) ts)) by (clear - Hcs; induction Hcs as [|c t cs ts H _ IH]; constructor; [exact (proj1 (shaped_tree H))|exact IH]).
      eapply children_ok; [exact rq|exact HredP|exact X]. }
    rewrite (node_items_mk KP_NODE Hkv). cbn [mk_node KP_NODE]. eapply kp_walk; [|exact Hcs|exact Hs]. intros c t' u' Sc Hs'. apply IH; auto. lia.
Qed.

Theorem btree_walk f d p t u : good f -> shaped f d p t -> sorted cmp (map ent (docs t)) ->
  btree_lookup rq f (np_pointer p) [k0] true u = run_acts (below t) u.
Proof.
  intros G Sh Hs. unfold btree_lookup. destruct (@lookup_walk f G d (depth_fuel f) (depth_ok rq _ _ _ _ _ _ _ (proj1 (shaped_tree Sh))) p t u false Sh Hs) as [H _].
  destruct (lookup_inner rq (depth_fuel f) f (np_pointer p) [k0] (Lst u true false)) as [x s]. exact H.
Qed.
End WithU.

(** ** The shape in the file *)

Section Drawn.
Context {E : Env} (EO : EnvOk E).
Variable mq : request.
Variable kvP : kv -> Prop.
Variable redP : bytes -> Prop.
Hypothesis HkvP : forall x, kvP x -> kv_ok x.
Hypothesis HredP : forall r, redP r -> lenN r < 2^16.
Variable A : Type.
Variable ent : A -> kv.
Variable good_doc : A -> Prop.
Variable means : bytes * bytes -> A -> Prop.
Hypothesis Hmeans : forall a, good_doc a -> means (ent a) a.

Lemma hasz_parts f q b sz : good f -> hasz f q b sz -> exists z, pread_bin f q = Ok z /\ uncompress z = Some b /\ sz = overhead f + lenN z.
Proof.
  intros G (z & H & Hu & ->). exists z. split; [exact (has_read EO q z G H)|]. split; [exact Hu|]. unfold csize, overhead. destruct (fkey f); lia.
Qed.
Lemma shaped_drawn f : good f -> forall d p t, shaped mq kvP redP ent good_doc f d p t -> drawn means f (np_pointer p) (np_key p) t.
Proof.
  intros G. induction d as [|d IH]; intros p [own ds|own ts] (T & Hg & _ & H); try contradiction.
  - destruct H as [Hne Hh]. destruct (hasz_parts G Hh) as (z & Z1 & Z2 & ->). destruct T as (_ & _ & _ & _ & Hk & Hkey & _). cbn [docs] in *.
    assert (Hkv : Forall kv_ok (map ent ds)) by (revert Hk; apply Forall_impl; exact HkvP). rewrite Hkey.
    eapply drawn_leaf; [exact Z1|exact Z2|reflexivity|exact (node_items_mk KV_NODE Hkv)|].
    clear - Hg Hmeans. induction Hg as [|a ds Ha _ IH]; constructor; auto.
  - destruct H as (cs & Hne & Hcs & Hh). destruct (hasz_parts G Hh) as (z & Z1 & Z2 & ->).
    assert (X : Forall2 (tree mq kvP redP f d) cs (map (fun t => map ent (docs t)) ts)) by (clear - Hcs; induction Hcs as [|c t cs ts H _ IH]; constructor; [exact (proj1 (shaped_tree H))|exact IH]).
    assert (Hkv : Forall kv_ok (map kp_entry cs)) by (eapply (@children_ok unit (LReq ebin_cmp (fun _ _ u => (Ok tt, u)) None false)); [exact HredP|exact X]).
    assert (Hkey : np_key p = last (map fst (map kp_entry cs)) []).
    { rewrite map_map. cbn [kp_entry fst]. rewrite (tree_key T). cbn [docs]. clear - X Hne. revert ts X. induction cs as [|c cs IH]; intros ts X; [congruence|].
      destruct ts as [|t ts]; inversion X as [|? ? ? ? X1 X2]; subst. cbn [flat_map map]. destruct cs as [|c' cs].
      - destruct ts; [|inversion X2]. cbn [flat_map last]. rewrite app_nil_r. symmetry. exact (tree_key X1).
      - destruct ts as [|t' ts]; [inversion X2|]. etransitivity; [|exact (IH ltac:(discriminate) (t' :: ts) X2)].
        rewrite !map_app. inversion X2 as [|? ? ? ? X3 X4]; subst.
        assert (Hn : map fst (map ent (flat_map (docs (A:=A)) (t' :: ts))) <> []).
        { cbn [flat_map]. rewrite !map_app. intros Hz. apply app_eq_nil in Hz. destruct Hz as [Hz _]. apply map_eq_nil in Hz. exact (tree_nonempty X3 Hz). }
        clear - Hn. set (a := map fst (map ent (docs t))). set (b := map fst (map ent (flat_map (docs (A:=A)) (t' :: ts)))) in *. clearbody a b.
        induction a as [|x a IH]; [reflexivity|]. cbn [app]. destruct (a ++ b) eqn:Hab; [destruct (app_eq_nil _ _ Hab); congruence|]. exact IH. }
    rewrite Hkey. eapply drawn_inner; [exact Z1|exact Z2|reflexivity|exact (node_items_mk KP_NODE Hkv)| |].
    + instantiate (1 := map norm cs). clear - Hcs HredP. induction Hcs as [|c t cs ts H _ IH2]; constructor; [|exact IH2]. cbn [kp_entry fst snd].
      exact (@read_child E mq kvP redP HredP f d c _ (proj1 (shaped_tree H))).
    + clear - IH Hcs. induction Hcs as [|c t cs ts H _ IH2]; constructor; [|exact IH2]. cbn [norm np_pointer np_key]. exact (IH c t H).
Qed.
End Drawn.

(** ** The walk *)

Lemma feed_app A U (cb : A -> U -> res unit * U) a b u : feed cb (a ++ b) u = match feed cb a u with (Ok _, u') => feed cb b u' | (Err e, u') => (Err e, u') end.
Proof. revert u. induction a as [|x a IH]; intros u; [reflexivity|]. cbn [app feed]. destruct (cb x u) as [[[]|e] u']; [apply IH|reflexivity]. Qed.

Section Visits.
Variable U : Type.
Variable A : Type.
Variable ent : A -> kv.
Variable sum : list A -> bytes.
Variable cmp : bytes -> bytes -> comparison.
Variable k0 : bytes.
Variable o : enumopts.
Variable read : bytes -> bytes -> res doc_info.
Variable info : A -> doc_info.
Variable cb : walk_fn U.
Let rq := walk_request cmp o read cb.
Let step := act_step rq (walk_node_callback cb).
Variable keep : A -> bool.
Definition say (v : visit) (u : U) : res unit * U := cb (fst v) (snd v) u.

Definition same_run (dep : N) (l : list act) (vs : list visit) : Prop := forall u,
  feed step l (dep, u) = match feed say vs u with (Ok _, u') => (Ok tt, (dep, u')) | (Err e, u') => (Err e, (fst (snd (feed step l (dep, u))), u')) end.

Lemma same_app dep a b vs ws : same_run dep a vs -> same_run dep b ws -> same_run dep (a ++ b) (vs ++ ws).
Proof.
  intros H1 H2 u. rewrite !feed_app. specialize (H1 u). destruct (feed say vs u) as [[[]|e] u1].
  - rewrite H1. cbn [snd]. specialize (H2 u1). destruct (feed say ws u1) as [[[]|e] u2]; exact H2.
  - destruct (feed step a (dep, u)) as [x [dd w]]. cbn [fst snd] in *. injection H1 as -> ->. reflexivity.
Qed.

Lemma walk_visits d : forall t dep, even d t -> (forall a, In a (docs t) -> read (fst (ent a)) (snd (ent a)) = Ok (info a)) ->
  (forall a, In a (docs t) -> kept rq ent k0 a = keep a) ->
  same_run (dep + 1) (below rq ent sum k0 t) (visits keep (wanted o) info sum dep t).
Proof.
  induction d as [|d IH]; intros [own ds|own ts] dep Ev Hr Hk; try contradiction; cbn [below visits docs] in *.
  - clear Ev. induction ds as [|a ds IH]; [intros u; reflexivity|]. specialize (IH (fun x Hx => Hr x (or_intror Hx)) (fun x Hx => Hk x (or_intror Hx))).
    cbn [filter]. rewrite (Hk a (or_introl eq_refl)). destruct (keep a); cbn [andb map]; [|exact IH].
    assert (X : same_run (dep + 1) [AFetch (fst (ent a)) (snd (ent a))] (if wanted o (info a) then [(dep + 1, IDoc (info a))] else [])).
    { intros u. cbn [feed step act_step rq walk_request l_fetch walk_fetch lookup_callback fst snd]. unfold step, rq. cbn [act_step walk_request l_fetch walk_fetch lookup_callback fst snd].
      unfold walk_fetch. cbn [lookup_callback fst snd]. rewrite (Hr a (or_introl eq_refl)). unfold wanted.
      destruct (eo_deletes_only o), (eo_no_deletes o), (di_deleted (info a)); cbn [negb andb orb feed say fst snd]; try reflexivity;
        unfold say; cbn [fst snd]; destruct (cb (dep + 1) (IDoc (info a)) u) as [[[]|e] u']; reflexivity. }
    pose proof (same_app X IH) as Y. destruct (wanted o (info a)); exact Y.
  - destruct Ev as [_ Ev]. induction Ev as [|t ts Et _ IH2]; [intros u; reflexivity|]. cbn [flat_map] in *.
    apply same_app; [|apply IH2; intros; [apply Hr|apply Hk]; apply in_or_app; now right].
    assert (Hkt : forall a, In a (docs t) -> kept rq ent k0 a = keep a) by (intros; apply Hk; apply in_or_app; now left).
    assert (He : existsb (kept rq ent k0) (docs t) = existsb keep (docs t)).
    { clear - Hkt. induction (docs t) as [|a l IH]; [reflexivity|]. cbn [existsb]. rewrite (Hkt a (or_introl eq_refl)). f_equal. apply IH. intros; apply Hkt. now right. }
    rewrite He. destruct (existsb keep (docs t)); [|intros u; reflexivity].
    specialize (IH t (dep + 1) Et (fun a Ha => Hr a (in_or_app _ _ _ (or_introl Ha))) Hkt).
    intros u. cbn [feed]. unfold say at 1. cbn [fst snd]. 
    change (step (AEnter (space t mod 2 ^ 48) (sum (docs t))) (dep + 1, u)) with
      (let '(x, u') := cb (dep + 1) (INode (space t mod 2 ^ 48) (sum (docs t))) u in (x, (dep + 1 + 1, u'))).
    destruct (cb (dep + 1) (INode (space t mod 2 ^ 48) (sum (docs t))) u) as [[[]|e] u1]; [|reflexivity].
    rewrite feed_app. specialize (IH u1). destruct (feed say (visits keep (wanted o) info sum (dep + 1) t) u1) as [[[]|e] u2].
    + rewrite IH. cbn [feed]. change (step ALeave (dep + 1 + 1, u2)) with (@Ok unit tt, (dep + 1 + 1 - 1, u2)). cbv iota beta. do 2 f_equal. lia.
    + destruct (feed step (below rq ent sum k0 t) (dep + 1 + 1, u1)) as [x [dd w]]. cbn [fst snd] in *. injection IH as -> ->. reflexivity.
Qed.
End Visits.

Section Index.
Context {E : Env} (EO : EnvOk E).
Variable mq : request.
Variable kvP : kv -> Prop.
Variable redP : bytes -> Prop.
Hypothesis HkvP : forall x, kvP x -> kv_ok x.
Hypothesis HredP : forall r, redP r -> lenN r < 2^16.
Variable A : Type.
Variable ent : A -> kv.
Variable good_doc : A -> Prop.
Variable sum : list A -> bytes.
Hypothesis Hsum : forall f d p ds, Forall good_doc ds -> tree mq kvP redP f d p (map ent ds) -> np_reduce p = sum ds.
Variable means : bytes * bytes -> A -> Prop.
Hypothesis Hmeans : forall a, good_doc a -> means (ent a) a.
Variable cmp : bytes -> bytes -> comparison.
Hypothesis OL : ord (lookup_compare cmp).
Variable read : bytes -> bytes -> res doc_info.
Variable info : A -> doc_info.
Hypothesis Hread : forall a, good_doc a -> read (fst (ent a)) (snd (ent a)) = Ok (info a).

Lemma walk_index d p ds : good (dbf d) -> dropped d = false -> rtree mq kvP redP (dbf d) (Some p) (map ent ds) -> Forall good_doc ds ->
  sorted (lookup_compare cmp) (map ent ds) ->
  exists t k lk, drawn means (dbf d) (np_pointer p) lk t /\ even k t /\ docs t = ds /\ np_subtree p mod 2^48 = space t mod 2^48 /\
    forall U start o (cb : walk_fn U) u keep, eo_tolerate o = false -> (forall a, In a ds -> ge (lookup_compare cmp (fst (ent a)) start) = keep a) ->
    walk_tree d (Some p) cmp read start o cb u =
    feed (fun v => cb (fst v) (snd v)) ((0, INode (np_subtree p) (sum (docs t))) :: visits keep (wanted o) info sum 0 t) u.
Proof.
  intros G D (k & p' & T & H1 & H2 & H3) Hg Hs. destruct (@tree_shape E mq kvP redP A ent good_doc (dbf d) k p' ds Hg T) as (t & Sh & Hd).
  pose proof (@shaped_drawn E EO mq kvP redP HkvP HredP A ent good_doc means Hmeans (dbf d) G k p' t Sh) as Dr.
  pose proof (shaped_even Sh) as Ev. exists t, k, (np_key p'). rewrite <- H1. split; [exact Dr|]. split; [exact Ev|]. split; [exact Hd|].
  split; [rewrite <- H3; exact (proj2 (proj2 (shaped_tree Sh)))|].
  intros U start o cb u keep Ho Hk. unfold walk_tree. rewrite D. cbn [feed fst snd].
  assert (Hr : np_reduce p = sum (docs t)) by (rewrite <- H2; apply (Hsum (f := dbf d) (d := k)); [rewrite Hd; exact Hg|rewrite Hd; exact T]). rewrite Hr.
  destruct (cb 0 (INode (np_subtree p) (sum (docs t))) u) as [[[]|e] u1]; [|reflexivity]. rewrite <- H1.
  rewrite (@btree_walk _ (walk_request cmp o read cb) (walk_node_callback cb) Ho eq_refl OL E EO mq kvP redP HkvP HredP A ent good_doc sum Hsum start (dbf d) k p' t (1, u1) G Sh)
    by (rewrite Hd; exact Hs).
  pose proof (@walk_visits U A ent sum cmp start o read info cb keep k t 0 Ev) as W. rewrite Hd in W.
  assert (Hi : forall a, In a ds -> read (fst (ent a)) (snd (ent a)) = Ok (info a)) by (intros a Ha; apply Hread; rewrite Forall_forall in Hg; auto).
  specialize (W Hi Hk u1). unfold run_acts. change (0 + 1) with 1 in W. match goal with |- _ = ?R => change R with (feed (say cb) (visits keep (wanted o) info sum 0 t) u1) end.
  destruct (feed (say cb) (visits keep (wanted o) info sum 0 t) u1) as [[[]|e] u2].
  - rewrite W. reflexivity.
  - destruct (feed (act_step (walk_request cmp o read cb) (walk_node_callback cb)) (below (walk_request cmp o read cb) ent sum start t) (1, u1)) as [x [dd w]].
    cbn [fst snd] in *. injection W as -> ->. reflexivity.
Qed.
End Index.

(** Only the documents of a walk. *)
Definition only_docs U (cb : doc_info -> U -> res unit * U) (depth : N) (x : item) (u : U) : res unit * U :=
  match x with IDoc i => cb i u | INode _ _ => (Ok tt, u) end.
Lemma docs_of_visits U A (cb : doc_info -> U -> res unit * U) keep want (info : A -> doc_info) sum d : forall t dep u, even d t ->
  feed (fun v => only_docs cb (fst v) (snd v)) (visits keep want info sum dep t) u = feed cb (map info (filter (fun a => keep a && want (info a)) (docs t))) u.
Proof.
  induction d as [|d IH]; intros [own ds|own ts] dep u Ev; try contradiction; cbn [visits docs].
  - generalize (filter (fun a => keep a && want (info a)) ds). intros l. revert u. induction l as [|a l IH]; intros u; [reflexivity|]. cbn [map feed fst snd only_docs].
    destruct (cb (info a) u) as [[[]|e] u']; [apply IH|reflexivity].
  - destruct Ev as [_ Ev]. revert u. induction Ev as [|t ts Et _ IH2]; intros u; [reflexivity|]. cbn [flat_map]. rewrite filter_app, map_app, !feed_app.
    assert (X : feed (fun v => only_docs cb (fst v) (snd v)) (if existsb keep (docs t) then (dep + 1, INode (space t mod 2 ^ 48) (sum (docs t))) :: visits keep want info sum (dep + 1) t else []) u =
                feed cb (map info (filter (fun a => keep a && want (info a)) (docs t))) u).
    { destruct (existsb keep (docs t)) eqn:Ek.
      - cbn [feed only_docs fst snd]. now apply IH.
      - assert (Hn : filter (fun a => keep a && want (info a)) (docs t) = []); [|now rewrite Hn]. clear - Ek. induction (docs t) as [|a l IH]; [reflexivity|].
        cbn [existsb] in Ek. apply orb_false_iff in Ek. destruct Ek as [E1 E2]. cbn [filter]. rewrite E1. exact (IH E2). }
    rewrite X. destruct (feed cb (map info (filter (fun a => keep a && want (info a)) (docs t))) u) as [[[]|e] u']; [apply IH2|reflexivity].
Qed.
