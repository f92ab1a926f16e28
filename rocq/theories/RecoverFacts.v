(** Searching and enumerating damaged indexes. *)
From Verif Require Import Base Codec CodecFacts File FileFacts ChunkFacts Header HeaderFacts Btree TreeStore BtreeRead SpecMap MergeFacts ModifyFacts LookupFacts BulkFacts
  Db SortFacts ReduceFacts SpecDb DbFacts DbSave DbRead MergeSort MergeSortFacts TreeWriter TreeWriterFacts Compact SpecCompact CompactFacts SpecRecover.
Local Open Scope N_scope.
Unset Strict Implicit.

(** ** Parts of lists *)

Inductive part {A : Type} : list A -> list A -> Prop :=
| part_nil : part [] []
| part_skip x a b : part a b -> part a (x :: b)
| part_keep x a b : part a b -> part (x :: a) (x :: b).
Lemma part_refl A (l : list A) : part l l. Proof. induction l; constructor; assumption. Qed.
Lemma part_none A (l : list A) : part [] l. Proof. induction l; constructor; assumption. Qed.
Lemma part_app A (a b a' b' : list A) : part a b -> part a' b' -> part (a ++ a') (b ++ b').
Proof. intros H H'. induction H; [exact H'|constructor; assumption|cbn [app]; constructor; assumption]. Qed.
Lemma part_in A (a b : list A) : part a b -> forall x, In x a -> In x b.
Proof. intros H. induction H; intros y Hy; [exact Hy|right; auto|]. destruct Hy as [<-|Hy]; [now left|right; auto]. Qed.
Lemma part_len A (a b : list A) : part a b -> (length a <= length b)%nat.
Proof. intros H. induction H; cbn [length]; lia. Qed.
Lemma part_all A (a b : list A) : part a b -> length a = length b -> a = b.
Proof.
  intros H. induction H as [|x a b H IH|x a b H IH]; intros Hl; [reflexivity| |].
  - apply part_len in H. cbn [length] in Hl. lia.
  - cbn [length] in Hl. f_equal. apply IH. lia.
Qed.
Lemma part_app_all A (a b a' b' : list A) : part a b -> part a' b' -> (a ++ a' = b ++ b' <-> a = b /\ a' = b').
Proof.
  intros H H'. split; [|intros [-> ->]; reflexivity]. intros He. pose proof (part_len H). pose proof (part_len H').
  apply (f_equal (@length A)) in He. rewrite !app_length in He. split; apply part_all; auto; lia.
Qed.

Lemma part_filter_same A (b : A -> bool) (k k' : list A) : part k' k -> part (filter b k') (filter b k).
Proof. intros H. induction H as [|x a c H IH|x a c H IH]; cbn [filter]; [constructor| |]; destruct (b x); try constructor; assumption. Qed.

(** ** Calls that tolerate errors *)

Section WithU.
Variable U : Type.
Variable rq : lreq U.
Fixpoint run_tol (l : list kv) (u : U) : bool * U :=
  match l with
  | [] => (true, u)
  | x :: r => let '(y, u1) := l_fetch rq (fst x) (Some (snd x)) u in
              let '(b, u2) := run_tol r u1 in ((match y with Ok _ => b | Err _ => false end), u2)
  end.
Lemma run_tol_app a b u : run_tol (a ++ b) u = let '(x, u1) := run_tol a u in let '(y, u2) := run_tol b u1 in (x && y, u2).
Proof.
  revert u. induction a as [|x a IH]; intros u; cbn [app run_tol].
  - destruct (run_tol b u); reflexivity.
  - destruct (l_fetch rq (fst x) (Some (snd x)) u) as [y u1]. rewrite IH. destruct (run_tol a u1) as [p u2]. destruct (run_tol b u2) as [q u3]. destruct y; reflexivity.
Qed.

Hypothesis Htol : l_tol rq = true.
Hypothesis Hnode : l_node rq = None.
Let cmp := lookup_compare (l_cmp rq).

Definition from (k0 : bytes) (l : list kv) : list kv := filter (fun x => ge (cmp (fst x) k0)) l.
Lemma part_from k0 a b : part a b -> part (from k0 a) (from k0 b).
Proof. apply part_filter_same. Qed.
Lemma leaf_tol k0 l : forall ec u i,
  exists ec' i', lk_kv rq l TEnd [k0] ec (Lst u true i) = (ec', Lst (snd (run_tol (from k0 l) u)) true i') /\ (i = true -> i' = true) /\
    (ec' = Ok tt <-> ec = Ok tt /\ fst (run_tol (from k0 l) u) = true).
Proof.
  induction l as [|[k v] l IH]; intros ec u i.
  - exists ec, i. cbn. tauto.
  - cbn [lk_kv kv_entry from filter fst snd]. unfold lcmp. fold cmp. destruct (ge (cmp k k0)) eqn:Hk; cbn [l_fold andb].
    + cbn [run_tol fst snd]. set (s1 := if negb (l_in (Lst u true i)) then _ else _).
      assert (Hs1 : s1 = Lst u true true) by (unfold s1; destruct i; reflexivity). rewrite Hs1. clear s1 Hs1. cbn [l_in l_u andb orb]. rewrite orb_true_r.
      destruct (l_fetch rq k (Some v) u) as [x u1]. rewrite Htol. cbn [set_u l_fold l_in].
      specialize (IH (match x with Err e => Err e | Ok _ => ec end) u1 true). destruct IH as (ec' & i' & H1 & H2 & H3). fold (from k0 l).
      destruct (run_tol (from k0 l) u1) as [b u2]. cbn [fst snd] in *.
      exists ec', i'. split; [|split; [auto|]].
      * destruct x; exact H1.
      * rewrite H3. destruct x as [[]|e]; [tauto|]. split; intros [A B]; congruence.
    + rewrite andb_false_r. exact (IH ec u i).
Qed.
End WithU.

Lemma Forall2_in_l A B (P : A -> B -> Prop) a b x : Forall2 P a b -> In x a -> exists y, In y b /\ P x y.
Proof.
  intros H. induction H as [|u w a b Hu H IH]; intros Hx; [destruct Hx|]. destruct Hx as [->|Hx]; [exists w; split; [now left|exact Hu]|].
  destruct (IH Hx) as (y & Hy & Hp). exists y. split; [now right|exact Hp].
Qed.

Section WithEnv.
Context {E : Env} (EO : EnvOk E).
Variable mq : request.
Variable kvP : kv -> Prop.
Variable redP : bytes -> Prop.
Hypothesis HkvP : forall x, kvP x -> kv_ok x.
Hypothesis HredP : forall r, redP r -> lenN r < 2^16.
Variable c0 : bytes -> bytes -> comparison.
Let cmp := lookup_compare c0.
Hypothesis OL : ord cmp.
Notation tree := (tree mq kvP redP).
Variable f g : file.
Hypothesis Gf : good f.
Hypothesis Sp : spoiled f g.

Lemma spoiled_node pos : node_at g pos = node_at f pos \/ exists e, node_at g pos = Err e.
Proof.
  unfold node_at, pread_compressed. destruct Sp as [_ Sp']. specialize (Sp' pos). unfold pread_bin in Sp'. destruct Sp' as [->|(e & ->)]; [now left|]. right. exists e. reflexivity.
Qed.

(** What is left of a stored index with the entries [k], for enumerations and for searches. *)
Record leaves (F : nat) (pos : N) (k k' : list kv) : Prop := {
  lv_part : part k' k;
  lv_from : forall U (rq : lreq U), l_cmp rq = c0 -> l_tol rq = true -> l_node rq = None -> forall k0 u i,
    exists r i', lookup_inner rq F g pos [k0] (Lst u true i) = (r, Lst (snd (run_tol rq (from rq k0 k') u)) true i') /\ (i = true -> i' = true) /\
      (r = Ok tt -> from rq k0 k' = from rq k0 k /\ fst (run_tol rq (from rq k0 k') u) = true) /\
      (from rq k0 k' = from rq k0 k -> fst (run_tol rq (from rq k0 k') u) = true -> from rq k0 k <> [] -> r = Ok tt);
  lv_find : forall U (rq : lreq U), l_cmp rq = c0 -> l_tol rq = false -> l_node rq = None -> forall x, In x k -> forall u,
    (In x k' /\ lookup_inner rq F g pos [fst x] (Lst u false false) = out (run_calls rq [found x] u) false false) \/
    (~ In x k' /\ exists e, lookup_inner rq F g pos [fst x] (Lst u false false) = (Err e, Lst u false false));
  lv_full : k' = k -> forall U (rq : lreq U) ks st, lookup_inner rq F g pos ks st = lookup_inner rq F f pos ks st
}.

Lemma kp_ext U (rq : lreq U) (r1 r2 : N -> list bytes -> lst U -> res unit * lst U) cs :
  (forall c, In c cs -> read_pointer (np_key c) (encode_pointer c) = Ok (norm c)) ->
  (forall c, In c cs -> forall ks st, r1 (np_pointer c) ks st = r2 (np_pointer c) ks st) ->
  forall t ks ec st, lk_kp rq r1 (map kp_entry cs) t ks ec st = lk_kp rq r2 (map kp_entry cs) t ks ec st.
Proof.
  intros Hr. induction cs as [|c cs IH]; intros H t ks ec st; [reflexivity|].
  assert (IH' := IH (fun c0 Hc0 => Hr c0 (or_intror Hc0)) (fun c0 Hc0 => H c0 (or_intror Hc0))). clear IH.
  cbn [map lk_kp kp_entry]. destruct ks as [|k0 kr]; [reflexivity|]. destruct (ge (lcmp rq (np_key c) k0)); [|apply IH']. destruct (span_ge rq (np_key c) kr) as [here later].
  rewrite (Hr c (or_introl eq_refl)). destruct (call_node rq _ ec _) as [[x1 ec1] s2]. destruct x1; [|reflexivity]. cbn [norm np_pointer]. rewrite (H c (or_introl eq_refl)).
  destruct (r2 (np_pointer c) (k0 :: here) s2) as [x2 s3]. destruct x2 as [u2|e2].
  - destruct (call_node rq None _ s3) as [[x3 ec3] s4]. destruct x3; [|reflexivity]. apply IH'.
  - destruct (l_tol rq); [|reflexivity]. destruct (call_node rq None _ s3) as [[x3 ec3] s4]. destruct x3; [|reflexivity]. apply IH'.
Qed.

Lemma from_all U (rq : lreq U) k0 l : l_cmp rq = c0 -> (forall x, In x l -> ge (cmp (fst x) k0) = true) -> from rq k0 l = l.
Proof.
  intros Hc. unfold from. rewrite Hc. fold cmp. induction l as [|x l IH]; intros H; [reflexivity|]. cbn [filter]. rewrite (H x (or_introl eq_refl)). f_equal. apply IH. intros y Hy. apply H. now right.
Qed.
Lemma lv_enum F pos k k' : leaves F pos k k' -> k <> [] -> forall U (rq : lreq U), l_cmp rq = c0 -> l_tol rq = true -> l_node rq = None ->
  forall k0, (forall x, In x k -> ge (cmp (fst x) k0) = true) -> forall u i,
    exists r i', lookup_inner rq F g pos [k0] (Lst u true i) = (r, Lst (snd (run_tol rq k' u)) true i') /\ (i = true -> i' = true) /\
      (r = Ok tt <-> k' = k /\ fst (run_tol rq k' u) = true).
Proof.
  intros L Hne U rq Hc Ht Hn k0 Hk0 u i. destruct (lv_from L Hc Ht Hn k0 u i) as (r & i' & A1 & A2 & A3 & A4).
  rewrite (from_all Hc Hk0) in A3, A4. rewrite (@from_all _ _ _ k' Hc) in A1, A3, A4 by (intros x Hx; apply Hk0; exact (part_in (lv_part L) Hx)).
  exists r, i'. split; [exact A1|]. split; [exact A2|]. split; [exact A3|]. intros [H1 H2]. now apply A4.
Qed.

Lemma leaves_lost F pos k e : k <> [] -> node_at g pos = Err e -> leaves (S F) pos k [].
Proof.
  intros Hk He. constructor.
  - apply part_none.
  - intros U rq _ _ _ k0 u i. exists (Err e), i. cbn [lookup_inner]. rewrite He. split; [reflexivity|]. split; [auto|]. split; [discriminate|]. intros H _ Hn. symmetry in H. contradiction.
  - intros U rq _ _ _ x _ u. right. split; [intros []|]. exists e. cbn [lookup_inner]. now rewrite He.
  - intros H. symmetry in H. contradiction.
Qed.

Lemma nf_in U (rq : lreq U) x k : l_cmp rq = c0 -> sorted cmp k -> In x k -> nf rq [fst x] k = [found x].
Proof.
  intros Hc Hs Hx. revert Hx. induction Hs as [|[a v] k Hs IH Ha]; intros Hx; [destruct Hx|]. cbn [nf nfe]. rewrite Hc. fold cmp. destruct Hx as [<-|Hx].
  - cbn [fst]. rewrite (o_refl OL). cbn [app]. unfold found. cbn [fst snd]. f_equal. apply nf_nil.
  - rewrite Forall_forall in Ha. pose proof (Ha x Hx) as Hl. cbn [fst] in Hl. rewrite Hl. cbn [app]. auto.
Qed.

(** The children of an inner node. *)
Lemma kp_tol (F d : nat) : (forall c k, tree f d c k -> sorted cmp k -> exists k', leaves F (np_pointer c) k k') ->
  forall cs kss, Forall2 (tree f d) cs kss -> sorted cmp (concat kss) ->
  exists k', part k' (concat kss) /\
    (forall U (rq : lreq U), l_cmp rq = c0 -> l_tol rq = true -> l_node rq = None -> forall k0 ec u i,
      exists r i', lk_kp rq (lookup_inner rq F g) (map kp_entry cs) TEnd [k0] ec (Lst u true i) = (r, Lst (snd (run_tol rq (from rq k0 k') u)) true i') /\ (i = true -> i' = true) /\
        (r = Ok tt <-> ec = Ok tt /\ from rq k0 k' = from rq k0 (concat kss) /\ fst (run_tol rq (from rq k0 k') u) = true)) /\
    (forall U (rq : lreq U), l_cmp rq = c0 -> l_tol rq = false -> l_node rq = None -> forall x, In x (concat kss) -> forall u,
      (In x k' /\ lk_kp rq (lookup_inner rq F g) (map kp_entry cs) TEnd [fst x] (Ok tt) (Lst u false false) = out (run_calls rq [found x] u) false false) \/
      (~ In x k' /\ exists e, lk_kp rq (lookup_inner rq F g) (map kp_entry cs) TEnd [fst x] (Ok tt) (Lst u false false) = (Err e, Lst u false false))) /\
    (k' = concat kss -> forall c, In c cs -> forall U (rq : lreq U) ks st, lookup_inner rq F g (np_pointer c) ks st = lookup_inner rq F f (np_pointer c) ks st).
Proof.
  intros Hrec cs kss Ht. induction Ht as [|c k cs kss Hc Ht IH]; intros Hs.
  - exists []. split; [constructor|]. split.
    + intros U rq _ _ _ k0 ec u i. exists ec, i. cbn. tauto.
    + split; [intros U rq _ _ _ x []|intros _ c []].
  - cbn [concat] in Hs |- *.
    assert (B : sorted cmp k /\ sorted cmp (concat kss) /\ (forall x, In x k -> cmp (fst x) (np_key c) <> Gt) /\ (forall x, In x (concat kss) -> cmp (np_key c) (fst x) = Lt) /\
      (forall x y, In x k -> In y (concat kss) -> cmp (fst x) (fst y) = Lt)).
    { exact (@child_bounds unit (LReq c0 (fun _ _ u => (Ok tt, u)) None false) OL E mq kvP redP f d c k (concat kss) Hc Hs). }
    destruct B as (S1 & S2 & S3 & S4 & S5). destruct (IH S2) as (k2 & P2 & T2 & N2 & Q2). clear IH. destruct (Hrec c k Hc S1) as (k1 & [P1 T1 N1 Q1]).
    pose proof (@read_child E mq kvP redP HredP f d c k Hc) as Hrd.
    exists (k1 ++ k2). split; [now apply part_app|]. split; [|split].
    + intros U rq Hcmp Htl Hn k0 ec u i. cbn [map lk_kp kp_entry].
      assert (Hlast : exists y, In y k /\ fst y = np_key c).
      { pose proof (tree_key Hc) as Hk. pose proof (tree_nonempty Hc) as Hne.
        assert (Hi : In (last (map fst k) []) (map fst k)) by (apply last_in; intros Hm'; apply map_eq_nil in Hm'; congruence).
        apply in_map_iff in Hi. destruct Hi as (y & Hy1 & Hy2). exists y. split; [exact Hy2|]. now rewrite Hk, Hy1. }
      destruct Hlast as (y & Hy & Hyk).
      assert (Hfa : forall a b, from rq k0 (a ++ b) = from rq k0 a ++ from rq k0 b) by (intros a b; apply filter_app). rewrite !Hfa.
      assert (Hle : forall x, In x k -> cmp (fst x) (np_key c) <> Gt) by exact S3.
      assert (PF1 : part (from rq k0 k1) (from rq k0 k)) by (apply part_from; exact P1). assert (PF2 : part (from rq k0 k2) (from rq k0 (concat kss))) by (apply part_from; exact P2).
      unfold lcmp at 1. rewrite Hcmp. fold cmp. destruct (ge (cmp (np_key c) k0)) eqn:Hge.
      * assert (Hnn : from rq k0 k <> []).
        { intros H0. assert (Hi : In y (from rq k0 k)) by (unfold from; rewrite Hcmp; fold cmp; apply filter_In; split; [exact Hy|now rewrite Hyk]). rewrite H0 in Hi. destruct Hi. }
        cbn [l_fold span_ge]. rewrite Hrd. unfold call_node. rewrite Hn. unfold set_in. cbn [l_u l_fold norm np_pointer].
        destruct (T1 U rq Hcmp Htl Hn k0 u true) as (r1 & i1 & A1 & A2 & A3 & A4). rewrite A1. rewrite Htl. rewrite (A2 eq_refl). cbn [l_in].
        rewrite run_tol_app. destruct (run_tol rq (from rq k0 k1) u) as [b1 u1] eqn:E1. cbn [fst snd] in *.
        destruct (T2 U rq Hcmp Htl Hn k0 (match r1 with Err e => Err e | Ok _ => ec end) u1 true) as (r2 & i2 & B1 & B2 & B3).
        exists r2, i2. destruct (run_tol rq (from rq k0 k2) u1) as [b2 u2] eqn:E2. cbn [fst snd] in *.
        split; [destruct r1; exact B1|]. split; [auto|]. rewrite B3, (part_app_all PF1 PF2). rewrite andb_true_iff. destruct r1 as [[]|e1].
        -- pose proof (A3 eq_refl) as X. tauto.
        -- assert (X : ~ (from rq k0 k1 = from rq k0 k /\ b1 = true)) by (intros [H1 H2]; pose proof (A4 H1 H2 Hnn); discriminate). split; [intros (H & _); discriminate|tauto].
      * assert (Hz : from rq k0 k = []).
        { unfold from. rewrite Hcmp. fold cmp. clear -Hle Hge OL. induction k as [|x k IH]; [reflexivity|]. cbn [filter].
          assert (Hx : ge (cmp (fst x) k0) = false).
          { pose proof (Hle x (or_introl eq_refl)) as H1. destruct (cmp (np_key c) k0) eqn:H2; try discriminate. rewrite (@c_le_lt _ OL _ _ _ H1 H2). reflexivity. }
          rewrite Hx. apply IH. intros z Hz. apply Hle. now right. }
        assert (Hz1 : from rq k0 k1 = []) by (rewrite Hz in PF1; inversion PF1; reflexivity). rewrite Hz, Hz1. cbn [app]. exact (T2 U rq Hcmp Htl Hn k0 ec u i).
    + intros U rq Hcmp Htl Hn x Hx u. cbn [map lk_kp kp_entry]. unfold lcmp at 1 2. rewrite Hcmp. fold cmp. apply in_app_or in Hx. destruct Hx as [Hx|Hx].
      * assert (Hge : ge (cmp (np_key c) (fst x)) = true).
        { pose proof (S3 x Hx) as H3. destruct (cmp (np_key c) (fst x)) eqn:Ec; try reflexivity. apply (c_gt OL) in Ec. congruence. }
        rewrite Hge. cbn [l_fold span_ge]. rewrite Hrd. unfold call_node. rewrite Hn. cbn [norm np_pointer].
        assert (Hnot : ~ In x k2).
        { intros H2. apply (part_in P2) in H2. pose proof (S5 x x Hx H2) as H5. rewrite (o_refl OL) in H5. discriminate. }
        destruct (N1 U rq Hcmp Htl Hn x Hx u) as [[I1 A1]|[I1 (e & A1)]]; rewrite A1, Htl.
        -- left. split; [apply in_or_app; now left|]. unfold out. destruct (run_calls rq [found x] u) as [[[]|e] u1]; cbn [fst snd l_in]; [|reflexivity]. destruct cs; reflexivity.
        -- right. split; [|now exists e]. intros H. apply in_app_or in H. tauto.
      * rewrite (S4 x Hx). cbn [ge].
        assert (Hnot : ~ In x k1).
        { intros H1. apply (part_in P1) in H1. pose proof (S5 x x H1 Hx) as H5. rewrite (o_refl OL) in H5. discriminate. }
        destruct (N2 U rq Hcmp Htl Hn x Hx u) as [[I2 A2]|[I2 A2]]; [left|right]; (split; [|exact A2]).
        -- apply in_or_app. now right.
        -- intros H. apply in_app_or in H. tauto.
    + intros He. destruct (proj1 (part_app_all P1 P2) He) as [He1 He2]. intros c' [<-|Hc'] U rq ks st; [now apply Q1|now apply Q2].
Qed.

Lemma left_over : forall d F, (d < F)%nat -> forall p k, tree f d p k -> sorted cmp k -> exists k', leaves F (np_pointer p) k k'.
Proof.
  induction d as [|d IH]; intros [|F] HF p k T Hs; try lia.
  - pose proof (tree_nonempty T) as Hne. destruct T as (_ & _ & _ & _ & Hk & _ & _ & sz & Hh & _).
    destruct (spoiled_node (np_pointer p)) as [Hn|(e & He)]; [|exists []; exact (leaves_lost F Hne He)].
    rewrite (@node_at_has E EO f _ _ _ Gf Hh) in Hn by discriminate.
    assert (Hkv : Forall kv_ok k) by (revert Hk; apply Forall_impl; exact HkvP).
    exists k. constructor.
    + apply part_refl.
    + intros U rq Hcmp Htl Hnd k0 u i. cbn [lookup_inner]. rewrite Hn, (node_items_mk KV_NODE Hkv). cbn [mk_node KV_NODE].
      destruct (@leaf_tol U rq Htl k0 k (@Ok unit tt) u i) as (r & i' & A1 & A2 & A3).
      exists r, i'. split; [exact A1|]. split; [exact A2|]. rewrite A3. tauto.
    + intros U rq Hcmp Htl Hnd x Hx u. left. split; [exact Hx|]. cbn [lookup_inner]. rewrite Hn, (node_items_mk KV_NODE Hkv). cbn [mk_node KV_NODE].
      rewrite (@leaf_nf U rq Htl). now rewrite (nf_in Hcmp Hs Hx).
    + intros _ U rq ks st. cbn [lookup_inner]. rewrite Hn. now rewrite (@node_at_has E EO f _ _ _ Gf Hh) by discriminate.
  - pose proof (tree_nonempty T) as Hne. destruct T as (_ & _ & _ & cs & kss & sz & _ & Hcs & -> & _ & _ & Hh & _).
    destruct (spoiled_node (np_pointer p)) as [Hn|(e & He)]; [|exists []; exact (leaves_lost F Hne He)].
    rewrite (@node_at_has E EO f _ _ _ Gf Hh) in Hn by discriminate.
    destruct (@kp_tol F d) with (cs := cs) (kss := kss) as (k' & P & T1 & N1 & Q1); [intros c k Tc Sc; apply (IH F); auto; lia|exact Hcs|exact Hs|].
    pose proof (@children_ok unit (LReq c0 (fun _ _ u => (Ok tt, u)) None false) E mq kvP redP HredP f d cs kss Hcs) as Hok.
    exists k'. constructor; [exact P| | |].
    + intros U rq Hcmp Htl Hnd k0 u i. cbn [lookup_inner]. rewrite Hn, (node_items_mk KP_NODE Hok). cbn [mk_node KP_NODE].
      destruct (T1 U rq Hcmp Htl Hnd k0 (Ok tt) u i) as (r & i' & A1 & A2 & A3). exists r, i'. split; [exact A1|]. split; [exact A2|]. rewrite A3. tauto.
    + intros U rq Hcmp Htl Hnd x Hx u. cbn [lookup_inner]. rewrite Hn, (node_items_mk KP_NODE Hok). cbn [mk_node KP_NODE]. apply N1; auto.
    + intros He U rq ks st. cbn [lookup_inner]. rewrite Hn, (@node_at_has E EO f _ _ _ Gf Hh) by discriminate. rewrite (node_items_mk KP_NODE Hok). cbn [mk_node KP_NODE].
      destruct ks as [|k0 ks]; [reflexivity|]. apply kp_ext; [|intros c Hc; now apply Q1]. intros c Hc. destruct (Forall2_in_l Hcs Hc) as (kc & _ & Tc). exact (@read_child E mq kvP redP HredP f d c kc Tc).
Qed.
End WithEnv.
