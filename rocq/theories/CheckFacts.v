(** The calls that a lookup makes do not depend on what the called functions do, except that the first failure ends it: for every file. *)
From Verif Require Import Base Codec File Header Btree BtreeRead SpecMap Db SpecDb Walk Check.
Local Open Scope N_scope.
Unset Strict Implicit.

(** A call of the fetch function or of the node function. *)
Inductive event := EFetch (k : bytes) (v : option bytes) | ENode (a : option (N * bytes)).
Section Calls.
Variable cmp : bytes -> bytes -> comparison.
Variable nodes : bool.
Definition fetch_fn U := bytes -> option bytes -> U -> res unit * U.
Definition node_fn U := option (N * bytes) -> U -> res unit * U.
Definition rq_of U (fe : fetch_fn U) (no : node_fn U) : lreq U := LReq cmp fe (if nodes then Some no else None) false.
Definition fire U (fe : fetch_fn U) (no : node_fn U) (e : event) (u : U) : res unit * U := match e with EFetch k v => fe k v u | ENode a => no a u end.

Definition acts (run : forall U, fetch_fn U -> node_fn U -> U -> res unit * lst U) : Prop :=
  exists L r fo inn, forall U fe no u,
    match feed (fire fe no) L u with
    | (Ok _, u') => run U fe no u = (r, Lst u' fo inn)
    | (Err e, u') => exists a b, run U fe no u = (Err e, Lst u' a b)
    end.

Lemma feed_app A U (cb : A -> U -> res unit * U) a b u :
  feed cb (a ++ b) u = match feed cb a u with (Ok _, u') => feed cb b u' | (Err e, u') => (Err e, u') end.
Proof. revert u. induction a as [|x a IH]; intros u; [reflexivity|]. cbn. destruct (cb x u) as [[]]; [apply IH|reflexivity]. Qed.

Lemma acts_ret r fo inn : acts (fun U fe no u => (r, Lst u fo inn)).
Proof. now exists [], r, fo, inn. Qed.
(** One call, then something else. *)
Lemma acts_call ev (next : forall U, fetch_fn U -> node_fn U -> U -> res unit * lst U) (fo inn : bool) : acts next ->
  acts (fun U fe no u => match fire fe no ev u with (Ok _, u') => next U fe no u' | (Err e, u') => (Err e, Lst u' fo inn) end).
Proof.
  intros (L & r & a & b & H). exists (ev :: L), r, a, b. intros U fe no u. cbn [feed].
  destruct (fire fe no ev u) as [[?|e] u'].
  - exact (H U fe no u').
  - exists fo, inn. reflexivity.
Qed.
(** Something, then something else that depends on the flags. *)
Lemma acts_bind (run : forall U, fetch_fn U -> node_fn U -> U -> res unit * lst U)
    (next : bool -> bool -> forall U, fetch_fn U -> node_fn U -> U -> res unit * lst U) : acts run -> (forall fo inn, acts (next fo inn)) ->
  acts (fun U fe no u => match run U fe no u with (Ok _, s) => next (l_fold s) (l_in s) U fe no (l_u s) | (Err e, s) => (Err e, s) end).
Proof.
  intros (L & r & fo & inn & H) Hn. destruct r as [[]|e].
  - destruct (Hn fo inn) as (L2 & r2 & fo2 & inn2 & H2). exists (L ++ L2), r2, fo2, inn2. intros U fe no u. rewrite feed_app.
    specialize (H U fe no u). destruct (feed (fire fe no) L u) as [[?|e] u'].
    + rewrite H. exact (H2 U fe no u').
    + destruct H as (a & b & ->). now exists a, b.
  - exists L, (Err e), fo, inn. intros U fe no u. specialize (H U fe no u). destruct (feed (fire fe no) L u) as [[?|e'] u'].
    + now rewrite H.
    + destruct H as (a & b & ->). now exists a, b.
Qed.
Lemma acts_ext (run run' : forall U, fetch_fn U -> node_fn U -> U -> res unit * lst U) : (forall U fe no u, run U fe no u = run' U fe no u) -> acts run -> acts run'.
Proof. intros Hx (L & r & fo & inn & H). exists L, r, fo, inn. intros U fe no u. rewrite <- Hx. apply H. Qed.

Lemma rest_acts ks : forall ec fo inn, acts (fun U fe no u => lk_rest (rq_of fe no) ks ec (Lst u fo inn)).
Proof.
  induction ks as [|k ks IH]; intros ec fo inn; cbn [lk_rest]; [apply acts_ret|]. cbn [l_fold l_u set_u].
  destruct fo; [apply acts_ret|].
  refine (acts_ext _ (@acts_call (EFetch k None) _ false inn (IH (Ok tt) false inn))).
  intros U fe no u. cbn [fire l_fetch rq_of]. destruct (fe k None u) as [[]]; reflexivity.
Qed.

Definition span_c (ck : bytes) (ks : list bytes) : list bytes * list bytes := span_ge (@LReq unit cmp (fun _ _ _ => (Ok tt, tt)) None false) ck ks.
Lemma span_static U (fe : fetch_fn U) (no : node_fn U) ck ks : span_ge (rq_of fe no) ck ks = span_c ck ks.
Proof. unfold span_c. induction ks as [|k ks IH]; [reflexivity|]. cbn [span_ge]. unfold lcmp. cbn [l_cmp rq_of]. now rewrite IH. Qed.

(** A call of the node function, if there is one. *)
Lemma acts_node a (next : forall U, fetch_fn U -> node_fn U -> U -> res unit * lst U) (fo inn : bool) : acts next ->
  acts (fun U fe no u => if nodes then match no a u with (Ok _, u') => next U fe no u' | (Err e, u') => (Err e, Lst u' fo inn) end else next U fe no u).
Proof. intros H. destruct nodes; [exact (@acts_call (ENode a) next fo inn H)|exact H]. Qed.

Definition rec_t := forall U, fetch_fn U -> node_fn U -> N -> list bytes -> lst U -> res unit * lst U.
Lemma kp_acts (rec : rec_t) items t : (forall p ks fo inn, acts (fun U fe no u => rec U fe no p ks (Lst u fo inn))) ->
  forall ks ec fo inn, acts (fun U fe no u => lk_kp (rq_of fe no) (rec U fe no) items t ks ec (Lst u fo inn)).
Proof.
  intros Hrec. induction items as [|[ck v] items IH]; intros ks ec fo inn.
  - destruct ks as [|k0 kr]; cbn [lk_kp]; [apply acts_ret|]. destruct t; [apply rest_acts|apply acts_ret].
  - destruct ks as [|k0 kr]; cbn [lk_kp]; [apply acts_ret|].
    destruct (ge (lookup_compare cmp ck k0)) eqn:Eg.
    + destruct (span_c ck kr) as [here later] eqn:Es. destruct (read_pointer ck v) as [p|e] eqn:Ep.
      * assert (H1 := @acts_node (Some (np_subtree p, np_reduce p)) _ fo (if fo then true else inn)
          (acts_bind (Hrec (np_pointer p) (k0 :: here) fo (if fo then true else inn))
            (fun fo3 in3 => @acts_node None _ fo3 in3 (IH (if in3 then k0 :: kr else later) (Ok tt) fo3 in3)))).
        refine (acts_ext _ H1). clear H1 IH. intros U fe no u.
        change (lcmp (rq_of fe no) ck k0) with (lookup_compare cmp ck k0). rewrite Eg, span_static, Es.
        change (l_tol (rq_of fe no)) with false. unfold call_node.
        change (l_node (rq_of fe no)) with (if nodes then Some no else None).
        unfold set_u, set_in. destruct fo, nodes; cbn [l_u l_fold l_in].
        -- destruct (no (Some (np_subtree p, np_reduce p)) u) as [[?|e] u1]; [|reflexivity].
           destruct (rec U fe no (np_pointer p) (k0 :: here) (Lst u1 true true)) as [[?|e] s3]; [|reflexivity].
           destruct (no None (l_u s3)) as [[?|e] u4]; reflexivity.
        -- destruct (rec U fe no (np_pointer p) (k0 :: here) (Lst u true true)) as [[?|e] s3]; [|reflexivity].
           destruct s3; reflexivity.
        -- destruct (no (Some (np_subtree p, np_reduce p)) u) as [[?|e] u1]; [|reflexivity].
           destruct (rec U fe no (np_pointer p) (k0 :: here) (Lst u1 false inn)) as [[?|e] s3]; [|reflexivity].
           destruct (no None (l_u s3)) as [[?|e] u4]; reflexivity.
        -- destruct (rec U fe no (np_pointer p) (k0 :: here) (Lst u false inn)) as [[?|e] s3]; [|reflexivity].
           destruct s3; reflexivity.
      * refine (acts_ext _ (acts_ret (Err e) fo (if fo then true else inn))). intros U fe no u.
        change (lcmp (rq_of fe no) ck k0) with (lookup_compare cmp ck k0). rewrite Eg, span_static, Es. now destruct fo.
    + refine (acts_ext _ (IH (k0 :: kr) ec fo inn)). intros U fe no u. change (lcmp (rq_of fe no) ck k0) with (lookup_compare cmp ck k0). now rewrite Eg.
Qed.

(** What follows a leaf entry. *)
Definition after_entry U (fe : fetch_fn U) (no : node_fn U) items t (x : kvres U) : res unit * lst U :=
  match x with KDone x s' => (x, s') | KMore ks' ec' s' => lk_kv (rq_of fe no) items t ks' ec' s' end.
Lemma entry_acts items t k v : (forall ks ec fo inn, acts (fun U fe no u => lk_kv (rq_of fe no) items t ks ec (Lst u fo inn))) ->
  forall ks ec fo inn, acts (fun U fe no u => after_entry fe no items t (kv_entry (rq_of fe no) k v ks ec (Lst u fo inn))).
Proof.
  intros IH. induction ks as [|k0 kr IHk]; intros ec fo inn; [apply acts_ret|].
  set (c := lookup_compare cmp k k0).
  set (in1 := if ge c && fo && negb inn then true else inn).
  set (past := match kr with [] => false | k1 :: _ => match lookup_compare cmp k k1 with Gt => true | _ => false end end).
  assert (Heq : forall U fe no u, after_entry fe no items t (kv_entry (rq_of fe no) k v (k0 :: kr) ec (Lst u fo inn)) =
    if in1 && past then (ec, Lst u false false)
    else if ge c then
      let ev := if (match c with Eq => true | _ => false end) || in1 then EFetch k (Some v) else EFetch k0 None in
      match @fire U fe no ev u with
      | (Err e, u') => (Err e, Lst u' fo in1)
      | (Ok _, u') => if in1 then lk_kv (rq_of fe no) items t (k0 :: kr) (Ok tt) (Lst u' fo in1)
          else match c with Eq => lk_kv (rq_of fe no) items t kr (Ok tt) (Lst u' fo in1)
               | _ => after_entry fe no items t (kv_entry (rq_of fe no) k v kr (Ok tt) (Lst u' fo in1)) end
      end
    else lk_kv (rq_of fe no) items t (k0 :: kr) ec (Lst u fo in1)).
  { intros U fe no u. cbn [kv_entry]. change (lcmp (rq_of fe no)) with (lookup_compare cmp). cbn [l_fold l_in l_u rq_of l_fetch l_tol]. fold (rq_of fe no).
    fold c. fold past.
    assert (Hs : (if ge c && fo && negb inn then set_in true (Lst u fo inn) else Lst u fo inn) = Lst u fo in1) by (unfold in1; now destruct (ge c && fo && negb inn)).
    rewrite Hs. unfold set_u. cbn [l_in l_u l_fold]. destruct (in1 && past); [reflexivity|]. destruct (ge c); [|reflexivity].
    destruct ((match c with Eq => true | _ => false end) || in1); cbn [fire].
    - destruct (fe k (Some v) u) as [[?|e] u']; [|reflexivity]. destruct in1; [reflexivity|]. destruct c; reflexivity.
    - destruct (fe k0 None u) as [[?|e] u']; [|reflexivity]. destruct in1; [reflexivity|]. destruct c; reflexivity. }
  apply (acts_ext (fun U fe no u => eq_sym (Heq U fe no u))). clear Heq.
  destruct (in1 && past); [apply acts_ret|]. destruct (ge c); [|apply IH].
  apply (@acts_call (if (match c with Eq => true | _ => false end) || in1 then EFetch k (Some v) else EFetch k0 None)).
  destruct in1; [apply IH|]. destruct c; [apply IH|apply IHk|apply IHk].
Qed.
Lemma kv_acts items t : forall ks ec fo inn, acts (fun U fe no u => lk_kv (rq_of fe no) items t ks ec (Lst u fo inn)).
Proof.
  induction items as [|[k v] items IH]; intros ks ec fo inn.
  - destruct ks as [|k0 kr]; cbn [lk_kv]; [apply acts_ret|]. destruct t; [apply rest_acts|apply acts_ret].
  - destruct ks as [|k0 kr]; cbn [lk_kv]; [apply acts_ret|]. exact (entry_acts k v IH (k0 :: kr) ec fo inn).
Qed.

Context {E : Env}.
Lemma inner_acts f : forall fuel pos ks fo inn, acts (fun U fe no u => lookup_inner (rq_of fe no) fuel f pos ks (Lst u fo inn)).
Proof.
  induction fuel as [|fuel IH]; intros pos ks fo inn.
  - destruct ks; cbn [lookup_inner]; apply acts_ret.
  - destruct ks as [|k0 kr]; cbn [lookup_inner]; [apply acts_ret|].
    destruct (node_at f pos) as [buf|e]; [|apply acts_ret].
    destruct (node_items buf) as [items t].
    destruct buf as [|[|b] buf]; try apply rest_acts.
    + exact (kp_acts items t (fun p ks fo inn => IH p ks fo inn) (k0 :: kr) (Ok tt) fo inn).
    + destruct b; try apply rest_acts. apply kv_acts.
Qed.

(** The calls of a lookup. *)
Lemma lookup_calls f pos ks fold : exists L r, forall U (fe : fetch_fn U) (no : node_fn U) u,
  btree_lookup (rq_of fe no) f pos ks fold u = match feed (fire fe no) L u with (Ok _, u') => (r, u') | (Err e, u') => (Err e, u') end.
Proof.
  destruct (inner_acts f (depth_fuel f) pos ks fold false) as (L & r & fo & inn & H). exists L, r. intros U fe no u.
  unfold btree_lookup. specialize (H U fe no u). destruct (feed (fire fe no) L u) as [[?|e] u'].
  - now rewrite H.
  - destruct H as (a & b & ->). reflexivity.
Qed.
End Calls.
