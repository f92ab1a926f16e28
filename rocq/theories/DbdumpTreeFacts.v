(** Facts for couch_dbdump --tree: a lookup on a part of the caller's state. *)
From Verif Require Import Base Codec File FileFacts Header Btree BtreeRead SpecMap Db Walk.
Local Open Scope N_scope.
Unset Strict Implicit.

Section Proj.
Variables U W : Type.
Variable rq : lreq U.
Variable rp : lreq W.
Variable pi : U -> W.
Hypothesis Hcmp : l_cmp rp = l_cmp rq.
Hypothesis Htol : l_tol rp = l_tol rq.
Hypothesis Hfetch : forall k v u, l_fetch rp k v (pi u) = (fst (l_fetch rq k v u), pi (snd (l_fetch rq k v u))).
Variable nq : option (N * bytes) -> U -> res unit * U.
Variable np : option (N * bytes) -> W -> res unit * W.
Hypothesis Hq : l_node rq = Some nq.
Hypothesis Hp : l_node rp = Some np.
Hypothesis Hnode : forall a u, np a (pi u) = (fst (nq a u), pi (snd (nq a u))).
Definition ml (s : lst U) : lst W := Lst (pi (l_u s)) (l_fold s) (l_in s).
Definition pr (r : res unit * lst U) : res unit * lst W := (fst r, ml (snd r)).

Lemma span_proj ck ks : span_ge rp ck ks = span_ge rq ck ks.
Proof. induction ks as [|k r IH]; [reflexivity|]. cbn [span_ge]. unfold lcmp. rewrite Hcmp, IH. reflexivity. Qed.
Lemma rest_proj ks : forall ec s, lk_rest rp ks ec (ml s) = pr (lk_rest rq ks ec s).
Proof.
  induction ks as [|k r IH]; intros ec s; cbn [lk_rest]; [reflexivity|]. cbn [ml l_fold l_u]. destruct (l_fold s) eqn:Ef; [reflexivity|]. rewrite Hfetch. destruct (l_fetch rq k None (l_u s)) as [[x|e] u]; cbn [fst snd].
  - exact (IH (Ok tt) (set_u u s)).
  - reflexivity.
Qed.
Lemma entry_proj k v ks : forall ec s, kv_entry rp k v ks ec (ml s) = match kv_entry rq k v ks ec s with KDone x s' => KDone x (ml s') | KMore ks' ec' s' => KMore ks' ec' (ml s') end.
Proof.
  induction ks as [|k0 kr IH]; intros ec s; [reflexivity|]. cbn [kv_entry]. unfold lcmp. rewrite Hcmp. set (c := lookup_compare (l_cmp rq) k k0).
  replace (if ge c && l_fold (ml s) && negb (l_in (ml s)) then set_in true (ml s) else ml s) with (ml (if ge c && l_fold s && negb (l_in s) then set_in true s else s))
    by (cbn [ml l_fold l_in]; destruct (ge c && l_fold s && negb (l_in s)); reflexivity).
  set (s1 := if ge c && l_fold s && negb (l_in s) then set_in true s else s). clearbody s1. change (l_in (ml s1)) with (l_in s1). change (l_u (ml s1)) with (pi (l_u s1)).
  destruct (l_in s1 && match kr with [] => false | k1 :: _ => match lookup_compare (l_cmp rq) k k1 with Gt => true | _ => false end end); [reflexivity|].
  destruct (ge c); [|reflexivity]. rewrite !Hfetch, Htol.
  assert (X : forall (b : bool) (y z : res unit * U), (if b then (fst y, pi (snd y)) else (fst z, pi (snd z))) = (fst (if b then y else z), pi (snd (if b then y else z)))) by (intros [] y z; reflexivity). rewrite X. clear X.
  destruct (if (match c with Eq => true | _ => false end) || l_in s1 then l_fetch rq k (Some v) (l_u s1) else l_fetch rq k0 None (l_u s1)) as [x u]. cbn [fst snd].
  change (set_u (pi u) (ml s1)) with (ml (set_u u s1)). change (l_in (ml (set_u u s1))) with (l_in (set_u u s1)).
  destruct x as [[]|e]; [|destruct (l_tol rq); [|reflexivity]]; (destruct (l_in (set_u u s1)); [reflexivity|]; destruct c; [reflexivity|apply IH|apply IH]).
Qed.
Lemma kv_proj items t : forall ks ec s, lk_kv rp items t ks ec (ml s) = pr (lk_kv rq items t ks ec s).
Proof.
  induction items as [|[k v] r IH]; intros ks ec s; destruct ks as [|k0 kr]; cbn [lk_kv]; try reflexivity.
  - destruct t; [apply rest_proj|reflexivity].
  - rewrite entry_proj. destruct (kv_entry rq k v (k0 :: kr) ec s) as [x s'|ks' ec' s']; [reflexivity|apply IH].
Qed.
Section Rec.
Variable rec : N -> list bytes -> lst U -> res unit * lst U.
Variable rec' : N -> list bytes -> lst W -> res unit * lst W.
Hypothesis Hrec : forall p ks s, rec' p ks (ml s) = pr (rec p ks s).
Lemma kp_proj items t : forall ks ec s, lk_kp rp rec' items t ks ec (ml s) = pr (lk_kp rq rec items t ks ec s).
Proof.
  induction items as [|[ck v] r IH]; intros ks ec s; destruct ks as [|k0 kr]; cbn [lk_kp]; try reflexivity.
  - destruct t; [apply rest_proj|reflexivity].
  - rewrite span_proj. unfold lcmp. rewrite Hcmp. destruct (ge (lookup_compare (l_cmp rq) ck k0)); [|apply IH].
    replace (if l_fold (ml s) then set_in true (ml s) else ml s) with (ml (if l_fold s then set_in true s else s)) by (cbn [ml l_fold]; destruct (l_fold s); reflexivity).
    generalize (if l_fold s then set_in true s else s). intros s1. destruct (span_ge rq ck kr) as [here later]. destruct (read_pointer ck v) as [p|e]; [|reflexivity].
    unfold call_node. rewrite Hq, Hp, Htol. change (l_u (ml s1)) with (pi (l_u s1)). rewrite Hnode. destruct (nq (Some (np_subtree p, np_reduce p)) (l_u s1)) as [[[]|e] u]; cbn [fst snd]; [|reflexivity].
    change (set_u (pi u) (ml s1)) with (ml (set_u u s1)). rewrite Hrec. destruct (rec (np_pointer p) (k0 :: here) (set_u u s1)) as [x2 s3]. unfold pr at 1. cbn [fst snd].
    change (l_in (ml s3)) with (l_in s3). change (l_u (ml s3)) with (pi (l_u s3)). rewrite Hnode.
    destruct x2 as [[]|e]; [|destruct (l_tol rq); [|reflexivity]]; (destruct (nq None (l_u s3)) as [[[]|e'] u']; cbn [fst snd]; [|reflexivity]; change (set_u (pi u') (ml s3)) with (ml (set_u u' s3)); apply IH).
Qed.
End Rec.

Context {E : Env}.
Lemma lookup_proj fuel : forall f pos ks s, lookup_inner rp fuel f pos ks (ml s) = pr (lookup_inner rq fuel f pos ks s).
Proof.
  induction fuel as [|n IH]; intros f pos ks s; destruct ks as [|k0 kr]; cbn [lookup_inner]; try reflexivity.
  destruct (node_at f pos) as [buf|e]; [|reflexivity]. destruct (node_items buf) as [items t]. destruct buf as [|[|[| |]] b]; try apply rest_proj.
  - apply kp_proj. apply IH.
  - apply kv_proj.
Qed.
Lemma btree_proj f pos ks fold u : btree_lookup rp f pos ks fold (pi u) = (fst (btree_lookup rq f pos ks fold u), pi (snd (btree_lookup rq f pos ks fold u))).
Proof.
  unfold btree_lookup. change (Lst (pi u) fold false) with (ml (Lst u fold false)). rewrite lookup_proj. destruct (lookup_inner rq (depth_fuel f) f pos ks (Lst u fold false)) as [x s]. reflexivity.
Qed.
End Proj.

(** A walk on a part of the state. *)
Lemma walk_proj {E : Env} U W (f : U -> W) (cb : walk_fn U) (cb' : walk_fn W) : (forall n x u, cb' n x (f u) = (fst (cb n x u), f (snd (cb n x u)))) ->
  forall d root cmp read start o u, walk_tree d root cmp read start o cb' (f u) = (fst (walk_tree d root cmp read start o cb u), f (snd (walk_tree d root cmp read start o cb u))).
Proof.
  intros H d root cmp read start o u. unfold walk_tree. destruct (dropped d); [reflexivity|]. destruct root as [p|]; [|reflexivity]. rewrite H. destruct (cb 0 _ u) as [[[]|e] u1]; cbn [fst snd]; [|reflexivity].
  set (pi := fun c : N * U => (fst c, f (snd c))). change (1, f u1) with (pi (1, u1)).
  rewrite (@btree_proj _ _ (walk_request cmp o read cb) (walk_request cmp o read cb') pi eq_refl eq_refl) with (nq := walk_node_callback cb) (np := walk_node_callback cb'); [| |reflexivity|reflexivity|].
  - destruct (btree_lookup (walk_request cmp o read cb) _ _ _ _ _) as [y c]. reflexivity.
  - intros k v c. cbn [walk_request l_fetch]. unfold walk_fetch, lookup_callback, pi. cbn [fst snd]. destruct v as [b|]; [|reflexivity].
    destruct (match read k b with Err E_CORRUPT => if eo_tolerate o then Ok (DocInfo k 0 0 b false 0 0 0) else Err E_CORRUPT | r => r end) as [i|er]; [|reflexivity]. rewrite H.
    destruct (eo_deletes_only o && negb (di_deleted i)); [reflexivity|]. destruct (eo_no_deletes o && di_deleted i); [reflexivity|].
    destruct (cb (fst c) (IDoc i) (snd c)) as [y z]. reflexivity.
  - intros a c. unfold walk_node_callback, pi. cbn [fst snd]. destruct a as [[sz red]|]; [|reflexivity]. rewrite H. destruct (cb (fst c) (INode sz red) (snd c)) as [y z]. reflexivity.
Qed.
