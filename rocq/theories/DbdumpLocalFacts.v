(** Facts for the listing of local documents by couch_dbdump: looking up a single key does not depend on whether errors are tolerated. *)
From Verif Require Import Base Codec File FileFacts Header Btree BtreeRead SpecMap Db.
Local Open Scope N_scope.
Unset Strict Implicit.

Section One.
Variable U : Type.
Variables rq rt : lreq U.
Hypothesis Hcmp : l_cmp rt = l_cmp rq.
Hypothesis Hn : l_node rq = None.
Hypothesis Hn' : l_node rt = None.
Hypothesis Htol : l_tol rq = false.
Hypothesis Htol' : l_tol rt = true.
Hypothesis Hfetch : l_fetch rt = l_fetch rq.

Definition off (x : res unit * lst U) : Prop := l_fold (snd x) = false /\ l_in (snd x) = false.

Lemma one_rest k u : lk_rest rt [k] (Ok tt) (Lst u false false) = lk_rest rq [k] (Ok tt) (Lst u false false) /\ off (lk_rest rq [k] (Ok tt) (Lst u false false)).
Proof. cbn [lk_rest l_fold l_u]. rewrite Hfetch. destruct (l_fetch rq k None u) as [[x|e] u']; split; try reflexivity; split; reflexivity. Qed.

Lemma one_kv items t k0 : forall u, lk_kv rt items t [k0] (Ok tt) (Lst u false false) = lk_kv rq items t [k0] (Ok tt) (Lst u false false) /\ off (lk_kv rq items t [k0] (Ok tt) (Lst u false false)).
Proof.
  induction items as [|[k v] r IH]; intros u; cbn [lk_kv]; [destruct t; [apply one_rest|split; [reflexivity|split; reflexivity]]|].
  cbn [kv_entry]. unfold lcmp. rewrite Hcmp, Hfetch, Htol, Htol'. cbn [l_fold l_in]. rewrite !andb_false_r. cbn [andb l_in l_u]. destruct (ge (lookup_compare (l_cmp rq) k k0)); [|apply IH].
  rewrite !andb_false_l || idtac. rewrite !orb_false_r.
  destruct (if match lookup_compare (l_cmp rq) k k0 with Eq => true | _ => false end then l_fetch rq k (Some v) u else l_fetch rq k0 None u) as [[[]|e] u'].
  - cbn [set_u l_in]. destruct (lookup_compare (l_cmp rq) k k0); destruct r as [|[]]; (split; [reflexivity|split; reflexivity]).
  - cbn [set_u l_in]. destruct (lookup_compare (l_cmp rq) k k0); destruct r as [|[]]; (split; [reflexivity|split; reflexivity]).
Qed.

Section Rec.
Variables rec rec' : N -> list bytes -> lst U -> res unit * lst U.
Hypothesis Hrec : forall p k u, rec' p [k] (Lst u false false) = rec p [k] (Lst u false false) /\ off (rec p [k] (Lst u false false)).
Lemma one_kp items t k0 : forall u, lk_kp rt rec' items t [k0] (Ok tt) (Lst u false false) = lk_kp rq rec items t [k0] (Ok tt) (Lst u false false) /\ off (lk_kp rq rec items t [k0] (Ok tt) (Lst u false false)).
Proof.
  induction items as [|[ck v] r IH]; intros u; cbn [lk_kp]; [destruct t; [apply one_rest|split; [reflexivity|split; reflexivity]]|].
  unfold lcmp. rewrite Hcmp. destruct (ge (lookup_compare (l_cmp rq) ck k0)); [|apply IH]. cbn [span_ge l_fold]. destruct (read_pointer ck v) as [p|e]; [|split; [reflexivity|split; reflexivity]].
  unfold call_node. rewrite Hn, Hn', Htol, Htol'. destruct (Hrec (np_pointer p) k0 u) as [-> O]. destruct (rec (np_pointer p) [k0] (Lst u false false)) as [x s3]. destruct O as [O1 O2]. cbn [snd] in O1, O2.
  rewrite O2. destruct x as [[]|e]; destruct r as [|[]]; (split; [reflexivity|split; [exact O1|exact O2]]).
Qed.
End Rec.

Context {E : Env}.
Lemma one_lookup fuel : forall f pos k u, lookup_inner rt fuel f pos [k] (Lst u false false) = lookup_inner rq fuel f pos [k] (Lst u false false) /\ off (lookup_inner rq fuel f pos [k] (Lst u false false)).
Proof.
  induction fuel as [|n IH]; intros f pos k u; cbn [lookup_inner]; [split; [reflexivity|split; reflexivity]|].
  destruct (node_at f pos) as [buf|e]; [|split; [reflexivity|split; reflexivity]]. destruct (node_items buf) as [items t]. destruct buf as [|[|[| |]] b]; try apply one_rest.
  - apply one_kp. exact (IH f).
  - apply one_kv.
Qed.
Theorem one_btree f pos k u : btree_lookup rt f pos [k] false u = btree_lookup rq f pos [k] false u.
Proof. unfold btree_lookup. now rewrite (proj1 (one_lookup (depth_fuel f) f pos k u)). Qed.
End One.
