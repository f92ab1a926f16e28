(** Facts for couch_dbdump: where nothing fails, a tolerant enumeration does what an ordinary one does. *)
From Verif Require Import Base Codec File FileFacts Header Btree BtreeRead SpecMap Db.
Local Open Scope N_scope.
Unset Strict Implicit.

Section Same.
Variable U : Type.
Variables rq rt : lreq U.
Hypothesis Hcmp : l_cmp rt = l_cmp rq.
Hypothesis Hn : l_node rt = l_node rq.
Hypothesis Htol : l_tol rq = false.
Hypothesis Htol' : l_tol rt = true.
Hypothesis Hfetch : forall k v u u', l_fetch rq k v u = (Ok tt, u') -> l_fetch rt k v u = (Ok tt, u').

Lemma same_span ck ks : span_ge rt ck ks = span_ge rq ck ks.
Proof. induction ks as [|k r IH]; [reflexivity|]. cbn [span_ge]. unfold lcmp. rewrite Hcmp, IH. reflexivity. Qed.

Lemma same_rest ks : forall s s', lk_rest rq ks (Ok tt) s = (Ok tt, s') -> lk_rest rt ks (Ok tt) s = (Ok tt, s').
Proof.
  induction ks as [|k r IH]; intros s s' H; cbn [lk_rest] in *; [exact H|]. destruct (l_fold s); [exact H|].
  destruct (l_fetch rq k None (l_u s)) as [[[]|e] u] eqn:Ef; [|discriminate H]. rewrite (Hfetch Ef). exact (IH _ _ H).
Qed.

Lemma same_entry k v ks : forall s,
  match kv_entry rq k v ks (Ok tt) s with
  | KDone (Ok _) s' => kv_entry rt k v ks (Ok tt) s = KDone (Ok tt) s'
  | KMore ks' ec s' => ec = Ok tt /\ kv_entry rt k v ks (Ok tt) s = KMore ks' (Ok tt) s'
  | KDone (Err _) _ => True
  end.
Proof.
  induction ks as [|k0 kr IH]; intros s; [reflexivity|]. cbn [kv_entry]. unfold lcmp. rewrite Hcmp. set (c := lookup_compare (l_cmp rq) k k0). set (s1 := if ge c && l_fold s && negb (l_in s) then set_in true s else s).
  set (b := l_in s1 && match kr with [] => false | k1 :: _ => match lookup_compare (l_cmp rq) k k1 with Gt => true | _ => false end end).
  destruct b; [reflexivity|]. destruct (ge c); [|split; reflexivity]. rewrite Htol, Htol'.
  set (e := (match c with Eq => true | _ => false end) || l_in s1).
  assert (X : forall x u, (if e then l_fetch rq k (Some v) (l_u s1) else l_fetch rq k0 None (l_u s1)) = (Ok x, u) ->
    (if e then l_fetch rt k (Some v) (l_u s1) else l_fetch rt k0 None (l_u s1)) = (Ok tt, u)) by (intros [] u; destruct e; apply Hfetch).
  destruct (if e then l_fetch rq k (Some v) (l_u s1) else l_fetch rq k0 None (l_u s1)) as [[x|er] u]; [|exact Logic.I]. rewrite (X x u eq_refl).
  destruct (l_in (set_u u s1)); [split; reflexivity|]. destruct c; try (split; reflexivity); apply IH.
Qed.

Lemma same_kv items t : forall ks s s', lk_kv rq items t ks (Ok tt) s = (Ok tt, s') -> lk_kv rt items t ks (Ok tt) s = (Ok tt, s').
Proof.
  induction items as [|[k v] r IH]; intros ks s s' H; destruct ks as [|k0 kr]; cbn [lk_kv] in *; try exact H.
  - destruct t; [exact (same_rest H)|discriminate H].
  - pose proof (same_entry k v (k0 :: kr) s) as X. destruct (kv_entry rq k v (k0 :: kr) (Ok tt) s) as [x s1|ks' ec s1].
    + injection H as -> ->. rewrite X. reflexivity.
    + destruct X as [-> ->]. exact (IH _ _ _ H).
Qed.

Section Rec.
Variables rec rec' : N -> list bytes -> lst U -> res unit * lst U.
Hypothesis Hrec : forall p ks s s', rec p ks s = (Ok tt, s') -> rec' p ks s = (Ok tt, s').
Lemma same_kp items t : forall ks s s', lk_kp rq rec items t ks (Ok tt) s = (Ok tt, s') -> lk_kp rt rec' items t ks (Ok tt) s = (Ok tt, s').
Proof.
  induction items as [|[ck v] r IH]; intros ks s s' H; destruct ks as [|k0 kr]; cbn [lk_kp] in *; try exact H.
  - destruct t; [exact (same_rest H)|discriminate H].
  - rewrite same_span. unfold lcmp in *. rewrite Hcmp. destruct (ge (lookup_compare (l_cmp rq) ck k0)); [|exact (IH _ _ _ H)].
    destruct (span_ge rq ck kr) as [here later]. destruct (read_pointer ck v) as [p|e]; [|exact H]. unfold call_node in *. rewrite Hn, Htol'. rewrite Htol in H.
    destruct (l_node rq) as [nd|].
    + destruct (nd (Some (np_subtree p, np_reduce p)) (l_u (if l_fold s then set_in true s else s))) as [[[]|e] u]; [|exact H].
      destruct (rec (np_pointer p) (k0 :: here) _) as [[[]|e] s3] eqn:Er; [|discriminate H]. rewrite (Hrec Er). destruct (nd None (l_u s3)) as [[[]|e] u']; [|exact H]. exact (IH _ _ _ H).
    + destruct (rec (np_pointer p) (k0 :: here) (if l_fold s then set_in true s else s)) as [[[]|e] s3] eqn:Er; [|discriminate H]. rewrite (Hrec Er). exact (IH _ _ _ H).
Qed.
End Rec.

Context {E : Env}.
Lemma same_lookup fuel : forall f pos ks s s', lookup_inner rq fuel f pos ks s = (Ok tt, s') -> lookup_inner rt fuel f pos ks s = (Ok tt, s').
Proof.
  induction fuel as [|n IH]; intros f pos ks s s' H; destruct ks as [|k0 kr]; cbn [lookup_inner] in *; try exact H.
  destruct (node_at f pos) as [buf|e]; [|exact H]. destruct (node_items buf) as [items t]. destruct buf as [|[|[| |]] b]; try exact (same_rest H).
  - exact (same_kp (IH f) H).
  - exact (same_kv H).
Qed.
End Same.

Section Enum.
Context {E : Env}.
Variable U : Type.
Variable cb : doc_info -> U -> res unit * U.
Lemma same_btree cmp dl nd read f pos ks fold u u' : btree_lookup (enum_request cmp (EnumOpts dl nd false) false read cb) f pos ks fold u = (Ok tt, u') ->
  btree_lookup (enum_request cmp (EnumOpts dl nd true) true read cb) f pos ks fold u = (Ok tt, u').
Proof.
  unfold btree_lookup. intros H. destruct (lookup_inner (enum_request cmp (EnumOpts dl nd false) false read cb) (depth_fuel f) f pos ks (Lst u fold false)) as [x s] eqn:El. injection H as -> <-.
  rewrite (@same_lookup U (enum_request cmp (EnumOpts dl nd false) false read cb) (enum_request cmp (EnumOpts dl nd true) true read cb) eq_refl eq_refl eq_refl eq_refl) with (s' := s); [reflexivity| |exact El].
  intros k v u0 u1. cbn [enum_request l_fetch lookup_callback eo_tolerate eo_deletes_only eo_no_deletes]. unfold lookup_callback. cbn [eo_tolerate eo_deletes_only eo_no_deletes]. destruct v as [b|]; [|auto].
  destruct (read k b) as [i|er]; [intros X; exact X|]. intros X. destruct er; discriminate X.
Qed.
Theorem same_changes d since dl nd u u' : changes_since d since (EnumOpts dl nd false) cb u = (Ok tt, u') -> changes_since d since (EnumOpts dl nd true) cb u = (Ok tt, u').
Proof. unfold changes_since. destruct (dropped d); [auto|]. destruct (h_by_seq (dbh d)); [|auto]. cbn [eo_tolerate]. apply same_btree. Qed.
Theorem same_all d start dl nd u u' : all_docs d start (EnumOpts dl nd false) cb u = (Ok tt, u') -> all_docs d start (EnumOpts dl nd true) cb u = (Ok tt, u').
Proof. unfold all_docs. destruct (dropped d); [auto|]. destruct (h_by_id (dbh d)); [|auto]. cbn [eo_tolerate]. apply same_btree. Qed.
End Enum.
