(** How an index is stored: the relation between a root pointer, the file and the list of entries. Also the sequences of
    writes that index updates make, and a small calculus for operations that may fail. *)
From Verif Require Import Base Codec CodecFacts File FileFacts ChunkFacts Btree.
Local Open Scope N_scope.

Section WithEnv.
Context {E : Env} (EO : EnvOk E).

(** ** Sequences of chunk writes *)

(** [f'] results from [f] by chunk writes; the successful ones are listed, newest first. *)
Inductive writes : file -> list (N * bytes) -> file -> Prop :=
| wr_refl f : writes f [] f
| wr_step f l f1 b r f2 : writes f l f1 -> db_write_buf f1 b = (r, f2) ->
    writes f (match r with Ok (p, _) => (p, b) :: l | Err _ => l end) f2.

Lemma writes_trans f l f1 l' f2 : writes f l f1 -> writes f1 l' f2 -> writes f (l' ++ l) f2.
Proof.
  intros H1 H2. revert H1. induction H2 as [f1|f1 l1 f2 b r f3 H2 IH Hw]; intros H1; [exact H1|].
  pose proof (wr_step b (IH H1) Hw) as H. destruct r as [[p sz]|e]; exact H.
Qed.

Lemma writes_le f l f' : good f -> writes f l f' -> le f f'.
Proof.
  intros G H. induction H as [f|f l f1 b r f2 H IH Hw]; [now apply le_refl|].
  specialize (IH G). eapply le_trans; [exact IH|].
  exact (proj1 (db_write_buf_spec EO _ (le_good IH) Hw)).
Qed.

Definition ow {A} (x : M A) : Prop :=
  forall s r s', x s = (r, s') -> exists l, writes (st_f s) l (st_f s').

Lemma ow_ret A (a : A) : ow (ret a).
Proof. intros s r s' H. inv H. exists []. constructor. Qed.
Lemma ow_fail A e : ow (@fail A e).
Proof. intros s r s' H. inv H. exists []. constructor. Qed.
Lemma ow_lift A (x : res A) : ow (lift x).
Proof. intros s r s' H. inv H. exists []. constructor. Qed.
Lemma ow_emit e : ow (emit e).
Proof. intros s r s' H. inv H. exists []. constructor. Qed.
Lemma ow_stop : ow stop_purging.
Proof. intros s r s' H. inv H. exists []. constructor. Qed.
Lemma ow_get : ow get_en.
Proof. intros s r s' H. inv H. exists []. constructor. Qed.
Lemma ow_read_node p : ow (read_node p).
Proof. intros s r s' H. inv H. exists []. constructor. Qed.
Lemma ow_bind A B (x : M A) (k : A -> M B) : ow x -> (forall a, ow (k a)) -> ow (bindM x k).
Proof.
  intros Hx Hk s r s'. unfold bindM. destruct (x s) as [[a|e] s1] eqn:Ex; intros H.
  - destruct (Hx _ _ _ Ex) as [l1 W1]. destruct (Hk a _ _ _ H) as [l2 W2]. exists (l2 ++ l1). eapply writes_trans; eassumption.
  - inv H. exact (Hx _ _ _ Ex).
Qed.
Lemma ow_write_node b : ow (write_node b).
Proof.
  intros s r s'. unfold write_node, db_write_buf_compressed.
  destruct (compress b) as [z|].
  - destruct (db_write_buf (st_f s) z) as [x f'] eqn:Ew. intros H. inv H. cbn [st_f].
    eexists. eapply wr_step; [constructor|exact Ew].
  - intros H. inv H. exists []. constructor.
Qed.
Lemma ow_foldM A (g : A -> mr -> M mr) l : (forall a m, ow (g a m)) -> forall m, ow (foldM g l m).
Proof.
  intros Hg. induction l as [|a l IH]; intros m; cbn [foldM]; [apply ow_ret|apply ow_bind; auto].
Qed.

Ltac owt := repeat first
  [ apply ow_ret | apply ow_fail | apply ow_lift | apply ow_emit | apply ow_stop | apply ow_get | apply ow_read_node
  | apply ow_write_node | assumption | apply ow_bind; intros | apply ow_foldM; intros
  | match goal with |- ow (let '(_, _) := ?x in _) => destruct x end
  | match goal with |- ow (match ?x with _ => _ end) => destruct x end
  | match goal with |- ow (if ?x then _ else _) => destruct x end ].

Lemma ow_flush_partial rq q m : ow (flush_mr_partial rq q m).
Proof. unfold flush_mr_partial. owt. Qed.
Hint Resolve ow_flush_partial : ow.
Lemma ow_flush rq m : ow (flush_mr rq m).
Proof. apply ow_flush_partial. Qed.
Lemma ow_maybe_flush rq m : ow (maybe_flush rq m).
Proof. unfold maybe_flush. repeat (match goal with |- ow (if ?x then _ else _) => destruct x end); try apply ow_ret; try apply ow_flush; apply ow_flush_partial. Qed.
Lemma ow_push rq i m : ow (push rq i m).
Proof. apply ow_maybe_flush. Qed.
Lemma ow_move rq a b : ow (move_pointers rq a b).
Proof. apply ow_foldM. intros. apply ow_push. Qed.
Lemma ow_purgekv rq k v m : ow (maybe_purgekv rq k v m).
Proof. unfold maybe_purgekv. owt; apply ow_push. Qed.
Lemma ow_purgekp rq pn p m : (forall p m, ow (pn p m)) -> ow (maybe_purgekp rq pn p m).
Proof. intros H. unfold maybe_purgekp. owt; first [apply H|apply ow_push]. Qed.
Lemma ow_finish_items t m : ow (finish_items t m).
Proof. destruct t; owt. Qed.
Lemma ow_purge_node fuel rq : forall p m, ow (purge_node fuel rq p m).
Proof.
  induction fuel as [|fuel IH]; intros p m; cbn [purge_node]; [apply ow_fail|].
  apply ow_bind; [apply ow_get|intros en]. destruct (negb en); [apply ow_push|].
  apply ow_bind; [apply ow_read_node|intros buf]. destruct (node_items buf) as [items t].
  apply ow_bind; [|intros loc; destruct (m_mod loc); [apply ow_bind; [apply ow_flush|intros; apply ow_move]|apply ow_ret]].
  destruct buf as [|[|[| |]] buf]; try apply ow_fail.
  - apply ow_bind; [|intros; apply ow_finish_items]. apply ow_foldM. intros. apply ow_bind; [apply ow_lift|]. intros.
    apply ow_purgekp. exact IH.
  - apply ow_bind; [|intros; apply ow_finish_items]. apply ow_foldM. intros. apply ow_purgekv.
Qed.
Lemma ow_do_save rq a o : ow (do_save rq a o).
Proof. unfold do_save. owt. Qed.
Lemma ow_do_fetch rq k v : ow (do_fetch rq k v).
Proof. unfold do_fetch. owt. Qed.
Lemma ow_do_insert rq a o m : ow (do_insert rq a o m).
Proof. unfold do_insert. apply ow_bind; [apply ow_push|intros]. apply ow_bind; [apply ow_do_save|intros; apply ow_ret]. Qed.
Lemma ow_act_missing rq a m : ow (act_missing rq a m).
Proof.
  unfold act_missing. destruct (a_type a); try apply ow_ret; try apply ow_do_insert;
    (apply ow_bind; [apply ow_do_fetch|intros c]); try apply ow_ret; destruct c; try apply ow_ret; apply ow_do_insert.
Qed.
Lemma ow_leaf_entry rq k v acts : forall m, ow (leaf_entry rq k v acts m).
Proof.
  induction acts as [|a acts IH]; intros m; cbn [leaf_entry].
  - apply ow_bind; [apply ow_purgekv|intros; apply ow_ret].
  - destruct (r_cmp rq k (a_key a)).
    + destruct (a_type a).
      * apply ow_bind; [apply ow_do_fetch|intros; apply IH].
      * apply ow_ret.
      * apply ow_bind; [apply ow_do_insert|intros; apply ow_ret].
      * apply ow_bind; [apply ow_do_fetch|intros c]. destruct c; [apply IH|]. apply ow_bind; [apply ow_do_insert|intros; apply ow_ret].
    + apply ow_bind; [apply ow_purgekv|intros; apply ow_ret].
    + apply ow_bind; [apply ow_act_missing|intros; apply IH].
Qed.
Lemma ow_leaf_loop rq t items : forall acts m, ow (leaf_loop rq items t acts m).
Proof.
  induction items as [|[k v] items IH]; intros acts m; cbn [leaf_loop].
  - destruct t; [apply ow_foldM; intros; apply ow_act_missing|apply ow_fail].
  - apply ow_bind; [apply ow_leaf_entry|intros; apply IH].
Qed.
Lemma ow_kp_loop rq pn mn t items : (forall p m, ow (pn p m)) -> (forall p a m, ow (mn p a m)) ->
  forall acts m, ow (kp_loop rq pn mn items t acts m).
Proof.
  intros Hp Hm. induction items as [|[k v] items IH]; intros acts m; cbn [kp_loop]; [apply ow_finish_items|].
  assert (Hl : forall acts, ow (let+ c := lift (read_pointer k v) in let+ m' := maybe_purgekp rq pn c m in kp_loop rq pn mn items t acts m')).
  { intros. apply ow_bind; [apply ow_lift|intros]. apply ow_bind; [now apply ow_purgekp|intros; apply IH]. }
  destruct acts as [|a acts]; [apply Hl|].
  assert (Hg : ow match r_cmp rq k (a_key a) with
      | Lt => let+ c := lift (read_pointer k v) in let+ m' := maybe_purgekp rq pn c m in kp_loop rq pn mn items t (a :: acts) m'
      | _ => let '(here, later) := span_le (r_cmp rq) k (a :: acts) in
             let+ c := lift (read_pointer k v) in let+ m' := mn c here m in kp_loop rq pn mn items t later m'
      end).
  { assert (Hs : ow (let '(here, later) := span_le (r_cmp rq) k (a :: acts) in
             let+ c := lift (read_pointer k v) in let+ m' := mn c here m in kp_loop rq pn mn items t later m')).
    { destruct (span_le _ _ _). apply ow_bind; [apply ow_lift|intros]. apply ow_bind; [apply Hm|intros; apply IH]. }
    destruct (r_cmp rq k (a_key a)); [exact Hs|apply Hl|exact Hs]. }
  destruct items as [|kv items]; [|exact Hg]. destruct t; [|exact Hg].
  apply ow_bind; [apply ow_lift|intros; apply Hm].
Qed.
Lemma ow_modify_node rq fuel : forall n acts m, ow (modify_node fuel rq n acts m).
Proof.
  induction fuel as [|fuel IH]; intros n acts m; destruct acts as [|a acts]; cbn [modify_node]; try apply ow_ret; [apply ow_fail|].
  destruct n as [p|].
  - apply ow_bind; [apply ow_read_node|intros buf]. destruct (node_items buf) as [items t].
    apply ow_bind.
    + destruct buf as [|[|[| |]] buf]; try apply ow_fail.
      * apply ow_kp_loop; [apply ow_purge_node|intros; apply IH].
      * apply ow_leaf_loop.
    + intros loc. apply ow_bind; [apply ow_flush|intros loc']. destruct (negb (m_mod loc')); [apply ow_push|apply ow_move].
  - apply ow_bind; [apply ow_leaf_loop|intros]. apply ow_bind; [apply ow_flush|intros; apply ow_move].
Qed.
Lemma ow_finish_loop rq fuel : forall ps, ow (finish_loop fuel rq ps).
Proof.
  induction fuel as [|fuel IH]; intros ps; cbn [finish_loop].
  - destruct ps as [|p [|q ps]]; try apply ow_fail; apply ow_ret.
  - assert (H : ow (let+ m := foldM (push_pointerinfo rq) ps (set_mod (make_modres KP_NODE)) in
        let+ m' := flush_mr rq m in finish_loop fuel rq (m_ptrs m'))).
    { apply ow_bind; [apply ow_foldM; intros; apply ow_push|intros]. apply ow_bind; [apply ow_flush|intros; apply IH]. }
    destruct ps as [|p [|q ps]]; [exact H|apply ow_ret|exact H].
Qed.
Lemma ow_top rq m : ow (top_pointer rq m).
Proof.
  unfold top_pointer. destruct (_ || _); [|apply ow_ret]. apply ow_bind; [|intros; apply ow_ret].
  apply ow_bind; [apply ow_flush|intros; apply ow_finish_loop].
Qed.
Lemma ow_complete rq m : ow (complete_new_btree rq m).
Proof. apply ow_bind; [apply ow_flush|intros]. apply ow_bind; [apply ow_move|intros; apply ow_top]. Qed.
Lemma ow_modify rq root acts : ow (modify_btree rq root acts).
Proof.
  intros s r s' H. unfold modify_btree in H. revert H.
  match goal with |- ?x s = _ -> _ => apply (fun (H : ow x) => H s r s') end.
  apply ow_bind; [apply ow_modify_node|intros m]. destruct (m_mod m); [apply ow_top|apply ow_ret].
Qed.
Lemma ow_purge rq root : ow (guided_purge_btree rq root).
Proof.
  intros s r s' H. unfold guided_purge_btree in H. destruct root as [p|].
  - revert H. match goal with |- ?x ?s0 = _ -> _ => intros H; apply (fun (Ho : ow x) => Ho s0 r s' H) end.
    apply ow_bind; [apply ow_purge_node|intros; apply ow_ret].
  - inv H. exists []. constructor.
Qed.

End WithEnv.
