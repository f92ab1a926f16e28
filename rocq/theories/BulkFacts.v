(** Writing a whole index at once (new_btree_modres, mr_push_item, complete_new_btree). *)
From Verif Require Import Base Codec CodecFacts File FileFacts ChunkFacts Btree TreeStore SpecMap MergeFacts ModifyFacts.
Local Open Scope N_scope.
Unset Strict Implicit.

Section WithEnv.
Context {E : Env} (EO : EnvOk E).
Variable rq : request.
Variable kvP : bytes * bytes -> Prop.
Variable redP : bytes -> Prop.
Variable okf : file -> Prop.
Variable allowed : err -> Prop.
Hypothesis RO : rq_ok rq kvP redP okf allowed.

Notation mrok := (mrok rq kvP redP).
Notation toptree := (toptree rq kvP redP).
Notation run := (run allowed).
Notation okst := (okst okf).
Notation kv := (bytes * bytes)%type.
Let rbind A B x k s Q R := @run_bind E EO rq kvP redP okf allowed RO A B x k s Q R.
Let rpush d m kvs k v s := @run_push_item E EO rq kvP redP okf allowed RO d m kvs k v s.
Let rflush leaf d m kvs s := @run_flush E EO rq kvP redP okf allowed RO leaf d m kvs s.
Let rptrs d ps m kvs ks s := @run_push_ptrs E EO rq kvP redP okf allowed RO d ps m kvs ks s.
Let rtop d m kvs s := @run_top E EO rq kvP redP okf allowed RO d m kvs s.
Definition pushes (l : list kv) (m : mr) : M mr := foldM (fun x m => push_item rq (fst x) (snd x) m) l m.

Lemma mrok_new f : mrok f true 0 new_btree_modres [].
Proof. apply mrok_set_mod. apply (mrok_empty rq kvP redP f true 0). Qed.
Lemma run_pushes l : forall m kvs s, okst s -> mrok (st_f s) true 0 m kvs -> Forall kvP l ->
  run (pushes l m) s (fun m' s' => mrok (st_f s') true 0 m' (kvs ++ l) /\ quiet s s' /\ m_mod m' = m_mod m).
Proof.
  induction l as [|[k v] l IH]; intros m kvs s O Hm Hl; unfold pushes; cbn [foldM].
  - apply run_ret. rewrite app_nil_r. auto using quiet_refl.
  - inversion Hl as [|? ? Hk Hl']; subst. eapply rbind; [exact O|apply ow_push| |apply rpush; [exact O|exact Hm|exact Hk]|].
    { intros. apply ow_foldM. intros. apply ow_push. }
    intros m1 s1 O1 L1 F1 (A1 & A2 & A3). eapply run_weaken; [apply IH; [exact O1|exact A1|exact Hl']|].
    intros m' s' (B1 & B2 & B3). rewrite <- app_assoc in B1. split; [exact B1|]. split; [eapply quiet_trans; eassumption|congruence].
Qed.
Lemma run_complete m kvs s : okst s -> mrok (st_f s) true 0 m kvs -> m_mod m = true ->
  run (complete_new_btree rq m) s (fun r s' => toptree (st_f s') r kvs /\ quiet s s').
Proof.
  intros O Hm Hmod. unfold complete_new_btree.
  eapply rbind; [exact O|apply ow_flush| |apply rflush; [exact O|exact Hm]|].
  { intros. apply ow_bind; [apply ow_move|intros; apply ow_top]. }
  intros m1 s1 O1 L1 F1 (A1 & A2 & A3 & A4 & _). destruct (A4 Hmod) as [A5 _]. destruct (mrok_flushed A1 A5) as (ks & C1 & ->).
  eapply rbind; [exact O1|apply ow_move|intros; apply ow_top| |].
  { unfold move_pointers. apply rptrs with (ks := ks) (d := 0%nat) (kvs := []); [exact O1|apply mrok_set_mod, (mrok_empty rq kvP redP _ false 0)|exact C1]. }
  intros m2 s2 O2 L2 F2 (B1 & B2 & B3 & _). cbn [set_mod m_mod] in B3. cbn [app] in B1.
  eapply run_weaken; [eapply rtop; [exact O2|exact B1|exact B3]|]. intros r s' (D1 & D2). split; [exact D1|].
  eapply quiet_trans; [exact A2|]. eapply quiet_trans; eassumption.
Qed.
Theorem run_bulk l s : okst s -> Forall kvP l ->
  run (let+ m := pushes l new_btree_modres in complete_new_btree rq m) s (fun r s' => toptree (st_f s') r l /\ quiet s s').
Proof.
  intros O Hl. eapply rbind; [exact O|apply ow_foldM; intros; apply ow_push|intros; apply ow_complete|apply run_pushes; [exact O|apply mrok_new|exact Hl]|].
  intros m s1 O1 L1 F1 (A1 & A2 & A3). cbn [app] in A1. eapply run_weaken; [eapply run_complete; [exact O1|exact A1|exact A3]|].
  intros r s' (B1 & B2). split; [exact B1|eapply quiet_trans; eassumption].
Qed.
End WithEnv.
