(** The size of the nodes that the index writer makes. *)
From Verif Require Import Base Codec CodecFacts File FileFacts ChunkFacts Btree TreeStore SpecMap MergeFacts ModifyFacts SpecFile SpecCleanup SpecNode.
From Verif Require DbFacts DataFacts SessionFacts.
Local Open Scope N_scope.
Unset Strict Implicit.

(** ** Lists of sizes *)

Definition tot (l : list N) : N := fold_right N.add 0 l.
Lemma tot_app a b : tot (a ++ b) = tot a + tot b.
Proof. induction a as [|x a IH]; [reflexivity|]. cbn [app tot fold_right]. fold (tot (a ++ b)) (tot a). lia. Qed.
Lemma tot_cons x l : tot (x :: l) = x + tot l. Proof. reflexivity. Qed.
Lemma removelast_snoc A (a : list A) x : removelast (a ++ [x]) = a.
Proof. apply removelast_last. Qed.
Lemma tot_removelast l : tot (removelast l) <= tot l.
Proof. destruct l as [|x l] using rev_ind; [cbn; lia|]. rewrite removelast_snoc, tot_app. lia. Qed.

Definition fitting (T : N) (l : list N) : Prop := (length l <= 3)%nat \/ tot l <= T \/ tot (removelast l) <= T * 2 / 3.
Lemma fitting_drop T a x b : fitting T (a ++ x :: b) -> fitting T (a ++ b).
Proof.
  unfold fitting. rewrite !app_length. cbn [length]. rewrite !tot_app, tot_cons. intros [H|[H|H]]; [left; lia|right; left; lia|].
  right. right. destruct b as [|y b].
  - rewrite removelast_snoc in H. rewrite app_nil_r. pose proof (@tot_removelast a). lia.
  - rewrite removelast_app in H |- * by discriminate. rewrite tot_app in H |- *. change (removelast (x :: y :: b)) with (x :: removelast (y :: b)) in H.
    rewrite tot_cons in H. lia.
Qed.
Lemma fitting_prefix T b : forall a, fitting T (a ++ b) -> fitting T a.
Proof.
  induction b as [|x b IH]; intros a; [now rewrite app_nil_r|]. intros H. apply IH. exact (fitting_drop H).
Qed.
Lemma fitting_skip T a x b : fitting T (a ++ x :: b) -> fitting T (a ++ b).
Proof. apply fitting_drop. Qed.

(** Taking a first part off a list that has grown too large. *)
Lemma fitting_split T l x now later : 2 <= T -> Forall (fun n => 0 < n) l -> fitting T l -> l ++ [x] = now ++ later -> (3 < length (l ++ [x]))%nat ->
  now <> [] -> (later = [] \/ T * 2 / 3 <= tot now) -> fitting T later.
Proof.
  intros HT Hpos HJ He Hc Hn Hq. set (q := T * 2 / 3) in *. assert (Hq2 : T <= 2 * q) by (unfold q; lia).
  destruct Hq as [->|Hq]; [left; cbn; lia|]. destruct later as [|y later _] using rev_ind; [left; cbn; lia|].
  rewrite app_assoc in He. apply app_inj_tail in He. destruct He as [-> <-]. rewrite app_length in Hc. cbn [length] in Hc. 
  destruct HJ as [H|[H|H]].
  - left. rewrite app_length in *. destruct now; [congruence|]. cbn [length] in *. lia.
  - right. right. rewrite removelast_snoc, tot_app in *. fold q. lia.
  - destruct later as [|z later _] using rev_ind; [left; cbn; lia|].
    rewrite app_assoc, removelast_snoc, tot_app in H. fold q in H.
    assert (Hz : tot later = 0) by lia. destruct later as [|w later]; [left; cbn; lia|]. exfalso.
    apply Forall_app in Hpos. destruct Hpos as [_ Hpos]. inv Hpos. rewrite tot_cons in Hz. lia.
Qed.

Definition sizes (l : list item) : list N := map item_size l.
Lemma isum_sizes l : isum l = tot (sizes l).
Proof. induction l as [|i l IH]; [reflexivity|]. rewrite isum_cons, IH. reflexivity. Qed.
Lemma sizes_app a b : sizes (a ++ b) = sizes a ++ sizes b.
Proof. apply map_app. Qed.
Lemma sizes_pos l : Forall (fun n => 0 < n) (sizes l).
Proof. apply Forall_forall. intros n H. apply in_map_iff in H. destruct H as (i & <- & _). pose proof (item_size_pos i). lia. Qed.

(** What goes in a node: at least one entry; all but the last less than the quota, or two entries of an inner node; and the quota is reached if anything is left. *)
Lemma take_items_more kp quota size : forall l used blen cnt now later, take_items kp quota size used blen cnt l = Ok (now, later) ->
  l = now ++ later /\ (later = [] \/ quota <= used + isum now) /\
  (now = [] \/ used + tot (removelast (sizes now)) < quota \/ (kp = true /\ cnt + lenN now <= 2)).
Proof.
  induction l as [|i l IH]; intros used blen cnt now later; cbn [take_items].
  - intros H. inv H. auto.
  - destruct ((used <? quota) || ((cnt <? 2) && kp)) eqn:Ec.
    + destruct (size <? blen + item_size i); [discriminate|]. destruct (take_items kp quota size (used + item_size i) (blen + item_size i) (cnt + 1) l) as [[n1 l1]|] eqn:Ex; [|discriminate]. intros H. cbn [bind fst snd] in H. inv H.
      destruct (IH _ _ _ _ _ Ex) as (-> & A & B). rewrite isum_cons. split; [reflexivity|]. split; [destruct A; [auto|right; lia]|]. right.
      destruct n1 as [|j n1].
      * cbn [sizes map removelast tot fold_right]. rewrite lenN_cons, lenN_nil. apply orb_true_iff in Ec. destruct Ec as [Ec|Ec]; [left; apply N.ltb_lt in Ec; lia|].
        apply andb_true_iff in Ec. destruct Ec as [E1 E2]. apply N.ltb_lt in E1. right. split; [exact E2|lia].
      * destruct B as [B|[B|B]]; [discriminate| |right; rewrite lenN_cons; destruct B; split; [auto|lia]].
        left. change (sizes (i :: j :: n1)) with (item_size i :: sizes (j :: n1)).
        change (removelast (item_size i :: sizes (j :: n1))) with (item_size i :: removelast (sizes (j :: n1))). rewrite tot_cons. lia.
    + intros H. inv H. apply orb_false_iff in Ec. destruct Ec as [E1 _]. apply N.ltb_ge in E1. cbn [app isum fold_right]. split; [reflexivity|]. split; [right; lia|auto].
Qed.

Ltac ows := repeat (intros; first [assumption|apply ow_fail|apply ow_ret|apply ow_lift|apply ow_emit|apply ow_get|apply ow_stop|apply ow_read_node|apply ow_write_node
  |apply ow_flush|apply ow_push|apply ow_move|apply ow_finish_items|apply ow_purge_node|apply ow_purgekv|apply ow_purgekp|apply ow_foldM|apply ow_leaf_loop|apply ow_leaf_entry
  |apply ow_act_missing|apply ow_do_insert|apply ow_do_save|apply ow_do_fetch|apply ow_kp_loop|apply ow_modify_node|apply ow_finish_loop|apply ow_top|apply ow_bind
  |match goal with |- ow (match ?x with _ => _ end) => destruct x end]).
Section WithEnv.
Context {E : Env} (EO : EnvOk E).
Variables kvT kpT : N.
Hypothesis HkvT : 2 <= kvT.
Hypothesis HkpT : 2 <= kpT.

Definition limit (leaf : bool) : N := if leaf then kvT else kpT.

Fixpoint sized (f : file) (d : nat) (p : node_pointer) : Prop :=
  np_pointer p < 2^48 /\ lenN (np_key p) < 2^12 /\ lenN (np_reduce p) < 2^16 /\
  match d with
  | O => exists kvs sz, Forall kv_ok kvs /\ hasz f (np_pointer p) (mk_node KV_NODE kvs) sz /\ fitting kvT (sizes (map kv_item kvs))
  | S d' => exists cs sz, Forall (sized f d') cs /\ hasz f (np_pointer p) (mk_node KP_NODE (map kp_entry cs)) sz /\ fitting kpT (sizes (map ptr_item cs))
  end.

Lemma sized_le f f' : le f f' -> forall d p, sized f d p -> sized f' d p.
Proof.
  intros L. induction d as [|d IH]; intros p (H1 & H2 & H3 & H); (split; [exact H1|]; split; [exact H2|]; split; [exact H3|]).
  - destruct H as (kvs & sz & A1 & A2 & A3). exists kvs, sz. split; [exact A1|]. split; [eapply hasz_le; [exact L|exact A2]|exact A3].
  - destruct H as (cs & sz & A1 & A2 & A3). exists cs, sz. split; [revert A1; apply Forall_impl; exact IH|]. split; [eapply hasz_le; [exact L|exact A2]|exact A3].
Qed.
Lemma sized_keeps f f' : DbFacts.keeps f f' -> forall d p, sized f d p -> sized f' d p.
Proof.
  intros L. assert (Hk : forall q b sz, hasz f q b sz -> hasz f' q b sz).
  { intros q b sz (z & H & Hu & ->). exists z. split; [exact (proj1 L q z H)|]. split; [exact Hu|]. unfold csize. now rewrite (proj2 L). }
  induction d as [|d IH]; intros p (H1 & H2 & H3 & H); (split; [exact H1|]; split; [exact H2|]; split; [exact H3|]).
  - destruct H as (kvs & sz & A1 & A2 & A3). exists kvs, sz. split; [exact A1|]. split; [exact (Hk _ _ _ A2)|exact A3].
  - destruct H as (cs & sz & A1 & A2 & A3). exists cs, sz. split; [revert A1; apply Forall_impl; exact IH|]. split; [exact (Hk _ _ _ A2)|exact A3].
Qed.
Lemma sized_short f d p : sized f d p -> np_pointer p < 2^48 /\ lenN (np_key p) < 2^12 /\ lenN (np_reduce p) < 2^16.
Proof. destruct d; intros (H1 & H2 & H3 & _); auto. Qed.
Lemma sized_norm f d p p' : sized f d p -> np_pointer p' = np_pointer p -> np_reduce p' = np_reduce p -> lenN (np_key p') <= lenN (np_key p) -> sized f d p'.
Proof. destruct d; intros (H1 & H2 & H3 & H) E1 E2 E3; cbn [sized]; rewrite E1, E2; (split; [exact H1|]; split; [lia|]; split; [exact H3|exact H]). Qed.
Lemma sized_kp_ok f d cs : Forall (sized f d) cs -> Forall kv_ok (map kp_entry cs).
Proof.
  intros H. apply Forall_forall. intros x Hx. apply in_map_iff in Hx. destruct Hx as (c & <- & Hc). rewrite Forall_forall in H. apply H, sized_short in Hc.
  split; cbn [kp_entry fst snd]; [tauto|]. rewrite lenN_encode_pointer. change (2^28) with 268435456. change (2^16) with 65536 in Hc. lia.
Qed.

(** ** Running operations; only successful results matter *)

Definition pr {A} (x : M A) (s : st) (Q : A -> st -> Prop) : Prop := forall a s', x s = (Ok a, s') -> fin (st_f s') -> Q a s'.
Lemma pr_ret A (a : A) s (Q : A -> st -> Prop) : Q a s -> pr (ret a) s Q.
Proof. intros H a' s' He _. injection He as <- <-. exact H. Qed.
Lemma pr_fail A e s (Q : A -> st -> Prop) : pr (fail e) s Q.
Proof. intros a' s' He _. discriminate He. Qed.
Lemma pr_lift A (x : res A) s (Q : A -> st -> Prop) : (forall a, x = Ok a -> Q a s) -> pr (lift x) s Q.
Proof. intros H a' s' He _. injection He as H1 <-. auto. Qed.
Lemma pr_weaken A (x : M A) s (Q R : A -> st -> Prop) : pr x s Q -> (forall a s', Q a s' -> R a s') -> pr x s R.
Proof. intros H Hq a s' Hr F. auto. Qed.
Lemma pr_bind A B (x : M A) (k : A -> M B) s Q R : good (st_f s) -> ow x -> (forall a, ow (k a)) -> pr x s Q ->
  (forall a s1, good (st_f s1) -> le (st_f s) (st_f s1) -> Q a s1 -> pr (k a) s1 R) -> pr (bindM x k) s R.
Proof.
  intros G Wx Wk Hx Hk b s' H F. unfold bindM in H. destruct (x s) as [[a|e] s1] eqn:Ex; [|discriminate].
  destruct (Wx _ _ _ Ex) as [l1 W1]. pose proof (writes_le EO G W1) as L1. pose proof (le_good L1) as G1.
  destruct (Wk a _ _ _ H) as [l2 W2]. pose proof (writes_le EO G1 W2) as L2.
  exact (Hk a s1 G1 L1 (Hx a s1 Ex (fin_le L2 F)) b s' H F).
Qed.
Lemma pr_write_node b s : good (st_f s) -> pr (write_node b) s (fun w s' => fst w < 2^48 /\ hasz (st_f s') (fst w) b (snd w)).
Proof.
  intros G w s'. unfold write_node. destruct (db_write_buf_compressed (st_f s) b) as [x f'] eqn:Ew. intros H F. injection H as -> <-.
  cbn [st_f] in F |- *. destruct w as [p sz].
  unfold db_write_buf_compressed in Ew. destruct (compress b) as [z|] eqn:Ez; [|discriminate].
  destruct (db_write_buf_spec EO _ G Ew) as [L Hs]. destruct (Hs _ _ eq_refl) as (H1 & H2 & H3 & H4 & _).
  destruct F as [B F]. cbn [fst snd st_f]. split; [lia|].
  exists z. split; [now apply H3|]. split; [exact (ok_compress EO _ Ez)|]. rewrite H4. unfold csize. destruct L as (X & _). now rewrite (ex_fkey X).
Qed.
Lemma pr_read_node q s : pr (read_node q) s (fun b s' => s' = s /\ b <> [] /\ pread_compressed (st_f s) q = Ok b).
Proof.
  intros b s'. unfold read_node. intros H _. injection H as H <-. destruct (pread_compressed (st_f s) q) as [[|x l]|]; try discriminate. injection H as <-.
  repeat split. discriminate.
Qed.
Lemma hasz_pread f q b sz : good f -> hasz f q b sz -> pread_compressed f q = Ok b.
Proof.
  intros G (z & H & Hu & _). pose proof (has_read EO q z G H) as Hr. unfold pread_bin in Hr. unfold pread_compressed. rewrite Hr. cbn [bind]. now rewrite Hu.
Qed.

(** ** Collected entries; [rest]: the sizes of the entries of the same node that are still to come *)

Definition entry (f : file) (leaf : bool) (d : nat) (i : item) : Prop :=
  if leaf then exists x, i = kv_item x /\ kv_ok x else exists p, i = ptr_item p /\ sized f d p.
Record mz (f : file) (leaf : bool) (d : nat) (m : mr) (rest : list N) : Prop := {
  mz_type : m_type m = ty_of leaf;
  mz_len : m_len m = isum (m_vals m);
  mz_count : m_count m = lenN (m_vals m);
  mz_ptrs : Forall (sized f (lev leaf d)) (m_ptrs m);
  mz_vals : Forall (entry f leaf d) (m_vals m);
  mz_fit : fitting (limit leaf) (if m_mod m then sizes (m_vals m) else sizes (m_vals m) ++ rest)
}.
Lemma entry_le f f' leaf d i : le f f' -> entry f leaf d i -> entry f' leaf d i.
Proof. intros L. destruct leaf; cbn; [auto|]. intros (p & H1 & H2). exists p. split; [exact H1|]. eapply sized_le; eassumption. Qed.
Lemma mz_le f f' leaf d m rest : le f f' -> mz f leaf d m rest -> mz f' leaf d m rest.
Proof.
  intros L [H1 H2 H3 H4 H5 H6]. constructor; auto.
  - revert H4. apply Forall_impl. intros. eapply sized_le; eassumption.
  - revert H5. apply Forall_impl. intros. eapply entry_le; eassumption.
Qed.
Lemma mz_empty f leaf d rest : fitting (limit leaf) rest -> mz f leaf d (make_modres (ty_of leaf)) rest.
Proof. intros H. constructor; cbn; auto. Qed.
Lemma mz_new f leaf d rest : mz f leaf d (set_mod (make_modres (ty_of leaf))) rest.
Proof. constructor; cbn; auto. left. cbn. lia. Qed.
Lemma mz_set_mod f leaf d m rest rest' : mz f leaf d m rest -> mz f leaf d (set_mod m) rest'.
Proof. intros [H1 H2 H3 H4 H5 H6]. constructor; auto. cbn [set_mod m_mod m_vals]. destruct (m_mod m); [exact H6|]. exact (fitting_prefix H6). Qed.
Lemma mz_any f leaf d m rest rest' : m_mod m = true -> mz f leaf d m rest -> mz f leaf d m rest'.
Proof. intros Hm [H1 H2 H3 H4 H5 H6]. constructor; auto. rewrite Hm in *. exact H6. Qed.
Lemma mz_drop f leaf d m n rest : mz f leaf d m (n :: rest) -> mz f leaf d m rest.
Proof. intros [H1 H2 H3 H4 H5 H6]. constructor; auto. destruct (m_mod m); [exact H6|]. exact (fitting_drop H6). Qed.

Lemma entries_leaf f d l : Forall (entry f true d) l -> exists kvs, l = map kv_item kvs /\ Forall kv_ok kvs.
Proof. induction 1 as [|i l (x & -> & Hx) _ (kvs & -> & H)]; [exists []; auto|]. exists (x :: kvs). auto. Qed.
Lemma entries_inner f d l : Forall (entry f false d) l -> exists cs, l = map ptr_item cs /\ Forall (sized f d) cs.
Proof. induction 1 as [|i l (x & -> & Hx) _ (cs & -> & H)]; [exists []; auto|]. exists (x :: cs). auto. Qed.

Variable rq : request.
Hypothesis Hkv : r_kv rq = kvT.
Hypothesis Hkp : r_kp rq = kpT.
Hypothesis Hred : small_reductions rq.

Lemma node_red_short f leaf d now red : Forall (entry f leaf d) now -> node_reduce rq (ty_of leaf) now = Ok red -> lenN red < 2^16.
Proof.
  destruct Hred as [R1 R2]. intros H. unfold node_reduce. destruct leaf; cbn [ty_of].
  - rewrite N.eqb_refl. destruct (r_reduce rq) as [g|] eqn:Eg; [|intros X; inv X; reflexivity]. intros X. exact (R1 _ _ _ eq_refl X).
  - change (KP_NODE =? KV_NODE) with false. rewrite N.eqb_refl. destruct (r_rereduce rq) as [g|] eqn:Eg; [|intros X; inv X; reflexivity].
    intros X. bind_inv X. exact (R2 _ _ _ eq_refl X).
Qed.

Lemma new_sized f leaf d now pos red sub disk dflt : Forall (entry f leaf d) now -> now <> [] -> pos < 2^48 -> node_reduce rq (ty_of leaf) now = Ok red ->
  hasz f pos (mk_node (ty_of leaf) (map kv_of now)) disk -> fitting (limit leaf) (sizes now) ->
  sized f (lev leaf d) (NodePointer (last (map it_key now) dflt) pos red sub).
Proof.
  intros He Hn Hp Hr Hh Hf.
  assert (Hk : lenN (last (map it_key now) dflt) < 2^12).
  { assert (Hm : map it_key now <> []) by (intros Hm; apply map_eq_nil in Hm; congruence).
    pose proof (@last_in _ (map it_key now) dflt Hm) as Hin. apply in_map_iff in Hin. destruct Hin as (i & <- & Hi).
    rewrite Forall_forall in He. apply He in Hi. destruct leaf; destruct Hi as (x & -> & Hx); cbn [kv_item ptr_item it_key].
    - apply Hx.
    - apply sized_short in Hx. tauto. }
  pose proof (node_red_short He Hr) as Hs.
  destruct leaf; cbn [lev sized np_pointer np_key np_reduce]; (split; [exact Hp|]; split; [exact Hk|]; split; [exact Hs|]).
  - destruct (entries_leaf He) as (kvs & -> & Hkv'). exists kvs, disk. split; [exact Hkv'|]. rewrite kv_of_kv in Hh. split; [exact Hh|exact Hf].
  - destruct (entries_inner He) as (cs & -> & Hcs). exists cs, disk. split; [exact Hcs|]. rewrite kv_of_ptr in Hh. split; [exact Hh|exact Hf].
Qed.

(** Flushing with any quota: the node written and what is left. *)
Lemma pr_flush_partial leaf d q m rest s (P : list N -> Prop) : good (st_f s) -> mz (st_f s) leaf d m rest -> (0 < q \/ leaf = false) ->
  (m_mod m = true -> forall now later, m_vals m = now ++ later -> now <> [] -> (later = [] \/ q <= isum now) ->
     (tot (removelast (sizes now)) < q \/ (leaf = false /\ lenN now <= 2)) -> fitting (limit leaf) (sizes now) /\ fitting (limit leaf) (sizes later) /\ P (sizes later)) ->
  pr (flush_mr_partial rq q m) s (fun m' s' => mz (st_f s') leaf d m' rest /\ m_mod m' = m_mod m /\
    (m_mod m = true -> m_vals m <> [] -> P (sizes (m_vals m')))).
Proof.
  intros G Hm Hq Hsplit. unfold flush_mr_partial. destruct (m_vals m) as [|i0 vs] eqn:Hv.
  { apply pr_ret. split; [exact Hm|]. split; [reflexivity|]. congruence. }
  rewrite <- Hv in *. assert (Hvne : m_vals m <> []) by (rewrite Hv; discriminate). clear Hv.
  destruct (m_mod m) eqn:Hmod; cbn [negb].
  2:{ apply pr_ret. split; [exact Hm|]. split; [exact Hmod|discriminate]. }
  destruct Hm as [H1 H2 H3 H4 H5 H6].
  destruct (@take_items_ok (m_type m =? KP_NODE) q (m_vals m) (m_len m + 1) 0 1 0) as (now & later & Et & Es & _ & T2 & _); [lia|].
  rewrite Et. destruct (take_items_more Et) as (_ & T3 & T4). rewrite N.add_0_l in T3, T4.
  apply pr_bind with (Q := fun x s' => x = (now, later) /\ s' = s); [exact G|apply ow_lift| |apply pr_lift; intros a X; inv X; auto|].
  { intros [a b]. apply ow_bind; [apply ow_write_node|]. intros [p z]. apply ow_bind; [apply ow_lift|]. intros. apply ow_ret. }
  intros ? ? _ _ [-> ->].
  assert (Hnow : now <> []).
  { apply T2; [exact Hvne|]. destruct Hq as [Hq|Hq]; [left; exact Hq|right]. split; [lia|]. rewrite H1, Hq. reflexivity. }
  destruct (Hsplit eq_refl now later Es Hnow T3) as (S1 & S2 & S3).
  { destruct T4 as [T4|[T4|[T4 T5]]]; [contradiction|auto|]. right. rewrite H1 in T4. destruct leaf; [discriminate T4|]. split; [reflexivity|lia]. }
  eapply pr_bind; [exact G|apply ow_write_node| |apply pr_write_node; exact G|].
  { intros [p z]. apply ow_bind; [apply ow_lift|]. intros. apply ow_ret. }
  intros [pos disk] s1 G1 L1 (P1 & P2). cbn [fst snd] in P1, P2.
  rewrite H1 in *. rewrite Es in H5. apply Forall_app in H5. destruct H5 as [H5a H5b].
  apply pr_bind with (Q := fun red s' => s' = s1 /\ node_reduce rq (ty_of leaf) now = Ok red);
    [exact G1|apply ow_lift|intros; apply ow_ret|apply pr_lift; auto|].
  intros red s2 _ _ [-> Hr]. apply pr_ret.
  assert (Hlen : m_len m - (lenN (mk_node (ty_of leaf) (map kv_of now)) - 1) = isum later).
  { rewrite lenN_mk_node, H2, Es, isum_app. lia. }
  assert (H5c : Forall (entry (st_f s1) leaf d) now) by (revert H5a; apply Forall_impl; intros; eapply entry_le; eassumption).
  split; [|split; [reflexivity|intros _ _; exact S3]].
  constructor; cbn [m_type m_vals m_ptrs m_len m_count m_mod].
  + reflexivity.
  + exact Hlen.
  + rewrite H3, Es, lenN_app. lia.
  + apply Forall_app. split; [revert H4; apply Forall_impl; intros; eapply sized_le; eassumption|]. constructor; [|constructor].
    unfold last_key. eapply new_sized; eassumption.
  + revert H5b. apply Forall_impl. intros. eapply entry_le; eassumption.
  + exact S2.
Qed.

Lemma pr_flush leaf d m rest s : good (st_f s) -> mz (st_f s) leaf d m rest ->
  pr (flush_mr rq m) s (fun m' s' => mz (st_f s') leaf d m' rest /\ m_mod m' = m_mod m /\ (m_mod m = true -> m_vals m' = [])).
Proof.
  intros G Hm. unfold flush_mr. destruct (m_vals m) as [|i vs] eqn:Hv.
  - unfold flush_mr_partial. rewrite Hv. apply pr_ret. auto.
  - eapply pr_weaken; [apply pr_flush_partial with (leaf := leaf) (d := d) (rest := rest) (P := fun l => l = []); [exact G|exact Hm| |]|].
    + left. rewrite (mz_len Hm), Hv, isum_cons. pose proof (item_size_pos i). lia.
    + intros Hmod now later Es Hn Hq _. pose proof (mz_fit Hm) as Hf. rewrite Hmod in Hf.
      assert (Hl : later = []).
      { destruct Hq as [Hq|Hq]; [exact Hq|]. rewrite (mz_len Hm), Es, isum_app in Hq. destruct later as [|j later]; [reflexivity|].
        rewrite isum_cons in Hq. pose proof (item_size_pos j). lia. }
      subst later. rewrite Es, app_nil_r in Hf. split; [exact Hf|]. split; [left; cbn; lia|reflexivity].
    + intros m' s' (A1 & A2 & A3). split; [exact A1|]. split; [exact A2|]. intros Hmod. apply map_eq_nil with (f := item_size). apply A3; [exact Hmod|]. rewrite Hv. discriminate.
Qed.

Definition rootz (f : file) (r : option node_pointer) : Prop := match r with None => True | Some p => exists d, sized f d p end.

(** ** Updates *)

Section Update.
Hypothesis Hc : r_compact rq = false.

Lemma pr_push leaf d m rest i s : good (st_f s) -> mz (st_f s) leaf d m (item_size i :: rest) -> entry (st_f s) leaf d i ->
  pr (push rq i m) s (fun m' s' => mz (st_f s') leaf d m' rest /\ m_mod m' = m_mod m).
Proof.
  intros G Hm Hi. unfold push. set (m1 := Mr _ _ _ _ _ _). unfold maybe_flush. rewrite Hc.
  assert (Same : (m_mod m = true -> (length (m_vals m1) <= 3)%nat \/ isum (m_vals m1) <= limit leaf) -> mz (st_f s) leaf d m1 rest).
  { intros Hs. destruct Hm as [H1 H2 H3 H4 H5 H6]. constructor; cbn [m1 m_type m_vals m_ptrs m_len m_count m_mod]; auto.
    - rewrite H2, isum_app. cbn. lia.
    - rewrite H3, lenN_app. reflexivity.
    - apply Forall_app. auto.
    - destruct (m_mod m) eqn:Hmod.
      + destruct (Hs eq_refl) as [X|X]; [left; unfold sizes; rewrite map_length; exact X|right; left; rewrite <- isum_sizes; exact X].
      + rewrite sizes_app, <- app_assoc. exact H6. }
  assert (Ret : (m_mod m = true -> (length (m_vals m1) <= 3)%nat \/ isum (m_vals m1) <= limit leaf) -> pr (ret m1) s (fun m' s' => mz (st_f s') leaf d m' rest /\ m_mod m' = m_mod m)).
  { intros Hs. apply pr_ret. split; [now apply Same|reflexivity]. }
  destruct (m_mod m1 && (3 <? m_count m1)) eqn:Hb.
  2:{ apply Ret. intros Hmod. left. change (m_mod m1) with (m_mod m) in Hb. rewrite Hmod in Hb. apply N.ltb_ge in Hb.
      change (m_count m1) with (m_count m + 1) in Hb. rewrite (mz_count Hm) in Hb. cbn [m1 m_vals]. rewrite app_length. cbn [length]. unfold lenN in Hb. lia. }
  apply andb_true_iff in Hb. destruct Hb as [Hmod Hcnt]. apply N.ltb_lt in Hcnt. change (m_mod m1) with (m_mod m) in Hmod.
  assert (Gen : limit leaf < m_len m1 -> (0 < limit leaf * 2 / 3 \/ leaf = false) ->
     pr (flush_mr_partial rq (limit leaf * 2 / 3) m1) s (fun m' s' => mz (st_f s') leaf d m' rest /\ m_mod m' = m_mod m)).
  { intros Hl Hq. pose proof Hm as [H1 H2 H3 H4 H5 H6]. rewrite Hmod in H6.
    assert (HT : 2 <= limit leaf) by (destruct leaf; assumption).
    (* the list with the new entry is split directly; it need not fit itself *)
    assert (W : mz (st_f s) leaf d m1 rest \/ True) by auto. clear W.
    unfold flush_mr_partial. destruct (m_vals m1) as [|i0 vs] eqn:Hv; [cbn [m1 m_vals] in Hv; destruct (m_vals m); discriminate|]. rewrite <- Hv.
    change (m_mod m1) with (m_mod m). rewrite Hmod. cbn [negb].
    assert (L1 : m_len m1 = isum (m_vals m1)) by (cbn [m1 m_vals m_len]; rewrite H2, isum_app; cbn; lia).
    destruct (@take_items_ok (m_type m1 =? KP_NODE) (limit leaf * 2 / 3) (m_vals m1) (m_len m1 + 1) 0 1 0) as (now & later & Et & Es & _ & T2 & _); [lia|].
    rewrite Et. destruct (take_items_more Et) as (_ & T3 & T4). rewrite N.add_0_l in T3, T4. change (m_type m1) with (m_type m) in *. rewrite H1 in *.
    assert (Hnow : now <> []).
    { apply T2; [rewrite Hv; discriminate|]. destruct Hq as [Hq|Hq]; [left; exact Hq|right]. split; [lia|]. rewrite Hq. reflexivity. }
    assert (S1 : fitting (limit leaf) (sizes now)).
    { destruct T4 as [T4|[T4|[_ T4]]]; [contradiction|right; right; lia|left; unfold sizes; rewrite map_length; unfold lenN in T4; lia]. }
    assert (S2 : fitting (limit leaf) (sizes later)).
    { apply (@fitting_split (limit leaf) (sizes (m_vals m)) (item_size i) (sizes now) (sizes later)).
      - exact HT.
      - apply sizes_pos.
      - exact H6.
      - rewrite <- sizes_app, <- Es. cbn [m1 m_vals]. rewrite sizes_app. reflexivity.
      - change (m_count m1) with (m_count m + 1) in Hcnt. rewrite H3 in Hcnt. rewrite app_length. unfold sizes. rewrite map_length. cbn [length]. unfold lenN in Hcnt. lia.
      - intros Hz. apply map_eq_nil in Hz. contradiction.
      - destruct T3 as [->|T3]; [left; reflexivity|right; rewrite <- isum_sizes; exact T3]. }
    apply pr_bind with (Q := fun x s' => x = (now, later) /\ s' = s); [exact G|apply ow_lift| |apply pr_lift; intros a X; inv X; auto|].
    { intros [a b]. apply ow_bind; [apply ow_write_node|]. intros [p z]. apply ow_bind; [apply ow_lift|]. intros. apply ow_ret. }
    intros ? ? _ _ [-> ->].
    eapply pr_bind; [exact G|apply ow_write_node| |apply pr_write_node; exact G|].
    { intros [p z]. apply ow_bind; [apply ow_lift|]. intros. apply ow_ret. }
    intros [pos disk] s1 G1 L2 (P1 & P2). cbn [fst snd] in P1, P2.
    assert (H5' : Forall (entry (st_f s) leaf d) (m_vals m1)) by (cbn [m1 m_vals]; apply Forall_app; auto).
    rewrite Es in H5'. apply Forall_app in H5'. destruct H5' as [H5a H5b].
    apply pr_bind with (Q := fun red s' => s' = s1 /\ node_reduce rq (ty_of leaf) now = Ok red);
      [exact G1|apply ow_lift|intros; apply ow_ret|apply pr_lift; auto|].
    intros red s2 _ _ [-> Hr]. apply pr_ret.
    assert (Hlen : m_len m1 - (lenN (mk_node (ty_of leaf) (map kv_of now)) - 1) = isum later).
    { rewrite lenN_mk_node, L1, Es, isum_app. lia. }
    assert (Hct : m_count m1 - lenN now = lenN later).
    { change (m_count m1) with (m_count m + 1). rewrite H3. replace (lenN (m_vals m) + 1) with (lenN (m_vals m1)) by (cbn [m1 m_vals]; rewrite lenN_app; reflexivity).
      rewrite Es, lenN_app. lia. }
    assert (H5c : Forall (entry (st_f s1) leaf d) now) by (revert H5a; apply Forall_impl; intros; eapply entry_le; eassumption).
    split; [|reflexivity].
    constructor; cbn [m_type m_vals m_ptrs m_len m_count m_mod].
    + reflexivity.
    + exact Hlen.
    + exact Hct.
    + apply Forall_app. split; [cbn [m1 m_ptrs]; revert H4; apply Forall_impl; intros; eapply sized_le; eassumption|]. constructor; [|constructor].
      unfold last_key. eapply new_sized; eassumption.
    + revert H5b. apply Forall_impl. intros. eapply entry_le; eassumption.
    + exact S2. }
  change (m_type m1) with (m_type m). rewrite (mz_type Hm), Hkv, Hkp.
  assert (L1 : m_len m1 = isum (m_vals m1)) by (cbn [m1 m_vals m_len]; rewrite (mz_len Hm), isum_app; cbn; lia).
  destruct leaf; cbn [ty_of limit] in *.
  - rewrite N.eqb_refl. change (KV_NODE =? KP_NODE) with false. cbn [andb]. destruct (N.ltb_spec kvT (m_len m1)) as [Hl|Hl].
    + apply Gen; [exact Hl|left; lia].
    + apply Ret. intros _. right. lia.
  - rewrite N.eqb_refl. change (KP_NODE =? KV_NODE) with false. cbn [andb]. destruct (N.ltb_spec kpT (m_len m1)) as [Hl|Hl].
    + apply Gen; [exact Hl|now right].
    + apply Ret. intros _. right. lia.
Qed.

Lemma pr_push_ptrs d ps : forall m rest s, good (st_f s) -> mz (st_f s) false d m rest -> m_mod m = true -> Forall (sized (st_f s) d) ps ->
  pr (foldM (push_pointerinfo rq) ps m) s (fun m' s' => mz (st_f s') false d m' rest /\ m_mod m' = true).
Proof.
  induction ps as [|p ps IH]; intros m rest s G Hm Hmod Hp; cbn [foldM]; [apply pr_ret; auto|]. inv Hp. rename H1 into Hp1, H2 into Hp2.
  eapply pr_bind; [exact G|apply ow_push|intros; apply ow_foldM; intros; apply ow_push| |].
  - apply pr_push with (leaf := false) (d := d) (rest := rest); [exact G|exact (mz_any (item_size (ptr_item p) :: rest) Hmod Hm)|]. exists p. auto.
  - intros m1 s1 G1 L1 [M1 M2]. apply IH; [exact G1|exact M1|congruence|]. revert Hp2. apply Forall_impl. intros. eapply sized_le; eassumption.
Qed.
Lemma pr_move d src dst rest rest' s : good (st_f s) -> Forall (sized (st_f s) d) (m_ptrs src) -> mz (st_f s) false d dst rest ->
  pr (move_pointers rq src (set_mod dst)) s (fun m' s' => mz (st_f s') false d m' rest').
Proof.
  intros G Hs Hd. eapply pr_weaken; [apply pr_push_ptrs; [exact G|exact (mz_set_mod rest' Hd)|reflexivity|exact Hs]|]. intros a s' [H _]. exact H.
Qed.
Lemma get_en_pr s (Q : bool -> st -> Prop) : (forall b, Q b s) -> pr get_en s Q.
Proof. intros H a s' X _. injection X as <- <-. apply H. Qed.
Lemma pr_emit e s (Q : unit -> st -> Prop) : (forall s', st_f s' = st_f s -> Q tt s') -> pr (emit e) s Q.
Proof. intros H a s' X _. injection X as <- <-. apply H. reflexivity. Qed.
Lemma pr_stop s (Q : unit -> st -> Prop) : (forall s', st_f s' = st_f s -> Q tt s') -> pr stop_purging s Q.
Proof. intros H a s' X _. injection X as <- <-. apply H. reflexivity. Qed.

Definition step (leaf : bool) (d : nat) (x : M mr) (s : st) (rest : list N) : Prop := pr x s (fun m' s' => mz (st_f s') leaf d m' rest).

Lemma pr_purgekv d k v m rest s : good (st_f s) -> kv_ok (k, v) -> mz (st_f s) true d m (item_size (kv_item (k, v)) :: rest) ->
  step true d (maybe_purgekv rq k v m) s rest.
Proof.
  intros G Hk Hm. unfold step, maybe_purgekv.
  assert (Push : forall s', st_f s' = st_f s -> pr (push_item rq k v m) s' (fun m' s'' => mz (st_f s'') true d m' rest)).
  { intros s' Es. eapply pr_weaken; [apply pr_push with (leaf := true) (d := d); rewrite Es; [exact G|exact Hm|exists (k, v); auto]|]. intros a s'' [H _]. exact H. }
  assert (Wa : forall en : bool, ow (match r_purge_kv rq with Some f => if en then lift (f k v) else ret P_KEEP | None => ret P_KEEP end)).
  { intros en. destruct (r_purge_kv rq); [destruct en; [apply ow_lift|apply ow_ret]|apply ow_ret]. }
  assert (Wk : forall act, ow (match act with P_ITEM => let+ _ := emit (EvPurgeKv k v) in ret (set_mod m) | P_STOP => let+ _ := stop_purging in push_item rq k v m
     | P_KEEP => push_item rq k v m | P_PARTIAL => ret m end)).
  { intros []; [apply ow_bind; [apply ow_emit|intros; apply ow_ret]|apply ow_bind; [apply ow_stop|intros; apply ow_push]|apply ow_push|apply ow_ret]. }
  eapply pr_bind with (Q := fun _ s' => s' = s); [exact G|apply ow_get| |apply get_en_pr; reflexivity|].
  { intros en. apply ow_bind; [apply Wa|exact Wk]. }
  intros en ? _ _ ->. eapply pr_bind with (Q := fun _ s' => s' = s); [exact G|apply Wa|exact Wk| |].
  { destruct (r_purge_kv rq); [destruct en; [apply pr_lift; auto|apply pr_ret; reflexivity]|apply pr_ret; reflexivity]. }
  intros act ? _ _ ->. destruct act.
  - eapply pr_bind with (Q := fun _ s' => st_f s' = st_f s); [exact G|apply ow_emit|intros; apply ow_ret|apply pr_emit; auto|].
    intros _ s1 _ _ Es. apply pr_ret. rewrite Es. exact (mz_set_mod rest Hm).
  - eapply pr_bind with (Q := fun _ s' => st_f s' = st_f s); [exact G|apply ow_stop|intros; apply ow_push|apply pr_stop; auto|].
    intros _ s1 _ _ Es. apply Push. exact Es.
  - apply Push. reflexivity.
  - apply pr_ret. exact (mz_drop Hm).
Qed.

Lemma pr_purgekp d pn p m rest s : good (st_f s) -> sized (st_f s) d p -> mz (st_f s) false d m (item_size (ptr_item p) :: rest) ->
  (forall p m, ow (pn p m)) -> pr (pn p m) s (fun m' s' => mz (st_f s') false d m' rest) ->
  step false d (maybe_purgekp rq pn p m) s rest.
Proof.
  intros G Hk Hm Wpn Hpn. unfold step, maybe_purgekp.
  assert (Push : forall s', st_f s' = st_f s -> pr (push_pointerinfo rq p m) s' (fun m' s'' => mz (st_f s'') false d m' rest)).
  { intros s' Es. eapply pr_weaken; [apply pr_push with (leaf := false) (d := d); rewrite Es; [exact G|exact Hm|exists p; auto]|]. intros a s'' [H _]. exact H. }
  assert (Wa : forall en : bool, ow (match r_purge_kp rq with Some f => if en then lift (f p) else ret P_KEEP | None => ret P_KEEP end)).
  { intros en. destruct (r_purge_kp rq); [destruct en; [apply ow_lift|apply ow_ret]|apply ow_ret]. }
  assert (Wk : forall act, ow (match act with P_ITEM => let+ _ := emit (EvPurgeKp p) in ret (set_mod m) | P_PARTIAL => pn p m
     | P_STOP => let+ _ := stop_purging in push_pointerinfo rq p m | P_KEEP => push_pointerinfo rq p m end)).
  { intros []; [apply ow_bind; [apply ow_emit|intros; apply ow_ret]|apply ow_bind; [apply ow_stop|intros; apply ow_push]|apply ow_push|apply Wpn]. }
  eapply pr_bind with (Q := fun _ s' => s' = s); [exact G|apply ow_get| |apply get_en_pr; reflexivity|].
  { intros en. apply ow_bind; [apply Wa|exact Wk]. }
  intros en ? _ _ ->. eapply pr_bind with (Q := fun _ s' => s' = s); [exact G|apply Wa|exact Wk| |].
  { destruct (r_purge_kp rq); [destruct en; [apply pr_lift; auto|apply pr_ret; reflexivity]|apply pr_ret; reflexivity]. }
  intros act ? _ _ ->. destruct act.
  - eapply pr_bind with (Q := fun _ s' => st_f s' = st_f s); [exact G|apply ow_emit|intros; apply ow_ret|apply pr_emit; auto|].
    intros _ s1 _ _ Es. apply pr_ret. rewrite Es. exact (mz_set_mod rest Hm).
  - eapply pr_bind with (Q := fun _ s' => st_f s' = st_f s); [exact G|apply ow_stop|intros; apply ow_push|apply pr_stop; auto|].
    intros _ s1 _ _ Es. apply Push. exact Es.
  - apply Push. reflexivity.
  - exact Hpn.
Qed.

Lemma item_size_norm c : item_size (ptr_item (norm c)) = item_size (ptr_item c).
Proof. unfold item_size, ptr_item, norm. cbn [it_key it_data np_key]. now rewrite !lenN_encode_pointer. Qed.
Lemma read_entry f d c : sized f d c -> read_pointer (fst (kp_entry c)) (snd (kp_entry c)) = Ok (norm c).
Proof. intros T. apply sized_short in T. cbn [kp_entry fst snd]. apply read_encode_pointer; tauto. Qed.
Lemma sized_n f d c : sized f d c -> sized f d (norm c).
Proof. intros H. eapply sized_norm; [exact H|reflexivity|reflexivity|cbn; lia]. Qed.

(** The node at the position of a pointer. *)
Lemma sized_node f d p : good f -> sized f d p ->
  match d with
  | O => exists kvs, Forall kv_ok kvs /\ pread_compressed f (np_pointer p) = Ok (mk_node KV_NODE kvs) /\ node_items (mk_node KV_NODE kvs) = (kvs, TEnd) /\ fitting kvT (sizes (map kv_item kvs))
  | S d' => exists cs, Forall (sized f d') cs /\ pread_compressed f (np_pointer p) = Ok (mk_node KP_NODE (map kp_entry cs)) /\
      node_items (mk_node KP_NODE (map kp_entry cs)) = (map kp_entry cs, TEnd) /\ fitting kpT (sizes (map ptr_item cs))
  end.
Proof.
  intros G. destruct d as [|d]; intros (_ & _ & _ & l & sz & H1 & H2 & H3); exists l; (split; [exact H1|]); (split; [exact (hasz_pread G H2)|]); (split; [|exact H3]).
  - exact (node_items_mk KV_NODE H1).
  - exact (node_items_mk KP_NODE (sized_kp_ok H1)).
Qed.

Lemma pr_purge_leaf d kvs : forall m s, good (st_f s) -> Forall kv_ok kvs -> mz (st_f s) true d m (sizes (map kv_item kvs)) ->
  step true d (foldM (fun kv m => maybe_purgekv rq (fst kv) (snd kv) m) kvs m) s [].
Proof.
  induction kvs as [|[k v] kvs IH]; intros m s G Hk Hm; cbn [foldM]; [apply pr_ret; exact Hm|]. inv Hk. rename H1 into K1, H2 into K2.
  eapply pr_bind; [exact G|apply ow_purgekv|intros; apply ow_foldM; intros; apply ow_purgekv| |].
  - apply pr_purgekv with (d := d) (rest := sizes (map kv_item kvs)); [exact G|exact K1|exact Hm].
  - intros m1 s1 G1 L1 M1. cbv beta in M1. apply IH; [exact G1|exact K2|exact M1].
Qed.

Lemma pr_purge_inner pn d cs : (forall p m, ow (pn p m)) ->
  (forall p m rest s, good (st_f s) -> sized (st_f s) d p -> mz (st_f s) false d m (item_size (ptr_item p) :: rest) -> step false d (pn p m) s rest) ->
  forall m s, good (st_f s) -> Forall (sized (st_f s) d) cs -> mz (st_f s) false d m (sizes (map ptr_item cs)) ->
  step false d (foldM (fun kv m => let+ c := lift (read_pointer (fst kv) (snd kv)) in maybe_purgekp rq pn c m) (map kp_entry cs) m) s [].
Proof.
  intros Wpn Hpn. induction cs as [|c cs IH]; intros m s G Hk Hm; cbn [foldM map]; [apply pr_ret; exact Hm|]. inv Hk. rename H1 into K1, H2 into K2.
  assert (W : forall (kv : bytes * bytes) m, ow (let+ c := lift (read_pointer (fst kv) (snd kv)) in maybe_purgekp rq pn c m))
    by (intros; apply ow_bind; [apply ow_lift|intros; apply ow_purgekp; exact Wpn]).
  eapply pr_bind with (Q := fun m' s' => mz (st_f s') false d m' (sizes (map ptr_item cs))); [exact G|apply W|intros; apply ow_foldM; exact W| |].
  - eapply pr_bind with (Q := fun c' s' => c' = norm c /\ s' = s); [exact G|apply ow_lift|intros; apply ow_purgekp; exact Wpn| |].
    + apply pr_lift. intros a Ha. rewrite (read_entry K1) in Ha. injection Ha as <-. auto.
    + intros ? ? _ _ [-> ->]. cbn [map sizes] in Hm.
      assert (Hm' : mz (st_f s) false d m (item_size (ptr_item (norm c)) :: sizes (map ptr_item cs))) by (rewrite item_size_norm; exact Hm).
      apply pr_purgekp; [exact G|exact (sized_n K1)|exact Hm'|exact Wpn|]. apply Hpn; [exact G|exact (sized_n K1)|exact Hm'].
  - intros m1 s1 G1 L1 M1. cbv beta in M1. apply IH; [exact G1| |exact M1]. revert K2. apply Forall_impl. intros. eapply sized_le; eassumption.
Qed.

Lemma pr_purge_node fuel : forall d p m rest s, good (st_f s) -> sized (st_f s) d p -> mz (st_f s) false d m (item_size (ptr_item p) :: rest) ->
  step false d (purge_node fuel rq p m) s rest.
Proof.
  induction fuel as [|fuel IH]; intros d p m rest s G Hp Hm; [apply pr_fail|]. unfold step.
  cbn [purge_node].
  eapply pr_bind with (Q := fun _ s' => s' = s); [exact G|apply ow_get|ows|apply get_en_pr; reflexivity|]. intros en ? _ _ ->.
  destruct en; cbn [negb].
  2:{ eapply pr_weaken; [apply pr_push with (leaf := false) (d := d) (rest := rest); [exact G|exact (mz_set_mod _ Hm)|exists p; auto]|]. intros a s' [H _]. exact H. }
  eapply pr_bind; [exact G|apply ow_read_node|ows|apply pr_read_node|]. intros buf ? _ _ (-> & Hb & Hr).
  assert (Fin : forall loc s1, good (st_f s1) -> le (st_f s) (st_f s1) -> (exists leaf d', d = lev leaf d' /\ mz (st_f s1) leaf d' loc []) ->
    pr (if m_mod loc then let+ loc' := flush_mr rq loc in move_pointers rq loc' (set_mod m) else ret m) s1 (fun m' s' => mz (st_f s') false d m' rest)).
  { intros loc s1 G1 L1 (leaf & d' & Hd & Hl). destruct (m_mod loc) eqn:Hmod; [|apply pr_ret; eapply mz_le; [exact L1|exact (mz_drop Hm)]].
    eapply pr_bind; [exact G1|apply ow_flush|ows|apply (@pr_flush leaf d' loc [] s1); [exact G1|exact Hl]|].
    intros loc' s2 G2 L2 (A1 & A2 & A3). eapply pr_move with (rest := item_size (ptr_item p) :: rest); [exact G2|rewrite Hd; exact (mz_ptrs A1)|].
    eapply mz_le; [eapply le_trans; [exact L1|exact L2]|exact Hm]. }
  pose proof (sized_node G Hp) as Hn. destruct d as [|d].
  - destruct Hn as (kvs & K1 & K2 & K3 & K4). rewrite Hr in K2. injection K2 as ->. rewrite K3. unfold mk_node at 1. change KV_NODE with 1.
    eapply pr_bind with (Q := fun loc s1 => mz (st_f s1) true O loc []); [exact G|ows|ows| |].
    + eapply pr_bind; [exact G|ows|ows|apply pr_purge_leaf with (d := O); [exact G|exact K1|]|].
      * apply (@mz_empty (st_f s) true O). exact K4.
      * intros m1 s1 _ _ M1. cbv beta in M1. apply pr_ret. exact M1.
    + intros loc s1 G1 L1 M1. cbv beta in M1. apply Fin; [exact G1|exact L1|]. exists true, O. auto.
  - destruct Hn as (cs & K1 & K2 & K3 & K4). rewrite Hr in K2. injection K2 as ->. rewrite K3. unfold mk_node at 1. change KP_NODE with 0.
    eapply pr_bind with (Q := fun loc s1 => mz (st_f s1) false d loc []); [exact G|ows|ows| |].
    + eapply pr_bind; [exact G|ows|ows|apply pr_purge_inner with (d := d); [intros; apply ow_purge_node|exact (IH d)|exact G|exact K1|]|].
      * apply (@mz_empty (st_f s) false d). exact K4.
      * intros m1 s1 _ _ M1. cbv beta in M1. apply pr_ret. exact M1.
    + intros loc s1 G1 L1 M1. cbv beta in M1. apply Fin; [exact G1|exact L1|]. exists false, d. auto.
Qed.

Definition fine (acts : list action) : Prop := Forall (fun a => inserts a = true -> kv_ok (a_key a, a_data a)) acts.

Lemma pr_same A (x : M A) s : (forall r s', x s = (r, s') -> st_f s' = st_f s) -> pr x s (fun _ s' => st_f s' = st_f s).
Proof. intros H a s' X _. exact (H _ _ X). Qed.
Lemma pr_do_fetch a v s : pr (do_fetch rq a v) s (fun _ s' => st_f s' = st_f s).
Proof.
  apply pr_same. intros r s'. unfold do_fetch. destruct (r_fetch rq); intros H; [|injection H as _ <-; reflexivity].
  unfold bindM, emit, lift in H. injection H as _ <-. reflexivity.
Qed.
Lemma pr_do_save a o s : pr (do_save rq a o) s (fun _ s' => st_f s' = st_f s).
Proof.
  apply pr_same. intros r s'. unfold do_save. destruct (r_save rq) as [g|]; intros H; [|injection H as _ <-; reflexivity].
  unfold bindM, emit, lift, ret in H. destruct (g (a_key a) (a_data a)); [|injection H as _ <-; reflexivity].
  destruct o as [v|]; [destruct (g (a_key a) v)|]; injection H as _ <-; reflexivity.
Qed.
Lemma pr_do_insert d a o m rest rest' s : good (st_f s) -> kv_ok (a_key a, a_data a) -> mz (st_f s) true d m rest' -> step true d (do_insert rq a o m) s rest.
Proof.
  intros G Ha Hm. unfold step, do_insert. eapply pr_bind; [exact G|ows|ows| |].
  - apply pr_push with (leaf := true) (d := d) (rest := rest); [exact G|exact (mz_set_mod _ Hm)|]. exists (a_key a, a_data a). auto.
  - intros m1 s1 G1 L1 [M1 _]. eapply pr_bind; [exact G1|ows|ows|apply pr_do_save|]. intros ? s2 _ _ Es. cbv beta in Es. apply pr_ret. rewrite Es. exact M1.
Qed.
Lemma pr_missing d a m rest s : good (st_f s) -> (inserts a = true -> kv_ok (a_key a, a_data a)) -> mz (st_f s) true d m rest ->
  step true d (act_missing rq a m) s rest.
Proof.
  intros G Ha Hm. unfold step, act_missing. unfold inserts in Ha. destruct (a_type a).
  all: try (apply pr_do_insert with (rest' := rest); [exact G|apply Ha; reflexivity|exact Hm]).
  all: try (apply pr_ret; exact (mz_set_mod _ Hm)).
  - eapply pr_bind; [exact G|ows|ows|apply pr_do_fetch|]. intros ? s2 _ _ Es. cbv beta in Es. apply pr_ret. rewrite Es. exact Hm.
  - eapply pr_bind; [exact G|ows|ows|apply pr_do_fetch|]. intros c s2 G2 _ Es. cbv beta in Es. destruct c; [apply pr_ret; rewrite Es; exact Hm|].
    apply pr_do_insert with (rest' := rest); [exact G2|apply Ha; reflexivity|rewrite Es; exact Hm].
Qed.
Lemma pr_missings d acts : forall m rest s, good (st_f s) -> fine acts -> mz (st_f s) true d m rest -> step true d (foldM (act_missing rq) acts m) s rest.
Proof.
  induction acts as [|a acts IH]; intros m rest s G Ha Hm; cbn [foldM]; [apply pr_ret; exact Hm|]. inv Ha. rename H1 into A1, H2 into A2.
  eapply pr_bind; [exact G|ows|ows|apply pr_missing with (d := d) (rest := rest); [exact G|exact A1|exact Hm]|].
  intros m1 s1 G1 _ M1. cbv beta in M1. apply IH; [exact G1|exact A2|exact M1].
Qed.

Lemma pr_leaf_entry d k v acts : forall m rest s, good (st_f s) -> kv_ok (k, v) -> fine acts -> mz (st_f s) true d m (item_size (kv_item (k, v)) :: rest) ->
  pr (leaf_entry rq k v acts m) s (fun x s' => fine (fst x) /\ mz (st_f s') true d (snd x) rest).
Proof.
  induction acts as [|a acts IH]; intros m rest s G Hk Ha Hm; cbn [leaf_entry].
  - eapply pr_bind; [exact G|ows|ows|apply pr_purgekv with (d := d) (rest := rest); [exact G|exact Hk|exact Hm]|].
    intros m1 s1 _ _ M1. apply pr_ret. split; [constructor|exact M1].
  - pose proof Ha as Ha0. inv Ha. rename H1 into A1, H2 into A2.
    assert (Ins : forall s', st_f s' = st_f s -> good (st_f s') -> inserts a = true ->
      pr (let+ m' := do_insert rq a (Some v) m in ret (acts, m')) s' (fun x s'' => fine (fst x) /\ mz (st_f s'') true d (snd x) rest)).
    { intros s' Es G' Hi. eapply pr_bind; [exact G'|ows|ows|apply pr_do_insert with (d := d) (rest := rest) (rest' := item_size (kv_item (k, v)) :: rest); [exact G'|exact (A1 Hi)|rewrite Es; exact Hm]|].
      intros m1 s1 _ _ M1. apply pr_ret. split; [exact A2|exact M1]. }
    destruct (r_cmp rq k (a_key a)).
    + unfold inserts in *. destruct (a_type a) eqn:Et.
      * eapply pr_bind; [exact G|ows|ows|apply pr_do_fetch|]. intros ? s2 G2 _ Es. cbv beta in Es. apply IH; [exact G2|exact Hk|exact A2|rewrite Es; exact Hm].
      * apply pr_ret. split; [exact A2|exact (mz_set_mod _ Hm)].
      * apply Ins; [reflexivity|exact G|reflexivity].
      * eapply pr_bind; [exact G|ows|ows|apply pr_do_fetch|]. intros c s2 G2 _ Es. cbv beta in Es. destruct c.
        -- apply IH; [exact G2|exact Hk|exact A2|rewrite Es; exact Hm].
        -- apply Ins; [exact Es|exact G2|reflexivity].
    + eapply pr_bind; [exact G|ows|ows|apply pr_purgekv with (d := d) (rest := rest); [exact G|exact Hk|exact Hm]|].
      intros m1 s1 _ _ M1. apply pr_ret. split; [exact Ha0|exact M1].
    + eapply pr_bind; [exact G|ows|ows|apply pr_missing with (d := d) (rest := item_size (kv_item (k, v)) :: rest); [exact G|exact A1|exact Hm]|].
      intros m1 s1 G1 _ M1. cbv beta in M1. apply IH; [exact G1|exact Hk|exact A2|exact M1].
Qed.

Lemma pr_leaf_loop d kvs : forall acts m s, good (st_f s) -> Forall kv_ok kvs -> fine acts -> mz (st_f s) true d m (sizes (map kv_item kvs)) ->
  step true d (leaf_loop rq kvs TEnd acts m) s [].
Proof.
  induction kvs as [|[k v] kvs IH]; intros acts m s G Hk Ha Hm; cbn [leaf_loop]; [apply pr_missings; [exact G|exact Ha|exact Hm]|].
  inv Hk. rename H1 into K1, H2 into K2.
  eapply pr_bind; [exact G|ows|ows|apply pr_leaf_entry with (d := d) (rest := sizes (map kv_item kvs)); [exact G|exact K1|exact Ha|exact Hm]|].
  intros x s1 G1 _ [X1 X2]. apply IH; [exact G1|exact K2|exact X1|exact X2].
Qed.

Lemma fine_span k acts here later : span_le (r_cmp rq) k acts = (here, later) -> fine acts -> fine here /\ fine later.
Proof.
  revert here later. induction acts as [|a acts IH]; intros here later H Ha; cbn [span_le] in H; [inv H; auto|].
  inv Ha. rename H2 into A1, H3 into A2. destruct (r_cmp rq (a_key a) k).
  3:{ injection H as <- <-. split; constructor; auto. }
  all: destruct (span_le (r_cmp rq) k acts) as [x y] eqn:Ex; injection H as <- <-; destruct (IH _ _ eq_refl A2) as [X Y]; split; [constructor; auto|exact Y].
Qed.

Lemma pr_kp_loop pn mn d cs : (forall p m, ow (pn p m)) -> (forall p a m, ow (mn p a m)) ->
  (forall p m rest s, good (st_f s) -> sized (st_f s) d p -> mz (st_f s) false d m (item_size (ptr_item p) :: rest) -> step false d (pn p m) s rest) ->
  (forall p acts m rest s, good (st_f s) -> sized (st_f s) d p -> fine acts -> mz (st_f s) false d m (item_size (ptr_item p) :: rest) -> step false d (mn p acts m) s rest) ->
  forall acts m s, good (st_f s) -> Forall (sized (st_f s) d) cs -> fine acts -> mz (st_f s) false d m (sizes (map ptr_item cs)) ->
  step false d (kp_loop rq pn mn (map kp_entry cs) TEnd acts m) s [].
Proof.
  intros Wpn Wmn Hpn Hmn. induction cs as [|c cs IH]; intros acts m s G Hk Ha Hm; cbn [kp_loop map]; [apply pr_ret; exact Hm|]. inv Hk. rename H1 into K1, H2 into K2.
  cbn [map sizes] in Hm.
  assert (Hm' : mz (st_f s) false d m (item_size (ptr_item (norm c)) :: sizes (map ptr_item cs))) by (rewrite item_size_norm; exact Hm).
  assert (Rd : forall B (k : node_pointer -> M B) R, (forall a, ow (k a)) -> pr (k (norm c)) s R -> pr (let+ c' := lift (read_pointer (fst (kp_entry c)) (snd (kp_entry c))) in k c') s R).
  { intros B k R Wk Hk. eapply pr_bind with (Q := fun c' s' => c' = norm c /\ s' = s); [exact G|apply ow_lift|exact Wk| |].
    - apply pr_lift. intros a X. rewrite (read_entry K1) in X. injection X as <-. auto.
    - intros ? ? _ _ [-> ->]. exact Hk. }
  assert (Wkp : forall acts' m', ow (kp_loop rq pn mn (map kp_entry cs) TEnd acts' m')) by (intros; apply ow_kp_loop; assumption).
  assert (Keep : forall acts', fine acts' -> pr (let+ m' := maybe_purgekp rq pn (norm c) m in kp_loop rq pn mn (map kp_entry cs) TEnd acts' m') s (fun m' s' => mz (st_f s') false d m' [])).
  { intros acts' Ha'. eapply pr_bind; [exact G|apply ow_purgekp; exact Wpn|intros; apply Wkp|apply pr_purgekp with (d := d) (rest := sizes (map ptr_item cs)); [exact G|exact (sized_n K1)|exact Hm'|exact Wpn|]|].
    - apply Hpn; [exact G|exact (sized_n K1)|exact Hm'].
    - intros m1 s1 G1 L1 M1. cbv beta in M1. apply IH; [exact G1| |exact Ha'|exact M1]. revert K2. apply Forall_impl. intros. eapply sized_le; eassumption. }
  change (kp_entry c) with (fst (kp_entry c), snd (kp_entry c)). 
  destruct acts as [|a acts].
  { apply Rd; [intros; apply ow_bind; [apply ow_purgekp; exact Wpn|intros; apply Wkp]|]. apply Keep. exact Ha. }
  assert (Go : pr (match r_cmp rq (fst (kp_entry c)) (a_key a) with
      | Lt => let+ c' := lift (read_pointer (fst (kp_entry c)) (snd (kp_entry c))) in let+ m' := maybe_purgekp rq pn c' m in kp_loop rq pn mn (map kp_entry cs) TEnd (a :: acts) m'
      | _ => let '(here, later) := span_le (r_cmp rq) (fst (kp_entry c)) (a :: acts) in
             let+ c' := lift (read_pointer (fst (kp_entry c)) (snd (kp_entry c))) in let+ m' := mn c' here m in kp_loop rq pn mn (map kp_entry cs) TEnd later m'
      end) s (fun m' s' => mz (st_f s') false d m' [])).
  { destruct (r_cmp rq (fst (kp_entry c)) (a_key a)).
    2:{ apply Rd; [intros; apply ow_bind; [apply ow_purgekp; exact Wpn|intros; apply Wkp]|]. apply Keep. exact Ha. }
    all: destruct (span_le (r_cmp rq) (fst (kp_entry c)) (a :: acts)) as [here later] eqn:Es; destruct (fine_span Es Ha) as [F1 F2];
      (apply Rd; [intros; apply ow_bind; [apply Wmn|intros; apply Wkp]|]);
      (eapply pr_bind; [exact G|apply Wmn|intros; apply Wkp|apply Hmn with (rest := sizes (map ptr_item cs)); [exact G|exact (sized_n K1)|exact F1|exact Hm']|]);
      intros m1 s1 G1 L1 M1; cbv beta in M1; (apply IH; [exact G1| |exact F2|exact M1]); revert K2; apply Forall_impl; intros; eapply sized_le; eassumption. }
  destruct (map kp_entry cs) as [|e es] eqn:Hcs.
  - apply map_eq_nil in Hcs. subst cs. cbn [map sizes] in Hm'.
    apply Rd; [intros; apply Wmn|]. apply Hmn; [exact G|exact (sized_n K1)|exact Ha|exact Hm'].
  - destruct e. exact Go.
Qed.

Lemma pr_modify_node fuel : forall d p acts m rest s, good (st_f s) -> sized (st_f s) d p -> fine acts -> mz (st_f s) false d m (item_size (ptr_item p) :: rest) ->
  step false d (modify_node fuel rq (Some p) acts m) s rest.
Proof.
  induction fuel as [|fuel IH]; intros d p acts m rest s G Hp Ha Hm; destruct acts as [|a acts].
  1,3: apply pr_ret; exact (mz_drop Hm).
  { apply pr_fail. }
  unfold step. cbn [modify_node].
  eapply pr_bind; [exact G|apply ow_read_node|ows|apply pr_read_node|]. intros buf ? _ _ (-> & Hb & Hr).
  assert (Fin : forall loc s1, good (st_f s1) -> le (st_f s) (st_f s1) -> (exists leaf d', d = lev leaf d' /\ mz (st_f s1) leaf d' loc []) ->
    pr (let+ loc' := flush_mr rq loc in if negb (m_mod loc') then push_pointerinfo rq p m else move_pointers rq loc' (set_mod m)) s1 (fun m' s' => mz (st_f s') false d m' rest)).
  { intros loc s1 G1 L1 (leaf & d' & Hd & Hl).
    eapply pr_bind; [exact G1|apply ow_flush|ows|apply (@pr_flush leaf d' loc [] s1); [exact G1|exact Hl]|].
    intros loc' s2 G2 L2 (A1 & A2 & A3). assert (L3 : le (st_f s) (st_f s2)) by (eapply le_trans; [exact L1|exact L2]).
    destruct (m_mod loc'); cbn [negb].
    - eapply pr_move with (rest := item_size (ptr_item p) :: rest); [exact G2|rewrite Hd; exact (mz_ptrs A1)|]. eapply mz_le; [exact L3|exact Hm].
    - eapply pr_weaken; [apply pr_push with (leaf := false) (d := d) (rest := rest); [exact G2|eapply mz_le; [exact L3|exact Hm]|]|].
      + exists p. split; [reflexivity|]. eapply sized_le; [exact L3|exact Hp].
      + intros x s' [H _]. exact H. }
  pose proof (sized_node G Hp) as Hn. destruct d as [|d].
  - destruct Hn as (kvs & K1 & K2 & K3 & K4). rewrite Hr in K2. injection K2 as ->. rewrite K3. unfold mk_node at 1. change KV_NODE with 1.
    eapply pr_bind with (Q := fun loc s1 => mz (st_f s1) true O loc []); [exact G|ows|ows| |].
    + apply pr_leaf_loop; [exact G|exact K1|exact Ha|]. apply (@mz_empty (st_f s) true O). exact K4.
    + intros loc s1 G1 L1 M1. cbv beta in M1. apply Fin; [exact G1|exact L1|]. exists true, O. auto.
  - destruct Hn as (cs & K1 & K2 & K3 & K4). rewrite Hr in K2. injection K2 as ->. rewrite K3. unfold mk_node at 1. change KP_NODE with 0.
    eapply pr_bind with (Q := fun loc s1 => mz (st_f s1) false d loc []); [exact G|ows|ows| |].
    + apply pr_kp_loop; [intros; apply ow_purge_node|intros; apply ow_modify_node|intros; now apply pr_purge_node|intros; now apply IH|exact G|exact K1|exact Ha|].
      apply (@mz_empty (st_f s) false d). exact K4.
    + intros loc s1 G1 L1 M1. cbv beta in M1. apply Fin; [exact G1|exact L1|]. exists false, d. auto.
Qed.


Lemma pr_finish fuel : forall d ps s, good (st_f s) -> Forall (sized (st_f s) d) ps -> pr (finish_loop fuel rq ps) s (fun p s' => exists d, sized (st_f s') d p).
Proof.
  induction fuel as [|fuel IH]; intros d ps s G Hp.
  - destruct ps as [|p [|p2 ps]]; [apply pr_fail| |apply pr_fail]. apply pr_ret. inv Hp. exists d. assumption.
  - assert (Go : pr (let+ m := foldM (push_pointerinfo rq) ps (set_mod (make_modres KP_NODE)) in let+ m' := flush_mr rq m in finish_loop fuel rq (m_ptrs m')) s (fun p s' => exists d, sized (st_f s') d p)).
    { eapply pr_bind; [exact G|ows|ows|apply pr_push_ptrs with (d := d) (rest := []); [exact G|apply (@mz_new (st_f s) false d [])|reflexivity|exact Hp]|].
      intros m s1 G1 L1 [M1 _]. eapply pr_bind; [exact G1|ows|ows|apply (@pr_flush false d m [] s1); [exact G1|exact M1]|].
      intros m' s2 G2 L2 (A1 & _). apply (IH (S d)); [exact G2|exact (mz_ptrs A1)]. }
    destruct ps as [|p [|p2 ps]]; [exact Go| |exact Go]. apply pr_ret. inv Hp. exists d. assumption.
Qed.
Lemma pr_top d m s : good (st_f s) -> mz (st_f s) false d m [] -> m_mod m = true -> pr (top_pointer rq m) s (fun r s' => rootz (st_f s') r).
Proof.
  intros G Hm Hmod. unfold top_pointer. destruct ((1 <? m_count m) || _).
  - unfold finish_root. eapply pr_bind; [exact G|ows|ows| |].
    + eapply pr_bind; [exact G|ows|ows|apply (@pr_flush false d m [] s); [exact G|exact Hm]|].
      intros m' s2 G2 L2 (A1 & _). apply (@pr_finish _ (S d)); [exact G2|exact (mz_ptrs A1)].
    + intros p s1 _ _ Hp. apply pr_ret. exact Hp.
  - apply pr_ret. destruct (entries_inner (mz_vals Hm)) as (cs & -> & Hcs). destruct cs as [|c cs _] using rev_ind; [exact I|].
    rewrite !map_app. cbn [map]. rewrite last_last. cbn [ptr_item it_ptr]. apply Forall_app in Hcs. destruct Hcs as [_ Hcs]. inv Hcs. exists d. assumption.
Qed.
Lemma pr_modify root acts s : good (st_f s) -> rootz (st_f s) root -> fine acts -> pr (modify_btree rq root acts) s (fun r s' => rootz (st_f s') r).
Proof.
  intros G Hr Ha.
  assert (X : pr (let+ m := modify_node (depth_fuel (st_f s)) rq root acts (make_modres KP_NODE) in if m_mod m then top_pointer rq m else ret root) s (fun r s' => rootz (st_f s') r)).
  { destruct root as [p|].
    - destruct Hr as [d Hp]. eapply pr_bind; [exact G|ows|ows|apply pr_modify_node with (d := d) (rest := []); [exact G|exact Hp|exact Ha|]|].
      + apply (@mz_empty (st_f s) false d). left. cbn. lia.
      + intros m s1 G1 L1 M1. cbv beta in M1. destruct (m_mod m) eqn:Hmod; [apply (@pr_top d); [exact G1|exact M1|exact Hmod]|].
        apply pr_ret. exists d. eapply sized_le; [exact L1|exact Hp].
    - eapply pr_bind with (Q := fun m s' => mz (st_f s') false O m []); [exact G|ows|ows| |].
      + unfold depth_fuel. destruct acts as [|a acts]; [apply pr_ret; apply (@mz_empty (st_f s) false O); left; cbn; lia|]. cbn [modify_node].
        eapply pr_bind; [exact G|ows|ows|apply pr_leaf_loop with (d := O); [exact G|constructor|exact Ha|]|].
        * apply (@mz_empty (st_f s) true O). left. cbn. lia.
        * intros loc s1 G1 L1 M1. cbv beta in M1. eapply pr_bind; [exact G1|ows|ows|apply (@pr_flush true O loc [] s1); [exact G1|exact M1]|].
          intros loc' s2 G2 L2 (A1 & _). eapply pr_move with (rest := []); [exact G2|exact (mz_ptrs A1)|]. apply (@mz_empty (st_f s2) false O). left. cbn. lia.
      + intros m s1 G1 L1 M1. cbv beta in M1. destruct (m_mod m) eqn:Hmod; [apply (@pr_top O); [exact G1|exact M1|exact Hmod]|]. apply pr_ret. exact I. }
  exact X.
Qed.
Lemma pr_purge root s : good (st_f s) -> rootz (st_f s) root -> pr (guided_purge_btree rq root) s (fun r s' => rootz (st_f s') r).
Proof.
  intros G Hr. destruct root as [p|]; [|intros r s' H _; injection H as <- <-; exact I].
  set (s0 := St (st_f s) (st_ev s) true). destruct Hr as [d Hp].
  assert (X : pr (let+ m := purge_node (depth_fuel (st_f s0)) rq p (make_modres KP_NODE) in ret (if m_mod m then last (map it_ptr (m_vals m)) None else Some p)) s0 (fun r s' => rootz (st_f s') r)).
  { eapply pr_bind; [exact G|ows|ows|apply pr_purge_node with (d := d) (rest := []); [exact G|exact Hp|]|].
    - apply (@mz_empty (st_f s) false d). left. cbn. lia.
    - intros m s1 G1 L1 M1. cbv beta in M1. apply pr_ret. destruct (m_mod m); [|exists d; eapply sized_le; [exact L1|exact Hp]].
      destruct (entries_inner (mz_vals M1)) as (cs & -> & Hcs). destruct cs as [|c cs _] using rev_ind; [exact I|].
      rewrite !map_app. cbn [map]. rewrite last_last. cbn [ptr_item it_ptr]. apply Forall_app in Hcs. destruct Hcs as [_ Hcs]. inv Hcs. exists d. assumption. }
  exact X.
Qed.
End Update.

(** ** Bulk building *)

Section Build.
Hypothesis Hc : r_compact rq = true.

Definition small (leaf : bool) (m : mr) : Prop := isum (m_vals m) <= limit leaf * 2 / 3 \/ (leaf = false /\ lenN (m_vals m) <= 1).

Lemma pr_pushc leaf d m i s : good (st_f s) -> mz (st_f s) leaf d m [] -> m_mod m = true -> small leaf m -> entry (st_f s) leaf d i ->
  pr (push rq i m) s (fun m' s' => mz (st_f s') leaf d m' [] /\ m_mod m' = true /\ small leaf m').
Proof.
  intros G Hm Hmod Hs Hi. unfold push. set (m1 := Mr _ _ _ _ _ _). unfold maybe_flush. rewrite Hc. change (m_mod m1) with (m_mod m). rewrite Hmod. cbn [andb].
  assert (L1 : m_len m1 = isum (m_vals m1)) by (cbn [m1 m_vals m_len]; rewrite (mz_len Hm), isum_app; cbn; lia).
  assert (C1 : m_count m1 = lenN (m_vals m1)) by (cbn [m1 m_vals m_count]; rewrite (mz_count Hm), lenN_app; reflexivity).
  assert (M1 : mz (st_f s) leaf d m1 []).
  { destruct Hm as [H1 H2 H3 H4 H5 H6]. constructor; auto.
    - cbn [m1 m_vals]. apply Forall_app. auto.
    - change (m_mod m1) with (m_mod m). rewrite Hmod. cbn [m1 m_vals]. rewrite sizes_app. destruct Hs as [Hs|[-> Hs]].
      + right. right. change (sizes [i]) with [item_size i]. rewrite removelast_last, <- isum_sizes. exact Hs.
      + left. rewrite app_length. unfold sizes. rewrite !map_length. cbn [length]. unfold lenN in Hs. lia. }
  assert (Fl : pr (flush_mr rq m1) s (fun m' s' => mz (st_f s') leaf d m' [] /\ m_mod m' = true /\ small leaf m')).
  { eapply pr_weaken; [apply (@pr_flush leaf d m1 [] s); [exact G|exact M1]|]. intros m' s' (A1 & A2 & A3).
    split; [exact A1|]. split; [rewrite A2; exact Hmod|]. left. rewrite (A3 Hmod). cbn. lia. }
  change (m_type m1) with (m_type m). rewrite (mz_type Hm), Hkv, Hkp. destruct leaf; cbn [ty_of limit] in *.
  - rewrite N.eqb_refl. change (KV_NODE =? KP_NODE) with false. cbn [andb orb]. rewrite orb_false_r. destruct (N.ltb_spec (kvT * 2 / 3) (m_len m1)) as [Hl|Hl]; [exact Fl|].
    apply pr_ret. split; [exact M1|]. split; [exact Hmod|]. left. cbn [limit]. lia.
  - rewrite N.eqb_refl. change (KP_NODE =? KV_NODE) with false. cbn [andb orb].
    destruct (N.ltb_spec (kpT * 2 / 3) (m_len m1)) as [Hl|Hl]; cbn [andb].
    + destruct (N.ltb_spec 1 (m_count m1)) as [Hn|Hn]; [exact Fl|]. apply pr_ret. split; [exact M1|]. split; [exact Hmod|]. right. split; [reflexivity|lia].
    + apply pr_ret. split; [exact M1|]. split; [exact Hmod|]. left. cbn [limit]. lia.
Qed.
Lemma small_new leaf : small leaf (set_mod (make_modres (ty_of leaf))).
Proof. left. cbn. lia. Qed.
Lemma pr_push_ptrsc d ps : forall m s, good (st_f s) -> mz (st_f s) false d m [] -> m_mod m = true -> small false m -> Forall (sized (st_f s) d) ps ->
  pr (foldM (push_pointerinfo rq) ps m) s (fun m' s' => mz (st_f s') false d m' [] /\ m_mod m' = true).
Proof.
  induction ps as [|p ps IH]; intros m s G Hm Hmod Hs Hp; cbn [foldM]; [apply pr_ret; auto|]. inv Hp. rename H1 into Hp1, H2 into Hp2.
  eapply pr_bind; [exact G|apply ow_push|intros; apply ow_foldM; intros; apply ow_push| |].
  - apply pr_pushc with (leaf := false) (d := d); [exact G|exact Hm|exact Hmod|exact Hs|]. exists p. auto.
  - intros m1 s1 G1 L1 (M1 & M2 & M3). apply IH; [exact G1|exact M1|exact M2|exact M3|]. revert Hp2. apply Forall_impl. intros. eapply sized_le; eassumption.
Qed.
Lemma pr_push_kvs d items : forall m s, good (st_f s) -> mz (st_f s) true d m [] -> m_mod m = true -> small true m -> Forall kv_ok items ->
  pr (foldM (fun x m => push_item rq (fst x) (snd x) m) items m) s (fun m' s' => mz (st_f s') true d m' [] /\ m_mod m' = true).
Proof.
  induction items as [|[k v] items IH]; intros m s G Hm Hmod Hs Hp; cbn [foldM]; [apply pr_ret; auto|]. inv Hp. rename H1 into Hp1, H2 into Hp2.
  eapply pr_bind; [exact G|apply ow_push|intros; apply ow_foldM; intros; apply ow_push| |].
  - apply pr_pushc with (leaf := true) (d := d); [exact G|exact Hm|exact Hmod|exact Hs|]. exists (k, v). auto.
  - intros m1 s1 G1 L1 (M1 & M2 & M3). apply IH; [exact G1|exact M1|exact M2|exact M3|exact Hp2].
Qed.
Lemma pr_finishc fuel : forall d ps s, good (st_f s) -> Forall (sized (st_f s) d) ps -> pr (finish_loop fuel rq ps) s (fun p s' => exists d, sized (st_f s') d p).
Proof.
  induction fuel as [|fuel IH]; intros d ps s G Hp.
  - destruct ps as [|p [|p2 ps]]; [apply pr_fail| |apply pr_fail]. apply pr_ret. inv Hp. exists d. assumption.
  - assert (Go : pr (let+ m := foldM (push_pointerinfo rq) ps (set_mod (make_modres KP_NODE)) in let+ m' := flush_mr rq m in finish_loop fuel rq (m_ptrs m')) s (fun p s' => exists d, sized (st_f s') d p)).
    { eapply pr_bind; [exact G|ows|ows|apply pr_push_ptrsc with (d := d); [exact G|apply (@mz_new (st_f s) false d [])|reflexivity|apply (small_new false)|exact Hp]|].
      intros m s1 G1 L1 [M1 _]. eapply pr_bind; [exact G1|ows|ows|apply (@pr_flush false d m [] s1); [exact G1|exact M1]|].
      intros m' s2 G2 L2 (A1 & _). apply (IH (S d)); [exact G2|exact (mz_ptrs A1)]. }
    destruct ps as [|p [|p2 ps]]; [exact Go| |exact Go]. apply pr_ret. inv Hp. exists d. assumption.
Qed.
Lemma pr_topc d m s : good (st_f s) -> mz (st_f s) false d m [] -> m_mod m = true -> pr (top_pointer rq m) s (fun r s' => rootz (st_f s') r).
Proof.
  intros G Hm Hmod. unfold top_pointer. destruct ((1 <? m_count m) || _).
  - unfold finish_root. eapply pr_bind; [exact G|ows|ows| |].
    + eapply pr_bind; [exact G|ows|ows|apply (@pr_flush false d m [] s); [exact G|exact Hm]|].
      intros m' s2 G2 L2 (A1 & _). apply (@pr_finishc _ (S d)); [exact G2|exact (mz_ptrs A1)].
    + intros p s1 _ _ Hp. apply pr_ret. exact Hp.
  - apply pr_ret. destruct (entries_inner (mz_vals Hm)) as (cs & -> & Hcs). destruct cs as [|c cs _] using rev_ind; [exact I|].
    rewrite !map_app. cbn [map]. rewrite last_last. cbn [ptr_item it_ptr]. apply Forall_app in Hcs. destruct Hcs as [_ Hcs]. inv Hcs. exists d. assumption.
Qed.
Lemma pr_build items s : good (st_f s) -> Forall kv_ok items ->
  pr (bindM (foldM (fun x m => push_item rq (fst x) (snd x) m) items new_btree_modres) (complete_new_btree rq)) s (fun r s' => rootz (st_f s') r).
Proof.
  intros G Hi. eapply pr_bind; [exact G|ows|intros; apply ow_complete|apply pr_push_kvs with (d := O); [exact G|apply (@mz_new (st_f s) true O [])|reflexivity|apply (small_new true)|exact Hi]|].
  intros m s1 G1 L1 [M1 M2]. unfold complete_new_btree. eapply pr_bind; [exact G1|ows|ows|apply (@pr_flush true O m [] s1); [exact G1|exact M1]|].
  intros m1 s2 G2 L2 (A1 & _). eapply pr_bind; [exact G2|ows|ows|apply pr_push_ptrsc with (d := O); [exact G2|apply (@mz_new (st_f s2) false O [])|reflexivity|apply (small_new false)|exact (mz_ptrs A1)]|].
  intros m2 s3 G3 _ [B1 B2]. apply (@pr_topc O); assumption.
Qed.
End Build.
End WithEnv.

(** ** All operations *)

Section Grown.
Context {E : Env} (EO : EnvOk E).

Lemma grown_good kv kp f root : grown kv kp f root -> good f.
Proof.
  induction 1 as [g gsz pl m k H|f root f' _ IH A|f p p' _ IH|rq f root acts ev en root' s' _ IH _ _ _ _ _ H|rq f root ev en root' s' _ IH _ _ _ _ H
    |rq f root items ev en root' s' _ IH _ _ _ _ _ H].
  - apply DataFacts.opened_on_good. exact H.
  - exact (proj1 (DataFacts.appends_good EO A IH)).
  - exact IH.
  - destruct (@ow_modify E rq root acts _ _ _ H) as [l W]. exact (le_good (writes_le EO IH W)).
  - destruct (@ow_purge E rq root _ _ _ H) as [l W]. exact (le_good (writes_le EO IH W)).
  - assert (W : ow (bindM (foldM (fun x m => push_item rq (fst x) (snd x) m) items new_btree_modres) (complete_new_btree rq)))
      by (apply ow_bind; [apply ow_foldM; intros; apply ow_push|intros; apply ow_complete]).
    destruct (W _ _ _ H) as [l W']. exact (le_good (writes_le EO IH W')).
Qed.

Lemma grown_rootz kv kp f root : 2 <= kv -> 2 <= kp -> grown kv kp f root -> fin f -> rootz kv kp f root.
Proof.
  intros Hkv Hkp. induction 1 as [g gsz pl m k H|f root f' Hg IH A|f p p' Hg IH E1 E2 E3|rq f root acts ev en root' s' Hg IH K1 K2 K3 K4 K5 H|rq f root ev en root' s' Hg IH K1 K2 K3 K4 H
    |rq f root items ev en root' s' Hg IH K1 K2 K3 K4 K5 H]; intros F.
  - exact I.
  - pose proof (grown_good Hg) as G. destruct (DataFacts.appends_good EO A G) as (_ & Hf & _). destruct (SessionFacts.appends_mono EO A G) as [_ Hb]. destruct F as [F1 F2].
    assert (F0 : fin f) by (split; [exact (Hb F1)|lia]). specialize (IH F0). destruct root as [p|]; [|exact I]. destruct IH as [d Hd]. exists d.
    eapply sized_keeps; [exact (SessionFacts.appends_keeps EO G A)|exact Hd].
  - destruct (IH F) as [d Hd]. exists d. eapply sized_norm; [exact Hkv|exact Hkp|exact Hd|exact E1|exact E2|]. rewrite E3, lenN_nil. lia.
  - pose proof (grown_good Hg) as G. destruct (@ow_modify E rq root acts _ _ _ H) as [l W]. pose proof (writes_le EO G W) as L. specialize (IH (fin_le L F)).
    exact (@pr_modify E EO kv kp Hkv Hkp rq K1 K2 K4 K3 root acts (St f ev en) G IH K5 root' s' H F).
  - pose proof (grown_good Hg) as G. destruct (@ow_purge E rq root _ _ _ H) as [l W]. pose proof (writes_le EO G W) as L. specialize (IH (fin_le L F)).
    exact (@pr_purge E EO kv kp Hkv Hkp rq K1 K2 K4 K3 root (St f ev en) G IH root' s' H F).
  - pose proof (grown_good Hg) as G. exact (@pr_build E EO kv kp Hkv Hkp rq K1 K2 K4 K3 items (St f ev en) G K5 root' s' H F).
Qed.

Lemma fitting_within T l : fitting T (map entry_size l) -> within T l.
Proof.
  assert (Hs : forall l, tot (map entry_size l) = sum_of entry_size l) by (induction l0 as [|x l0 IH]; [reflexivity|]; unfold sum_of; cbn [map tot fold_right]; unfold tot, sum_of in IH; now rewrite IH).
  assert (Hr : forall l, removelast (map entry_size l) = map entry_size (removelast l)).
  { induction l0 as [|x [|y l0] IH]; [reflexivity|reflexivity|]. cbn [map removelast] in *. now rewrite IH. }
  intros [H|[H|H]].
  - left. now rewrite map_length in H.
  - right. destruct l as [|x l _] using rev_ind; [cbn; lia|]. rewrite removelast_last. rewrite map_app, tot_app in H. rewrite Hs in H. lia.
  - right. rewrite Hr, Hs in H. lia.
Qed.
Lemma sized_within kv kp f : 2 <= kv -> 2 <= kp -> good f -> forall d p, sized kv kp f d p -> nodes_within kv kp f d (np_pointer p).
Proof.
  intros Hkv Hkp G. induction d as [|d IH]; intros p (H1 & H2 & H3 & H).
  - destruct H as (kvs & sz & A1 & A2 & A3). exists (mk_node KV_NODE kvs), kvs. split; [exact (hasz_pread EO G A2)|]. split; [reflexivity|]. split; [exact (node_items_mk KV_NODE A1)|].
    apply fitting_within. unfold sizes in A3. rewrite map_map in A3. exact A3.
  - destruct H as (cs & sz & A1 & A2 & A3). exists (mk_node KP_NODE (map kp_entry cs)), (map kp_entry cs), (map norm cs).
    split; [exact (hasz_pread EO G A2)|]. split; [reflexivity|]. split; [apply (node_items_mk KP_NODE); exact (@sized_kp_ok E kv kp Hkv Hkp f d cs A1)|]. split; [|split].
    + clear A2 A3. induction A1 as [|c cs Hc _ IHc]; constructor; [|exact IHc]. eapply read_entry; eassumption.
    + apply Forall_forall. intros c Hc. apply in_map_iff in Hc. destruct Hc as (c0 & <- & Hc). change (np_pointer (norm c0)) with (np_pointer c0). apply IH.
      exact (proj1 (Forall_forall _ _) A1 c0 Hc).
    + apply fitting_within. unfold sizes in A3. rewrite map_map in *. exact A3.
Qed.
End Grown.
