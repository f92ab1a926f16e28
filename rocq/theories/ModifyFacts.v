(** Correctness of the index writer: a batch of actions on a stored index gives a stored index with the merged
    entries. *)
From Verif Require Import Base Codec CodecFacts File FileFacts ChunkFacts Btree TreeStore SpecMap MergeFacts.
Local Open Scope N_scope.

(** ** Lists of list elements *)

Definition isum (l : list item) : N := fold_right (fun i a => item_size i + a) 0 l.
Lemma isum_app a b : isum (a ++ b) = isum a + isum b.
Proof. induction a as [|i a IH]; cbn [app isum fold_right]; [unfold isum; lia|]. fold (isum (a ++ b)) (isum a). lia. Qed.
Lemma isum_cons i l : isum (i :: l) = item_size i + isum l.
Proof. reflexivity. Qed.
Lemma item_size_pos i : 5 <= item_size i.
Proof. unfold item_size. lia. Qed.

Lemma take_items_ok kp quota l : forall size used blen cnt, blen + isum l <= size ->
  exists now later, take_items kp quota size used blen cnt l = Ok (now, later) /\ l = now ++ later /\
    (used + isum l <= quota -> later = []) /\
    (l <> [] -> used < quota \/ (cnt < 2 /\ kp = true) -> now <> []) /\
    (kp = true -> later <> [] -> 2 <= cnt + lenN now).
Proof.
  induction l as [|i l IH]; intros size used blen cnt Hs; cbn [take_items].
  - exists [], []. repeat split; auto; try congruence.
  - rewrite isum_cons in *. pose proof (item_size_pos i) as Hi. 
    destruct ((used <? quota) || ((cnt <? 2) && kp)) eqn:Ec.
    + destruct (N.ltb_spec size (blen + item_size i)); [lia|].
      destruct (IH size (used + item_size i) (blen + item_size i) (cnt + 1)) as (now & later & -> & -> & H1 & H2 & H3); [lia|].
      cbn [bind fst snd]. exists (i :: now), later. split; [reflexivity|]. split; [reflexivity|]. split; [|split].
      * intros Hq. apply H1. lia.
      * intros _ _. discriminate.
      * intros Hk Hl. specialize (H3 Hk Hl). rewrite lenN_cons. lia.
    + exists [], (i :: l). split; [reflexivity|]. split; [reflexivity|]. apply orb_false_iff in Ec. destruct Ec as [E1 E2].
      apply N.ltb_ge in E1. split; [|split].
      * lia.
      * intros _ [H|[H Hk]]; [lia|]. apply N.ltb_lt in H. rewrite H, Hk in E2. discriminate.
      * intros Hk _. rewrite Hk, andb_true_r in E2. apply N.ltb_ge in E2. cbn. lia.
Qed.

Lemma lenN_mk_node ty l : lenN (mk_node ty (map kv_of l)) = 1 + isum l.
Proof.
  unfold mk_node. rewrite lenN_cons. f_equal. induction l as [|i l IH]; [reflexivity|]. cbn [map flat_map].
  rewrite lenN_app, lenN_write_kv, IH, isum_cons. unfold item_size. cbn [kv_of fst snd]. lia.
Qed.

Definition kp_entry (c : node_pointer) : kv := (np_key c, encode_pointer c).
Definition psum (cs : list node_pointer) : N := fold_right (fun c a => np_subtree c + a) 0 cs.
Lemma kv_of_kv l : map kv_of (map kv_item l) = l.
Proof. rewrite map_map. rewrite <- (map_id l) at 2. apply map_ext. now intros [k v]. Qed.
Lemma kv_of_ptr cs : map kv_of (map ptr_item cs) = map kp_entry cs.
Proof. rewrite map_map. apply map_ext. reflexivity. Qed.
Lemma reduce_vals_ptr cs : reduce_vals (map ptr_item cs) = Ok (map np_reduce cs).
Proof. induction cs as [|c cs IH]; cbn [map reduce_vals ptr_item it_ptr]; [reflexivity|]. rewrite IH. reflexivity. Qed.
Lemma sub_sum_ptr cs : sub_sum (map ptr_item cs) = psum cs.
Proof. induction cs as [|c cs IH]; [reflexivity|]. cbn [map sub_sum ptr_item it_ptr psum fold_right]. fold (psum cs). rewrite <- IH. reflexivity. Qed.
Lemma sub_sum_kv l : sub_sum (map kv_item l) = 0.
Proof. induction l as [|c cs IH]; cbn; auto. Qed.

Lemma last_map A B (g : A -> B) l d : last (map g l) (g d) = g (last l d).
Proof. induction l as [|a l IH]; [reflexivity|]. destruct l; [reflexivity|]. exact IH. Qed.
Lemma last_app A (a b : list A) d : b <> [] -> last (a ++ b) d = last b d.
Proof.
  intros H. induction a as [|x a IH]; [reflexivity|]. cbn [app]. destruct (a ++ b) as [|y l] eqn:Hl.
  - apply app_eq_nil in Hl. tauto.
  - rewrite <- IH. reflexivity.
Qed.
Lemma last_indep A (l : list A) d d' : l <> [] -> last l d = last l d'.
Proof. induction l as [|a l IH]; [congruence|]. intros _. destruct l; [reflexivity|]. apply IH. discriminate. Qed.
Lemma last_in A (l : list A) d : l <> [] -> In (last l d) l.
Proof. induction l as [|a l IH]; [congruence|]. intros _. destruct l; [now left|]. right. apply IH. discriminate. Qed.

Section WithEnv.
Context {E : Env} (EO : EnvOk E).
Variable rq : request.
(** What is known of the entries and of the reduce values. *)
Variable kvP : kv -> Prop.
Variable redP : bytes -> Prop.
(** Condition on the file under which the errors of writing are [allowed] ones. *)
Variable okf : file -> Prop.
Variable allowed : err -> Prop.

Definition fin (f : file) : Prop := big f = false /\ fpos f <= 2^48.

Definition leaf_red (kvs : list kv) : res bytes := match r_reduce rq with Some g => g kvs | None => Ok [] end.
Definition inner_red (rs : list bytes) : res bytes := match r_rereduce rq with Some g => g rs | None => Ok [] end.

Record rq_ok : Prop := {
  ro_kv : r_compact rq = true \/ 2 <= r_kv rq;
  ro_kvP : forall x, kvP x -> kv_ok x;
  ro_redP : forall r, redP r -> lenN r < 2^16;
  ro_red : forall kvs, kvs <> [] -> Forall kvP kvs -> match leaf_red kvs with Ok r => redP r | Err e => allowed e end;
  ro_rered : forall rs, rs <> [] -> Forall redP rs -> match inner_red rs with Ok r => redP r | Err e => allowed e end;
  ro_fetch : forall g a v e, r_fetch rq = Some g -> (forall x, v = Some x -> exists k', kvP (k', x)) -> g a v = Err e -> allowed e;
  ro_save : forall g k k' v e, r_save rq = Some g -> kvP (k', v) -> g k v = Err e -> allowed e;
  ro_okf : forall f b r f', okf f -> good f -> db_write_buf f b = (r, f') -> okf f';
  ro_write : forall f b e f', okf f -> good f -> db_write_buf_compressed f b = (Err e, f') -> fin f' -> allowed e
}.
Hypothesis RO : rq_ok.

(** ** Stored trees *)

Definition csize (f : file) (n : N) : N := match fkey f with None => 8 + n | Some _ => 4 + mac_size + n end.
Definition hasz (f : file) (q : N) (b : bytes) (sz : N) : Prop :=
  exists z, has f q z /\ uncompress z = Some b /\ sz = csize f (lenN z).

Fixpoint tree (f : file) (d : nat) (p : node_pointer) (kvs : list kv) : Prop :=
  np_pointer p < 2^48 /\ lenN (np_key p) < 2^12 /\ redP (np_reduce p) /\
  match d with
  | O => kvs <> [] /\ Forall kvP kvs /\ np_key p = last (map fst kvs) [] /\ leaf_red kvs = Ok (np_reduce p) /\
         exists sz, hasz f (np_pointer p) (mk_node KV_NODE kvs) sz /\ np_subtree p mod 2^48 = sz mod 2^48
  | S d' => exists cs ks sz, cs <> [] /\ Forall2 (tree f d') cs ks /\ kvs = concat ks /\
         np_key p = last (map np_key cs) [] /\ inner_red (map np_reduce cs) = Ok (np_reduce p) /\
         hasz f (np_pointer p) (mk_node KP_NODE (map kp_entry cs)) sz /\
         np_subtree p mod 2^48 = (psum cs + sz) mod 2^48 /\
         Forall (fun c => np_pointer c < np_pointer p) cs
  end.

Lemma hasz_le f f' q b sz : le f f' -> hasz f q b sz -> hasz f' q b sz.
Proof.
  intros L (z & H & Hu & ->). exists z. split; [exact (has_le q z L H)|]. split; [exact Hu|].
  unfold csize. destruct L as (X & _). now rewrite (ex_fkey X).
Qed.
Lemma Forall2_impl A B (P Q : A -> B -> Prop) l l' : (forall a b, P a b -> Q a b) -> Forall2 P l l' -> Forall2 Q l l'.
Proof. intros H. induction 1; constructor; auto. Qed.
Lemma tree_le f f' : le f f' -> forall d p kvs, tree f d p kvs -> tree f' d p kvs.
Proof.
  intros L. induction d as [|d IH]; intros p kvs (H1 & H2 & H3 & H); (split; [exact H1|]; split; [exact H2|]; split; [exact H3|]).
  - destruct H as (A1 & A2 & A3 & A4 & sz & A5 & A6). repeat (split; [assumption|]). exists sz. split; [eapply hasz_le; [exact L|eassumption]|exact A6].
  - destruct H as (cs & ks & sz & A1 & A2 & A3 & A4 & A5 & A6 & A7 & A8). exists cs, ks, sz.
    split; [exact A1|]. split; [revert A2; apply Forall2_impl; exact IH|]. repeat (split; [assumption|]).
    split; [eapply hasz_le; [exact L|eassumption]|]. auto.
Qed.
Lemma hasz_pos f q b sz : hasz f q b sz -> q < fpos f.
Proof. intros (z & H & _). exact (has_pos _ _ _ H). Qed.
Lemma tree_pos f d p kvs : tree f d p kvs -> np_pointer p < fpos f.
Proof.
  destruct d; intros (_ & _ & _ & H).
  - destruct H as (_ & _ & _ & _ & sz & H & _). eapply hasz_pos; exact H.
  - destruct H as (cs & ks & sz & _ & _ & _ & _ & _ & H & _). eapply hasz_pos; exact H.
Qed.
Lemma tree_depth f d : forall p kvs, tree f d p kvs -> N.of_nat d <= np_pointer p.
Proof.
  induction d as [|d IH]; intros p kvs H; [lia|]. destruct H as (_ & _ & _ & cs & ks & sz & A1 & A2 & _ & _ & _ & _ & _ & A8).
  destruct A2 as [|c k cs ks Hc A2]; [congruence|]. apply IH in Hc. inv A8. lia.
Qed.
Lemma concat_last (ks : list (list kv)) : ks <> [] -> last ks [] <> [] ->
  last (map fst (concat ks)) [] = last (map fst (last ks [])) [].
Proof.
  induction ks as [|k ks IH]; [congruence|]. intros _. destruct ks as [|k' ks]; intros H.
  - cbn [concat]. now rewrite app_nil_r.
  - cbn [concat]. rewrite map_app, last_app.
    + cbn [last] in H |- *. apply IH; [discriminate|exact H].
    + intros Hn. apply H. cbn [last]. assert (Hc : concat (k' :: ks) = []) by (eapply map_eq_nil; exact Hn).
      clear - Hc. assert (Ha : Forall (fun x => x = []) (k' :: ks)).
      { apply Forall_forall. intros x Hx. apply in_split in Hx. destruct Hx as (l1 & l2 & Hx). rewrite Hx in Hc.
        rewrite concat_app in Hc. apply app_eq_nil in Hc. destruct Hc as [_ Hc]. cbn in Hc. apply app_eq_nil in Hc. tauto. }
      rewrite Forall_forall in Ha. exact (Ha _ (@last_in _ (k' :: ks) [] ltac:(discriminate))).
Qed.
Lemma tree_nonempty f d : forall p kvs, tree f d p kvs -> kvs <> [].
Proof.
  induction d as [|d IH]; intros p kvs (_ & _ & _ & H); [tauto|]. destruct H as (cs & ks & sz & A1 & A2 & -> & _).
  destruct A2 as [|c k cs ks Hc A2]; [congruence|]. apply IH in Hc. cbn [concat]. intros Hn. apply app_eq_nil in Hn. tauto.
Qed.
Lemma Forall2_last A B (P : A -> B -> Prop) l l' a b : Forall2 P l l' -> l <> [] -> P (last l a) (last l' b).
Proof.
  intros H. induction H as [|x y l l' Hxy H IH]; [congruence|]. intros _. destruct H; [exact Hxy|]. apply IH. discriminate.
Qed.
Lemma tree_key f d : forall p kvs, tree f d p kvs -> np_key p = last (map fst kvs) [].
Proof.
  induction d as [|d IH]; intros p kvs (_ & _ & _ & H); [tauto|]. destruct H as (cs & ks & sz & A1 & A2 & -> & A4 & _).
  assert (Hl : tree f d (last cs p) (last ks [])) by (apply Forall2_last; assumption).
  assert (Hk : ks <> []) by (intros ->; inv A2; congruence).
  rewrite concat_last; [|exact Hk|eapply tree_nonempty; exact Hl].
  rewrite <- (IH _ _ Hl), A4. rewrite (@last_indep _ (map np_key cs) [] (np_key p)) by (intros Hn; apply map_eq_nil in Hn; congruence).
  apply last_map.
Qed.
Lemma tree_kvP f d : forall p kvs, tree f d p kvs -> Forall kvP kvs.
Proof.
  induction d as [|d IH]; intros p kvs (_ & _ & _ & H); [tauto|]. destruct H as (cs & ks & sz & A1 & A2 & -> & _). clear A1.
  induction A2 as [|c k cs ks Hc A2 IH2]; [constructor|]. cbn [concat]. apply Forall_app. split; [eapply IH; exact Hc|exact IH2].
Qed.

(** The pointer as read back from an inner node. *)
Definition norm (p : node_pointer) : node_pointer := NodePointer (np_key p) (np_pointer p) (np_reduce p) (np_subtree p mod 2^48).
Lemma tree_norm f d p kvs : tree f d p kvs -> tree f d (norm p) kvs.
Proof.
  destruct d; unfold norm; cbn [tree np_pointer np_key np_reduce np_subtree]; rewrite N.mod_mod by discriminate; auto.
Qed.
Lemma read_kp_entry f d c kvs : tree f d c kvs -> read_pointer (fst (kp_entry c)) (snd (kp_entry c)) = Ok (norm c).
Proof.
  intros T. destruct d; destruct T as (H1 & _ & H3 & _); cbn [kp_entry fst snd]; rewrite read_encode_pointer; auto; now apply (ro_redP RO).
Qed.
Lemma kp_entries_ok f d cs ks : Forall2 (tree f d) cs ks -> Forall kv_ok (map kp_entry cs).
Proof.
  induction 1 as [|c k cs ks H _ IH]; cbn [map]; constructor; auto.
  assert (Hk : lenN (np_key c) < 2^12 /\ lenN (np_reduce c) < 2^16).
  { destruct d; destruct H as (_ & H2 & H3 & _); split; auto; now apply (ro_redP RO). }
  split; cbn [kp_entry fst snd]; [tauto|]. rewrite lenN_encode_pointer. change (2^28) with 268435456. change (2^16) with 65536 in Hk. lia.
Qed.

(** ** Running operations *)

Definition okst (s : st) : Prop := good (st_f s) /\ okf (st_f s).
Definition run {A} (x : M A) (s : st) (Q : A -> st -> Prop) : Prop :=
  forall r s', x s = (r, s') -> fin (st_f s') -> match r with Ok a => Q a s' | Err e => allowed e end.

Lemma fin_le f f' : le f f' -> fin f' -> fin f.
Proof. intros (X & H & _) [B F]. split; [exact (ex_big X B)|lia]. Qed.
Lemma okf_writes f l f' : good f -> okf f -> writes f l f' -> okf f'.
Proof.
  intros G O H. induction H as [f|f l f1 b r f2 H IH Hw]; [exact O|]. eapply (ro_okf RO); [now apply IH| |exact Hw].
  exact (le_good (writes_le EO G H)).
Qed.
Lemma okst_writes s l s' : okst s -> writes (st_f s) l (st_f s') -> okst s' /\ le (st_f s) (st_f s').
Proof.
  intros [G O] W. pose proof (writes_le EO G W) as L. split; [split; [exact (le_good L)|eapply okf_writes; eassumption]|exact L].
Qed.
Lemma run_ret A (a : A) s (Q : A -> st -> Prop) : Q a s -> run (ret a) s Q.
Proof. intros H r s' Hr _. inv Hr. exact H. Qed.
Lemma run_bind A B (x : M A) (k : A -> M B) s Q R : okst s -> ow x -> (forall a, ow (k a)) -> run x s Q ->
  (forall a s1, okst s1 -> le (st_f s) (st_f s1) -> fin (st_f s1) -> Q a s1 -> run (k a) s1 R) ->
  run (bindM x k) s R.
Proof.
  intros O Wx Wk Hx Hk r s'. unfold bindM. destruct (x s) as [[a|e] s1] eqn:Ex; intros H F.
  - destruct (Wx _ _ _ Ex) as [l1 W1]. destruct (@okst_writes _ _ _ O W1) as [O1 L1].
    destruct (Wk a _ _ _ H) as [l2 W2]. destruct (@okst_writes _ _ _ O1 W2) as [O2 L2].
    pose proof (fin_le L2 F) as F1. specialize (Hx _ _ Ex F1). cbn in Hx.
    exact (Hk a s1 O1 L1 F1 Hx r s' H F).
  - inv H. exact (Hx _ _ Ex F).
Qed.
Lemma run_lift A (x : res A) s (Q : A -> st -> Prop) :
  match x with Ok a => Q a s | Err e => allowed e end -> run (lift x) s Q.
Proof. intros H r s' Hr _. inv Hr. exact H. Qed.
Lemma run_weaken A (x : M A) s (Q R : A -> st -> Prop) : run x s Q -> (forall a s', Q a s' -> R a s') -> run x s R.
Proof. intros H Hq r s' Hr F. specialize (H r s' Hr F). destruct r; auto. Qed.

Definition quiet (s s' : st) : Prop := st_ev s' = st_ev s /\ st_en s' = st_en s.
Lemma quiet_refl s : quiet s s. Proof. split; reflexivity. Qed.
Lemma quiet_trans a b c : quiet a b -> quiet b c -> quiet a c.
Proof. intros [H1 H2] [H3 H4]. split; congruence. Qed.

Lemma run_write_node b s : okst s ->
  run (write_node b) s (fun w s' => fst w = fpos (st_f s) /\ fst w < 2^48 /\ hasz (st_f s') (fst w) b (snd w) /\ quiet s s').
Proof.
  intros [G O] r s'. unfold write_node. destruct (db_write_buf_compressed (st_f s) b) as [x f'] eqn:Ew. intros H F. injection H as <- <-.
  cbn [st_f] in F. destruct x as [[p sz]|e]; [|exact (@ro_write RO _ _ _ _ O G Ew F)].
  unfold db_write_buf_compressed in Ew. destruct (compress b) as [z|] eqn:Ez; [|discriminate].
  destruct (db_write_buf_spec EO _ G Ew) as [L Hs]. destruct (Hs _ _ eq_refl) as (H1 & H2 & H3 & H4 & _).
  destruct F as [B F]. cbn [fst snd st_f]. split; [exact H1|]. split; [lia|]. split; [|split; reflexivity].
  exists z. split; [now apply H3|]. split; [exact (ok_compress EO _ Ez)|]. rewrite H4. unfold csize. destruct L as (X & _). now rewrite (ex_fkey X).
Qed.

(** ** Collected entries *)

Definition ty_of (leaf : bool) : N := if leaf then KV_NODE else KP_NODE.
Definition lev (leaf : bool) (d : nat) : nat := if leaf then O else S d.
Definition vrep (f : file) (leaf : bool) (d : nat) (i : item) (ks : list kv) : Prop :=
  if leaf then exists x, i = kv_item x /\ ks = [x] /\ kvP x
  else exists p, i = ptr_item p /\ tree f d p ks.
Record mrok (f : file) (leaf : bool) (d : nat) (m : mr) (kvs : list kv) : Prop := {
  mo_type : m_type m = ty_of leaf;
  mo_len : m_len m = isum (m_vals m);
  mo_count : m_count m = lenN (m_vals m);
  mo_mod : m_mod m = false -> m_ptrs m = [];
  mo_cont : exists k1 k2, Forall2 (tree f (lev leaf d)) (m_ptrs m) k1 /\ Forall2 (vrep f leaf d) (m_vals m) k2 /\
              kvs = concat k1 ++ concat k2
}.
Lemma vrep_le f f' leaf d i ks : le f f' -> vrep f leaf d i ks -> vrep f' leaf d i ks.
Proof.
  intros L. destruct leaf; cbn; [auto|]. intros (p & H1 & H2). exists p. split; [exact H1|]. eapply tree_le; eassumption.
Qed.
Lemma mrok_le f f' leaf d m kvs : le f f' -> mrok f leaf d m kvs -> mrok f' leaf d m kvs.
Proof.
  intros L [H1 H2 H3 H4 (k1 & k2 & H5 & H6 & H7)]. constructor; auto. exists k1, k2. split; [|split; [|exact H7]].
  - revert H5. apply Forall2_impl. intros. eapply tree_le; eassumption.
  - revert H6. apply Forall2_impl. intros. eapply vrep_le; eassumption.
Qed.
Lemma mrok_empty f leaf d : mrok f leaf d (make_modres (ty_of leaf)) [].
Proof. constructor; auto. exists [], []. cbn. auto. Qed.
Lemma mrok_set_mod f leaf d m kvs : mrok f leaf d m kvs -> mrok f leaf d (set_mod m) kvs.
Proof. intros [H1 H2 H3 H4 H5]. constructor; auto. discriminate. Qed.

Lemma vreps_leaf f d l ks : Forall2 (vrep f true d) l ks -> exists kvs, l = map kv_item kvs /\ concat ks = kvs /\ Forall kvP kvs.
Proof.
  induction 1 as [|i k l ks H _ (kvs & -> & H2 & H3)]; [exists []; auto|].
  destruct H as (x & -> & -> & Hx). exists (x :: kvs). cbn. rewrite H2. auto.
Qed.
Lemma vreps_inner f d l ks : Forall2 (vrep f false d) l ks -> exists cs, l = map ptr_item cs /\ Forall2 (tree f d) cs ks.
Proof.
  induction 1 as [|i k l ks H _ (cs & -> & H2)]; [exists []; auto|].
  destruct H as (p & -> & Hp). exists (p :: cs). cbn. auto.
Qed.
Lemma Forall2_app_l A B (P : A -> B -> Prop) a b l : Forall2 P (a ++ b) l -> exists la lb, l = la ++ lb /\ Forall2 P a la /\ Forall2 P b lb.
Proof.
  revert l. induction a as [|x a IH]; intros l H; cbn in H; [exists [], l; auto|].
  inv H. destruct (IH _ H4) as (la & lb & -> & H5 & H6). exists (y :: la), lb. cbn. auto.
Qed.

Lemma mod_64_48 x : (x mod 2^64) mod 2^48 = x mod 2^48.
Proof.
  change (2^64) with (2^48 * 2^16). rewrite N.mod_mul_r by discriminate.
  rewrite N.mul_comm, N.mod_add by discriminate. now apply N.mod_mod.
Qed.

(** The new node stands for the entries put in it. *)
Lemma new_node f leaf d now k2 pos red disk f' : Forall2 (vrep f leaf d) now k2 -> now <> [] -> good f -> le f f' ->
  pos = fpos f -> pos < 2^48 -> node_reduce rq (ty_of leaf) now = Ok red ->
  hasz f' pos (mk_node (ty_of leaf) (map kv_of now)) disk -> forall dflt,
  tree f' (lev leaf d) (NodePointer (last (map it_key now) dflt) pos red ((sub_sum now + disk) mod 2^64)) (concat k2).
Proof.
  intros Hv Hn G L Hpos H48 Hred Hh dflt. destruct leaf.
  - destruct (vreps_leaf Hv) as (kvs & -> & -> & Hk). 
    assert (Hne : kvs <> []) by (intros ->; now apply Hn).
    rewrite kv_of_kv in Hh. cbn [ty_of] in Hred, Hh. unfold node_reduce in Hred. rewrite N.eqb_refl, kv_of_kv in Hred. fold (leaf_red kvs) in Hred.
    assert (Hlast : last (map it_key (map kv_item kvs)) dflt = last (map fst kvs) []).
    { rewrite map_map. cbn [kv_item it_key]. apply last_indep. intros Hm. apply map_eq_nil in Hm. congruence. }
    cbn [lev tree np_pointer np_key np_reduce np_subtree]. split; [exact H48|]. rewrite Hlast. split; [|split].
    + assert (Hin : In (last (map fst kvs) []) (map fst kvs)) by (apply last_in; intros Hm; apply map_eq_nil in Hm; congruence).
      apply in_map_iff in Hin. destruct Hin as (x & <- & Hx). rewrite Forall_forall in Hk. apply (ro_kvP RO). auto.
    + pose proof (ro_red RO Hne Hk) as Hr. now rewrite Hred in Hr.
    + split; [exact Hne|]. split; [exact Hk|]. split; [reflexivity|]. split; [exact Hred|]. exists disk. split; [exact Hh|].
      rewrite mod_64_48, sub_sum_kv. reflexivity.
  - destruct (vreps_inner Hv) as (cs & -> & Ht).
    assert (Hne : cs <> []) by (intros ->; now apply Hn).
    rewrite kv_of_ptr in Hh. cbn [ty_of] in Hred, Hh. unfold node_reduce in Hred. change (KP_NODE =? KV_NODE) with false in Hred.
    rewrite N.eqb_refl, reduce_vals_ptr in Hred. cbn [bind] in Hred. fold (inner_red (map np_reduce cs)) in Hred.
    assert (Hlast : last (map it_key (map ptr_item cs)) dflt = last (map np_key cs) []).
    { rewrite map_map. cbn [ptr_item it_key]. apply last_indep. intros Hm. apply map_eq_nil in Hm. congruence. }
    assert (Hall : Forall (fun c => np_pointer c < fpos f /\ lenN (np_key c) < 2^12 /\ redP (np_reduce c)) cs).
    { clear - Ht EO. induction Ht as [|c k cs ks H _ IH]; constructor; auto. split; [eapply tree_pos; exact H|].
      destruct d; destruct H as (_ & H2 & H3 & _); auto. }
    cbn [lev tree np_pointer np_key np_reduce np_subtree]. split; [exact H48|]. rewrite Hlast. split; [|split].
    + assert (Hin : In (last (map np_key cs) []) (map np_key cs)) by (apply last_in; intros Hm; apply map_eq_nil in Hm; congruence).
      apply in_map_iff in Hin. destruct Hin as (x & <- & Hx). rewrite Forall_forall in Hall. apply Hall in Hx. tauto.
    + assert (Hrs : Forall redP (map np_reduce cs)).
      { apply Forall_forall. intros r Hr. apply in_map_iff in Hr. destruct Hr as (x & <- & Hx). rewrite Forall_forall in Hall. apply Hall in Hx. tauto. }
      assert (Hrn : map np_reduce cs <> []) by (intros Hm; apply map_eq_nil in Hm; congruence).
      pose proof (ro_rered RO Hrn Hrs) as Hr. now rewrite Hred in Hr.
    + exists cs, k2, disk. split; [exact Hne|]. split; [revert Ht; apply Forall2_impl; intros; eapply tree_le; eassumption|].
      split; [reflexivity|]. split; [reflexivity|]. split; [exact Hred|]. split; [exact Hh|]. split.
      * rewrite mod_64_48, sub_sum_ptr. reflexivity.
      * apply Forall_forall. intros c Hc. rewrite Forall_forall in Hall. apply Hall in Hc. lia.
Qed.

Definition wt (m : mr) : nat := (2 * length (m_ptrs m) + length (m_vals m))%nat.

Lemma run_flush_partial leaf d q m kvs s : okst s -> mrok (st_f s) leaf d m kvs -> (0 < q \/ leaf = false) ->
  run (flush_mr_partial rq q m) s (fun m' s' => mrok (st_f s') leaf d m' kvs /\ quiet s s' /\ m_mod m' = m_mod m /\
    (leaf = false -> (2 <= length (m_vals m))%nat -> (wt m' <= wt m)%nat) /\
    (m_mod m = true -> isum (m_vals m) <= q -> m_vals m' = [] /\
        length (m_ptrs m') = (length (m_ptrs m) + match m_vals m with [] => 0 | _ => 1 end)%nat)).
Proof.
  intros O Hm Hq. unfold flush_mr_partial. destruct (m_vals m) as [|i0 vs] eqn:Hv.
  { apply run_ret. rewrite Hv. split; [exact Hm|]. split; [apply quiet_refl|]. split; [reflexivity|]. split; [cbn; lia|]. intros _ _. split; [auto|lia]. }
  rewrite <- Hv. assert (Hvne : m_vals m <> []) by (rewrite Hv; discriminate). clear Hv.
  destruct (m_mod m) eqn:Hmod; cbn [negb].
  2:{ apply run_ret. split; [exact Hm|]. split; [apply quiet_refl|]. split; [exact Hmod|]. split; [lia|discriminate]. }
  destruct Hm as [H1 H2 H3 H4 (k1 & k2 & H5 & H6 & H7)].
  destruct (@take_items_ok (m_type m =? KP_NODE) q (m_vals m) (m_len m + 1) 0 1 0) as (now & later & Et & Es & T1 & T2 & T3); [lia|].
  rewrite Et. apply run_bind with (Q := fun x s' => x = (now, later) /\ s' = s); [exact O|apply ow_lift| |apply run_lift; auto|].
  { intros [a b]. apply ow_bind; [apply ow_write_node|]. intros [p z]. apply ow_bind; [apply ow_lift|]. intros. apply ow_ret. }
  intros ? ? _ _ _ [-> ->].
  assert (Hnow : now <> []).
  { apply T2; [exact Hvne|]. destruct Hq as [Hq|Hq]; [left; exact Hq|right]. split; [lia|]. rewrite H1, Hq. reflexivity. }
  eapply run_bind; [exact O|apply ow_write_node| |apply run_write_node; exact O|].
  { intros [p z]. apply ow_bind; [apply ow_lift|]. intros. apply ow_ret. }
  intros [pos disk] s1 O1 L1 F1 (P1 & P2 & P3 & P4). cbn [fst snd] in P1, P2, P3.
  rewrite H1 in *. rewrite Es in H6. apply Forall2_app_l in H6. destruct H6 as (ka & kb & -> & H6a & H6b).
  apply run_bind with (Q := fun red s' => s' = s1 /\ node_reduce rq (ty_of leaf) now = Ok red);
    [exact O1|apply ow_lift|intros; apply ow_ret| |].
  { apply run_lift. destruct (node_reduce rq (ty_of leaf) now) as [red|e] eqn:Er; [auto|].
    destruct leaf.
    - destruct (vreps_leaf H6a) as (kvs' & -> & _ & Hk). unfold node_reduce in Er. cbn [ty_of] in Er. rewrite N.eqb_refl, kv_of_kv in Er. fold (leaf_red kvs') in Er.
      assert (Hne : kvs' <> []) by (intros ->; now apply Hnow).
      pose proof (ro_red RO Hne Hk) as Hr. now rewrite Er in Hr.
    - destruct (vreps_inner H6a) as (cs & -> & Ht). unfold node_reduce in Er. cbn [ty_of] in Er. change (KP_NODE =? KV_NODE) with false in Er.
      rewrite N.eqb_refl, reduce_vals_ptr in Er. cbn [bind] in Er. fold (inner_red (map np_reduce cs)) in Er.
      assert (Hne : map np_reduce cs <> []) by (intros Hm; apply map_eq_nil in Hm; subst; now apply Hnow).
      assert (Hrs : Forall redP (map np_reduce cs)).
      { clear - Ht. induction Ht as [|c k cs ks H _ IH]; cbn [map]; constructor; auto. destruct d; destruct H as (_ & _ & H3 & _); auto. }
      pose proof (ro_rered RO Hne Hrs) as Hr. now rewrite Er in Hr. }
  intros red s2 _ _ _ [-> Hred]. apply run_ret.
  pose proof (new_node H6a Hnow (proj1 O) L1 P1 P2 Hred P3 (hd [] (map it_key (m_vals m)))) as Hnew.
  assert (Hlen : m_len m - (lenN (mk_node (ty_of leaf) (map kv_of now)) - 1) = isum later).
  { rewrite lenN_mk_node, H2, Es, isum_app. lia. }
  split; [|split; [exact P4|split; [reflexivity|]]].
  - constructor; cbn [m_type m_vals m_ptrs m_len m_count m_mod].
    + reflexivity.
    + exact Hlen.
    + rewrite H3, Es, lenN_app. lia.
    + discriminate.
    + exists (k1 ++ [concat ka]), kb. split; [|split].
      * apply Forall2_app; [revert H5; apply Forall2_impl; intros; eapply tree_le; eassumption|]. constructor; [exact Hnew|constructor].
      * revert H6b. apply Forall2_impl. intros. eapply vrep_le; eassumption.
      * rewrite H7. rewrite !concat_app. cbn [concat]. rewrite app_nil_r, <- app_assoc. reflexivity.
  - unfold wt. cbn [m_ptrs m_vals]. rewrite Es, !app_length. cbn [length]. split.
    + intros -> Hl. destruct later as [|x later'].
      * cbn [length]. cbn [length] in Hl. lia.
      * assert (H : 2 <= 0 + lenN now) by (apply T3; [reflexivity|discriminate]). unfold lenN in H. lia.
    + intros _ Hs. rewrite <- Es in Hs. rewrite T1 by lia. split; [reflexivity|]. destruct now; [congruence|]. cbn. lia.
Qed.

Lemma run_flush leaf d m kvs s : okst s -> mrok (st_f s) leaf d m kvs ->
  run (flush_mr rq m) s (fun m' s' => mrok (st_f s') leaf d m' kvs /\ quiet s s' /\ m_mod m' = m_mod m /\
    (m_mod m = true -> m_vals m' = [] /\ length (m_ptrs m') = (length (m_ptrs m) + match m_vals m with [] => 0 | _ => 1 end)%nat) /\
    (leaf = false -> (2 <= length (m_vals m))%nat -> (wt m' <= wt m)%nat)).
Proof.
  intros O Hm. unfold flush_mr. destruct (m_vals m) as [|i vs] eqn:Hv.
  - unfold flush_mr_partial. rewrite Hv. apply run_ret. rewrite Hv. split; [exact Hm|]. split; [apply quiet_refl|]. split; [reflexivity|]. split; [intros _; split; [auto|lia]|cbn; lia].
  - eapply run_weaken; [apply run_flush_partial with (leaf := leaf) (d := d) (kvs := kvs); [exact O|exact Hm|]|].
    + left. rewrite (mo_len Hm), Hv, isum_cons. pose proof (item_size_pos i). lia.
    + intros m' s' (A1 & A2 & A3 & A4 & A5). rewrite <- Hv. split; [exact A1|]. split; [exact A2|]. split; [exact A3|]. split; [|exact A4].
      intros Hmod. rewrite Hv in A5. apply A5; [exact Hmod|]. rewrite <- Hv. rewrite (mo_len Hm). lia.
Qed.

Lemma run_maybe_flush leaf d m kvs s : okst s -> mrok (st_f s) leaf d m kvs ->
  run (maybe_flush rq m) s (fun m' s' => mrok (st_f s') leaf d m' kvs /\ quiet s s' /\ m_mod m' = m_mod m /\
     (leaf = false -> (wt m' <= wt m)%nat)).
Proof.
  intros O Hm. unfold maybe_flush.
  assert (Hid : run (ret m) s (fun m' s' => mrok (st_f s') leaf d m' kvs /\ quiet s s' /\ m_mod m' = m_mod m /\ (leaf = false -> (wt m' <= wt m)%nat))).
  { apply run_ret. split; [exact Hm|]. split; [apply quiet_refl|]. split; [reflexivity|lia]. }
  assert (Hlen : lenN (m_vals m) = m_count m) by (symmetry; apply (mo_count Hm)).
  destruct (r_compact rq) eqn:Hc.
  - match goal with |- run (if ?b then _ else _) _ _ => destruct b eqn:Hb; [|exact Hid] end.
    eapply run_weaken; [apply run_flush with (leaf := leaf) (d := d) (kvs := kvs); assumption|].
    intros m' s' (A1 & A2 & A3 & A4 & A5). split; [exact A1|]. split; [exact A2|]. split; [exact A3|]. intros Hl. apply A5; [exact Hl|].
    subst leaf. rewrite (mo_type Hm) in Hb. cbn [ty_of] in Hb. change (KP_NODE =? KV_NODE) with false in Hb. rewrite N.eqb_refl in Hb.
    cbn [andb orb] in Hb. apply andb_true_iff in Hb. destruct Hb as [_ Hb]. apply andb_true_iff in Hb. destruct Hb as [_ Hb].
    apply N.ltb_lt in Hb. unfold lenN in Hlen. lia.
  - destruct (m_mod m && (3 <? m_count m)) eqn:Hb; [|exact Hid].
    apply andb_true_iff in Hb. destruct Hb as [_ Hb]. apply N.ltb_lt in Hb.
    assert (Hgen : forall q, (0 < q \/ leaf = false) ->
      run (flush_mr_partial rq q m) s (fun m' s' => mrok (st_f s') leaf d m' kvs /\ quiet s s' /\ m_mod m' = m_mod m /\ (leaf = false -> (wt m' <= wt m)%nat))).
    { intros q Hq. eapply run_weaken; [apply run_flush_partial with (leaf := leaf) (d := d) (kvs := kvs); assumption|].
      intros m' s' (A1 & A2 & A3 & A4 & A5). split; [exact A1|]. split; [exact A2|]. split; [exact A3|]. intros Hl. apply A4; [exact Hl|].
      unfold lenN in Hlen. lia. }
    rewrite (mo_type Hm). destruct leaf; cbn [ty_of].
    + rewrite N.eqb_refl. change (KV_NODE =? KP_NODE) with false. cbn [andb]. destruct (r_kv rq <? m_len m); [|exact Hid].
      apply Hgen. left. destruct (ro_kv RO) as [Hk|Hk]; [congruence|]. lia.
    + rewrite N.eqb_refl. change (KP_NODE =? KV_NODE) with false. cbn [andb]. destruct (r_kp rq <? m_len m); [|exact Hid].
      apply Hgen. now right.
Qed.

Lemma run_push leaf d m kvs i ks s : okst s -> mrok (st_f s) leaf d m kvs -> vrep (st_f s) leaf d i ks ->
  run (push rq i m) s (fun m' s' => mrok (st_f s') leaf d m' (kvs ++ ks) /\ quiet s s' /\ m_mod m' = m_mod m /\
     (leaf = false -> (wt m' <= S (wt m))%nat)).
Proof.
  intros O Hm Hi. unfold push.
  assert (Hm' : mrok (st_f s) leaf d (Mr (m_vals m ++ [i]) (m_ptrs m) (m_len m + item_size i) (m_count m + 1) (m_mod m) (m_type m)) (kvs ++ ks)).
  { destruct Hm as [H1 H2 H3 H4 (k1 & k2 & H5 & H6 & H7)]. constructor; cbn [m_type m_vals m_ptrs m_len m_count m_mod]; auto.
    - rewrite H2, isum_app. cbn. lia.
    - rewrite H3, lenN_app. reflexivity.
    - exists k1, (k2 ++ [ks]). split; [exact H5|]. split; [apply Forall2_app; [exact H6|constructor; [exact Hi|constructor]]|].
      rewrite H7, concat_app. cbn. now rewrite app_nil_r, app_assoc. }
  eapply run_weaken; [apply run_maybe_flush; eassumption|]. intros m' s' (A1 & A2 & A3 & A4).
  split; [exact A1|]. split; [exact A2|]. split; [exact A3|]. intros Hl. specialize (A4 Hl). unfold wt in *. cbn [m_vals m_ptrs] in A4.
  rewrite app_length in A4. cbn [length] in A4. lia.
Qed.

Lemma run_push_item d m kvs k v s : okst s -> mrok (st_f s) true d m kvs -> kvP (k, v) ->
  run (push_item rq k v m) s (fun m' s' => mrok (st_f s') true d m' (kvs ++ [(k, v)]) /\ quiet s s' /\ m_mod m' = m_mod m).
Proof.
  intros O Hm Hk. eapply run_weaken; [apply run_push with (ks := [(k, v)]); [exact O|exact Hm|]|].
  - exists (k, v). auto.
  - intros m' s' (A1 & A2 & A3 & _). auto.
Qed.
Lemma run_push_ptr d m kvs p ks s : okst s -> mrok (st_f s) false d m kvs -> tree (st_f s) d p ks ->
  run (push_pointerinfo rq p m) s (fun m' s' => mrok (st_f s') false d m' (kvs ++ ks) /\ quiet s s' /\ m_mod m' = m_mod m /\ (wt m' <= S (wt m))%nat).
Proof.
  intros O Hm Hk. eapply run_weaken; [apply run_push with (ks := ks); [exact O|exact Hm|]|].
  - exists p. auto.
  - intros m' s' (A1 & A2 & A3 & A4). auto.
Qed.
Lemma run_push_ptrs d ps : forall m kvs ks s, okst s -> mrok (st_f s) false d m kvs -> Forall2 (tree (st_f s) d) ps ks ->
  run (foldM (push_pointerinfo rq) ps m) s (fun m' s' => mrok (st_f s') false d m' (kvs ++ concat ks) /\ quiet s s' /\ m_mod m' = m_mod m /\
     (wt m' <= length ps + wt m)%nat).
Proof.
  induction ps as [|p ps IH]; intros m kvs ks s O Hm Hp; cbn [foldM].
  - inv Hp. apply run_ret. cbn [concat]. rewrite app_nil_r. split; [exact Hm|]. split; [apply quiet_refl|]. split; [reflexivity|cbn; lia].
  - inversion Hp as [|? k ? ks' Hpk Hps]; subst. eapply run_bind; [exact O|apply ow_push| |apply run_push_ptr; eassumption|].
    { intros. apply ow_foldM. intros. apply ow_push. }
    intros m1 s1 O1 L1 F1 (A1 & A2 & A3 & A4). eapply run_weaken.
    { apply IH; [exact O1|exact A1|]. eapply Forall2_impl; [|exact Hps]. intros a b. apply tree_le. exact L1. }
    intros m' s' (B1 & B2 & B3 & B4). cbn [concat]. rewrite app_assoc. split; [exact B1|]. split; [eapply quiet_trans; eassumption|].
    split; [congruence|]. cbn [length]. lia.
Qed.

Lemma mrok_flushed f leaf d m kvs : mrok f leaf d m kvs -> m_vals m = [] -> exists ks, Forall2 (tree f (lev leaf d)) (m_ptrs m) ks /\ kvs = concat ks.
Proof. intros [_ _ _ _ (k1 & k2 & H5 & H6 & H7)] Hv. rewrite Hv in H6. inv H6. cbn. rewrite app_nil_r. eauto. Qed.

(** ** Events *)

Definition fet : bool := match r_fetch rq with Some _ => true | None => false end.
Definition sav : bool := match r_save rq with Some _ => true | None => false end.
Definition logged (s s' : st) (l : list event) : Prop := st_ev s' = rev l ++ st_ev s /\ st_en s' = st_en s.
Lemma quiet_logged s s' : quiet s s' <-> logged s s' [].
Proof. reflexivity. Qed.
Lemma logged_trans a b c l l' : logged a b l -> logged b c l' -> logged a c (l ++ l').
Proof. intros [H1 H2] [H3 H4]. split; [|congruence]. rewrite H3, H1, rev_app_distr, app_assoc. reflexivity. Qed.
Lemma logged_quiet a b c l : logged a b l -> quiet b c -> logged a c l.
Proof. intros H Q. rewrite <- (app_nil_r l). eapply logged_trans; [exact H|exact Q]. Qed.
Lemma quiet_logged_trans a b c l : quiet a b -> logged b c l -> logged a c l.
Proof. intros H Q. change l with ([] ++ l). eapply logged_trans; [exact H|exact Q]. Qed.
Lemma run_eq A (x y : M A) s Q : x s = y s -> run y s Q -> run x s Q.
Proof. intros H R r s' Hr. rewrite H in Hr. exact (R r s' Hr). Qed.
Lemma okst_f s s' : st_f s' = st_f s -> okst s -> okst s'.
Proof. unfold okst. now intros ->. Qed.

Lemma run_emit e s : run (emit e) s (fun _ s' => logged s s' [e] /\ st_f s' = st_f s).
Proof. intros r s' H _. inv H. repeat split. Qed.

Lemma run_fetch a v s : okst s -> (forall x, v = Some x -> exists k', kvP (k', x)) ->
  run (do_fetch rq a v) s (fun c s' => (logged s s' (ev_f fet (a_key a) v) /\ st_f s' = st_f s) /\
    (c = true -> exists g, r_fetch rq = Some g /\ g a v = Ok true)).
Proof.
  intros O Hv. unfold do_fetch, fet, ev_f. destruct (r_fetch rq) as [g|] eqn:Hg.
  - eapply run_bind; [exact O|apply ow_emit|intros; apply ow_lift|apply run_emit|]. intros _ s1 O1 L1 F1 [A1 A2].
    apply run_lift. destruct (g a v) as [b|e] eqn:Hgk; [|eapply (ro_fetch RO); eassumption]. split; [auto|]. intros ->. eauto.
  - apply run_ret. split; [repeat split|discriminate].
Qed.
Lemma run_save a old s : okst s -> kvP (a_key a, a_data a) -> (forall x, old = Some x -> exists k', kvP (k', x)) ->
  run (do_save rq a old) s (fun _ s' => logged s s' (ev_s sav a old) /\ st_f s' = st_f s).
Proof.
  intros O Ha Hold. unfold do_save, sav, ev_s. destruct (r_save rq) as [g|] eqn:Hg.
  - apply run_bind with (Q := fun _ s' => s' = s); [exact O|apply ow_lift| | |].
    + intros. apply ow_bind; [destruct old; [apply ow_lift|apply ow_ret]|intros; apply ow_emit].
    + apply run_lift. destruct (g (a_key a) (a_data a)) as [[]|e] eqn:H1; [reflexivity|]. eapply (ro_save RO); eassumption.
    + intros _ s1 _ _ _ ->. apply run_bind with (Q := fun _ s' => s' = s); [exact O|destruct old; [apply ow_lift|apply ow_ret]|intros; apply ow_emit| |].
      * destruct old as [x|]; [|now apply run_ret]. apply run_lift. destruct (g (a_key a) x) as [[]|e] eqn:H1; [reflexivity|].
        destruct (Hold x eq_refl) as [k' Hk']. eapply (ro_save RO); eassumption.
      * intros _ s2 _ _ _ ->. apply run_emit.
  - apply run_ret. repeat split.
Qed.

Definition act_ok (a : action) : Prop := inserts a = true -> kvP (a_key a, a_data a).

(** If the fetch callback may turn an insertion into a fetch, no key occurs twice. *)
Definition once (acts : list action) : Prop :=
  (forall g a v, r_fetch rq = Some g -> g a v <> Ok true) \/
  ((forall g a v, r_fetch rq = Some g -> g a v = Ok true -> v = Some (a_data a) /\ r_save rq = None) /\
    (forall x y, r_cmp rq x y = Eq -> x = y) /\ StronglySorted (fun a b => r_cmp rq (a_key a) (a_key b) = Lt) acts).
Definition acts_ok (acts : list action) : Prop := Forall act_ok acts /\ once acts.
Lemma acts_ok_inv a acts : acts_ok (a :: acts) -> act_ok a /\ acts_ok acts.
Proof. intros [H O]. inv H. split; [assumption|]. split; [assumption|]. destruct O as [O|(O0 & O1 & O2)]; [now left|right]. inv O2. auto. Qed.
Lemma acts_ok_app a b : acts_ok (a ++ b) -> acts_ok a /\ acts_ok b.
Proof.
  intros [H O]. apply Forall_app in H. destruct H as [Ha Hb].
  assert (Hs : once a /\ once b); [|unfold acts_ok; tauto].
  destruct O as [O|(O0 & O1 & O2)]; [split; now left|].
  assert (St : StronglySorted (fun a b => r_cmp rq (a_key a) (a_key b) = Lt) a /\ StronglySorted (fun a b => r_cmp rq (a_key a) (a_key b) = Lt) b).
  { clear - O2. induction a as [|x a IH]; cbn [app] in O2; [split; [constructor|exact O2]|]. inversion O2 as [|? ? O3 O4]; subst. destruct (IH O3) as [H1 H2].
    apply Forall_app in O4. split; [constructor; tauto|exact H2]. }
  split; right; (split; [exact O0|]); split; tauto.
Qed.

(** What a step of the leaf loop leaves behind: [o] instead of [orig]. *)
Definition leafpost (d : nat) (s : st) (m : mr) (kvs o : list kv) (orig : list kv) (ev : list event) (m' : mr) (s' : st) : Prop :=
  mrok (st_f s') true d m' (kvs ++ o) /\ logged s s' ev /\ (m_mod m' = false -> m_mod m = false /\ o = orig).

Lemma run_insert d a old m kvs orig s : okst s -> mrok (st_f s) true d m kvs -> kvP (a_key a, a_data a) ->
  (forall x, old = Some x -> exists k', kvP (k', x)) ->
  run (do_insert rq a old m) s (leafpost d s m kvs [(a_key a, a_data a)] orig (ev_s sav a old)).
Proof.
  intros O Hm Ha Hold. unfold do_insert.
  eapply run_bind; [exact O|apply ow_push| |apply run_push_item; [exact O|apply mrok_set_mod; exact Hm|exact Ha]|].
  { intros. apply ow_bind; [apply ow_do_save|intros; apply ow_ret]. }
  intros m1 s1 O1 L1 F1 (A1 & A2 & A3). eapply run_bind; [exact O1|apply ow_do_save|intros; apply ow_ret|apply run_save; assumption|].
  intros [] s2 O2 L2 F2 [B1 B2]. apply run_ret. split; [rewrite B2; exact A1|]. split; [eapply quiet_logged_trans; eassumption|].
  rewrite A3. discriminate.
Qed.

Lemma run_missing d a m kvs s : okst s -> mrok (st_f s) true d m kvs -> act_ok a -> once [a] ->
  run (act_missing rq a m) s (leafpost d s m kvs (new a) [] (ev_a fet sav a None)).
Proof.
  intros O Hm Ha On. unfold act_missing, new, ev_a, act_ok, inserts in *. destruct (a_type a).
  - eapply run_bind; [exact O|apply ow_do_fetch|intros; apply ow_ret|apply run_fetch; [exact O|discriminate]|].
    intros _ s1 O1 L1 F1 [[A1 A2] _]. apply run_ret. split; [rewrite A2, app_nil_r; exact Hm|]. auto.
  - apply run_ret. split; [rewrite app_nil_r; now apply mrok_set_mod|]. split; [apply quiet_refl|]. discriminate.
  - apply run_insert; auto. discriminate.
  - eapply run_bind; [exact O|apply ow_do_fetch|intros b; destruct b; [apply ow_ret|apply ow_do_insert]|apply run_fetch; [exact O|discriminate]|].
    intros b s1 O1 L1 F1 [[A1 A2] Hb]. destruct b.
    { destruct (Hb eq_refl) as (g & Hg & Hgt). destruct On as [On|(On & _)]; [destruct (On _ _ _ Hg Hgt)|]. destruct (On _ _ _ Hg Hgt); discriminate. }
    eapply run_weaken; [apply run_insert with (orig := []) (d := d) (kvs := kvs); auto; [rewrite A2; exact Hm|discriminate]|].
    intros m' s' (B1 & B2 & B3). split; [exact B1|]. split; [eapply logged_trans; eassumption|exact B3].
Qed.
Lemma run_missings d acts : forall m kvs s, okst s -> mrok (st_f s) true d m kvs -> acts_ok acts ->
  run (foldM (act_missing rq) acts m) s (leafpost d s m kvs (flat_map new acts) [] (flat_map (fun a => ev_a fet sav a None) acts)).
Proof.
  induction acts as [|a acts IH]; intros m kvs s O Hm Ha; cbn [foldM flat_map].
  - apply run_ret. split; [rewrite app_nil_r; exact Hm|]. split; [apply quiet_refl|auto].
  - destruct (acts_ok_inv Ha) as [Ha1 Ha2]. destruct (@acts_ok_app [a] acts Ha) as [[_ Ha3] _].
    eapply run_bind; [exact O|apply ow_act_missing|intros; apply ow_foldM; intros; apply ow_act_missing|apply run_missing; eassumption|].
    intros m1 s1 O1 L1 F1 (A1 & A2 & A3). eapply run_weaken; [apply IH; [exact O1|exact A1|assumption]|].
    intros m' s' (B1 & B2 & B3). split; [rewrite app_assoc; exact B1|]. split; [eapply logged_trans; eassumption|].
    intros Hmod. destruct (B3 Hmod) as [C1 C2]. destruct (A3 C1) as [C3 C4]. rewrite C2, C4. auto.
Qed.

Lemma run_keep_kv d m kvs k v s : okst s -> st_en s = false -> mrok (st_f s) true d m kvs -> kvP (k, v) ->
  run (maybe_purgekv rq k v m) s (leafpost d s m kvs [(k, v)] [(k, v)] []).
Proof.
  intros O Hen Hm Hk. eapply run_eq with (y := push_item rq k v m).
  - unfold maybe_purgekv, bindM, get_en. rewrite Hen. destruct (r_purge_kv rq); reflexivity.
  - eapply run_weaken; [apply run_push_item; eassumption|]. intros m' s' (A1 & A2 & A3). split; [exact A1|]. split; [exact A2|].
    rewrite A3. auto.
Qed.

Lemma run_leaf_entry d k v acts : forall m kvs s, okst s -> st_en s = false -> mrok (st_f s) true d m kvs -> kvP (k, v) ->
  acts_ok acts ->
  run (leaf_entry rq k v acts m) s (fun x s' => fst x = fst (m_entry (r_cmp rq) k v acts) /\
    leafpost d s m kvs (snd (m_entry (r_cmp rq) k v acts)) [(k, v)] (snd (e_entry (r_cmp rq) fet sav k v acts)) (snd x) s').
Proof.
  induction acts as [|a acts IH]; intros m kvs s O Hen Hm Hk Ha; cbn [leaf_entry m_entry e_entry].
  - eapply run_bind; [exact O|apply ow_purgekv|intros; apply ow_ret|apply run_keep_kv; eassumption|].
    intros m1 s1 O1 L1 F1 A. apply run_ret. split; [reflexivity|exact A].
  - destruct (acts_ok_inv Ha) as [Ha1 Ha2]. destruct (@acts_ok_app [a] acts Ha) as [[_ Ha3] _]. assert (Hold : forall x, Some v = Some x -> exists k', kvP (k', x)) by (intros x Hx; inv Hx; eauto).
    destruct (r_cmp rq k (a_key a)) eqn:Hcm.
    + destruct (a_type a) eqn:Ht.
      * eapply run_bind; [exact O|apply ow_do_fetch|intros; apply ow_leaf_entry|apply run_fetch; assumption|].
        intros _ s1 O1 L1 F1 [[A1 A2] _]. eapply run_weaken; [apply IH; auto|].
        { rewrite (proj2 A1). exact Hen. } { rewrite A2. exact Hm. }
        intros x s' (B1 & B2 & B3 & B4). split; [exact B1|].
        split; [exact B2|]. split; [|exact B4]. destruct (e_entry (r_cmp rq) fet sav k v acts) as [x0 o]. cbn [snd] in *.
        unfold ev_a. rewrite Ht. eapply logged_trans; eassumption.
      * apply run_ret. split; [reflexivity|]. cbn [fst snd]. unfold leafpost, new, inserts, ev_a. rewrite Ht. rewrite app_nil_r. split; [now apply mrok_set_mod|].
        split; [apply quiet_refl|discriminate].
      * eapply run_bind; [exact O|apply ow_do_insert|intros; apply ow_ret|apply run_insert with (orig := [(k, v)]); [exact O|exact Hm|apply Ha1; unfold inserts; rewrite Ht; reflexivity|exact Hold]|].
        intros m1 s1 O1 L1 F1 A. apply run_ret. split; [reflexivity|]. cbn [snd]. unfold new, inserts, ev_a. rewrite Ht. exact A.
      * eapply run_bind; [exact O|apply ow_do_fetch| |apply run_fetch; assumption|].
        { intros b. destruct b; [apply ow_leaf_entry|]. apply ow_bind; [apply ow_do_insert|intros; apply ow_ret]. }
        intros b s0 O0 L0 F0 [[Z1 Z2] Zb]. destruct b.
        { destruct (Zb eq_refl) as (g & Hg & Hgt). destruct (proj2 Ha) as [On|(On0 & On1 & On2)]; [destruct (On _ _ _ Hg Hgt)|].
          destruct (On0 _ _ _ Hg Hgt) as [Hv Hsv]. injection Hv as Hv.
          pose proof (On1 _ _ Hcm) as Hk'. inversion On2 as [|? ? On3 On4]; subst.
          eapply run_eq with (y := let+ m' := maybe_purgekv rq (a_key a) (a_data a) m in ret (acts, m')).
          { destruct acts as [|a2 acts]; cbn [leaf_entry]; [reflexivity|]. inv On4. match goal with H : r_cmp rq (a_key a) (a_key a2) = Lt |- _ => rewrite H end. reflexivity. }
          eapply run_bind; [exact O0|apply ow_purgekv|intros; apply ow_ret|apply run_keep_kv; [exact O0|rewrite (proj2 Z1); exact Hen|rewrite Z2; exact Hm|exact Hk]|].
          intros m1 s1 O1 L1 F1 (A1 & A2 & A3). apply run_ret. split; [reflexivity|]. cbn [snd]. unfold new, inserts, ev_a. rewrite Ht.
          split; [exact A1|]. split; [|exact A3]. unfold ev_s, sav. rewrite Hsv. eapply logged_trans; eassumption. }
        eapply run_bind; [exact O0|apply ow_do_insert|intros; apply ow_ret|apply run_insert with (orig := [(k, v)]) (d := d) (kvs := kvs); [exact O0|rewrite Z2; exact Hm|apply Ha1; unfold inserts; rewrite Ht; reflexivity|exact Hold]|].
        intros m1 s1 O1 L1 F1 (A1 & A2 & A3). apply run_ret. split; [reflexivity|]. cbn [snd]. unfold new, inserts, ev_a. rewrite Ht.
        split; [exact A1|]. split; [eapply logged_trans; eassumption|exact A3].
    + eapply run_bind; [exact O|apply ow_purgekv|intros; apply ow_ret|apply run_keep_kv; eassumption|].
      intros m1 s1 O1 L1 F1 A. apply run_ret. split; [reflexivity|exact A].
    + eapply run_bind; [exact O|apply ow_act_missing|intros; apply ow_leaf_entry|apply run_missing; eassumption|].
      intros m1 s1 O1 L1 F1 (A1 & A2 & A3). eapply run_weaken; [apply IH; auto|].
      { rewrite (proj2 A2). exact Hen. } { exact A1. }
      intros x s' (B1 & B2 & B3 & B4). destruct (m_entry (r_cmp rq) k v acts) as [x1 o1]. destruct (e_entry (r_cmp rq) fet sav k v acts) as [x2 o2].
      cbn [fst snd] in *. split; [exact B1|]. split; [rewrite app_assoc; exact B2|]. split; [eapply logged_trans; eassumption|].
      intros Hmod. destruct (B4 Hmod) as [C1 C2]. destruct (A3 C1) as [C3 C4]. rewrite C2, C4. auto.
Qed.

Lemma m_entry_ok k v acts : acts_ok acts -> acts_ok (fst (m_entry (r_cmp rq) k v acts)).
Proof.
  induction acts as [|a acts IH]; intros H; cbn [m_entry]; [exact H|]. destruct (acts_ok_inv H) as [_ H2]. destruct (r_cmp rq k (a_key a)).
  - destruct (a_type a); auto.
  - exact H.
  - specialize (IH H2). destruct (m_entry (r_cmp rq) k v acts) as [x o]. exact IH.
Qed.

Lemma run_leaf_loop d items : forall acts m kvs s, okst s -> st_en s = false -> mrok (st_f s) true d m kvs -> Forall kvP items ->
  acts_ok acts ->
  run (leaf_loop rq items TEnd acts m) s (leafpost d s m kvs (merge (r_cmp rq) items acts) items (evs (r_cmp rq) fet sav items acts)).
Proof.
  induction items as [|[k v] items IH]; intros acts m kvs s O Hen Hm Hi Ha; cbn [leaf_loop merge evs].
  - now apply run_missings.
  - inversion Hi as [|? ? Hkv Hi']; subst.
    eapply run_bind; [exact O|apply ow_leaf_entry|intros; apply ow_leaf_loop|apply run_leaf_entry; eassumption|].
    intros x s1 O1 L1 F1 (A0 & A1 & A2 & A3). pose proof (m_entry_ok k v Ha) as Ha'. rewrite A0.
    pose proof (e_entry_fst (r_cmp rq) fet sav k v acts) as Hf.
    destruct (m_entry (r_cmp rq) k v acts) as [a' o]. destruct (e_entry (r_cmp rq) fet sav k v acts) as [a'' o']. cbn [fst snd] in *. subst a''.
    eapply run_weaken; [apply IH; [exact O1|rewrite (proj2 A2); exact Hen|exact A1|exact Hi'|exact Ha']|].
    intros m' s' (B1 & B2 & B3). split; [rewrite app_assoc; exact B1|]. split; [eapply logged_trans; eassumption|].
    intros Hmod. destruct (B3 Hmod) as [C1 C2]. destruct (A3 C1) as [C3 C4]. rewrite C2, C4. auto.
Qed.

(** ** Inner nodes *)
Arguments read_kp_entry {f d c kvs}. Arguments tree_norm {f d p kvs}. Arguments tree_key {f d p kvs}. Arguments tree_nonempty {f d p kvs}.
Arguments tree_pos {f d p kvs}. Arguments tree_depth {f d p kvs}. Arguments mrok_flushed {f leaf d m kvs}. Arguments quiet_trans {a b c}.

Hypothesis OC : ord (r_cmp rq).
Let cmp := r_cmp rq.

Lemma span_spec k acts : asorted cmp acts -> exists here later, span_le cmp k acts = (here, later) /\ acts = here ++ later /\
  (forall a, In a here -> cmp (a_key a) k <> Gt) /\ (forall a, In a later -> cmp k (a_key a) = Lt).
Proof.
  intros Hs. induction Hs as [|a acts Hs IH Hall]; cbn [span_le].
  - exists [], []. repeat split; intros a [].
  - destruct (cmp (a_key a) k) eqn:Hc.
    + destruct IH as (h & l & -> & -> & H1 & H2). exists (a :: h), l. repeat split; auto.
      intros b [<-|Hb]; [rewrite Hc; discriminate|auto].
    + destruct IH as (h & l & -> & -> & H1 & H2). exists (a :: h), l. repeat split; auto.
      intros b [<-|Hb]; [rewrite Hc; discriminate|auto].
    + exists [], (a :: acts). repeat split; [intros b []|]. apply (c_gt OC) in Hc. intros b [<-|Hb]; [exact Hc|].
      rewrite Forall_forall in Hall. eapply (c_lt_le OC); [exact Hc|]. now apply Hall.
Qed.

(** In a sorted list the last key is the largest. *)
Arguments span_spec k {acts}.
Lemma sorted_last l x : sorted cmp l -> In x l -> cmp (fst x) (last (map fst l) []) <> Gt.
Proof.
  intros Hs. revert x. induction Hs as [|y l Hs IH Hall]; [intros x []|]. intros x Hx. cbn [map]. destruct l as [|z l].
  - destruct Hx as [<-|[]]. cbn. rewrite (o_refl OC). discriminate.
  - change (last (fst y :: map fst (z :: l)) []) with (last (map fst (z :: l)) []). destruct Hx as [<-|Hx]; [|now apply IH].
    rewrite Forall_forall in Hall. intros Hg. apply (c_gt OC) in Hg.
    assert (Hl : cmp (fst z) (last (map fst (z :: l)) []) <> Gt) by (apply IH; now left).
    apply Hl. apply (c_gt OC). eapply (o_lt OC); [exact Hg|]. apply Hall. now left.
Qed.
Lemma sorted_app a b : sorted cmp (a ++ b) -> sorted cmp a /\ sorted cmp b /\ forall x y, In x a -> In y b -> cmp (fst x) (fst y) = Lt.
Proof.
  induction a as [|z a IH]; cbn [app]; intros H; [split; [constructor|split; [exact H|intros x y []]]|].
  inversion H as [|? ? H1 H2]; subst. destruct (IH H1) as (A1 & A2 & A3). rewrite Forall_app in H2. destruct H2 as [H2 H3]. split; [constructor; assumption|].
  split; [exact A2|]. intros x y [<-|Hx] Hy; [|now apply A3]. rewrite Forall_forall in H3. now apply H3.
Qed.
Lemma asorted_app a b : asorted cmp (a ++ b) -> asorted cmp a /\ asorted cmp b.
Proof.
  induction a as [|z a IH]; cbn [app]; intros H; [split; [constructor|exact H]|].
  inversion H as [|? ? H1 H2]; subst. destruct (IH H1) as (A1 & A2). rewrite Forall_app in H2. split; [constructor; tauto|exact A2].
Qed.

Definition kppost (d : nat) (s : st) (m : mr) (kvs o orig : list kv) (ev : list event) (m' : mr) (s' : st) : Prop :=
  mrok (st_f s') false d m' (kvs ++ o) /\ logged s s' ev /\ (m_mod m' = false -> m_mod m = false /\ o = orig).

Definition mnspec (d : nat) (mn : node_pointer -> list action -> mr -> M mr) : Prop :=
  forall p ks acts m kvs s, okst s -> st_en s = false -> acts <> [] -> asorted cmp acts -> acts_ok acts ->
    tree (st_f s) d p ks -> sorted cmp ks -> mrok (st_f s) false d m kvs ->
    run (mn p acts m) s (kppost d s m kvs (merge cmp ks acts) ks (evs cmp fet sav ks acts)).

Lemma run_keep_kp d pn m kvs c ks s : okst s -> st_en s = false -> mrok (st_f s) false d m kvs -> tree (st_f s) d c ks ->
  run (maybe_purgekp rq pn c m) s (kppost d s m kvs ks ks []).
Proof.
  intros O Hen Hm Hk. eapply run_eq with (y := push_pointerinfo rq c m).
  - unfold maybe_purgekp, bindM, get_en. rewrite Hen. destruct (r_purge_kp rq); reflexivity.
  - eapply run_weaken; [apply run_push_ptr; eassumption|]. intros m' s' (A1 & A2 & A3 & _). split; [exact A1|]. split; [exact A2|].
    rewrite A3. auto.
Qed.
Lemma trees_le f f' d cs ks : le f f' -> Forall2 (tree f d) cs ks -> Forall2 (tree f' d) cs ks.
Proof. intros L. apply Forall2_impl. now apply tree_le. Qed.

Lemma run_kp_loop d pn mn : (forall p m, ow (pn p m)) -> (forall p a m, ow (mn p a m)) -> mnspec d mn ->
  forall cs ks acts m kvs s, okst s -> st_en s = false -> asorted cmp acts -> acts_ok acts -> (acts <> [] -> cs <> []) ->
    Forall2 (tree (st_f s) d) cs ks -> sorted cmp (concat ks) -> mrok (st_f s) false d m kvs ->
    run (kp_loop rq pn mn (map kp_entry cs) TEnd acts m) s
      (kppost d s m kvs (merge cmp (concat ks) acts) (concat ks) (evs cmp fet sav (concat ks) acts)).
Proof.
  intros Hpn Hmn MN. induction cs as [|c cs IH]; intros ks acts m kvs s O Hen Has Hao Hne Ht Hso Hm.
  - inv Ht. destruct acts as [|a acts]; [|exfalso; apply Hne; [discriminate|reflexivity]].
    cbn. apply run_ret. split; [rewrite app_nil_r; exact Hm|]. split; [apply quiet_refl|auto].
  - inversion Ht as [|? k ? ks' Hck Hrest]; subst. cbn [concat] in Hso. destruct (@sorted_app k (concat ks') Hso) as (Hs1 & Hs2 & Hs12).
    pose proof (read_kp_entry Hck) as Hread. cbn [kp_entry fst snd] in Hread. pose proof (tree_norm Hck) as Hcn.
    pose proof (tree_key Hck) as Hkey.
    assert (Hlow : forall x, In x k -> cmp (fst x) (np_key c) <> Gt) by (intros x Hx; rewrite Hkey; now apply sorted_last).
    assert (Hhigh : forall x, In x (concat ks') -> cmp (np_key c) (fst x) = Lt).
    { intros x Hx. rewrite Hkey. assert (Hkn : k <> []) by (eapply tree_nonempty; exact Hck).
      assert (Hin : In (last (map fst k) []) (map fst k)) by (apply last_in; intros Hm'; apply map_eq_nil in Hm'; congruence).
      apply in_map_iff in Hin. destruct Hin as (y & <- & Hy). now apply Hs12. }
    assert (Hskip : forall acts, asorted cmp acts -> acts_ok acts -> (acts <> [] -> cs <> []) -> (forall a, In a acts -> cmp (np_key c) (a_key a) = Lt) ->
      run (let+ c0 := lift (read_pointer (np_key c) (encode_pointer c)) in let+ m' := maybe_purgekp rq pn c0 m in kp_loop rq pn mn (map kp_entry cs) TEnd acts m') s
        (kppost d s m kvs (merge cmp (concat (k :: ks')) acts) (concat (k :: ks')) (evs cmp fet sav (concat (k :: ks')) acts))).
    { clear acts Has Hao Hne. intros acts Has Hao Hne Hgt. rewrite Hread.
      apply run_bind with (Q := fun x s' => x = norm c /\ s' = s); [exact O|apply ow_lift| |apply run_lift; auto|].
      { intros. apply ow_bind; [now apply ow_purgekp|intros; now apply ow_kp_loop]. }
      intros ? ? _ _ _ [-> ->]. eapply run_bind; [exact O|now apply ow_purgekp|intros; now apply ow_kp_loop|apply run_keep_kp; eassumption|].
      intros m1 s1 O1 L1 F1 (A1 & A2 & A3). eapply run_weaken.
      { apply IH; [exact O1|rewrite (proj2 A2); exact Hen|exact Has|exact Hao|exact Hne|eapply trees_le; eassumption|exact Hs2|exact A1]. }
      assert (Em : merge cmp (concat (k :: ks')) acts = k ++ merge cmp (concat ks') acts).
      { cbn [concat]. change acts with ([] ++ acts) at 1. rewrite (@merge_app cmp k (concat ks') [] acts); [now rewrite merge_nil|intros a x []|].
        intros a x Ha Hx. eapply (c_le_lt OC); [now apply Hlow|now apply Hgt]. }
      assert (Ee : evs cmp fet sav (concat (k :: ks')) acts = evs cmp fet sav (concat ks') acts).
      { cbn [concat]. change acts with ([] ++ acts) at 1. rewrite (@evs_app cmp fet sav k (concat ks') [] acts); [now rewrite evs_nil|intros a x []|].
        intros a x Ha Hx. eapply (c_le_lt OC); [now apply Hlow|now apply Hgt]. }
      rewrite Em, Ee. intros m' s' (B1 & B2 & B3). split; [rewrite app_assoc; exact B1|]. split; [change (evs cmp fet sav (concat ks') acts) with ([] ++ evs cmp fet sav (concat ks') acts); eapply logged_trans; eassumption|].
      intros Hmod. destruct (B3 Hmod) as [C1 C2]. destruct (A3 C1) as [C3 C4]. cbn [concat]. rewrite C2. auto. }
    cbn [map kp_loop kp_entry]. destruct acts as [|a0 acts0].
    + apply Hskip; auto. intros a [].
    + set (acts := a0 :: acts0) in *.
      destruct cs as [|c' cs'].
      * inv Hrest. cbn [map]. rewrite Hread. apply run_bind with (Q := fun x s' => x = norm c /\ s' = s); [exact O|apply ow_lift|intros; apply Hmn|apply run_lift; auto|].
        intros ? ? _ _ _ [-> ->]. cbn [concat]. rewrite app_nil_r. apply MN; auto. discriminate.
      * change (map kp_entry (c' :: cs')) with (kp_entry c' :: map kp_entry cs') in *. cbn [kp_entry] in *.
        destruct (r_cmp rq (np_key c) (a_key a0)) eqn:Hc0.
        2:{ apply (Hskip acts); auto; [discriminate|]. intros a [<-|Ha]; [exact Hc0|]. inversion Has as [|? ? ? Hall]; subst.
            rewrite Forall_forall in Hall. eapply (c_lt_le OC); [exact Hc0|now apply Hall]. }
        all: destruct (span_spec (np_key c) Has) as (here & later & Esp & Eacts & Hh & Hl); unfold cmp in Esp; rewrite Esp;
          (assert (Hhne : here <> []) by (intros Hz; rewrite Hz in Eacts; cbn [app] in Eacts;
             pose proof (Hl a0 ltac:(rewrite <- Eacts; now left)) as Hz'; unfold cmp in Hz'; rewrite Hz' in Hc0; discriminate));
          rewrite Hread; apply run_bind with (Q := fun x s' => x = norm c /\ s' = s);
          [exact O|apply ow_lift| |apply run_lift; auto|].
        all: try (intros; apply ow_bind; [apply Hmn|intros; now apply (@ow_kp_loop E rq pn mn TEnd (kp_entry c' :: map kp_entry cs'))]).
        all: intros ? ? _ _ _ [-> ->]; rewrite Eacts in Has, Hao; apply asorted_app in Has; destruct Has as [Has1 Has2];
          apply acts_ok_app in Hao; destruct Hao as [Hao1 Hao2];
          (eapply run_bind; [exact O|apply Hmn|intros; now apply (@ow_kp_loop E rq pn mn TEnd (kp_entry c' :: map kp_entry cs'))|apply MN; eassumption|]);
          intros m1 s1 O1 L1 F1 (A1 & A2 & A3);
          (eapply run_weaken; [apply IH; [exact O1|rewrite (proj2 A2); exact Hen|exact Has2|exact Hao2|discriminate|eapply trees_le; eassumption|exact Hs2|exact A1]|]);
          assert (P1 : forall a x, In a here -> In x (concat ks') -> cmp (fst x) (a_key a) = Gt)
            by (intros a x Ha Hx; apply (c_gt OC); eapply (c_le_lt OC); [now apply Hh|now apply Hhigh]);
          assert (P2 : forall a x, In a later -> In x k -> cmp (fst x) (a_key a) = Lt)
            by (intros a x Ha Hx; eapply (c_le_lt OC); [now apply Hlow|now apply Hl]);
          cbn [concat]; rewrite Eacts, (@merge_app cmp k (concat ks') here later P1 P2), (@evs_app cmp fet sav k (concat ks') here later P1 P2);
          intros m' s' (B1 & B2 & B3); (split; [rewrite app_assoc; exact B1|]); (split; [eapply logged_trans; eassumption|]);
          intros Hmod; destruct (B3 Hmod) as [C1 C2]; destruct (A3 C1) as [C3 C4]; rewrite C2, C4; auto.
Qed.

(** ** Reading a node and modifying it *)

Lemma run_read_node q b sz s : okst s -> hasz (st_f s) q b sz -> b <> [] -> read_node q s = (Ok b, s).
Proof.
  intros [G _] (z & H & Hu & _) Hb. pose proof (has_read EO q z G H) as Hr. unfold pread_bin in Hr. unfold read_node, pread_compressed. rewrite Hr. cbn [bind]. rewrite Hu.
  destruct b; [congruence|reflexivity].
Qed.

Arguments run_read_node {q b sz s}.
Definition loc_node (F : nat) (q : N) (acts : list action) : M mr :=
  let+ buf := read_node q in
  let '(items, t) := node_items buf in
  let+ loc := match buf with
              | 1 :: _ => leaf_loop rq items t acts (make_modres KV_NODE)
              | 0 :: _ => kp_loop rq (purge_node F rq) (fun c as_ m => modify_node F rq (Some c) as_ m)
                            items t acts (make_modres KP_NODE)
              | _ => fail E_CORRUPT
              end in
  flush_mr rq loc.
Lemma ow_loc_node F q acts : ow (loc_node F q acts).
Proof.
  unfold loc_node. apply ow_bind; [apply ow_read_node|]. intros buf. destruct (node_items buf) as [items t].
  apply ow_bind; [|intros; apply ow_flush].
  destruct buf as [|[|[p|p|]] b]; try apply ow_fail.
  - apply ow_kp_loop; [apply ow_purge_node|]. intros. apply ow_modify_node.
  - apply ow_leaf_loop.
Qed.
Lemma bind_assoc A B C (x : M A) (g : A -> M B) (h : B -> M C) s : bindM (bindM x g) h s = bindM x (fun a => bindM (g a) h) s.
Proof. unfold bindM. destruct (x s) as [[a|e] s1]; reflexivity. Qed.
Lemma bind_ext A B (x : M A) (g h : A -> M B) s : (forall a s1, g a s1 = h a s1) -> bindM x g s = bindM x h s.
Proof. unfold bindM. destruct (x s) as [[a|e] s1]; auto. Qed.
Lemma modify_eq F p acts dst s : acts <> [] ->
  modify_node (S F) rq (Some p) acts dst s =
  (let+ loc := loc_node F (np_pointer p) acts in
   if negb (m_mod loc) then push_pointerinfo rq p dst else move_pointers rq loc (set_mod dst)) s.
Proof.
  intros Ha. destruct acts as [|a acts]; [congruence|]. cbn [modify_node]. unfold loc_node. rewrite bind_assoc.
  apply bind_ext. intros buf s1. destruct (node_items buf) as [items t]. rewrite bind_assoc. reflexivity.
Qed.

Definition locpost (d : nat) (s : st) (orig o : list kv) (ev : list event) (m' : mr) (s' : st) : Prop :=
  logged s s' ev /\ (m_mod m' = false -> o = orig) /\
  (m_mod m' = true -> exists ks, Forall2 (tree (st_f s') d) (m_ptrs m') ks /\ o = concat ks).

Lemma run_loc_leaf F p ks acts s : okst s -> st_en s = false -> acts_ok acts -> tree (st_f s) 0 p ks ->
  run (loc_node F (np_pointer p) acts) s (locpost 0 s ks (merge cmp ks acts) (evs cmp fet sav ks acts)).
Proof.
  intros O Hen Ha (H1 & H2 & H3 & Hne & Hk & Hkey & Hred & sz & Hh & Hsz). unfold loc_node.
  assert (Hkv : Forall kv_ok ks) by (revert Hk; apply Forall_impl; apply (ro_kvP RO)).
  apply run_bind with (Q := fun x s' => x = mk_node KV_NODE ks /\ s' = s); [exact O|apply ow_read_node| | |].
  { intros buf. destruct (node_items buf) as [items t]. apply ow_bind; [|intros; apply ow_flush].
    destruct buf as [|[|[q|q|]] b]; try apply ow_fail; [|apply ow_leaf_loop].
    apply ow_kp_loop; [apply ow_purge_node|]. intros. apply ow_modify_node. }
  { intros r s' Hr _. rewrite (run_read_node O Hh) in Hr by discriminate. inv Hr. auto. }
  intros ? ? _ _ _ [-> ->]. rewrite (node_items_mk KV_NODE Hkv). cbn [mk_node KV_NODE].
  eapply run_bind; [exact O|apply ow_leaf_loop|intros; apply ow_flush|apply run_leaf_loop with (d := 0%nat); [exact O|exact Hen|apply mrok_empty|exact Hk|exact Ha]|].
  intros m1 s1 O1 L1 F1 (A1 & A2 & A3). eapply run_weaken; [apply run_flush; [exact O1|exact A1]|].
  intros m' s' (B1 & B2 & B3 & B4 & _). split; [eapply logged_quiet; eassumption|]. rewrite B3. split; [intros Hf; now apply A3|].
  intros Hm. destruct (B4 Hm) as [B5 _]. destruct (mrok_flushed B1 B5) as (k1 & C1 & C2). exists k1. split; [exact C1|]. exact C2.
Qed.

Lemma run_loc_inner F d p ks acts s : mnspec d (fun c as_ m => modify_node F rq (Some c) as_ m) ->
  okst s -> st_en s = false -> asorted cmp acts -> acts_ok acts -> tree (st_f s) (S d) p ks -> sorted cmp ks ->
  run (loc_node F (np_pointer p) acts) s (locpost (S d) s ks (merge cmp ks acts) (evs cmp fet sav ks acts)).
Proof.
  intros MN O Hen Has Ha (H1 & H2 & H3 & cs & k0 & sz & Hne & Hcs & -> & Hkey & Hred & Hh & Hsz & Hlt) Hso. unfold loc_node.
  assert (Hkv : Forall kv_ok (map kp_entry cs)) by (eapply kp_entries_ok; exact Hcs).
  apply run_bind with (Q := fun x s' => x = mk_node KP_NODE (map kp_entry cs) /\ s' = s); [exact O|apply ow_read_node| | |].
  { intros buf. destruct (node_items buf) as [items t]. apply ow_bind; [|intros; apply ow_flush].
    destruct buf as [|[|[q|q|]] b]; try apply ow_fail; [|apply ow_leaf_loop].
    apply ow_kp_loop; [apply ow_purge_node|]. intros. apply ow_modify_node. }
  { intros r s' Hr _. rewrite (run_read_node O Hh) in Hr by discriminate. inv Hr. auto. }
  intros ? ? _ _ _ [-> ->]. rewrite (node_items_mk KP_NODE Hkv). cbn [mk_node KP_NODE].
  eapply run_bind; [exact O|apply ow_kp_loop; [apply ow_purge_node|intros; apply ow_modify_node]|intros; apply ow_flush| |].
  { apply run_kp_loop with (d := d) (ks := k0) (kvs := []); auto; [intros; apply ow_purge_node|intros; apply ow_modify_node|apply mrok_empty]. }
  intros m1 s1 O1 L1 F1 (A1 & A2 & A3). eapply run_weaken; [apply run_flush; [exact O1|exact A1]|].
  intros m' s' (B1 & B2 & B3 & B4 & _). split; [eapply logged_quiet; eassumption|]. rewrite B3. split; [intros Hf; now apply A3|].
  intros Hm. destruct (B4 Hm) as [B5 _]. destruct (mrok_flushed B1 B5) as (k1 & C1 & C2). exists k1. split; [exact C1|]. exact C2.
Qed.

Lemma run_modify F : forall d, (d < F)%nat -> mnspec d (fun c as_ m => modify_node F rq (Some c) as_ m).
Proof.
  induction F as [|F IH]; intros d Hd; [lia|]. intros p ks acts m kvs s O Hen Hne Has Hao Ht Hso Hm.
  eapply run_eq; [now apply modify_eq|].
  eapply run_bind; [exact O|apply ow_loc_node| | |].
  { intros. destruct (negb (m_mod a)); [apply ow_push|apply ow_move]. }
  { destruct d as [|d]; [apply run_loc_leaf; eassumption|]. apply run_loc_inner; try eassumption. apply IH. lia. }
  intros loc s1 O1 L1 F1 (A1 & A2 & A3). destruct (m_mod loc) eqn:Hmod; cbn [negb].
  - destruct (A3 eq_refl) as (k1 & C1 & C2). eapply run_weaken.
    { unfold move_pointers. apply run_push_ptrs with (ks := k1); [exact O1|apply mrok_set_mod; eapply mrok_le; eassumption|exact C1]. }
    intros m' s' (B1 & B2 & B3 & _). split; [rewrite C2; exact B1|]. split; [eapply logged_quiet; eassumption|]. rewrite B3. discriminate.
  - specialize (A2 eq_refl). eapply run_weaken.
    { apply run_push_ptr; [exact O1|eapply mrok_le; eassumption|eapply tree_le; eassumption]. }
    intros m' s' (B1 & B2 & B3 & _). rewrite A2. split; [exact B1|]. split; [eapply logged_quiet; eassumption|]. rewrite B3. auto.
Qed.

(** ** The root *)

Lemma run_finish_loop F : forall d ps ks s, okst s -> (length ps <= F)%nat -> Forall2 (tree (st_f s) d) ps ks -> ps <> [] ->
  run (finish_loop F rq ps) s (fun p s' => exists d', tree (st_f s') d' p (concat ks) /\ quiet s s').
Proof.
  assert (Hone : forall F d p ks s, okst s -> Forall2 (tree (st_f s) d) [p] ks ->
     run (finish_loop F rq [p]) s (fun p s' => exists d', tree (st_f s') d' p (concat ks) /\ quiet s s')).
  { intros F0 d p ks s O H. inversion H as [|? k ? ? H1 H2]; subst. inv H2. destruct F0; cbn [finish_loop]; apply run_ret; exists d; cbn [concat]; rewrite app_nil_r; split; auto using quiet_refl. }
  induction F as [|F IH]; intros d ps ks s O Hl Ht Hne; [destruct ps; [congruence|cbn in Hl; lia]|].
  destruct ps as [|p [|p' ps]]; [congruence|eapply Hone; eassumption|]. cbn [finish_loop].
  eapply run_bind; [exact O|apply ow_foldM; intros; apply ow_push|intros; apply ow_bind; [apply ow_flush|intros; apply ow_finish_loop]| |].
  { apply run_push_ptrs with (d := d) (kvs := []) (ks := ks); [exact O|apply mrok_set_mod; apply mrok_empty|exact Ht]. }
  intros m1 s1 O1 L1 F1 (A1 & A2 & A3 & A4). cbn [app] in A1. cbn [set_mod m_mod] in A3.
  eapply run_bind; [exact O1|apply ow_flush|intros; apply ow_finish_loop|apply run_flush; eassumption|].
  intros m2 s2 O2 L2 F2 (B1 & B2 & B3 & B4 & _). destruct (B4 A3) as [C1 C2]. destruct (mrok_flushed B1 C1) as (k1 & C3 & C4).
  eapply run_weaken; [apply IH with (d := S d) (ks := k1); [exact O2| |exact C3|]|].
  - unfold wt in A4. cbn [set_mod make_modres m_ptrs m_vals length] in A4, Hl. rewrite C2. destruct (m_vals m1); cbn [length] in *; lia.
  - intros Hz. rewrite Hz in C3. inv C3. inversion Ht as [|? k ? ? Hp ?]; subst. apply tree_nonempty in Hp. cbn [concat] in C4.
    apply app_eq_nil in C4. tauto.
  - intros p0 s' (d' & D1 & D2). exists d'. rewrite C4. split; [exact D1|]. eapply quiet_trans; [exact A2|eapply quiet_trans; eassumption].
Qed.

Definition toptree (f : file) (r : option node_pointer) (kvs : list kv) : Prop :=
  match r with None => kvs = [] | Some p => exists d, tree f d p kvs end.

Lemma run_top d m kvs s : okst s -> mrok (st_f s) false d m kvs -> m_mod m = true ->
  run (top_pointer rq m) s (fun r s' => toptree (st_f s') r kvs /\ quiet s s').
Proof.
  intros O Hm Hmod. unfold top_pointer.
  destruct ((1 <? m_count m) || negb match m_ptrs m with [] => true | _ => false end) eqn:Hb.
  - apply run_bind with (Q := fun p s' => exists d', tree (st_f s') d' p kvs /\ quiet s s'); [exact O|unfold finish_root; apply ow_bind; [apply ow_flush|intros; apply ow_finish_loop]|intros; apply ow_ret| |].
    { unfold finish_root. eapply run_bind; [exact O|apply ow_flush|intros; apply ow_finish_loop|apply run_flush; eassumption|].
      intros m1 s1 O1 L1 F1 (A1 & A2 & A3 & A4 & _). destruct (A4 Hmod) as [B1 B2]. destruct (mrok_flushed A1 B1) as (k1 & C1 & C2).
      assert (Hp : m_ptrs m1 <> []).
      { intros Hz. rewrite Hz in B2. cbn [length] in B2. apply orb_true_iff in Hb. destruct Hb as [Hb|Hb].
        - apply N.ltb_lt in Hb. rewrite (mo_count Hm) in Hb. destruct (m_vals m); [unfold lenN in Hb; cbn [length] in Hb; lia|lia].
        - destruct (m_ptrs m); [discriminate|cbn in B2; lia]. }
      eapply run_weaken; [apply run_finish_loop with (d := S d) (ks := k1); [exact O1|lia|exact C1|exact Hp]|].
      intros p s' (d' & D1 & D2). rewrite <- C2 in D1. exists d'. split; [exact D1|exact (quiet_trans A2 D2)]. }
    intros p s1 O1 L1 F1 (d' & D1 & D2). apply run_ret. split; [exists d'; exact D1|exact D2].
  - apply orb_false_iff in Hb. destruct Hb as [Hc Hp]. apply N.ltb_ge in Hc. rewrite (mo_count Hm) in Hc.
    apply run_ret. split; [|apply quiet_refl]. destruct Hm as [_ _ _ _ (k1 & k2 & H5 & H6 & ->)].
    destruct (m_ptrs m) as [|? ?]; [|discriminate]. inv H5. cbn [concat app]. destruct (m_vals m) as [|i [|j vs]].
    + inv H6. reflexivity.
    + inversion H6 as [|? k ? ? H7 H8]; subst. inv H8. destruct H7 as (p & -> & Ht). cbn. rewrite app_nil_r. exists d. exact Ht.
    + rewrite !lenN_cons in Hc. lia.
Qed.

(** An index root as the header keeps it: the key is not kept, the subtree size only modulo 2^48. *)
Definition rtree (f : file) (r : option node_pointer) (kvs : list kv) : Prop :=
  match r with
  | None => kvs = []
  | Some p => exists d p', tree f d p' kvs /\ np_pointer p' = np_pointer p /\ np_reduce p' = np_reduce p /\
                np_subtree p' mod 2^48 = np_subtree p mod 2^48
  end.
Lemma toptree_rtree f r kvs : toptree f r kvs -> rtree f r kvs.
Proof. destruct r as [p|]; cbn; [|auto]. intros [d H]. exists d, p. auto. Qed.
Lemma rtree_le f f' r kvs : le f f' -> rtree f r kvs -> rtree f' r kvs.
Proof. intros L. destruct r as [p|]; cbn; [|auto]. intros (d & p' & H & H'). exists d, p'. split; [eapply tree_le; eassumption|exact H']. Qed.

Theorem run_modify_btree root kvs acts s : okst s -> st_en s = false -> asorted cmp acts -> acts_ok acts ->
  rtree (st_f s) root kvs -> sorted cmp kvs ->
  run (modify_btree rq root acts) s (fun root' s' => rtree (st_f s') root' (merge cmp kvs acts) /\ logged s s' (evs cmp fet sav kvs acts)).
Proof.
  intros O Hen Has Hao Hr Hso. unfold modify_btree.
  destruct acts as [|a0 acts0].
  { apply run_eq with (y := ret root); [reflexivity|]. apply run_ret. rewrite merge_nil, evs_nil. split; [exact Hr|apply quiet_refl]. }
  set (acts := a0 :: acts0) in *. assert (Hne : acts <> []) by discriminate. clearbody acts.
  assert (Hk : forall a : mr, ow (if m_mod a then top_pointer rq a else ret root)) by (intros a; destruct (m_mod a); [apply ow_top|apply ow_ret]).
  destruct root as [p|].
  - destruct Hr as (d & p' & Ht & Hp & Hpr & Hps).
    assert (Hd : (d <= N.to_nat (fpos (st_f s)))%nat) by (pose proof (tree_depth Ht); pose proof (tree_pos Ht); lia).
    apply run_eq with (y := (let+ loc := loc_node (N.to_nat (fpos (st_f s))) (np_pointer p) acts in
      let+ m := (if negb (m_mod loc) then push_pointerinfo rq p (make_modres KP_NODE) else move_pointers rq loc (set_mod (make_modres KP_NODE))) in
      if m_mod m then top_pointer rq m else ret (Some p))).
    { unfold bindM at 1. unfold depth_fuel. rewrite modify_eq by exact Hne. unfold bindM. destruct (loc_node (N.to_nat (fpos (st_f s))) (np_pointer p) acts s) as [[loc|e] s1]; reflexivity. }
    rewrite <- Hp. eapply run_bind; [exact O|apply ow_loc_node| | |].
    { intros. apply ow_bind; [|apply Hk]. destruct (negb (m_mod a)); [apply ow_push|apply ow_move]. }
    { destruct d as [|d]; [apply run_loc_leaf; eassumption|]. apply run_loc_inner; try eassumption. apply run_modify. lia. }
    intros loc s1 O1 L1 F1 (A1 & A2 & A3). destruct (m_mod loc) eqn:Hmod; cbn [negb].
    + destruct (A3 eq_refl) as (k1 & C1 & C2). eapply run_bind; [exact O1|apply ow_move|apply Hk| |].
      { unfold move_pointers. apply run_push_ptrs with (ks := k1) (d := d) (kvs := []); [exact O1|apply mrok_set_mod, mrok_empty|exact C1]. }
      intros m2 s2 O2 L2 F2 (B1 & B2 & B3 & _). cbn [set_mod m_mod] in B3. rewrite B3. cbn [app] in B1. rewrite <- C2 in B1.
      eapply run_weaken; [eapply run_top; eassumption|]. intros r s' (D1 & D2). split; [apply toptree_rtree; exact D1|].
      eapply logged_quiet; [exact A1|eapply quiet_trans; eassumption].
    + specialize (A2 eq_refl). rewrite A2. apply run_eq with (y := ret (Some p)).
      { unfold bindM, push_pointerinfo, push, maybe_flush. cbn [make_modres m_mod andb]. destruct (r_compact rq); reflexivity. }
      apply run_ret. split; [|exact A1]. exists d, p'. split; [eapply tree_le; eassumption|auto].
  - cbn in Hr. subst kvs. 
    apply run_eq with (y := (let+ loc := leaf_loop rq [] TEnd acts (make_modres KV_NODE) in let+ loc' := flush_mr rq loc in
      let+ m := move_pointers rq loc' (set_mod (make_modres KP_NODE)) in if m_mod m then top_pointer rq m else ret None)).
    { unfold depth_fuel. destruct acts as [|b bs]; [congruence|]. cbn [modify_node]. unfold bindM.
      destruct (leaf_loop rq [] TEnd (b :: bs) (make_modres KV_NODE) s) as [[loc|e] s1]; [|reflexivity].
      destruct (flush_mr rq loc s1) as [[loc'|e] s2]; reflexivity. }
    eapply run_bind; [exact O|apply ow_leaf_loop| |apply run_leaf_loop with (d := 0%nat); [exact O|exact Hen|apply mrok_empty|constructor|exact Hao]|].
    { intros. apply ow_bind; [apply ow_flush|]. intros. apply ow_bind; [apply ow_move|apply Hk]. }
    intros m1 s1 O1 L1 F1 (A1 & A2 & A3). cbn [app] in A1.
    eapply run_bind; [exact O1|apply ow_flush| |apply run_flush; [exact O1|exact A1]|].
    { intros. apply ow_bind; [apply ow_move|apply Hk]. }
    intros m2 s2 O2 L2 F2 (B1 & B2 & B3 & B4 & _).
    assert (Hpt : exists ks, Forall2 (tree (st_f s2) 0) (m_ptrs m2) ks /\ merge cmp [] acts = concat ks).
    { destruct (m_mod m1) eqn:Hmod.
      - destruct (B4 eq_refl) as [B5 _]. exact (mrok_flushed B1 B5).
      - destruct (A3 eq_refl) as [_ Hz]. exists []. rewrite (mo_mod B1 B3). split; [constructor|]. exact Hz. }
    destruct Hpt as (ks & C1 & C2). eapply run_bind; [exact O2|apply ow_move|apply Hk| |].
    { unfold move_pointers. apply run_push_ptrs with (ks := ks) (d := 0%nat) (kvs := []); [exact O2|apply mrok_set_mod, mrok_empty|exact C1]. }
    intros m3 s3 O3 L3 F3 (D1 & D2 & D3 & _). cbn [set_mod m_mod] in D3. rewrite D3. cbn [app] in D1. rewrite <- C2 in D1.
    eapply run_weaken; [eapply run_top; eassumption|]. intros r s' (E1 & E2). split; [apply toptree_rtree; exact E1|].
    eapply logged_quiet; [exact A2|]. eapply quiet_trans; [exact B2|]. eapply quiet_trans; eassumption.
Qed.
End WithEnv.
Arguments tree_key {E rq kvP redP f d p kvs}. Arguments tree_nonempty {E rq kvP redP f d p kvs}. Arguments tree_depth {E rq kvP redP f d p kvs}.
Arguments tree_pos {E rq kvP redP f d p kvs}. Arguments tree_le {E rq kvP redP f f'}. Arguments tree_kvP {E rq kvP redP f d p kvs}.
Arguments rtree_le {E rq kvP redP f f'}.
