(** Correctness of guided purging: what is left of a stored index. *)
From Verif Require Import Base Codec CodecFacts File FileFacts ChunkFacts Btree TreeStore SpecMap MergeFacts ModifyFacts SpecCleanup.
Local Open Scope N_scope.
Unset Strict Implicit.
Local Arguments tree_norm {E rq kvP redP f d p kvs}.
Local Arguments read_kp_entry {E rq kvP redP okf allowed} RO {f d c kvs}.
Local Arguments kp_entries_ok {E rq kvP redP okf allowed} RO {f d cs ks}.

Lemma sum_of_app A (g : A -> N) a b : sum_of g (a ++ b) = sum_of g a + sum_of g b.
Proof. induction a as [|x a IH]; [reflexivity|]. cbn [app sum_of fold_right]. fold (sum_of g (a ++ b)) (sum_of g a). lia. Qed.
Lemma sum_of_cons A (g : A -> N) x l : sum_of g (x :: l) = g x + sum_of g l.
Proof. reflexivity. Qed.
Lemma sum_filter A (g : A -> N) p l : sum_of g (filter p l) <= sum_of g l.
Proof. induction l as [|x l IH]; cbn [filter]; [lia|]. rewrite sum_of_cons. destruct (p x); [rewrite sum_of_cons|]; lia. Qed.
Lemma longest_in x kvs : In x kvs -> lenN (fst x) <= longest kvs.
Proof. induction kvs as [|y kvs IH]; [intros []|]. cbn [longest fold_right]. fold (longest kvs). intros [->|H]; [lia|]. specialize (IH H). lia. Qed.
Lemma filter_concat A (p : A -> bool) ls : filter p (concat ls) = concat (map (filter p) ls).
Proof. induction ls as [|l ls IH]; [reflexivity|]. cbn [concat map]. now rewrite filter_app, IH. Qed.
Lemma existsb_false_filter A (p : A -> bool) l : existsb p l = false -> filter p l = [] /\ filter (fun x => negb (p x)) l = l.
Proof.
  induction l as [|x l IH]; [auto|]. cbn [existsb filter]. rewrite orb_false_iff. intros [-> H]. destruct (IH H) as [-> ->]. auto.
Qed.
Lemma forallb_filter A (p : A -> bool) l : forallb p l = true -> filter p l = l /\ filter (fun x => negb (p x)) l = [].
Proof. induction l as [|x l IH]; [auto|]. cbn [forallb filter]. rewrite andb_true_iff. intros [-> H]. destruct (IH H) as [-> ->]. auto. Qed.
Lemma isum_kv l : isum (map kv_item l) = sum_of entry_size l.
Proof. induction l as [|x l IH]; [reflexivity|]. cbn [map]. rewrite isum_cons, sum_of_cons, IH. reflexivity. Qed.

Section WithEnv.
Context {E : Env} (EO : EnvOk E).
Variable rq : request.
Variable kvP : kv -> Prop.
Variable redP : bytes -> Prop.
Variable okf : file -> Prop.
Variable allowed : err -> Prop.
Hypothesis RO : rq_ok rq kvP redP okf allowed.
Hypothesis NC : r_compact rq = false.
Variable R : N.
Hypothesis HR : forall r, redP r -> lenN r <= R.
(** The entries to remove and what each counts. *)
Variable gone : kv -> bool.
Variable w : kv -> N.
Variable pw : event -> N.
Local Notation tree := (tree rq kvP redP).
Local Notation mrok := (mrok rq kvP redP).
Local Notation run := (run allowed).
Local Notation okst := (okst okf).
Hypothesis Hkv : exists g, r_purge_kv rq = Some g /\ forall k v, kvP (k, v) -> g k v = Ok (if gone (k, v) then P_ITEM else P_KEEP).
Hypothesis Hkp : exists g, r_purge_kp rq = Some g /\ forall f d p kvs, tree f d p kvs -> exists a, g p = Ok a /\
  match a with
  | P_ITEM => forallb gone kvs = true
  | P_KEEP => existsb gone kvs = false
  | P_PARTIAL => existsb gone kvs = true
  | P_STOP => False
  end.
Definition limit : N := 2^40.
Hypothesis Hwkv : forall k v, kvP (k, v) -> w (k, v) < limit -> pw (EvPurgeKv k v) = w (k, v).
Hypothesis Hwkp : forall f d p kvs, tree f d p kvs -> sum_of w kvs < limit -> pw (EvPurgeKp p) = sum_of w kvs.

Definition kept (l : list kv) : list kv := filter (fun x => negb (gone x)) l.
Lemma kept_app a b : kept (a ++ b) = kept a ++ kept b.
Proof. apply filter_app. Qed.

(** The purge calls made between two states. *)
Definition purges (s s' : st) (l : list kv) : Prop := exists ev, logged s s' ev /\ (sum_of w l < limit -> sum_of pw ev = sum_of w (filter gone l)).
Lemma purges_trans a b c l l' : purges a b l -> purges b c l' -> purges a c (l ++ l').
Proof.
  intros (e & H1 & H2) (e' & H3 & H4). exists (e ++ e'). split; [eapply logged_trans; eassumption|]. rewrite sum_of_app. intros H.
  rewrite filter_app, !sum_of_app, H2, H4 by lia. reflexivity.
Qed.
Lemma purges_none s s' l : quiet s s' -> existsb gone l = false -> purges s s' l.
Proof. intros Q H. exists []. split; [exact Q|]. rewrite (proj1 (existsb_false_filter H)). reflexivity. Qed.
Lemma purges_quiet s s' s'' l : purges s s' l -> quiet s' s'' -> purges s s'' l.
Proof. intros (e & H1 & H2) Q. exists e. split; [eapply logged_quiet; eassumption|exact H2]. Qed.

(** ** Pushing without splitting *)

Definition thr (leaf : bool) : N := if leaf then r_kv rq else r_kp rq.
(** Room for [n] more entries of together [b] bytes. *)
Definition room (leaf : bool) (m : mr) (n : nat) (b : N) : Prop :=
  m_ptrs m = [] /\ ((length (m_vals m) + n <= 3)%nat \/ isum (m_vals m) + b <= thr leaf).
Lemma room_le leaf m n b n' b' : room leaf m n b -> (n' <= n)%nat -> b' <= b -> room leaf m n' b'.
Proof. intros [H1 H2] Hn Hb. split; [exact H1|]. destruct H2 as [H2|H2]; [left; lia|right; lia]. Qed.
Lemma room_set_mod leaf m n b : room leaf m n b -> room leaf (set_mod m) n b.
Proof. exact (fun H => H). Qed.

Lemma push_room f leaf d m kvs i n b s : mrok f leaf d m kvs -> room leaf m (S n) (item_size i + b) ->
  exists m', push rq i m s = (Ok m', s) /\ room leaf m' n b.
Proof.
  intros Hm [Hp Hr]. unfold push. set (m1 := Mr _ _ _ _ _ _).
  assert (R1 : room leaf m1 n b).
  { split; [exact Hp|]. subst m1. cbn [m_vals]. rewrite app_length, isum_app. cbn [length isum fold_right]. destruct Hr as [Hr|Hr]; [left; lia|right; lia]. }
  assert (Hf : maybe_flush rq m1 s = (Ok m1, s)).
  { unfold maybe_flush. rewrite NC. subst m1. cbn [m_mod m_count m_type m_len]. rewrite (mo_count Hm), (mo_len Hm), (mo_type Hm).
    destruct (m_mod m && (3 <? lenN (m_vals m) + 1)) eqn:H3; [|reflexivity].
    apply andb_true_iff in H3. destruct H3 as [_ H3]. apply N.ltb_lt in H3. unfold lenN in H3. destruct Hr as [Hr|Hr]; [lia|].
    destruct leaf; cbn [ty_of thr] in *.
    - rewrite N.eqb_refl. change (KV_NODE =? KP_NODE) with false. cbn [andb]. destruct (N.ltb_spec (r_kv rq) (isum (m_vals m) + item_size i)); [lia|reflexivity].
    - rewrite N.eqb_refl. change (KP_NODE =? KV_NODE) with false. cbn [andb]. destruct (N.ltb_spec (r_kp rq) (isum (m_vals m) + item_size i)); [lia|reflexivity]. }
  exists m1. auto.
Qed.

(** ** Leaves *)

Lemma run_purge_kv d m kvs x s : okst s -> st_en s = true -> mrok (st_f s) true d m kvs -> kvP x ->
  run (maybe_purgekv rq (fst x) (snd x) m) s (fun m' s' => mrok (st_f s') true d m' (kvs ++ kept [x]) /\ purges s s' [x] /\ m_mod m' = m_mod m || gone x /\
    (forall n b, room true m (S n) (entry_size x + b) -> room true m' n b)).
Proof.
  intros O En Hm Hx. destruct x as [k v]. cbn [fst snd]. destruct Hkv as (g & Hg & Hd). specialize (Hd k v Hx).
  unfold kept. cbn [filter]. destruct (gone (k, v)) eqn:Hgo; cbn [negb].
  - apply run_eq with (y := (let+ _ := emit (EvPurgeKv k v) in ret (set_mod m))).
    { unfold maybe_purgekv, bindM, get_en, lift. rewrite Hg, En, Hd. reflexivity. }
    eapply run_bind; [exact EO|exact RO|exact O|apply ow_emit|intros; apply ow_ret|apply run_emit|].
    intros _ s1 O1 L1 F1 [A1 A2]. apply run_ret. rewrite A2, app_nil_r, orb_true_r. split; [now apply mrok_set_mod|]. split; [|split; [reflexivity|]].
    + exists [EvPurgeKv k v]. split; [exact A1|]. cbn [filter]. rewrite Hgo. rewrite !sum_of_cons. intros Hs. rewrite (Hwkv Hx) by (unfold sum_of in Hs; cbn in Hs; lia). reflexivity.
    + intros n b Hr. apply room_set_mod. eapply room_le; [exact Hr|lia|lia].
  - apply run_eq with (y := push_item rq k v m).
    { unfold maybe_purgekv, bindM, get_en, lift. rewrite Hg, En, Hd. reflexivity. }
    assert (Hp := @run_push_item E EO rq kvP redP okf allowed RO d m kvs k v s O Hm Hx). intros r s' Hr F. specialize (Hp r s' Hr F). destruct r as [m'|e]; [|exact Hp].
    destruct Hp as (A1 & A2 & A3). split; [exact A1|]. split; [apply purges_none; [exact A2|cbn [existsb]; now rewrite Hgo]|]. split; [now rewrite A3, orb_false_r|].
    intros n b Hro. destruct (push_room (i := kv_item (k, v)) (n := n) (b := b) s Hm Hro) as (m2 & E2 & R2). unfold push_item in Hr. rewrite E2 in Hr. inv Hr. exact R2.
Qed.

Lemma run_purge_kvs d items : forall m kvs s, okst s -> st_en s = true -> mrok (st_f s) true d m kvs -> Forall kvP items ->
  run (foldM (fun kv m => maybe_purgekv rq (fst kv) (snd kv) m) items m) s (fun m' s' =>
    mrok (st_f s') true d m' (kvs ++ kept items) /\ purges s s' items /\ m_mod m' = m_mod m || existsb gone items /\
    (room true m (length items) (sum_of entry_size items) -> m_ptrs m' = [])).
Proof.
  induction items as [|x items IH]; intros m kvs s O En Hm Hk; cbn [foldM].
  - apply run_ret. cbn [kept filter existsb]. rewrite app_nil_r, orb_false_r. split; [exact Hm|]. split; [apply purges_none; [apply quiet_refl|reflexivity]|]. split; [reflexivity|].
    intros [H _]. exact H.
  - inversion Hk as [|? ? Hx Hrest]; subst. eapply run_bind; [exact EO|exact RO|exact O|apply ow_purgekv|intros; apply ow_foldM; intros; apply ow_purgekv|now apply (run_purge_kv O En Hm)|].
    intros m1 s1 O1 L1 F1 (A1 & A2 & A3 & A4). eapply run_weaken.
    { apply IH; [exact O1| |exact A1|exact Hrest]. destruct A2 as (ev & [_ He] & _). now rewrite He. }
    intros m' s' (B1 & B2 & B3 & B4). split; [change (x :: items) with ([x] ++ items); rewrite kept_app, app_assoc; exact B1|].
    split; [change (x :: items) with ([x] ++ items); eapply purges_trans; eassumption|]. split; [cbn [existsb]; now rewrite B3, A3, orb_assoc|].
    rewrite sum_of_cons. cbn [length]. intros Hr. apply B4, A4, Hr.
Qed.

(** ** Inner nodes *)

(** A stored tree whose nodes have room. *)
Fixpoint tree2 (f : file) (d : nat) (p : node_pointer) (kvs : list kv) : Prop :=
  tree f d p kvs /\
  match d with
  | O => (length kvs <= 3)%nat \/ sum_of entry_size kvs <= r_kv rq
  | S d' => exists cs ks sz, cs <> [] /\ Forall2 (tree2 f d') cs ks /\ kvs = concat ks /\
         hasz f (np_pointer p) (mk_node KP_NODE (map kp_entry cs)) sz /\ Forall2 (tree f d') cs ks /\
         ((length cs <= 3)%nat \/ sum_of (pointer_size R) ks <= r_kp rq)
  end.
Lemma tree2_tree f d p kvs : tree2 f d p kvs -> tree f d p kvs.
Proof. destruct d; intros [H _]; exact H. Qed.
Lemma tree2_le f f' : le f f' -> forall d p kvs, tree2 f d p kvs -> tree2 f' d p kvs.
Proof.
  intros L. induction d as [|d IH]; intros p kvs [H H']; cbn [tree2]; (split; [exact (@tree_le _ _ _ _ _ _ L _ _ _ H)|]); [exact H'|].
  destruct H' as (cs & ks & sz & H1 & H2 & H3 & H4 & H5 & H6). exists cs, ks, sz. split; [exact H1|]. split; [eapply Forall2_impl; [|exact H2]; apply IH|].
  split; [exact H3|]. split; [eapply hasz_le; eassumption|]. split; [|exact H6]. eapply Forall2_impl; [|exact H5]. intros. eapply tree_le; eassumption.
Qed.
Lemma tree2_norm f d p kvs : tree2 f d p kvs -> tree2 f d (norm p) kvs.
Proof. destruct d; intros [H H']; (split; [exact (tree_norm H)|exact H']). Qed.

(** The contents of the file determine the entries of a stored tree. *)
Lemma hasz_read f q b sz : good f -> hasz f q b sz -> pread_compressed f q = Ok b.
Proof. intros G (z & H & Hu & _). pose proof (has_read EO q z G H) as Hr. unfold pread_bin in Hr. unfold pread_compressed. rewrite Hr. cbn [bind]. now rewrite Hu. Qed.
Lemma kp_same f d cs ks d' cs' ks' : Forall2 (tree f d) cs ks -> Forall2 (tree f d') cs' ks' ->
  mk_node KP_NODE (map kp_entry cs) = mk_node KP_NODE (map kp_entry cs') -> map norm cs = map norm cs'.
Proof.
  intros H H' He. assert (Hi : node_items (mk_node KP_NODE (map kp_entry cs)) = node_items (mk_node KP_NODE (map kp_entry cs'))) by now rewrite He.
  rewrite (node_items_mk KP_NODE (kp_entries_ok RO H)), (node_items_mk KP_NODE (kp_entries_ok RO H')) in Hi.
  assert (Hm : map kp_entry cs = map kp_entry cs') by congruence. clear He Hi. revert ks cs' ks' H H' Hm.
  induction cs as [|c cs IH]; intros ks cs' ks' H H' Hm; destruct cs' as [|c' cs']; try discriminate Hm; [reflexivity|].
  inversion H; subst; inversion H'; subst. cbn [map] in Hm |- *.
  assert (HA : kp_entry c = kp_entry c') by congruence. assert (HB : map kp_entry cs = map kp_entry cs') by congruence.
  f_equal; [|eapply IH; eassumption].
  match goal with Ha : tree f d c _, Hb : tree f d' c' _ |- _ => pose proof (read_kp_entry RO Ha) as R1; pose proof (read_kp_entry RO Hb) as R2 end.
  rewrite HA in R1. congruence.
Qed.
Lemma tree_det f : good f -> forall d p kvs d' p' kvs', tree f d p kvs -> tree f d' p' kvs' -> np_pointer p = np_pointer p' -> d = d' /\ kvs = kvs'.
Proof.
  intros G. induction d as [|d IH]; intros p kvs d' p' kvs' H H' He; destruct d' as [|d'].
  - destruct H as (_ & _ & _ & _ & Hk & _ & _ & sz & Hh & _), H' as (_ & _ & _ & _ & Hk' & _ & _ & sz' & Hh' & _). split; [reflexivity|].
    pose proof (hasz_read G Hh) as R1. pose proof (hasz_read G Hh') as R2. rewrite He in R1.
    assert (Hn : node_items (mk_node KV_NODE kvs) = node_items (mk_node KV_NODE kvs')) by congruence.
    rewrite (node_items_mk KV_NODE), (node_items_mk KV_NODE) in Hn; [congruence| |]; [revert Hk'|revert Hk]; apply Forall_impl; apply (ro_kvP RO).
  - destruct H as (_ & _ & _ & _ & Hk & _ & _ & sz & Hh & _), H' as (_ & _ & _ & cs & k0 & sz' & _ & _ & _ & _ & _ & Hh' & _).
    pose proof (hasz_read G Hh) as R1. pose proof (hasz_read G Hh') as R2. rewrite He in R1. rewrite R1 in R2. unfold mk_node in R2. discriminate R2.
  - destruct H' as (_ & _ & _ & _ & Hk & _ & _ & sz & Hh & _), H as (_ & _ & _ & cs & k0 & sz' & _ & _ & _ & _ & _ & Hh' & _).
    pose proof (hasz_read G Hh) as R1. pose proof (hasz_read G Hh') as R2. rewrite He in R2. rewrite R1 in R2. unfold mk_node in R2. discriminate R2.
  - destruct H as (_ & _ & _ & cs & k0 & sz & Hne & Hcs & -> & _ & _ & Hh & _), H' as (_ & _ & _ & cs' & k0' & sz' & Hne' & Hcs' & -> & _ & _ & Hh' & _).
    pose proof (hasz_read G Hh) as R1. pose proof (hasz_read G Hh') as R2. rewrite He in R1. assert (Hb : mk_node KP_NODE (map kp_entry cs) = mk_node KP_NODE (map kp_entry cs')) by congruence.
    pose proof (kp_same Hcs Hcs' Hb) as Hn. clear R1 R2 Hb Hh Hh' He.
    assert (Hd : d = d').
    { destruct Hcs as [|c k cs k0 Hc _]; [congruence|]. destruct Hcs' as [|c' k' cs' k0' Hc' _]; [congruence|]. cbn [map] in Hn.
      assert (Hc1 : norm c = norm c') by congruence. apply (f_equal np_pointer) in Hc1. cbn [norm np_pointer] in Hc1. exact (proj1 (IH _ _ _ _ _ Hc Hc' Hc1)). }
    subst d'. split; [reflexivity|]. f_equal. clear Hne Hne'. revert cs' k0' Hcs' Hn. induction Hcs as [|c k cs k0 Hc Hcs IHc]; intros cs' k0' Hcs' Hn.
    + destruct cs'; [|discriminate Hn]. inv Hcs'. reflexivity.
    + destruct cs' as [|c' cs']; [discriminate Hn|]. inversion Hcs' as [|? k' ? k0'' Hc' Hcs'']; subst. cbn [map] in Hn.
      assert (Hc1 : norm c = norm c') by congruence. apply (f_equal np_pointer) in Hc1. cbn [norm np_pointer] in Hc1. f_equal; [exact (proj2 (IH _ _ _ _ _ Hc Hc' Hc1))|].
      eapply IHc; [exact Hcs''|congruence].
Qed.
Lemma tree2_swap f d p p' kvs : tree2 f d p kvs -> tree f d p' kvs -> np_pointer p = np_pointer p' -> tree2 f d p' kvs.
Proof. destruct d; intros [_ H] H' He; (split; [exact H'|]); [exact H|]. now rewrite <- He. Qed.
Lemma tree2_inner f d p ks cs k0 sz : good f -> tree2 f (S d) p ks -> cs <> [] -> Forall2 (tree f d) cs k0 -> hasz f (np_pointer p) (mk_node KP_NODE (map kp_entry cs)) sz ->
  Forall2 (tree2 f d) cs k0 /\ ((length cs <= 3)%nat \/ sum_of (pointer_size R) k0 <= r_kp rq).
Proof.
  intros G [_ (cs' & k0' & sz' & T1 & T2 & T3 & T4 & T5 & T6)] Hne Hcs Hh.
  pose proof (hasz_read G Hh) as R1. pose proof (hasz_read G T4) as R2. assert (Hb : mk_node KP_NODE (map kp_entry cs) = mk_node KP_NODE (map kp_entry cs')) by congruence.
  pose proof (kp_same Hcs T5 Hb) as Hn.
  assert (Hq : Forall2 (tree2 f d) cs k0 /\ k0 = k0').
  { clear - G Hcs T2 T5 Hn RO EO. revert cs' k0' T2 T5 Hn. induction Hcs as [|c k cs k0 Hc Hcs IH]; intros cs' k0' T2 T5 Hn.
    - destruct cs'; [|discriminate Hn]. inv T2. auto.
    - destruct cs' as [|c' cs']; [discriminate Hn|]. inversion T2 as [|? k' ? k0'' U1 U2]; subst. inversion T5 as [|? ? ? ? V1 V2]; subst. cbn [map] in Hn.
      assert (Hc1 : norm c = norm c') by congruence. apply (f_equal np_pointer) in Hc1. cbn [norm np_pointer] in Hc1.
      destruct (tree_det G Hc V1 Hc1) as [_ <-]. destruct (IH _ _ U2 V2) as [W1 <-]; [congruence|]. split; [|reflexivity]. constructor; [|exact W1].
      eapply tree2_swap; [exact U1|exact Hc|symmetry; exact Hc1]. }
  destruct Hq as [Q1 <-]. split; [exact Q1|]. destruct T6 as [T6|T6]; [left|right; exact T6]. rewrite <- (map_length norm cs), Hn, map_length. exact T6.
Qed.

Lemma pointer_bound f d p kvs ks : tree f d p kvs -> (forall x, In x kvs -> In x ks) -> item_size (ptr_item p) <= pointer_size R ks.
Proof.
  intros H Hin. unfold item_size, pointer_size. cbn [ptr_item it_key it_data].
  assert (Hl : lenN (encode_pointer p) = 14 + lenN (np_reduce p)).
  { unfold encode_pointer. rewrite ?lenN_app, ?lenN_be. lia. }
  assert (Hr : lenN (np_reduce p) <= R) by (apply HR; destruct d; destruct H as (_ & _ & Hr & _); exact Hr).
  assert (Hk : lenN (np_key p) <= longest ks).
  { rewrite (tree_key H). pose proof (tree_nonempty H) as Hn. assert (Hm : map fst kvs <> []) by (intros Hz; apply map_eq_nil in Hz; congruence).
    pose proof (@last_in _ (map fst kvs) [] Hm) as Hi. apply in_map_iff in Hi. destruct Hi as (x & <- & Hx). apply longest_in. auto. }
  lia.
Qed.

(** What [purge_node] does with a subtree that has entries to remove. *)
Definition pnspec (d : nat) (pn : node_pointer -> mr -> M mr) : Prop :=
  forall p ks m kvs s, okst s -> st_en s = true -> tree (st_f s) d p ks -> existsb gone ks = true -> mrok (st_f s) false d m kvs ->
    run (pn p m) s (fun m' s' => mrok (st_f s') false d m' (kvs ++ kept ks) /\ purges s s' ks /\ m_mod m' = true /\
      (tree2 (st_f s) d p ks -> forall n b, room false m (S n) (pointer_size R ks + b) -> room false m' n b)).

Lemma run_purge_kp d pn m kvs p ks s : (forall p m, ow (pn p m)) -> pnspec d pn -> okst s -> st_en s = true -> mrok (st_f s) false d m kvs -> tree (st_f s) d p ks ->
  run (maybe_purgekp rq pn p m) s (fun m' s' => mrok (st_f s') false d m' (kvs ++ kept ks) /\ purges s s' ks /\ m_mod m' = m_mod m || existsb gone ks /\
    (tree2 (st_f s) d p ks -> forall n b, room false m (S n) (pointer_size R ks + b) -> room false m' n b)).
Proof.
  intros Hpn PN O En Hm Ht. destruct Hkp as (g & Hg & Hd). destruct (Hd _ _ _ _ Ht) as (a & Ha & Hact).
  destruct a.
  - apply run_eq with (y := (let+ _ := emit (EvPurgeKp p) in ret (set_mod m))).
    { unfold maybe_purgekp, bindM, get_en, lift. rewrite Hg, En, Ha. reflexivity. }
    eapply run_bind; [exact EO|exact RO|exact O|apply ow_emit|intros; apply ow_ret|apply run_emit|].
    intros _ s1 O1 L1 F1 [A1 A2]. apply run_ret. rewrite A2. destruct (forallb_filter Hact) as [Hf1 Hf2]. unfold kept. rewrite Hf2, app_nil_r.
    split; [now apply mrok_set_mod|]. split; [|split].
    + exists [EvPurgeKp p]. split; [exact A1|]. intros Hs. rewrite Hf1, sum_of_cons, (Hwkp Ht Hs). cbn. lia.
    + assert (He : existsb gone ks = true); [|now rewrite He, orb_true_r]. pose proof (tree_nonempty Ht) as Hn. destruct ks as [|x ks]; [congruence|].
      cbn [forallb] in Hact. apply andb_true_iff in Hact. destruct Hact as [Hx _]. cbn [existsb]. now rewrite Hx.
    + intros _ n b Hr. apply room_set_mod. eapply room_le; [exact Hr|lia|lia].
  - contradiction.
  - apply run_eq with (y := push_pointerinfo rq p m).
    { unfold maybe_purgekp, bindM, get_en, lift. rewrite Hg, En, Ha. reflexivity. }
    assert (Hp := @run_push_ptr E EO rq kvP redP okf allowed RO d m kvs p ks s O Hm Ht). intros r s' Hr F. specialize (Hp r s' Hr F). destruct r as [m'|e]; [|exact Hp].
    destruct Hp as (A1 & A2 & A3 & _). destruct (existsb_false_filter Hact) as [Hf1 Hf2]. unfold kept. rewrite Hf2, Hact, orb_false_r.
    split; [exact A1|]. split; [now apply purges_none|]. split; [exact A3|]. intros _ n b Hro.
    assert (Hb : item_size (ptr_item p) <= pointer_size R ks) by (eapply pointer_bound; [exact Ht|auto]).
    destruct (push_room (i := ptr_item p) (n := n) (b := b) s Hm) as (m2 & E2 & R2); [eapply room_le; [exact Hro|lia|lia]|].
    unfold push_pointerinfo in Hr. rewrite E2 in Hr. inv Hr. exact R2.
  - apply run_eq with (y := pn p m).
    { unfold maybe_purgekp, bindM, get_en, lift. rewrite Hg, En, Ha. reflexivity. }
    eapply run_weaken; [apply PN; eassumption|]. intros m' s' (A1 & A2 & A3 & A4). rewrite Hact, orb_true_r. auto.
Qed.

Lemma run_purge_kps d pn cs : (forall p m, ow (pn p m)) -> pnspec d pn -> forall ks m kvs s, okst s -> st_en s = true -> Forall2 (tree (st_f s) d) cs ks -> mrok (st_f s) false d m kvs ->
  run (foldM (fun kv m => let+ c := lift (read_pointer (fst kv) (snd kv)) in maybe_purgekp rq pn c m) (map kp_entry cs) m) s (fun m' s' =>
    mrok (st_f s') false d m' (kvs ++ kept (concat ks)) /\ purges s s' (concat ks) /\ m_mod m' = m_mod m || existsb gone (concat ks) /\
    (Forall2 (tree2 (st_f s) d) cs ks -> room false m (length cs) (sum_of (pointer_size R) ks) -> m_ptrs m' = [])).
Proof.
  intros Hpn PN. induction cs as [|c cs IH]; intros ks m kvs s O En Ht Hm; cbn [map foldM].
  - inv Ht. apply run_ret. cbn [concat kept filter existsb]. rewrite app_nil_r, orb_false_r. split; [exact Hm|]. split; [apply purges_none; [apply quiet_refl|reflexivity]|]. split; [reflexivity|].
    intros _ [H _]. exact H.
  - inversion Ht as [|? k ? ks' Hc Hrest]; subst.
    assert (Hwf : forall kv m, ow (let+ c := lift (read_pointer (fst kv) (snd kv)) in maybe_purgekp rq pn c m)).
    { intros. apply ow_bind; [apply ow_lift|intros; now apply ow_purgekp]. }
    eapply run_bind with (Q := fun m' s' => mrok (st_f s') false d m' (kvs ++ kept k) /\ purges s s' k /\ m_mod m' = m_mod m || existsb gone k /\
      (tree2 (st_f s) d c k -> forall n b, room false m (S n) (pointer_size R k + b) -> room false m' n b));
      [exact EO|exact RO|exact O|apply Hwf|intros; apply ow_foldM; intros; apply Hwf| |].
    { rewrite (read_kp_entry RO Hc). apply run_eq with (y := maybe_purgekp rq pn (norm c) m); [reflexivity|].
      eapply run_weaken; [apply run_purge_kp; [exact Hpn|exact PN|exact O|exact En|exact Hm|exact (tree_norm Hc)]|].
      intros m' s' (A1 & A2 & A3 & A4). split; [exact A1|]. split; [exact A2|]. split; [exact A3|]. intros H2. apply A4. now apply tree2_norm. }
    intros m1 s1 O1 L1 F1 (A1 & A2 & A3 & A4). eapply run_weaken.
    { apply IH with (ks := ks'); [exact O1| |eapply trees_le; eassumption|exact A1]. destruct A2 as (ev & [_ He] & _). now rewrite He. }
    intros m' s' (B1 & B2 & B3 & B4). cbn [concat]. rewrite kept_app, app_assoc. split; [exact B1|]. split; [eapply purges_trans; eassumption|].
    split; [now rewrite existsb_app, B3, A3, orb_assoc|]. intros H2 Hr. inversion H2 as [|? ? ? ? H3 H4]; subst. apply B4.
    { eapply Forall2_impl; [|exact H4]. intros a b. now apply tree2_le. }
    apply A4; [exact H3|]. rewrite sum_of_cons in Hr. exact Hr.
Qed.

(** ** The recursion *)

Lemma run_purge_node F : forall d, (d < F)%nat -> pnspec d (purge_node F rq).
Proof.
  induction F as [|F IH]; intros d Hd; [lia|]. intros p ks m kvs s O En Ht Hgo Hm.
  (* the part after the loop *)
  assert (Hfin : forall leaf loc s1, d = lev leaf (pred d) -> okst s1 -> le (st_f s) (st_f s1) -> fin (st_f s1) -> mrok (st_f s1) leaf (pred d) loc (kept ks) -> purges s s1 ks -> m_mod loc = true ->
    (tree2 (st_f s) d p ks -> m_ptrs loc = []) ->
    run (if m_mod loc then let+ loc' := flush_mr rq loc in move_pointers rq loc' (set_mod m) else ret m) s1 (fun m' s' => mrok (st_f s') false d m' (kvs ++ kept ks) /\ purges s s' ks /\ m_mod m' = true /\
      (tree2 (st_f s) d p ks -> forall n b, room false m (S n) (pointer_size R ks + b) -> room false m' n b))).
  { intros leaf loc s1 Hlev O1 L1 F1 A1 A2 A3 A4. rewrite A3. eapply run_bind; [exact EO|exact RO|exact O1|apply ow_flush|intros; apply ow_move|now apply run_flush with (kvP := kvP) (redP := redP) (okf := okf) (leaf := leaf) (d := pred d) (kvs := kept ks)|].
    intros loc' s2 O2 L2 F2 (B1 & B2 & B3 & B4 & _). destruct (B4 A3) as [B5 B6]. destruct (mrok_flushed B1 B5) as (k1 & C1 & C2). rewrite <- Hlev in C1.
    assert (Hm2 : mrok (st_f s2) false d (set_mod m) kvs) by (apply mrok_set_mod; eapply mrok_le; [exact L2|]; eapply mrok_le; [exact L1|exact Hm]).
    assert (Hp := @run_push_ptrs E EO rq kvP redP okf allowed RO d (m_ptrs loc') (set_mod m) kvs k1 s2 O2 Hm2 C1).
    intros r s' Hr Fr. unfold move_pointers in Hr. specialize (Hp r s' Hr Fr). destruct r as [m'|e]; [|exact Hp]. destruct Hp as (D1 & D2 & D3 & _).
    split; [now rewrite C2|]. split; [eapply purges_quiet; [exact A2|]; eapply quiet_trans; eassumption|]. split; [exact D3|].
    intros T2 n b Hro. specialize (A4 T2). rewrite A4 in B6. cbn [length] in B6.
    destruct (m_ptrs loc') as [|p1 [|p2 ps]] eqn:Hps.
    - cbn [foldM] in Hr. inv Hr. apply room_set_mod. eapply room_le; [exact Hro|lia|lia].
    - inversion C1 as [|? k ? k1' Hk1 Hk2]; subst. inv Hk2. cbn [concat] in C2. rewrite app_nil_r in C2.
      assert (Hb : item_size (ptr_item p1) <= pointer_size R ks).
      { eapply pointer_bound; [exact Hk1|]. rewrite <- C2. intros x Hx. apply filter_In in Hx. tauto. }
      destruct (push_room (i := ptr_item p1) (n := n) (b := b) s2 Hm2) as (m2 & E2 & R2); [eapply room_le; [apply room_set_mod; exact Hro|lia|lia]|].
      cbn [foldM] in Hr. unfold bindM, push_pointerinfo in Hr. rewrite E2 in Hr. inv Hr. exact R2.
    - cbn [length] in B6. destruct (m_vals loc); lia. }
  cbn [purge_node]. apply run_eq with (y := (let+ buf := read_node (np_pointer p) in
      let '(items, t) := node_items buf in
      let+ loc :=
        match buf with
        | 1 :: _ =>
            let+ m := foldM (fun kv m => maybe_purgekv rq (fst kv) (snd kv) m) items (make_modres KV_NODE) in
            finish_items t m
        | 0 :: _ =>
            let+ m := foldM (fun kv m => let+ c := lift (read_pointer (fst kv) (snd kv)) in
                                         maybe_purgekp rq (purge_node F rq) c m) items (make_modres KP_NODE) in
            finish_items t m
        | _ => fail E_CORRUPT
        end in
      if m_mod loc then
        let+ loc' := flush_mr rq loc in
        move_pointers rq loc' (set_mod m)
      else ret m)).
  { unfold bindM at 1. unfold get_en. rewrite En. reflexivity. }
  destruct d as [|d].
  - pose proof Ht as Ht'. destruct Ht' as (H1 & H2 & H3 & Hne & Hk & Hkey & Hred & sz & Hh & Hsz).
    assert (Hkvs : Forall kv_ok ks) by (revert Hk; apply Forall_impl; apply (ro_kvP RO)).
    apply run_eq with (y := (let+ loc := foldM (fun kv m => maybe_purgekv rq (fst kv) (snd kv) m) ks (make_modres KV_NODE) in
      if m_mod loc then let+ loc' := flush_mr rq loc in move_pointers rq loc' (set_mod m) else ret m)).
    { unfold bindM at 1. rewrite (@run_read_node E EO okf _ _ _ _ O Hh) by discriminate. rewrite (node_items_mk KV_NODE Hkvs). cbn [mk_node KV_NODE].
      rewrite bind_assoc. apply bind_ext. reflexivity. }
    eapply run_bind; [exact EO|exact RO|exact O|apply ow_foldM; intros; apply ow_purgekv| | |].
    { intros a. destruct (m_mod a); [apply ow_bind; [apply ow_flush|intros; apply ow_move]|apply ow_ret]. }
    { apply run_purge_kvs with (d := 0%nat) (kvs := []); [exact O|exact En|apply (@mrok_empty E rq kvP redP (st_f s) true 0)|exact Hk]. }
    intros loc s1 O1 L1 F1 (A1 & A2 & A3 & A4). cbn [make_modres m_mod orb] in A3. rewrite Hgo in A3. cbn [app] in A1.
    apply (Hfin true); auto. intros [_ Hroom]. apply A4. split; [reflexivity|]. cbn [make_modres m_vals length isum fold_right thr].
    destruct Hroom as [Hr|Hr]; [left; lia|right; exact Hr].
  - pose proof Ht as Ht'. destruct Ht' as (H1 & H2 & H3 & cs & k0 & sz & Hne & Hcs & Hks & Hkey & Hred & Hh & Hsz & Hlt).
    assert (Hkvs : Forall kv_ok (map kp_entry cs)) by (eapply (kp_entries_ok RO); exact Hcs).
    apply run_eq with (y := (let+ loc := foldM (fun kv m => let+ c := lift (read_pointer (fst kv) (snd kv)) in maybe_purgekp rq (purge_node F rq) c m) (map kp_entry cs) (make_modres KP_NODE) in
      if m_mod loc then let+ loc' := flush_mr rq loc in move_pointers rq loc' (set_mod m) else ret m)).
    { unfold bindM at 1. rewrite (@run_read_node E EO okf _ _ _ _ O Hh) by discriminate. rewrite (node_items_mk KP_NODE Hkvs). cbn [mk_node KP_NODE].
      rewrite bind_assoc. apply bind_ext. reflexivity. }
    eapply run_bind; [exact EO|exact RO|exact O|apply ow_foldM; intros; apply ow_bind; [apply ow_lift|intros; apply ow_purgekp; apply ow_purge_node]| | |].
    { intros a. destruct (m_mod a); [apply ow_bind; [apply ow_flush|intros; apply ow_move]|apply ow_ret]. }
    { apply run_purge_kps with (d := d) (kvs := []) (ks := k0); [apply ow_purge_node|apply IH; lia|exact O|exact En|exact Hcs|apply (@mrok_empty E rq kvP redP (st_f s) false d)]. }
    rewrite <- Hks. intros loc s1 O1 L1 F1 (A1 & A2 & A3 & A4). cbn [make_modres m_mod orb] in A3. rewrite Hgo in A3. cbn [app] in A1.
    apply (Hfin false); auto. intros T2.
    destruct (tree2_inner (proj1 O) T2 Hne Hcs Hh) as [Q1 Q2].
 apply A4; [exact Q1|]. split; [reflexivity|]. cbn [make_modres m_vals length isum fold_right thr].
    destruct Q2 as [Hr|Hr]; [left; lia|right; exact Hr].
Qed.

(** ** The root *)

(** A root without entries to remove stays as it is. *)
Lemma run_purge_none F d p ks s : (d < F)%nat -> okst s -> st_en s = true -> tree (st_f s) d p ks -> existsb gone ks = false ->
  run (purge_node F rq p (make_modres KP_NODE)) s (fun m' s' => m' = make_modres KP_NODE /\ purges s s' ks).
Proof.
  intros Hd O En Ht Hgo. destruct F as [|F]; [lia|].
  cbn [purge_node]. apply run_eq with (y := (let+ buf := read_node (np_pointer p) in
      let '(items, t) := node_items buf in
      let+ loc :=
        match buf with
        | 1 :: _ =>
            let+ m := foldM (fun kv m => maybe_purgekv rq (fst kv) (snd kv) m) items (make_modres KV_NODE) in
            finish_items t m
        | 0 :: _ =>
            let+ m := foldM (fun kv m => let+ c := lift (read_pointer (fst kv) (snd kv)) in
                                         maybe_purgekp rq (purge_node F rq) c m) items (make_modres KP_NODE) in
            finish_items t m
        | _ => fail E_CORRUPT
        end in
      if m_mod loc then
        let+ loc' := flush_mr rq loc in
        move_pointers rq loc' (set_mod (make_modres KP_NODE))
      else ret (make_modres KP_NODE))).
  { unfold bindM at 1. unfold get_en. rewrite En. reflexivity. }
  destruct d as [|d].
  - pose proof Ht as Ht'. destruct Ht' as (H1 & H2 & H3 & Hne & Hk & Hkey & Hred & sz & Hh & Hsz).
    assert (Hkvs : Forall kv_ok ks) by (revert Hk; apply Forall_impl; apply (ro_kvP RO)).
    apply run_eq with (y := (let+ loc := foldM (fun kv m => maybe_purgekv rq (fst kv) (snd kv) m) ks (make_modres KV_NODE) in
      if m_mod loc then let+ loc' := flush_mr rq loc in move_pointers rq loc' (set_mod (make_modres KP_NODE)) else ret (make_modres KP_NODE))).
    { unfold bindM at 1. rewrite (@run_read_node E EO okf _ _ _ _ O Hh) by discriminate. rewrite (node_items_mk KV_NODE Hkvs). cbn [mk_node KV_NODE].
      rewrite bind_assoc. apply bind_ext. reflexivity. }
    eapply run_bind; [exact EO|exact RO|exact O|apply ow_foldM; intros; apply ow_purgekv| | |].
    { intros a. destruct (m_mod a); [apply ow_bind; [apply ow_flush|intros; apply ow_move]|apply ow_ret]. }
    { apply run_purge_kvs with (d := 0%nat) (kvs := []); [exact O|exact En|apply (@mrok_empty E rq kvP redP (st_f s) true 0)|exact Hk]. }
    intros loc s1 O1 L1 F1 (A1 & A2 & A3 & A4). cbn [make_modres m_mod orb] in A3. rewrite Hgo in A3. rewrite A3. apply run_ret. auto.
  - pose proof Ht as Ht'. destruct Ht' as (H1 & H2 & H3 & cs & k0 & sz & Hne & Hcs & Hks & Hkey & Hred & Hh & Hsz & Hlt).
    assert (Hkvs : Forall kv_ok (map kp_entry cs)) by (eapply (kp_entries_ok RO); exact Hcs).
    apply run_eq with (y := (let+ loc := foldM (fun kv m => let+ c := lift (read_pointer (fst kv) (snd kv)) in maybe_purgekp rq (purge_node F rq) c m) (map kp_entry cs) (make_modres KP_NODE) in
      if m_mod loc then let+ loc' := flush_mr rq loc in move_pointers rq loc' (set_mod (make_modres KP_NODE)) else ret (make_modres KP_NODE))).
    { unfold bindM at 1. rewrite (@run_read_node E EO okf _ _ _ _ O Hh) by discriminate. rewrite (node_items_mk KP_NODE Hkvs). cbn [mk_node KP_NODE].
      rewrite bind_assoc. apply bind_ext. reflexivity. }
    eapply run_bind; [exact EO|exact RO|exact O|apply ow_foldM; intros; apply ow_bind; [apply ow_lift|intros; apply ow_purgekp; apply ow_purge_node]| | |].
    { intros a. destruct (m_mod a); [apply ow_bind; [apply ow_flush|intros; apply ow_move]|apply ow_ret]. }
    { apply run_purge_kps with (d := d) (kvs := []) (ks := k0); [apply ow_purge_node|apply run_purge_node; lia|exact O|exact En|exact Hcs|apply (@mrok_empty E rq kvP redP (st_f s) false d)]. }
    rewrite <- Hks. intros loc s1 O1 L1 F1 (A1 & A2 & A3 & A4). cbn [make_modres m_mod orb] in A3. rewrite Hgo in A3. rewrite A3. apply run_ret. auto.
Qed.

Lemma purge_node_pos F p p' m s : np_pointer p = np_pointer p' -> st_en s = true -> purge_node F rq p m s = purge_node F rq p' m s.
Proof. intros H He. destruct F; [reflexivity|]. cbn [purge_node]. rewrite <- H. unfold bindM, get_en. rewrite He. reflexivity. Qed.

(** [l] is what is at the end of [l']. *)
Local Notation suffix := ending.

Definition rtree2 (f : file) (r : option node_pointer) (kvs : list kv) : Prop :=
  match r with None => kvs = [] | Some p => exists d p', tree2 f d p' kvs /\ np_pointer p' = np_pointer p end.

Lemma last_vals f d vs : forall k2, Forall2 (vrep rq kvP redP f false d) vs k2 ->
  match last (map it_ptr vs) None with
  | None => vs = []
  | Some p => exists ks a, tree f d p ks /\ concat k2 = a ++ ks /\ (length vs <= 1 -> a = [])%nat
  end.
Proof.
  induction vs as [|i vs IH]; intros k2 H; [reflexivity|]. inversion H as [|? k ? k2' Hv Hr]; subst. destruct Hv as (p & -> & Ht).
  destruct vs as [|j vs].
  - inv Hr. cbn. exists k, []. rewrite app_nil_r. auto.
  - specialize (IH _ Hr). cbn [map] in *. change (last (it_ptr (ptr_item p) :: it_ptr j :: map it_ptr vs) None) with (last (it_ptr j :: map it_ptr vs) None).
    destruct (last (it_ptr j :: map it_ptr vs) None) as [q|]; [|discriminate IH]. destruct IH as (ks & a & I1 & I2 & _). exists ks, (k ++ a). split; [exact I1|].
    split; [cbn [concat]; now rewrite I2, app_assoc|]. cbn [length]. lia.
Qed.

Theorem run_guided_purge root kvs s : okst s -> rtree rq kvP redP (st_f s) root kvs ->
  run (guided_purge_btree rq root) s (fun root' s' => exists l, rtree rq kvP redP (st_f s') root' l /\ suffix l (kept kvs) /\ (rtree2 (st_f s) root kvs -> l = kept kvs) /\
    exists ev, st_ev s' = rev ev ++ st_ev s /\ (sum_of w kvs < limit -> sum_of pw ev = sum_of w (filter gone kvs))).
Proof.
  intros O Hr. set (s0 := St (st_f s) (st_ev s) true).
  destruct root as [p|].
  - destruct Hr as (d & p' & Ht & Hp & Hpr & Hps).
    apply run_eq with (y := fun _ : st => (let+ m := purge_node (depth_fuel (st_f s)) rq p' (make_modres KP_NODE) in
       ret (if m_mod m then last (map it_ptr (m_vals m)) None else Some p)) s0).
    { unfold guided_purge_btree. fold s0. cbn [st_f s0]. unfold bindM. now rewrite (@purge_node_pos _ p p' _ s0 (eq_sym Hp) eq_refl). }
    intros r s' Hx F. cbn beta in Hx.
    assert (Hd : (d < depth_fuel (st_f s))%nat) by (unfold depth_fuel; pose proof (tree_depth Ht); pose proof (tree_pos Ht); lia).
    change (st_f s) with (st_f s0) in Ht, Hd at 1. assert (O0 : okst s0) by exact O.
    destruct (existsb gone kvs) eqn:Hgo.
    + assert (Hrun : run (let+ m := purge_node (depth_fuel (st_f s)) rq p' (make_modres KP_NODE) in ret (if m_mod m then last (map it_ptr (m_vals m)) None else Some p)) s0
        (fun root' s' => exists l, rtree rq kvP redP (st_f s') root' l /\ suffix l (kept kvs) /\ (rtree2 (st_f s) (Some p) kvs -> l = kept kvs) /\ purges s0 s' kvs)).
      { eapply run_bind; [exact EO|exact RO|exact O0|apply ow_purge_node|intros; apply ow_ret| |].
        { apply (@run_purge_node (depth_fuel (st_f s)) d Hd p' kvs _ [] s0 O0 eq_refl Ht Hgo). apply mrok_empty. }
        intros m s1 O1 L1 F1 (A1 & A2 & A3 & A4). rewrite A3. apply run_ret. cbn [app] in A1.
        destruct (mo_cont A1) as (k1 & k2 & C1 & C2 & C3). pose proof (last_vals C2) as Hl.
        assert (Hfew : rtree2 (st_f s) (Some p) kvs -> m_ptrs m = [] /\ (length (m_vals m) <= 1)%nat).
        { intros (d2 & p2 & T2 & Hp2).
          assert (T2' : tree2 (st_f s0) d p' kvs).
          { assert (Hd2 : d2 = d).
            { assert (T3 : tree (st_f s) d2 p2 kvs) by (destruct d2; apply T2). refine (proj1 (tree_det (proj1 O) T3 Ht _)). now rewrite Hp2, Hp. }
            subst d2. apply (tree2_swap T2 Ht). now rewrite Hp2, Hp. }
          destruct (A4 T2' 2%nat (r_kp rq + 1)) as [B1 B2].
          - split; [reflexivity|]. left. cbn. lia.
          - split; [exact B1|]. destruct B2 as [B2|B2]; [lia|]. cbn [thr] in B2. lia. }
        destruct (last (map it_ptr (m_vals m)) None) as [q|] eqn:Hq.
        - destruct Hl as (ks & a & D1 & D2 & D3). exists ks. split; [exists d, q; auto|]. rewrite C3, D2. split; [exists (concat k1 ++ a); now rewrite app_assoc|]. split; [|exact A2].
          intros T2. destruct (Hfew T2) as [E1 E2]. rewrite (D3 E2). rewrite E1 in C1. inv C1. reflexivity.
        - exists []. split; [reflexivity|]. split; [exists (kept kvs); now rewrite app_nil_r|]. split; [|exact A2]. intros T2. destruct (Hfew T2) as [E1 _]. rewrite C3. rewrite E1 in C1. inv C1.
          rewrite Hl in C2. inv C2. reflexivity. }
      specialize (Hrun r s' Hx F). destruct r as [root'|e]; [|exact Hrun]. destruct Hrun as (l & R1 & R2 & R3 & ev & [R4 _] & R5). exists l. split; [exact R1|]. split; [exact R2|]. split; [exact R3|].
      exists ev. auto.
    + assert (Hrun : run (let+ m := purge_node (depth_fuel (st_f s)) rq p' (make_modres KP_NODE) in ret (if m_mod m then last (map it_ptr (m_vals m)) None else Some p)) s0
        (fun root' s' => le (st_f s0) (st_f s') /\ root' = Some p /\ purges s0 s' kvs)).
      { eapply run_bind; [exact EO|exact RO|exact O0|apply ow_purge_node|intros; apply ow_ret|exact (run_purge_none Hd O0 eq_refl Ht Hgo)|].
        intros m s1 O1 L1 F1 (-> & A2). apply run_ret. auto. }
      specialize (Hrun r s' Hx F). destruct r as [root'|e]; [|exact Hrun]. destruct Hrun as (L & -> & ev & [R4 _] & R5). exists kvs.
      unfold kept. rewrite (proj2 (existsb_false_filter Hgo)). split; [exists d, p'; split; [eapply tree_le; eassumption|auto]|]. split; [now exists []|]. split; [auto|]. exists ev. auto.
  - cbn in Hr. subst kvs. intros r s' Hx F. unfold guided_purge_btree in Hx. inv Hx. exists []. split; [reflexivity|]. split; [now exists []|]. split; [auto|]. exists []. auto.
Qed.

(** ** Roomy trees *)

Lemma roomy_tree2 f : good f -> forall d p kvs d' kvs', tree f d p kvs -> roomy (r_kv rq) (r_kp rq) R f d' (np_pointer p) kvs' -> d' = d /\ kvs' = kvs /\ tree2 f d p kvs.
Proof.
  intros G. induction d as [|d IH]; intros p kvs d' kvs' Ht Hr.
  - pose proof Ht as Ht'. destruct Ht' as (_ & _ & _ & Hne & Hk & _ & _ & sz & Hh & _). pose proof (hasz_read G Hh) as Hb.
    assert (Hkvs : Forall kv_ok kvs) by (revert Hk; apply Forall_impl; apply (ro_kvP RO)).
    destruct d' as [|d'].
    + destruct Hr as (b & R1 & _ & R3 & R4). rewrite Hb in R1. assert (b = mk_node KV_NODE kvs) by congruence. subst b. rewrite (node_items_mk KV_NODE Hkvs) in R3.
      assert (kvs' = kvs) by congruence. subst kvs'. split; [reflexivity|]. split; [reflexivity|]. split; [exact Ht|exact R4].
    + destruct Hr as (b & es & cs & kss & R1 & R2 & _). rewrite Hb in R1. assert (b = mk_node KV_NODE kvs) by congruence. subst b. cbn in R2. discriminate R2.
  - pose proof Ht as Ht'. destruct Ht' as (_ & _ & _ & cs & k0 & sz & Hne & Hcs & Hks & _ & _ & Hh & _). pose proof (hasz_read G Hh) as Hb.
    pose proof (kp_entries_ok RO Hcs) as Hkvs. destruct d' as [|d'].
    + destruct Hr as (b & R1 & R2 & _). rewrite Hb in R1. assert (b = mk_node KP_NODE (map kp_entry cs)) by congruence. subst b. cbn in R2. discriminate R2.
    + destruct Hr as (b & es & cs' & kss & R1 & _ & R3 & R4 & R5 & R6 & R7). rewrite Hb in R1. assert (b = mk_node KP_NODE (map kp_entry cs)) by congruence. subst b.
      rewrite (node_items_mk KP_NODE Hkvs) in R3. assert (es = map kp_entry cs) by congruence. subst es.
      assert (Hq : cs' = map norm cs /\ kss = k0 /\ Forall2 (tree2 f d) cs k0 /\ (cs <> [] -> d' = d)).
      { clear - Hcs R4 R5 IH RO. revert cs' kss R4 R5. induction Hcs as [|c k cs k0 Hc Hcs IHc]; intros cs' kss R4 R5.
        - inv R4. inv R5. repeat split; auto; congruence.
        - inversion R4 as [|? c' ? cs'' U1 U2]; subst. inversion R5 as [|? ks' ? kss' V1 V2]; subst. rewrite (read_kp_entry RO Hc) in U1. assert (c' = norm c) by congruence. subst c'.
          destruct (IHc _ _ U2 V2) as (-> & -> & W1 & _). destruct (IH _ _ _ _ Hc V1) as (-> & -> & W2). cbn [map]. auto. }
      destruct Hq as (-> & -> & Q1 & Q2). specialize (Q2 Hne). subst d'. rewrite map_length in R7. split; [reflexivity|]. split; [congruence|].
      split; [exact Ht|]. exists cs, k0, sz. auto 10.
Qed.
End WithEnv.
