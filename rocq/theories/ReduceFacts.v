(** What the reduce values in the indexes stand for, and counting with their help. *)
From Verif Require Import Base Codec CodecFacts File FileFacts ChunkFacts Btree TreeStore SpecMap MergeFacts ModifyFacts BtreeRead LookupFacts Db.
Local Open Scope N_scope.

(** Entries of the two indexes for a document. *)
Definition id_entry (d : doc_info) : kv := (di_id d, assemble_id_index_value d).
Definition seq_entry (d : doc_info) : kv := (be 6 (di_db_seq d), assemble_seq_index_value d).

(** Limits of the format, with the limit on the metadata that makes the entry fit into a node. *)
Definition dok (d : doc_info) : Prop := docinfo_ok d /\ lenN (di_rev_meta d) < 2^27.
Definition idP (x : kv) : Prop := exists d, dok d /\ x = id_entry d.
Definition seqP (x : kv) : Prop := exists d, dok d /\ x = seq_entry d.
Definition id_redP (r : bytes) : Prop := lenN r = 16.
Definition seq_redP (r : bytes) : Prop := lenN r = 5.
Definition loc_redP (r : bytes) : Prop := r = [].

Lemma id_entry_ok d : dok d -> kv_ok (id_entry d).
Proof.
  intros [(H1 & _) H2]. split; cbn [id_entry fst snd]; [exact H1|]. rewrite lenN_id_value.
  change (2^27) with 134217728 in H2. change (2^28) with 268435456. lia.
Qed.
Lemma seq_entry_ok d : dok d -> kv_ok (seq_entry d).
Proof.
  intros [(H1 & _) H2]. split; cbn [seq_entry fst snd]; [rewrite lenN_be; reflexivity|]. rewrite lenN_seq_value.
  change (2^27) with 134217728 in H2. change (2^12) with 4096 in H1. change (2^28) with 268435456. lia.
Qed.
Lemma idP_ok x : idP x -> kv_ok x.
Proof. intros (d & H & ->). now apply id_entry_ok. Qed.
Lemma seqP_ok x : seqP x -> kv_ok x.
Proof. intros (d & H & ->). now apply seq_entry_ok. Qed.

(** ** Totals over documents *)

Definition alive (ds : list doc_info) : N := lenN (filter (fun d => negb (di_deleted d)) ds).
Definition gone (ds : list doc_info) : N := lenN (filter di_deleted ds).
Fixpoint sizes (ds : list doc_info) : N := match ds with [] => 0 | d :: r => di_physical_size d + sizes r end.
Lemma alive_app a b : alive (a ++ b) = alive a + alive b.
Proof. unfold alive. now rewrite filter_app, lenN_app. Qed.
Lemma gone_app a b : gone (a ++ b) = gone a + gone b.
Proof. unfold gone. now rewrite filter_app, lenN_app. Qed.
Lemma sizes_app a b : sizes (a ++ b) = sizes a + sizes b.
Proof. induction a as [|d a IH]; cbn [app sizes]; [reflexivity|]. rewrite IH. lia. Qed.

Lemma id_value_size d : docinfo_ok d -> rd_be 4 6 (assemble_id_index_value d) = Ok (di_physical_size d).
Proof.
  intros (_ & _ & _ & _ & _ & Hps). unfold assemble_id_index_value.
  rewrite (@rd_be_app 4 6 (be 6 (di_db_seq d)) (be 4 (di_physical_size d))) by (now rewrite lenN_be).
  rewrite unbe_be_small; [reflexivity|]. change (256 ^ N.of_nat 4) with 4294967296. change (2^28) with 268435456 in Hps. lia.
Qed.
Lemma id_value_bp d : docinfo_ok d -> rd_be 6 10 (assemble_id_index_value d) = Ok (bp_field d).
Proof.
  intros (_ & _ & _ & _ & Hbp & _). unfold assemble_id_index_value. rewrite app_assoc.
  rewrite (@rd_be_app 6 10) by (now rewrite ?lenN_app, !lenN_be). rewrite unbe_be_small; [reflexivity|]. now apply bp_field_bound.
Qed.
Lemma id_value_seq d : docinfo_ok d -> rd_be 6 0 (assemble_id_index_value d) = Ok (di_db_seq d).
Proof.
  intros (_ & Hs & _). unfold assemble_id_index_value. rewrite (@rd_be_app0 6) by (now rewrite lenN_be).
  rewrite unbe_be_small; [reflexivity|exact Hs].
Qed.

Lemma ok3 (a b c a' b' c' : N) : a = a' -> b = b' -> c = c' -> Ok (a, b, c) = Ok (a', b', c').
Proof. congruence. Qed.
Lemma id_totals_ok ds : Forall dok ds -> forall a b c,
  id_totals (map id_entry ds) (a, b, c) = Ok (a + alive ds, b + gone ds, c + sizes ds).
Proof.
  induction 1 as [|d ds Hd _ IH]; intros a b c; cbn [map id_totals id_entry].
  - unfold alive, gone. cbn [filter sizes]. change (lenN []) with 0. now rewrite !N.add_0_r.
  - rewrite lenN_id_value. destruct (N.ltb_spec (23 + lenN (di_rev_meta d)) 23); [lia|].
    rewrite id_value_bp, id_value_size by apply Hd. cbn [bind]. destruct Hd as [(_ & _ & _ & _ & Hbp & _) _].
    destruct (bp_field_flag d Hbp) as [-> _]. unfold alive, gone. cbn [filter sizes]. destruct (di_deleted d); cbn [negb]; rewrite IH, ?lenN_cons;
      unfold alive, gone; apply ok3; lia.
Qed.

Definition id_sum (ds : list doc_info) : bytes := encode_by_id_reduce (alive ds) (gone ds) (sizes ds).
Lemma lenN_id_reduce a b c : lenN (encode_by_id_reduce a b c) = 16.
Proof. unfold encode_by_id_reduce. now rewrite !lenN_app, !lenN_be. Qed.
Lemma id_reduce_mod a b c : encode_by_id_reduce (a mod 2^40) (b mod 2^40) (c mod 2^48) = encode_by_id_reduce a b c.
Proof. unfold encode_by_id_reduce. f_equal; [exact (be_mod 5 a)|]. f_equal; [exact (be_mod 5 b)|exact (be_mod 6 c)]. Qed.
Lemma rd_id_reduce a b c : rd_be 5 0 (encode_by_id_reduce a b c) = Ok (a mod 2^40) /\ rd_be 5 5 (encode_by_id_reduce a b c) = Ok (b mod 2^40) /\
  rd_be 6 10 (encode_by_id_reduce a b c) = Ok (c mod 2^48).
Proof.
  unfold encode_by_id_reduce. split; [|split].
  - rewrite (@rd_be_app0 5) by (now rewrite lenN_be). now rewrite unbe_be.
  - rewrite (@rd_be_app 5 5) by (now rewrite lenN_be). now rewrite unbe_be.
  - rewrite app_assoc, <- (app_nil_r (be 6 c)). rewrite (@rd_be_app 6 10) by (now rewrite ?lenN_app, !lenN_be). now rewrite unbe_be.
Qed.
Lemma mod_add_l a b m : m <> 0 -> (a mod m + b) mod m = (a + b) mod m.
Proof. intros H. now rewrite N.add_mod_idemp_l. Qed.

Lemma id_retotals_ok l : forall a b c, exists a' b' c',
  id_retotals (map id_sum l) (a, b, c) = Ok (a', b', c') /\ a' mod 2^40 = (a + alive (concat l)) mod 2^40 /\
  b' mod 2^40 = (b + gone (concat l)) mod 2^40 /\ c' mod 2^48 = (c + sizes (concat l)) mod 2^48.
Proof.
  induction l as [|ds l IH]; intros a b c; cbn [map id_retotals concat].
  - exists a, b, c. unfold alive, gone. cbn [filter sizes]. rewrite !N.add_0_r. auto.
  - unfold id_sum at 1. rewrite lenN_id_reduce. change (16 <? 16) with false. unfold id_sum at 1 2 3.
    destruct (rd_id_reduce (alive ds) (gone ds) (sizes ds)) as (-> & -> & ->). cbn [bind].
    destruct (IH (a + alive ds mod 2^40) (b + gone ds mod 2^40) (c + sizes ds mod 2^48)) as (a' & b' & c' & -> & H1 & H2 & H3).
    exists a', b', c'. split; [reflexivity|]. rewrite H1, H2, H3, alive_app, gone_app, sizes_app.
    split; [|split]; rewrite <- (N.add_assoc _ (_ mod _)), N.add_assoc, (N.add_comm _ (_ mod _)), <- !N.add_assoc, N.add_mod_idemp_l by discriminate;
      f_equal; lia.
Qed.

Section WithEnv.
Context {E : Env} (EO : EnvOk E).

(** The entries are those of documents. *)
Lemma idP_docs l : Forall idP l -> exists ds, l = map id_entry ds /\ Forall dok ds.
Proof.
  induction 1 as [|x l (d & Hd & ->) _ (ds & -> & Hds)]; [exists []; auto|]. exists (d :: ds). auto.
Qed.
Lemma id_entry_inj d d' : dok d -> dok d' -> id_entry d = id_entry d' -> d = d'.
Proof.
  intros [H _] [H' _] He. pose proof (by_id_roundtrip H) as R. pose proof (by_id_roundtrip H') as R'.
  assert (H1 : di_id d = di_id d') by (exact (f_equal fst He)).
  assert (H2 : assemble_id_index_value d = assemble_id_index_value d') by (exact (f_equal snd He)).
  rewrite H1, H2, R' in R. congruence.
Qed.
Lemma map_id_entry_inj ds ds' : Forall dok ds -> Forall dok ds' -> map id_entry ds = map id_entry ds' -> ds = ds'.
Proof.
  intros H. revert ds'. induction H as [|d ds Hd _ IH]; intros ds' H' He; destruct ds' as [|d' ds']; try discriminate; [reflexivity|].
  cbn [map] in He. inversion H' as [|? ? Hd' Hds']; subst. assert (E1 : id_entry d = id_entry d') by congruence. 
  assert (E2 : map id_entry ds = map id_entry ds') by congruence. f_equal; [now apply id_entry_inj|now apply IH].
Qed.
Lemma map_concat_split A B (g : A -> B) (ks : list (list B)) : forall ds, map g ds = concat ks -> exists dss, concat dss = ds /\ ks = map (map g) dss.
Proof.
  induction ks as [|k ks IH]; intros ds H; cbn [concat] in H.
  - apply map_eq_nil in H. subst. exists []. auto.
  - apply map_eq_app in H. destruct H as (d1 & d2 & -> & <- & H2). destruct (IH d2 H2) as (dss & <- & ->). exists (d1 :: dss). auto.
Qed.

Lemma id_tree_reduce c cb f d : forall p ds, Forall dok ds -> tree (id_request c cb) idP id_redP f d p (map id_entry ds) -> np_reduce p = id_sum ds.
Proof.
  induction d as [|d IH]; intros p ds Hds T; destruct T as (_ & _ & _ & T).
  - destruct T as (_ & _ & _ & Hr & _). unfold leaf_red in Hr. cbn [id_request r_reduce] in Hr. unfold by_id_reduce in Hr.
    rewrite id_totals_ok in Hr by exact Hds. cbn [bind] in Hr. injection Hr as <-. reflexivity.
  - destruct T as (cs & ks & sz & _ & F & He & _ & Hr & _). apply map_concat_split in He. destruct He as (dss & <- & ->).
    assert (Hm : map np_reduce cs = map id_sum dss).
    { clear Hr. revert cs F. induction dss as [|ds dss IH2]; intros cs F; cbn [map] in *.
      - inversion F. reflexivity.
      - inversion F as [|q k cs' ks' T F']; subst. cbn [concat] in Hds. apply Forall_app in Hds. destruct Hds as [Hd1 Hd2]. cbn [map]. f_equal; [now apply IH|now apply IH2]. }
    unfold inner_red in Hr. cbn [id_request r_rereduce] in Hr. rewrite Hm in Hr. unfold by_id_rereduce in Hr.
    destruct (id_retotals_ok dss 0 0 0) as (a & b & z & Ht & H1 & H2 & H3). rewrite Ht in Hr. cbn [bind] in Hr. injection Hr as <-.
    unfold id_sum. rewrite <- id_reduce_mod, H1, H2, H3, !N.add_0_l. apply id_reduce_mod.
Qed.

Lemma seq_total_ok l : forall acc, exists t, seq_total (map (fun k => be 5 (lenN k)) l) acc = Ok t /\
  t mod 2^40 = (acc + lenN (concat l : list kv)) mod 2^40.
Proof.
  induction l as [|k l IH]; intros acc; cbn [map seq_total concat].
  - exists acc. change (lenN []) with 0. now rewrite N.add_0_r.
  - rewrite lenN_be. change (N.of_nat 5 <? 5) with false. rewrite <- (app_nil_r (be 5 (lenN k))), (@rd_be_app0 5) by (now rewrite lenN_be). cbn [bind].
    rewrite unbe_be. destruct (IH (acc + lenN k mod 256 ^ N.of_nat 5)) as (t & -> & Ht). exists t. split; [reflexivity|]. rewrite Ht, lenN_app.
    change (256 ^ N.of_nat 5) with (2^40).
    rewrite (N.add_comm acc), <- !N.add_assoc, N.add_mod_idemp_l by discriminate. f_equal. lia.
Qed.

Lemma seq_tree_reduce c f d : forall p kvs, tree (seq_request c) seqP seq_redP f d p kvs -> np_reduce p = be 5 (lenN kvs).
Proof.
  induction d as [|d IH]; intros p kvs T; destruct T as (_ & _ & _ & T).
  - destruct T as (_ & _ & _ & Hr & _). unfold leaf_red in Hr. cbn [seq_request r_reduce] in Hr. injection Hr as <-. reflexivity.
  - destruct T as (cs & ks & sz & _ & F & -> & _ & Hr & _).
    assert (Hm : map np_reduce cs = map (fun k : list kv => be 5 (lenN k)) ks).
    { clear Hr. induction F as [|q k cs ks T F IH2]; [reflexivity|]. cbn [map]. f_equal; [now apply IH|exact IH2]. }
    unfold inner_red in Hr. cbn [seq_request r_rereduce] in Hr. rewrite Hm in Hr. unfold by_seq_rereduce in Hr.
    destruct (seq_total_ok ks 0) as (t & Ht & H1). rewrite Ht in Hr. cbn [bind] in Hr. assert (Hx : np_reduce p = be 5 t) by congruence. rewrite Hx.
    rewrite <- (be_mod 5 t), <- (be_mod 5 (lenN _)). change (256 ^ N.of_nat 5) with (2^40). now rewrite H1.
Qed.

(** ** Counting the entries in a range *)

Definition within (l r : bytes) (x : kv) : bool := ge (seq_cmp (fst x) l) && negb (gtc (seq_cmp (fst x) r)).
Definition count (l r : bytes) (kvs : list kv) : N := lenN (filter (within l r) kvs).
Lemma count_app l r a b : count l r (a ++ b) = count l r a + count l r b.
Proof. unfold count. now rewrite filter_app, lenN_app. Qed.
Lemma count_le l r a : count l r a <= lenN a.
Proof. unfold count. induction a as [|x a IH]; [reflexivity|]. cbn [filter]. destruct (within l r x); rewrite ?lenN_cons; lia. Qed.
Lemma count_none l r a : (forall x, In x a -> within l r x = false) -> count l r a = 0.
Proof.
  unfold count. induction a as [|x a IH]; intros H; [reflexivity|]. cbn [filter]. rewrite (H x) by (now left). apply IH. intros; apply H; now right.
Qed.
Lemma count_all l r a : (forall x, In x a -> within l r x = true) -> count l r a = lenN a.
Proof.
  unfold count. induction a as [|x a IH]; intros H; [reflexivity|]. cbn [filter]. rewrite (H x) by (now left). rewrite !lenN_cons, IH; [reflexivity|].
  intros; apply H; now right.
Qed.
Lemma le_lt a b c : seq_cmp a b <> Gt -> seq_cmp b c = Lt -> seq_cmp a c = Lt.
Proof. unfold seq_cmp. rewrite N.compare_ngt_iff, !N.compare_lt_iff. lia. Qed.
Lemma ge_lt a b c : seq_cmp a b <> Lt -> seq_cmp a c = Lt -> seq_cmp c b = Gt.
Proof. unfold seq_cmp. rewrite N.compare_nlt_iff, N.compare_lt_iff, N.compare_gt_iff. lia. Qed.
Lemma ge_le a b c : seq_cmp a b <> Lt -> seq_cmp c a <> Gt -> seq_cmp a c <> Gt -> seq_cmp c b <> Lt.
Proof. unfold seq_cmp. rewrite !N.compare_nlt_iff, !N.compare_ngt_iff. lia. Qed.
Lemma gt_lt a b c : seq_cmp a b = Gt -> seq_cmp a c = Lt -> seq_cmp c b = Gt.
Proof. unfold seq_cmp. rewrite !N.compare_gt_iff, N.compare_lt_iff. lia. Qed.
Arguments le_lt {a b c}. Arguments ge_lt {a b c}. Arguments gt_lt {a b c}.

Lemma ev_leaf rec l r kvs past : sorted seq_cmp kvs -> forall acc, acc + lenN kvs < 2^64 ->
  ev_loop seq_cmp rec false l r kvs TEnd past acc = Ok (acc + count l r kvs).
Proof.
  intros Hs. induction Hs as [|[k v] kvs Hs IH Hall]; intros acc Ha; cbn [ev_loop].
  - unfold count. cbn. now rewrite N.add_0_r.
  - rewrite lenN_cons in Ha. assert (Hc : forall b, within l r (k, v) = b -> count l r ((k, v) :: kvs) = (if b then 1 else 0) + count l r kvs).
    { intros b Hb. unfold count. cbn [filter]. rewrite Hb. destruct b; rewrite ?lenN_cons; lia. }
    destruct (seq_cmp k l) eqn:Hl.
    2:{ rewrite IH by lia. rewrite (Hc false); [f_equal; lia|]. unfold within. cbn [fst]. now rewrite Hl. }
    all: destruct (seq_cmp k r) eqn:Hr; rewrite ?IH, ?N.mod_small by (rewrite ?N.mod_small; lia).
    all: try (rewrite (Hc true); [f_equal; lia|unfold within; cbn [fst]; now rewrite Hl, Hr]).
    all: rewrite count_none; [now rewrite N.add_0_r|]; intros x [<-|Hx]; unfold within; cbn [fst]; [rewrite Hr; apply andb_false_r|];
      rewrite Forall_forall in Hall; specialize (Hall x Hx); cbn [fst] in Hall; rewrite (gt_lt Hr Hall); apply andb_false_r.
Qed.

Notation tree_s c := (tree (seq_request c) seqP seq_redP).
Lemma pow48_lt : 2^40 < 2^64. Proof. reflexivity. Qed.

Lemma child_bounds_s c f d p k l : tree_s c f d p k -> sorted seq_cmp (k ++ l) ->
  sorted seq_cmp k /\ sorted seq_cmp l /\ (forall x, In x k -> seq_cmp (fst x) (np_key p) <> Gt) /\ (forall x, In x l -> seq_cmp (np_key p) (fst x) = Lt).
Proof.
  intros T Hs. destruct (@sorted_app (seq_request c) k l Hs) as (H1 & H2 & H3). split; [exact H1|]. split; [exact H2|].
  pose proof (tree_key T) as Hk. pose proof (tree_nonempty T) as Hne. split.
  - intros x Hx. rewrite Hk. apply (@sorted_last (seq_request c) ord_seq); assumption.
  - intros x Hx. assert (Hi : In (last (map fst k) []) (map fst k)) by (apply last_in; intros Hm'; apply map_eq_nil in Hm'; congruence).
    apply in_map_iff in Hi. destruct Hi as (y & Hy1 & Hy2). rewrite Hk, <- Hy1. now apply H3.
Qed.

Lemma eval_ok c f l r : good f -> forall d F, (d < F)%nat -> forall p kvs past acc, tree_s c f d p kvs -> sorted seq_cmp kvs ->
  (past = true -> forall x, In x kvs -> seq_cmp (fst x) l <> Lt) -> lenN kvs < 2^40 -> acc + lenN kvs < 2^64 ->
  eval_seq_reduce seq_cmp F f l r past (np_pointer p) acc = Ok (acc + count l r kvs).
Proof.
  intros G d. induction d as [|d IH]; intros F HF p kvs past acc T Hs Hp Hn Ha; (destruct F as [|F]; [lia|]); cbn [eval_seq_reduce].
  - pose proof (tree_kvP T) as HP. destruct T as (_ & _ & _ & _ & _ & _ & _ & sz & Hz & _).
    assert (Hnode : node_at f (np_pointer p) = Ok (mk_node KV_NODE kvs)) by (eapply node_at_has; [exact EO|exact G|exact Hz|discriminate]).
    rewrite Hnode. cbn [bind].
    rewrite node_items_mk by (eapply Forall_impl; [|exact HP]; apply seqP_ok). cbn [mk_node]. now apply ev_leaf.
  - destruct T as (_ & _ & _ & cs & ks & sz & _ & F2 & -> & _ & _ & Hz & _).
    assert (Hnode : node_at f (np_pointer p) = Ok (mk_node KP_NODE (map kp_entry cs))) by (eapply node_at_has; [exact EO|exact G|exact Hz|discriminate]).
    rewrite Hnode. cbn [bind].
    assert (Hok : Forall kv_ok (map kp_entry cs)).
    { clear - F2. induction F2 as [|q k cs ks T _ IH]; cbn [map]; constructor; auto.
      assert (Hq : lenN (np_key q) < 2^12 /\ lenN (np_reduce q) = 5) by (destruct d; destruct T as (_ & H2 & H3 & _); auto).
      split; cbn [kp_entry fst snd]; [tauto|]. rewrite lenN_encode_pointer. destruct Hq as [_ ->]. reflexivity. }
    rewrite node_items_mk by exact Hok. cbn [mk_node]. change (match KP_NODE with 0 => true | N.pos _ => false end) with true.
    clear Hz Hnode Hok p. revert past acc Hp Hn Ha. induction F2 as [|q k cs ks T F2 IH2]; intros past acc Hp Hn Ha; cbn [map ev_loop concat].
    + unfold count. cbn. now rewrite N.add_0_r.
    + cbn [kp_entry ev_loop]. cbn [concat] in *. rewrite lenN_app in *. rewrite count_app.
      destruct (@child_bounds_s c f d q k (concat ks) T Hs) as (S1 & S2 & B1 & B2).
      assert (Hdone : seq_cmp (np_key q) l = Lt -> ev_loop seq_cmp (fun past' pos' acc' => eval_seq_reduce seq_cmp F f l r past' pos' acc') true l r (map kp_entry cs) TEnd past acc =
        Ok (acc + (count l r k + count l r (concat ks)))).
      { intros Hl. rewrite IH2 by (auto; try lia; intros Hpp x Hx; apply (Hp Hpp); apply in_or_app; now right).
        rewrite (count_none l r k); [f_equal; lia|]. intros x Hx. unfold within. rewrite (le_lt (B1 x Hx) Hl). reflexivity. }
      assert (Hge : seq_cmp (np_key q) l <> Lt ->
        (if lenN (encode_pointer q) <? 14 + 5 then Err E_CORRUPT else
            let* sub := rd_be 5 14 (encode_pointer q) in
            let* ptr := rd_be 6 0 (encode_pointer q) in
            let rc := ge (seq_cmp (np_key q) r) in
            if negb past || rc then
              let* acc' := eval_seq_reduce seq_cmp F f l r past ptr acc in
              if rc then Ok acc' else ev_loop seq_cmp (fun past' pos' acc' => eval_seq_reduce seq_cmp F f l r past' pos' acc') true l r (map kp_entry cs) TEnd true acc'
            else ev_loop seq_cmp (fun past' pos' acc' => eval_seq_reduce seq_cmp F f l r past' pos' acc') true l r (map kp_entry cs) TEnd past ((acc + sub) mod 2^64)) =
        Ok (acc + (count l r k + count l r (concat ks)))).
      { intros Hl. assert (Hr : np_reduce q = be 5 (lenN k)) by (exact (@seq_tree_reduce c f d q k T)).
        assert (Hpq : np_pointer q < 2^48) by (destruct d; apply T).
        rewrite lenN_encode_pointer, Hr, lenN_be. change (14 + N.of_nat 5 <? 14 + 5) with false.
        unfold encode_pointer. rewrite Hr.
        assert (E1 : forall a b c0 : bytes, lenN a = 6 -> lenN b = 6 -> lenN c0 = 2 -> rd_be 5 14 (a ++ b ++ c0 ++ be 5 (lenN k)) = Ok (lenN k)).
        { intros a b c0 L1 L2 L3. replace (a ++ b ++ c0 ++ be 5 (lenN k)) with ((a ++ b ++ c0) ++ be 5 (lenN k) ++ []) by (rewrite app_nil_r, <- !app_assoc; reflexivity).
          rewrite (@rd_be_app 5 14); [|rewrite !lenN_app; lia|now rewrite lenN_be]. rewrite unbe_be_small; [reflexivity|].
          change (256 ^ N.of_nat 5) with (2^40). lia. }
        rewrite E1 by (now rewrite lenN_be).
        cbn [bind]. rewrite (@rd_be_app0 6) by (now rewrite lenN_be). cbn [bind]. rewrite unbe_be_small by exact Hpq.
        assert (Hrec : eval_seq_reduce seq_cmp F f l r past (np_pointer q) acc = Ok (acc + count l r k)).
        { apply IH; auto; try lia. intros Hpp x Hx. apply (Hp Hpp). apply in_or_app. now left. }
        pose proof (count_le l r k) as Hck.
        assert (Hrest : forall acc', acc' + lenN (concat ks) < 2^64 -> ev_loop seq_cmp (fun past' pos' acc' => eval_seq_reduce seq_cmp F f l r past' pos' acc') true l r (map kp_entry cs) TEnd true acc' = Ok (acc' + count l r (concat ks))).
        { intros acc' Ha'. apply IH2; auto; try lia. intros _ x Hx Hc. specialize (B2 x Hx). apply Hl. unfold seq_cmp in *. rewrite N.compare_lt_iff in *. lia. }
        destruct (ge (seq_cmp (np_key q) r)) eqn:Hrc.
        - rewrite orb_true_r, Hrec. cbn [bind]. rewrite (count_none l r (concat ks)); [now rewrite N.add_0_r|].
          intros x Hx. unfold within. rewrite (@ge_lt (np_key q) r (fst x)); [apply andb_false_r| |now apply B2].
          intros Hc. rewrite Hc in Hrc. discriminate.
        - rewrite orb_false_r. destruct past; cbn [negb].
          + rewrite N.mod_small by lia. rewrite Hrest by lia. rewrite (count_all l r k); [now rewrite N.add_assoc|].
            intros x Hx. unfold within. assert (H1 : seq_cmp (fst x) l <> Lt) by (apply (Hp eq_refl); apply in_or_app; now left).
            assert (H2 : seq_cmp (np_key q) r = Lt) by (destruct (seq_cmp (np_key q) r); [discriminate|reflexivity|discriminate]).
            rewrite (le_lt (B1 x Hx) H2). destruct (seq_cmp (fst x) l); [reflexivity|congruence|reflexivity].
          + rewrite Hrec. cbn [bind]. rewrite Hrest by lia. now rewrite N.add_assoc. }
      destruct (seq_cmp (np_key q) l) eqn:Hl; [apply Hge; discriminate|now apply Hdone|apply Hge; discriminate].
Qed.
End WithEnv.
