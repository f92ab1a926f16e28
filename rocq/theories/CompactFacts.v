(** Compaction copies the contents. *)
From Verif Require Import Base Codec CodecFacts File FileFacts ChunkFacts Header HeaderFacts Btree TreeStore BtreeRead SpecMap MergeFacts ModifyFacts LookupFacts BulkFacts
  Db SortFacts ReduceFacts SpecDb DbFacts DbSave DbRead MergeSort MergeSortFacts TreeWriter TreeWriterFacts Compact SpecCompact.
Local Open Scope N_scope.
Unset Strict Implicit.

(** ** Entries *)

Definition with_bp (d : doc_info) (bp : N) : doc_info := with_body d (di_deleted d) bp (di_physical_size d).
Definition with_meta (d : doc_info) (m : bytes) : doc_info :=
  DocInfo (di_id d) (di_db_seq d) (di_rev_seq d) m (di_deleted d) (di_content_meta d) (di_bp d) (di_physical_size d).

Lemma getb_mid n off a b c : lenN a = off -> lenN b = n -> getb off n (a ++ b ++ c) = Ok b.
Proof.
  intros Ha Hb. rewrite getb_ok by (rewrite !lenN_app; lia). rewrite drop_app_exact by (symmetry; exact Ha). now rewrite take_app_exact by (symmetry; exact Hb).
Qed.
Lemma seq_value_bp d : docinfo_ok d -> rd_be 6 5 (assemble_seq_index_value d) = Ok (bp_field d).
Proof.
  intros (_ & _ & _ & _ & Hbp & _). unfold assemble_seq_index_value. rewrite (@rd_be_app 6 5) by (now rewrite ?kv_length_len, ?lenN_be).
  rewrite unbe_be_small; [reflexivity|]. now apply bp_field_bound.
Qed.
Lemma seq_value_set d p : docinfo_ok d -> p < 2^47 ->
  take 5 (assemble_seq_index_value d) ++ be 6 (N.lor (N.land (bp_field d) BP_DELETED_FLAG) p) ++ drop 11 (assemble_seq_index_value d) =
  assemble_seq_index_value (with_bp d p).
Proof.
  intros (_ & _ & _ & _ & Hbp & _) Hp. unfold assemble_seq_index_value. cbn [with_bp with_body di_id di_physical_size di_rev_seq di_content_meta di_rev_meta].
  rewrite take_app_exact by (rewrite kv_length_len; reflexivity). f_equal.
  assert (Hf : N.lor (N.land (bp_field d) BP_DELETED_FLAG) p = bp_field (with_bp d p)).
  { unfold bp_field. cbn [with_bp with_body di_deleted di_bp]. destruct (di_deleted d).
    - rewrite N.land_lor_distr_l, N.land_diag. rewrite (N.lor_comm p). f_equal.
      apply N.bits_inj. intros i. rewrite N.lor_spec, N.land_spec. destruct (N.testbit BP_DELETED_FLAG i) eqn:Hb; [now rewrite orb_true_r|now rewrite andb_false_r].
    - assert (Hz : N.land (di_bp d) BP_DELETED_FLAG = 0); [|now rewrite Hz].
      change BP_DELETED_FLAG with (2^47). apply N.bits_inj. intros i. rewrite N.land_spec, N.pow2_bits_eqb, N.bits_0.
      destruct (N.eqb_spec 47 i) as [<-|]; [|now rewrite andb_false_r]. rewrite andb_true_r. apply N.testbit_false. rewrite N.div_small by exact Hbp. reflexivity. }
  rewrite Hf. apply f_equal. rewrite app_assoc. rewrite drop_app_exact by (rewrite lenN_app, kv_length_len, lenN_be; reflexivity). reflexivity.
Qed.
Lemma seq_value_sizes d : docinfo_ok d -> exists b, getb 0 5 (assemble_seq_index_value d) = Ok b /\ decode_kv_length b = (lenN (di_id d), di_physical_size d).
Proof.
  intros (H1 & _ & _ & _ & _ & H2). exists (encode_kv_length (lenN (di_id d)) (di_physical_size d)).
  assert (Hm : di_physical_size d mod 2^32 = di_physical_size d) by (apply N.mod_small; change (2^32) with 4294967296; change (2^28) with 268435456 in H2; lia).
  split; [|now apply kv_length_roundtrip]. unfold assemble_seq_index_value. rewrite Hm. apply (@getb_mid 5 0 []); [reflexivity|apply kv_length_len].
Qed.
Lemma seq_value_meta d m : docinfo_ok d -> with_rev_meta (assemble_seq_index_value d) m = Ok (assemble_seq_index_value (with_meta d m)).
Proof.
  intros H. unfold with_rev_meta. rewrite lenN_seq_value. destruct (N.ltb_spec (18 + lenN (di_id d) + lenN (di_rev_meta d)) 18); [lia|].
  destruct (seq_value_sizes H) as (b & -> & Hb). cbn [bind]. rewrite Hb.
  destruct (N.ltb_spec (18 + lenN (di_id d) + lenN (di_rev_meta d)) (18 + lenN (di_id d))); [lia|]. f_equal.
  unfold assemble_seq_index_value. cbn [with_meta di_id di_physical_size di_rev_seq di_content_meta di_rev_meta].
  change (bp_field (with_meta d m)) with (bp_field d). rewrite !app_assoc.
  rewrite take_app_exact; [reflexivity|]. rewrite !lenN_app, kv_length_len, !lenN_be. lia.
Qed.
Lemma seq_value_record d : docinfo_ok d -> id_record (be 6 (di_db_seq d)) (assemble_seq_index_value d) = Ok (id_entry d).
Proof.
  intros H. unfold id_record. destruct (seq_value_sizes H) as (b & -> & Hb). cbn [bind]. rewrite Hb, lenN_seq_value, lenN_be.
  destruct (N.ltb_spec (18 + lenN (di_id d) + lenN (di_rev_meta d)) (18 + lenN (di_id d))); [lia|]. change (N.of_nat 6 <? 6) with false. cbn [orb].
  unfold assemble_seq_index_value. set (z := encode_kv_length _ _). assert (Hz : lenN z = 5) by (unfold z; now rewrite kv_length_len).
  assert (G0 : getb 0 6 (be 6 (di_db_seq d)) = Ok (be 6 (di_db_seq d))).
  { rewrite <- (app_nil_r (be 6 (di_db_seq d))) at 1. apply (@getb_mid 6 0 []); [reflexivity|now rewrite lenN_be]. }
  rewrite G0. cbn [bind]. rewrite (@getb_mid 6 5 z) by (now rewrite ?lenN_be). cbn [bind].
  rewrite (app_assoc z). rewrite (@getb_mid 6 11) by (now rewrite ?lenN_app, ?Hz, ?lenN_be). cbn [bind].
  rewrite (app_assoc (z ++ _)). rewrite (@getb_mid 1 17) by (now rewrite ?lenN_app, ?Hz, ?lenN_be). cbn [bind].
  rewrite (app_assoc ((z ++ _) ++ _)). rewrite (@getb_mid (lenN (di_id d)) 18) by (now rewrite ?lenN_app, ?Hz, ?lenN_be). cbn [bind].
  rewrite (app_assoc (((z ++ _) ++ _) ++ _)). rewrite <- (app_nil_r (di_rev_meta d)) at 2.
  rewrite getb_mid by (rewrite ?lenN_app, ?Hz, ?lenN_be; lia). cbn [bind]. reflexivity.
Qed.

(** ** Lists *)

Lemma nodup_bound (l : list N) B : NoDup l -> (forall x, In x l -> x < B) -> lenN l <= B.
Proof.
  intros Hn Hb. unfold lenN. assert (H : (length (map N.to_nat l) <= N.to_nat B)%nat).
  { rewrite <- (seq_length (N.to_nat B) 0). apply NoDup_incl_length.
    - apply nodup_map_inj; [exact Hn|]. intros x y _ _. apply N2Nat.inj.
    - intros x Hx. apply in_map_iff in Hx. destruct Hx as (y & <- & Hy). apply List.in_seq. specialize (Hb y Hy). lia. }
  rewrite map_length in H. lia.
Qed.
Lemma ss_filter A (P : A -> A -> Prop) g l : StronglySorted P l -> StronglySorted P (filter g l).
Proof.
  intros H. induction H as [|x l Hs IH Ha]; [constructor|]. cbn [filter]. destruct (g x); [|exact IH]. constructor; [exact IH|].
  rewrite Forall_forall in *. intros y Hy. apply filter_In in Hy. apply Ha. apply Hy.
Qed.
Lemma nodup_filter A B (g : A -> B) q l : NoDup (map g l) -> NoDup (map g (filter q l)).
Proof.
  induction l as [|x l IH]; intros H; [exact H|]. cbn [map] in H. inversion H as [|? ? H1 H2]; subst. cbn [filter]. destruct (q x); [|auto]. cbn [map]. constructor; [|auto].
  intros Hin. apply H1. apply in_map_iff in Hin. destruct Hin as (y & <- & Hy). apply filter_In in Hy. apply in_map. apply Hy.
Qed.
Lemma perm_filter A (q : A -> bool) l l' : Permutation l l' -> Permutation (filter q l) (filter q l').
Proof.
  intros H. induction H as [|x l l' H IH|x y l|l l' l'' H1 IH1 H2 IH2]; cbn [filter].
  - constructor.
  - destruct (q x); [now constructor|exact IH].
  - destruct (q x), (q y); try apply Permutation_refl. constructor.
  - eapply perm_trans; eassumption.
Qed.
Lemma by_id_perm l l' : NoDup (map di_id l) -> Permutation l l' -> map id_entry (by_id l) = map id_entry (by_id l').
Proof.
  intros Hn Hp. apply (@sorted_ext ebin_cmp ord_ebin).
  - now apply by_id_sorted.
  - apply by_id_sorted. eapply Permutation_NoDup; [apply Permutation_map; exact Hp|exact Hn].
  - intros x. rewrite !in_map_iff. split; intros (y & Hy & Hi); exists y; rewrite in_by_id in *; (split; [exact Hy|]); [|apply Permutation_sym in Hp]; eapply Permutation_in; eassumption.
Qed.
Lemma by_seq_perm l l' : Forall dok l -> NoDup (map di_db_seq l) -> Permutation l l' -> map seq_entry (by_seq l) = map seq_entry (by_seq l').
Proof.
  intros Hd Hn Hp. apply (@sorted_ext seq_cmp ord_seq).
  - now apply by_seq_sorted.
  - apply by_seq_sorted; [|eapply Permutation_NoDup; [apply Permutation_map; exact Hp|exact Hn]].
    rewrite Forall_forall in *. intros x Hx. apply Hd. apply Permutation_sym in Hp. eapply Permutation_in; eassumption.
  - intros x. rewrite !in_map_iff. split; intros (y & Hy & Hi); exists y; rewrite in_by_seq in *; (split; [exact Hy|]); [|apply Permutation_sym in Hp]; eapply Permutation_in; eassumption.
Qed.

(** The pairs in the order of the sequence index. *)
Definition ordered (ps : list (doc_info * revision)) : list (doc_info * revision) :=
  isort (fun a b => gtc (seq_cmp (be 6 (di_db_seq (fst a))) (be 6 (di_db_seq (fst b))))) ps.
Lemma ordered_perm ps : Permutation ps (ordered ps). Proof. apply isort_perm. Qed.
Lemma forall2_fst A B (l : list (A * B)) l' : Forall2 (fun a b => fst a = b) l l' -> map fst l = l'.
Proof. intros H. induction H as [|x y l l' <- H IH]; [reflexivity|]. cbn [map]. now rewrite IH. Qed.
Lemma ordered_fst ps : map fst (ordered ps) = by_seq (map fst ps).
Proof.
  apply forall2_fst. unfold ordered, by_seq. apply isort_Forall2; [intros a b a' b' <- <-; reflexivity|].
  induction ps as [|p ps IH]; constructor; [reflexivity|exact IH].
Qed.
Lemma ordered_sorted ps : StronglySorted (fun a b => gtc (seq_cmp (be 6 a) (be 6 b)) = false) (map di_db_seq (map fst (ordered ps))).
Proof.
  rewrite map_map. rewrite <- (@ss_map _ _ (fun x : doc_info * revision => di_db_seq (fst x))). apply isort_sorted.
  - intros a b. apply gtc_total. apply ord_seq.
  - intros a b c. apply gtc_trans. apply ord_seq.
Qed.

Section WithEnv.
Context {E : Env} (EO : EnvOk E).

Variable okf : file -> Prop.
Variable allowed : err -> Prop.
Hypothesis OE : okerr okf allowed.
Hypothesis OB : forall f b e f', okf f -> good f -> db_write_buf f b = (Err e, f') -> allowed e.

Lemma seq_bulk_ok c : rq_ok (seq_bulk c) seqP seq_redP okf allowed.
Proof.
  constructor; try exact (oe_okf OE); try exact (oe_node OE); try (intros; discriminate).
  - left. reflexivity.
  - apply seqP_ok.
  - intros r Hr. rewrite Hr. reflexivity.
  - intros kvs _ _. unfold leaf_red. cbn [seq_bulk r_reduce by_seq_reduce]. unfold seq_redP. now rewrite lenN_be.
  - intros rs _ H. unfold inner_red. cbn [seq_bulk r_rereduce]. unfold by_seq_rereduce. destruct (seq_total_any H 0) as [t ->]. cbn [bind]. unfold seq_redP. now rewrite lenN_be.
Qed.
Lemma id_bulk_ok c : rq_ok (id_bulk c) idP id_redP okf allowed.
Proof.
  constructor; try exact (oe_okf OE); try exact (oe_node OE); try (intros; discriminate).
  - left. reflexivity.
  - apply idP_ok.
  - intros r Hr. rewrite Hr. reflexivity.
  - intros kvs _ H. destruct (idP_docs H) as (ds & -> & Hds). unfold leaf_red. cbn [id_bulk r_reduce]. unfold by_id_reduce.
    rewrite id_totals_ok by exact Hds. cbn [bind]. apply lenN_id_reduce.
  - intros rs _ H. unfold inner_red. cbn [id_bulk r_rereduce]. unfold by_id_rereduce. destruct (id_retotals_any H (0, 0, 0)) as [[[a b] d] ->].
    cbn [bind]. apply lenN_id_reduce.
Qed.
Lemma local_bulk_ok c : rq_ok (local_bulk c) kv_ok loc_redP okf allowed.
Proof.
  constructor; try exact (oe_okf OE); try exact (oe_node OE); try (intros; discriminate).
  - left. reflexivity.
  - auto.
  - intros r Hr. rewrite Hr. reflexivity.
  - intros; reflexivity.
  - intros; reflexivity.
Qed.

Lemma okst_good s : good (st_f s) -> okf (st_f s) -> okst okf s.
Proof. intros H1 H2. split; assumption. Qed.
Lemma okf_le f l f' : good f -> okf f -> writes f l f' -> okf f'.
Proof.
  intros G O H. induction H as [f|f l f1 b r f2 H IH Hw]; [exact O|]. eapply (oe_okf OE); [now apply IH| |exact Hw]. exact (le_good (writes_le EO G H)).
Qed.

(** ** The scan of the sequence index *)

Section Scan.
Variable c : cfg.
Variable o : copts.
Variable pol : policy.
Variable src : file.
Variable enc : bool.
Hypothesis Gs : good src.
Hypothesis Hsrc : fkey src = None <-> enc = false.
Hypothesis Hre : co_filter o = None -> co_rewrite o = None.
Notation rq := (seq_bulk c).

Definition same_enc (f : file) : Prop := fkey f = None <-> enc = false.
Lemma csize_enc f n : same_enc f -> csize f n = csize src n.
Proof. unfold same_enc, csize. destruct (fkey f), (fkey src), enc; intros H; auto; exfalso; destruct H as [H1 H2], Hsrc as [H3 H4]; try (specialize (H1 eq_refl); discriminate); try (specialize (H2 eq_refl); discriminate);
  try (specialize (H3 eq_refl); discriminate); try (specialize (H4 eq_refl); discriminate). Qed.

Definition outs (qs : list (doc_info * revision)) : list revision := map (remeta pol) (filter (po_keep pol) (map snd qs)).

Record copied (u : cstate) (qs qs' : list (doc_info * revision)) : Prop := {
  cp_good : good (st_f (cs_st u));
  cp_okf : okf (st_f (cs_st u));
  cp_pos : 1 <= fpos (st_f (cs_st u));
  cp_enc : same_enc (st_f (cs_st u));
  cp_docs : map snd qs' = outs qs;
  cp_rep : Forall (fun p => rep (st_f (cs_st u)) (fst p) (snd p)) qs';
  cp_ok : Forall dok (map fst qs');
  cp_mr : mrok rq seqP seq_redP (st_f (cs_st u)) true 0 (cs_mr u) (map seq_entry (map fst qs'));
  cp_mod : m_mod (cs_mr u) = true;
  cp_w : cs_w u = Writer (serial (map id_entry (map fst qs'))) (lenN qs') 0
}.

Lemma rep_le f f' i r : le f f' -> rep f i r -> rep f' i r.
Proof. intros L. apply rep_keeps. now apply le_keeps. Qed.
Lemma le_enc f f' : le f f' -> same_enc f -> same_enc f'.
Proof. intros (X & _) H. unfold same_enc. now rewrite (ex_fkey X). Qed.

Lemma output_item_ok qs qs' r0 i k v meta u r u' :
  copied u qs qs' -> k = be 6 (di_db_seq i) -> v = assemble_seq_index_value i -> docinfo_ok i ->
  dok (match meta with Some m => with_meta i m | None => i end) ->
  rep (st_f (cs_st u)) (match meta with Some m => with_meta i m | None => i end) (remeta pol r0) -> po_keep pol r0 = true ->
  output_item rq k v meta u = (r, u') ->
  (exists log, writes (st_f (cs_st u)) log (st_f (cs_st u'))) /\
  (fin (st_f (cs_st u')) -> match r with
     | Ok _ => forall p0, snd p0 = r0 -> copied u' (qs ++ [p0]) (qs' ++ [(match meta with Some m => with_meta i m | None => i end, remeta pol r0)])
     | Err e => allowed e
     end).
Proof.
  intros C -> -> Di Dj Rp Hk. set (j := match meta with Some m => with_meta i m | None => i end) in *.
  unfold output_item.
  assert (Hv : (match meta with None => Ok (assemble_seq_index_value i) | Some m => with_rev_meta (assemble_seq_index_value i) m end) = Ok (assemble_seq_index_value j)).
  { unfold j. destruct meta as [m|]; [now apply seq_value_meta|reflexivity]. }
  rewrite Hv. assert (Hj : di_db_seq i = di_db_seq j) by (unfold j; destruct meta; reflexivity). rewrite Hj.
  destruct (push_item rq (be 6 (di_db_seq j)) (assemble_seq_index_value j) (cs_mr u) (cs_st u)) as [x s] eqn:Ep.
  destruct (@ow_push E rq _ _ _ _ _ Ep) as [log W].
  assert (L : le (st_f (cs_st u)) (st_f s)) by exact (writes_le EO (cp_good C) W).
  rewrite (seq_value_record (proj1 Dj)). cbn [id_entry].
  assert (Rn : run allowed (push_item rq (be 6 (di_db_seq j)) (assemble_seq_index_value j) (cs_mr u)) (cs_st u)
    (fun m' s' => mrok rq seqP seq_redP (st_f s') true 0 m' (map seq_entry (map fst qs') ++ [(be 6 (di_db_seq j), assemble_seq_index_value j)]) /\ quiet (cs_st u) s' /\ m_mod m' = m_mod (cs_mr u))).
  { apply (@run_push_item E EO rq seqP seq_redP okf allowed (seq_bulk_ok c)); [apply okst_good; [exact (cp_good C)|exact (cp_okf C)]|exact (cp_mr C)|]. exists j. split; [exact Dj|reflexivity]. }
  destruct x as [m|e]; intros H; injection H as <- <-; cbn [cs_st]; (split; [exists log; exact W|]); intros F; [|exact (Rn _ _ Ep F)].
  intros p0 <-.
  destruct (Rn _ _ Ep F) as (R1 & _ & R3).
  constructor; cbn [cs_st cs_mr cs_w].
  - exact (le_good L).
  - exact (okf_le (cp_good C) (cp_okf C) W).
  - destruct L as (_ & L2 & _). pose proof (cp_pos C). lia.
  - exact (le_enc L (cp_enc C)).
  - unfold outs. rewrite !map_app, filter_app, map_app. cbn [map filter snd]. rewrite Hk. cbn [map]. f_equal. exact (cp_docs C).
  - apply Forall_app. split; [|constructor; [exact (rep_le L Rp)|constructor]]. generalize (cp_rep C). apply Forall_impl. intros a. now apply rep_le.
  - rewrite map_app. apply Forall_app. split; [exact (cp_ok C)|]. repeat constructor; apply Dj.
  - rewrite !map_app. exact R1.
  - rewrite R3. exact (cp_mod C).
  - rewrite (cp_w C). unfold tw_add. cbn [w_stream w_added w_written]. rewrite !map_app. cbn [map fst]. rewrite serial_app, lenN_app. cbn [serial map concat]. rewrite app_nil_r. reflexivity.
Qed.

Lemma about_remeta i r m : about i r -> po_meta pol r = m -> about (with_meta i m) (remeta pol r).
Proof. intros [] <-. constructor; cbn; auto. Qed.
Lemma about_same i r : about i r -> po_meta pol r = rv_rev_meta r -> about i (remeta pol r).
Proof. intros [] H. constructor; cbn; auto. congruence. Qed.

Lemma ask_ok i r : docinfo_ok i -> rep src i r -> follows o pol r ->
  exists item info, ask o src (be 6 (di_db_seq i)) (assemble_seq_index_value i) (di_bp i) = Ok (match co_filter o with None => true | Some _ => po_keep pol r end, item, info) /\
    (forall b, item = Some b -> pread_bin src (di_bp i) = Ok b) /\ info = match co_filter o with None => None | Some _ => Some i end.
Proof.
  intros Di [Ab Rb] [Fk _]. unfold ask. destruct (co_filter o) as [g|]; [|exists None, None; repeat split; congruence].
  rewrite by_seq_roundtrip by exact Di. cbn [bind]. destruct (Fk i Ab) as [Hg|(Hg & ct & Hb & Hz)]; rewrite Hg.
  - exists None, (Some i). destruct (po_keep pol r); cbn; repeat split; congruence.
  - rewrite Hb in Rb. destruct Rb as (_ & z & Hh & Hs & _). rewrite (@has_read E EO _ _ _ Gs Hh). cbn [bind]. rewrite (Hz z Hs).
    exists (Some z), (Some i). destruct (po_keep pol r); cbn; repeat split; congruence.
Qed.

Lemma fetch_ok qs qs' p u r u' : copied u qs qs' -> dok (fst p) -> rep src (fst p) (snd p) -> follows o pol (snd p) ->
  seq_fetch o rq src (fst (seq_entry (fst p))) (Some (snd (seq_entry (fst p)))) u = (r, u') ->
  (exists log, writes (st_f (cs_st u)) log (st_f (cs_st u'))) /\
  (fin47 (st_f (cs_st u')) -> match r with Ok _ => exists new, copied u' (qs ++ [p]) (qs' ++ new) | Err e => allowed e end).
Proof.
  destruct p as [i r0]. cbn [fst snd seq_entry]. intros C Di Rp Fo. unfold seq_fetch. rewrite lenN_seq_value.
  destruct (N.ltb_spec (18 + lenN (di_id i) + lenN (di_rev_meta i)) 18); [lia|]. rewrite (seq_value_bp (proj1 Di)).
  assert (Hbp : di_bp i < 2^47) by apply Di.
  destruct (bp_field_flag i Hbp) as [Hdel Hclr]. rewrite Hdel, Hclr.
  assert (Hskip : po_keep pol r0 = false -> copied u (qs ++ [(i, r0)]) (qs' ++ [])).
  { intros Hk. rewrite app_nil_r. destruct C as [C1 C0 C2 C3 C4 C5 C6 C7 C8 C9]. constructor; auto. unfold outs. rewrite map_app, filter_app, map_app. cbn [map snd filter].
    rewrite Hk. cbn [map]. rewrite app_nil_r. exact C4. }
  destruct (ask_ok (proj1 Di) Rp Fo) as (item & info & Ha & Hi & Hinfo). destruct Fo as [Fk Fm].
  assert (Hdd : di_deleted i = rv_deleted r0) by apply Rp.
  destruct (di_deleted i && match co_filter o with None => true | Some _ => false end && co_drop o) eqn:Hdrop.
  { intros H0; injection H0 as <- <-. split; [exists []; constructor|]. intros _. exists []. apply Hskip.
    apply andb_prop in Hdrop. destruct Hdrop as [Hd1 Hd2]. apply andb_prop in Hd1. destruct Hd1 as [Hd0 Hd1]. destruct (co_filter o); [discriminate|].
    rewrite Fk, <- Hdd, Hd0, Hd2. reflexivity. }
  rewrite Ha. assert (Hkeep : (match co_filter o with None => true | Some _ => po_keep pol r0 end) = po_keep pol r0).
  { destruct (co_filter o); [reflexivity|]. rewrite Fk, <- Hdd. destruct (di_deleted i), (co_drop o); try reflexivity. discriminate. }
  rewrite Hkeep. destruct (po_keep pol r0) eqn:Hk.
  2:{ intros H0; injection H0 as <- <-. split; [exists []; constructor|]. intros _. exists []. now apply Hskip. }
  specialize (Fm eq_refl). destruct Rp as [Ab Rb]. destruct (rv_body r0) as [ct|] eqn:Hbody.
  - destruct Rb as (Hne & z & Hh & Hs & Hsz). destruct (N.eqb_spec (di_bp i) 0); [congruence|].
    assert (Hb : (match item with Some b => Ok b | None => pread_bin src (di_bp i) end) = Ok z).
    { pose proof (@has_read E EO _ _ _ Gs Hh) as Hr. destruct item as [b|]; [|exact Hr]. specialize (Hi b eq_refl). congruence. }
    rewrite Hb. set (meta := match co_rewrite o with Some g => match info with Some i => g i z | None => None end | None => None end).
    destruct (db_write_buf (st_f (cs_st u)) z) as [[[q sz]|e] f1] eqn:Hw.
    2:{ intros H0; injection H0 as <- <-. cbn [cs_st st_f]. split; [eexists; eapply wr_step; [constructor|exact Hw]|]. intros _. exact (OB (cp_okf C) (cp_good C) Hw). }
    assert (W1 : exists log, writes (st_f (cs_st u)) log f1) by (eexists; eapply wr_step; [constructor|exact Hw]).
    destruct W1 as [log1 W1]. pose proof (writes_le EO (cp_good C) W1) as L1. intros Ho.
    assert (Hx : exists log, writes f1 log (st_f (cs_st u'))).
    { clear - Ho. unfold output_item in Ho. match type of Ho with context [match ?x with Ok _ => _ | Err _ => _ end] => destruct x as [v'|e'] end; [|injection Ho as <- <-; exists []; constructor].
      match type of Ho with context [push_item ?a ?b ?c0 ?d0 ?e0] => destruct (push_item a b c0 d0 e0) as [[m'|e'] s'] eqn:Ep end; cbn [cs_mr cs_st] in Ep; destruct (@ow_push E _ _ _ _ _ _ Ep) as [l W]; cbn [st_f] in W.
      - destruct (id_record _ v') as [[ik iv]|e'']; injection Ho as <- <-; exists l; exact W.
      - injection Ho as <- <-; exists l; exact W. }
    destruct Hx as [log2 W2]. pose proof (writes_le EO (le_good L1) W2) as L2. split; [exists (log2 ++ log1); eapply writes_trans; eassumption|].
    intros F. pose proof (fin47_le L2 F) as F1.
    destruct (db_write_buf_spec EO _ (cp_good C) Hw) as [_ Sp]. destruct (Sp q sz eq_refl) as (P1 & P2 & P3 & P4 & _).
    assert (Hq : q <> 0 /\ q < 2^47) by (destruct F1 as [_ F1]; pose proof (cp_pos C); lia).
    rewrite (seq_value_set (proj1 Di)) in Ho by apply Hq.
    assert (Hmeta : match meta with Some m => po_meta pol r0 = m /\ lenN m < 2^27 | None => po_meta pol r0 = rv_rev_meta r0 end).
    { unfold meta. destruct (co_rewrite o) as [g|] eqn:Eg; [|exact Fm]. rewrite Hinfo. destruct (co_filter o) as [gf|]; [|specialize (Hre eq_refl); discriminate].
      specialize (Fm i z Ab Hs). destruct (g i z); exact Fm. }
    assert (C1 : copied (CState (St f1 (st_ev (cs_st u)) (st_en (cs_st u))) (cs_mr u) (cs_w u)) qs qs').
    { destruct C as [C1 C0 C2 C3 C4 C5 C6 C7 C8 C9]. constructor; cbn [cs_st cs_mr cs_w st_f]; auto.
      - exact (le_good L1).
      - exact (okf_le C1 C0 W1).
      - destruct L1 as (_ & L1' & _). lia.
      - exact (le_enc L1 C3).
      - revert C5. apply Forall_impl. intros a. now apply rep_le.
      - eapply mrok_le; eassumption. }
    assert (Db : docinfo_ok (with_bp i q)).
    { destruct Di as [(D1 & D2 & D3 & D4 & _ & D6) _]. unfold docinfo_ok. cbn [with_bp with_body di_id di_db_seq di_rev_seq di_content_meta di_bp di_physical_size]. intuition. }
    assert (Ab' : about (with_bp i q) r0) by (destruct Ab; constructor; assumption).
    assert (Hjk : forall j, j = match meta with Some m => with_meta (with_bp i q) m | None => with_bp i q end -> dok j /\ rep f1 j (remeta pol r0)).
    { intros j Hj. assert (Hjb : di_bp j = q /\ di_physical_size j = di_physical_size i /\ about j (remeta pol r0) /\ dok j).
      { destruct meta as [m|]; subst j.
        - destruct Hmeta as [Hm1 Hm2]. cbn [with_meta di_bp di_physical_size with_bp with_body]. split; [reflexivity|]. split; [reflexivity|].
          split; [now apply about_remeta|]. split; [exact Db|exact Hm2].
        - cbn [di_bp di_physical_size with_bp with_body]. split; [reflexivity|]. split; [reflexivity|]. split; [now apply about_same|]. split; [exact Db|apply Di]. }
      destruct Hjb as (J1 & J2 & J3 & J4). split; [exact J4|]. split; [exact J3|]. cbn [remeta rv_body]. rewrite Hbody, J1, J2. split; [apply Hq|].
      exists z. split; [apply P3; apply F1|]. split; [exact Hs|]. rewrite Hsz. symmetry. apply csize_enc. exact (le_enc L1 (cp_enc C)). }
    destruct (Hjk _ eq_refl) as [Dj Rj].
    eapply output_item_ok with (i := with_bp i q) in Ho; [|exact C1|reflexivity|reflexivity|exact Db|exact Dj|exact Rj|exact Hk].
    destruct Ho as [_ Ho]. specialize (Ho (fin47_fin F)). destruct r; [|exact Ho]. specialize (Ho (i, r0) eq_refl). eexists. exact Ho.
  - destruct Rb as [Hb0 Hs0]. rewrite Hb0. rewrite N.eqb_refl. intros Ho.
    assert (Hmeta : po_meta pol r0 = rv_rev_meta r0) by (destruct (co_rewrite o); exact Fm).
    assert (Rj : rep (st_f (cs_st u)) i (remeta pol r0)).
    { split; [now apply about_same|]. cbn [remeta rv_body]. rewrite Hbody. auto. }
    eapply output_item_ok with (i := i) (meta := None) in Ho; [|exact C|reflexivity|reflexivity|exact (proj1 Di)|exact Di|exact Rj|exact Hk].
    destruct Ho as [W Ho]. split; [exact W|]. intros F. specialize (Ho (fin47_fin F)). destruct r; [|exact Ho]. eexists. exact (Ho (i, r0) eq_refl).
Qed.

Lemma output_writes k v meta u r u' : output_item rq k v meta u = (r, u') -> exists log, writes (st_f (cs_st u)) log (st_f (cs_st u')).
Proof.
  unfold output_item. intros Ho. match type of Ho with context [match ?x with Ok _ => _ | Err _ => _ end] => destruct x as [v'|e'] end; [|injection Ho as <- <-; exists []; constructor].
  destruct (push_item rq k v' (cs_mr u) (cs_st u)) as [[m'|e'] s'] eqn:Ep; destruct (@ow_push E _ _ _ _ _ _ Ep) as [l W].
  - destruct (id_record k v') as [[ik iv]|e'']; injection Ho as <- <-; exists l; exact W.
  - injection Ho as <- <-; exists l; exact W.
Qed.
Lemma fetch_writes k v u r u' : seq_fetch o rq src k v u = (r, u') -> exists log, writes (st_f (cs_st u)) log (st_f (cs_st u')).
Proof.
  assert (H0 : forall r0 : res unit, (r0, u) = (r, u') -> exists log, writes (st_f (cs_st u)) log (st_f (cs_st u'))) by (intros r0 H; injection H as <- <-; exists []; constructor).
  unfold seq_fetch. destruct v as [v|]; [|apply H0]. destruct (lenN v <? 18); [apply H0|]. destruct (rd_be 6 5 v) as [w|e]; [|apply H0].
  destruct (_ && _ && _); [apply H0|]. destruct (ask _ _ _ _ _) as [[[[] item] info]|e]; [|apply H0|apply H0]. destruct (_ =? 0); [apply output_writes|].
  destruct (match item with Some b => _ | None => _ end) as [b|e]; [|apply H0].
  destruct (db_write_buf (st_f (cs_st u)) b) as [[[q sz]|e] f1] eqn:Hw.
  - intros Ho. apply output_writes in Ho. cbn [cs_st st_f] in Ho. destruct Ho as [l2 W2].
    assert (W1 : exists log, writes (st_f (cs_st u)) log f1) by (eexists; eapply wr_step; [constructor|exact Hw]).
    destruct W1 as [l1 W1]. exists (l2 ++ l1). eapply writes_trans; eassumption.
  - intros H; injection H as <- <-. cbn [cs_st st_f]. eexists; eapply wr_step; [constructor|exact Hw].
Qed.
Notation lrq := (LReq seq_cmp (seq_fetch o rq src) None false).
Lemma scan_writes l : forall u r u', run_calls lrq l u = (r, u') -> exists log, writes (st_f (cs_st u)) log (st_f (cs_st u')).
Proof.
  induction l as [|[k v] l IH]; intros u r u' H; cbn [run_calls l_fetch] in H; [injection H as <- <-; exists []; constructor|].
  destruct (seq_fetch o rq src k v u) as [[[]|e] u1] eqn:Hf; destruct (fetch_writes Hf) as [l1 W1].
  - destruct (IH _ _ _ H) as [l2 W2]. exists (l2 ++ l1). eapply writes_trans; eassumption.
  - injection H as <- <-. eauto.
Qed.
Lemma scan_ok l : forall qs qs' u r u', copied u qs qs' -> Forall (fun p => dok (fst p) /\ rep src (fst p) (snd p) /\ follows o pol (snd p)) l ->
  run_calls lrq (map found (map seq_entry (map fst l))) u = (r, u') -> fin47 (st_f (cs_st u')) ->
  match r with Ok _ => exists qs1, copied u' (qs ++ l) qs1 | Err e => allowed e end.
Proof.
  induction l as [|p l IH]; intros qs qs' u r u' C Hl H F; cbn [map run_calls found l_fetch] in H.
  - injection H as <- <-. rewrite app_nil_r. eauto.
  - inversion Hl as [|? ? (Hd & Hr & Hf) Hl']; subst.
    destruct (seq_fetch o rq src (fst (seq_entry (fst p))) (Some (snd (seq_entry (fst p)))) u) as [[[]|e] u1] eqn:He;
      destruct (fetch_ok C Hd Hr Hf He) as [[l1 W1] Hc]; [|injection H as <- <-; exact (Hc F)]. pose proof (writes_le EO (cp_good C) W1) as L1.
    destruct (scan_writes H) as [l2 W2]. pose proof (writes_le EO (le_good L1) W2) as L2.
    destruct (Hc (fin47_le L2 F)) as [new C1]. replace (qs ++ p :: l) with ((qs ++ [p]) ++ l) by (rewrite <- app_assoc; reflexivity).
    exact (IH _ _ _ _ _ C1 Hl' H F).
Qed.
End Scan.

(** ** The whole copy *)

Lemma stored_perm f h v ps ps' : Permutation ps ps' -> stored f h v ps -> stored f h (Contents (map snd ps') (v_locals v) (v_seq v)) ps'.
Proof.
  intros P S. pose proof (Permutation_map fst P) as Pf. constructor; cbn [v_docs v_locals v_seq].
  - reflexivity.
  - eapply Permutation_Forall; [exact P|exact (sd_rep S)].
  - eapply Permutation_Forall; [exact Pf|exact (sd_ok S)].
  - eapply Permutation_NoDup; [apply Permutation_map; exact P|exact (sd_ids S)].
  - eapply Permutation_NoDup; [apply Permutation_map; exact Pf|exact (sd_seqs S)].
  - intros p Hp. apply (sd_max S). eapply Permutation_in; [apply Permutation_sym; exact P|exact Hp].
  - exact (sd_seq S).
  - exact (sd_bound S).
  - rewrite <- (@by_id_perm (map fst ps)); [exact (sd_id S)| |exact Pf]. rewrite map_map. exact (sd_ids S).
  - rewrite <- (@by_seq_perm (map fst ps)); [exact (sd_sq S)|exact (sd_ok S)|exact (sd_seqs S)|exact Pf].
  - exact (sd_lids S).
  - exact (sd_loc S).
Qed.

Section Copy.
Variable c : cfg.
Variable o : copts.
Variable pol : policy.
Variable src : db.
Variable v : contents.
Variable ps : list (doc_info * revision).
Hypothesis Gs : good (dbf src).
Hypothesis Hd : dropped src = false.
Hypothesis S : stored (dbf src) (dbh src) v ps.
Hypothesis Hre : co_filter o = None -> co_rewrite o = None.
Hypothesis Hrec : co_recovery o = false.
Hypothesis Hfo : Forall (follows o pol) (v_docs v).
Variable f : file.
Hypothesis Gf : good f.
Hypothesis Of : okf f.
Hypothesis Hpos : 1 <= fpos f.
Hypothesis Henc : fkey (dbf src) = None <-> fkey f = None.

Let enc : bool := match fkey (dbf src) with None => false | Some _ => true end.
Lemma enc_src : fkey (dbf src) = None <-> enc = false.
Proof. unfold enc. destruct (fkey (dbf src)); split; congruence. Qed.
Lemma enc_tgt : same_enc enc f.
Proof. unfold same_enc. rewrite <- Henc. apply enc_src. Qed.

Lemma copied0 : copied c pol enc (CState (St f [] false) new_btree_modres new_writer) [] [].
Proof.
  constructor; cbn [cs_st cs_mr cs_w st_f]; auto.
  - exact enc_tgt.
  - constructor.
  - apply (mrok_new (seq_bulk c) seqP seq_redP).
Qed.

Lemma all_ok : Forall (fun p => dok (fst p) /\ rep (dbf src) (fst p) (snd p) /\ follows o pol (snd p)) (ordered ps).
Proof.
  eapply Permutation_Forall; [apply ordered_perm|]. pose proof (sd_rep S) as H1. pose proof (sd_ok S) as H2. pose proof Hfo as H3. rewrite <- (sd_docs S) in H3.
  rewrite Forall_map in H2, H3. rewrite Forall_forall in *. intros p Hp. auto.
Qed.

(** The calls of the scan. *)
Lemma all_calls U (rq : lreq U) : l_cmp rq = seq_cmp ->
  fc rq (be 6 0) [] (map seq_entry (by_seq (map fst ps))) = map found (map seq_entry (map fst (ordered ps))).
Proof.
  intros Hc. unfold fc. f_equal. rewrite ordered_fst. rewrite filter_map. f_equal.
  assert (Hl : forall i, In i (by_seq (map fst ps)) -> di_db_seq i < 2^48) by (intros i Hi; rewrite in_by_seq in Hi; exact (dok_seq (in_ok S Hi))).
  revert Hl. generalize (by_seq (map fst ps)). intros l Hl. induction l as [|i l IH]; [reflexivity|]. cbn [filter].
  assert (Hi : inrange rq (be 6 0) [] (seq_entry i) = true).
  { unfold inrange. rewrite Hc, andb_true_r. cbn [seq_entry fst]. rewrite lookup_seq, seq_cmp_be; [|apply Hl; now left|reflexivity]. destruct (di_db_seq i); reflexivity. }
  rewrite Hi. f_equal. apply IH. intros j Hj. apply Hl. now right.
Qed.

Lemma scan_lookup U (rq : lreq U) p0 u : l_tol rq = false -> l_node rq = None -> l_cmp rq = seq_cmp -> h_by_seq (dbh src) = Some p0 ->
  let '(x, l) := lookup_inner rq (depth_fuel (dbf src)) (dbf src) (np_pointer p0) [be 6 0] (Lst u true true) in
  (x, l_u l) = run_calls rq (map found (map seq_entry (map fst (ordered ps)))) u.
Proof.
  intros H1 H2 H3 Hp. pose proof (sd_sq S) as T. rewrite Hp in T. destruct T as (d & p' & T & Hp' & _). rewrite <- Hp'.
  assert (OL : ord (lookup_compare (l_cmp rq))) by (rewrite H3; apply ord_lookup, ord_seq).
  assert (Hs : sorted (lookup_compare (l_cmp rq)) (map seq_entry (by_seq (map fst ps)))) by (rewrite H3; exact (seq_sorted S)).
  pose proof (@lookup_fold U rq H1 H2 OL E EO (seq_request cfg0) seqP seq_redP HseqP Hseq_red (dbf src) (be 6 0) Gs d _ (@depth_ok U rq E _ _ _ _ _ _ _ T) [] p' _ u true (le_S _ _ (le_n 0)) T Hs) as [H _].
  destruct (lookup_inner _ _ _ _ _ _) as [x l]. cbn [fst snd] in H. rewrite H. rewrite all_calls by exact H3. reflexivity.
Qed.

Record doc_copy (qs : list (doc_info * revision)) (ids seqs : option node_pointer) (f1 : file) : Prop := {
  dc_docs : map snd qs = outs pol (ordered ps);
  dc_rep : Forall (fun p => rep f1 (fst p) (snd p)) qs;
  dc_ok : Forall dok (map fst qs);
  dc_ids : id_tree f1 ids (map id_entry (by_id (map fst qs)));
  dc_seqs : seq_tree f1 seqs (map seq_entry (by_seq (map fst qs)))
}.

Lemma outs_ids qs : map snd qs = outs pol (ordered ps) -> Forall (fun p => about (fst p) (snd p)) qs -> NoDup (map pid qs) /\ NoDup (map di_db_seq (map fst qs)) /\
  StronglySorted (fun a b => gtc (seq_cmp (be 6 a) (be 6 b)) = false) (map di_db_seq (map fst qs)) /\ (forall p, In p qs -> di_db_seq (fst p) <= v_seq v).
Proof.
  intros Hq Ha.
  assert (Hi : map pid qs = map rv_id (filter (po_keep pol) (map snd (ordered ps)))).
  { transitivity (map rv_id (map snd qs)).
    - rewrite map_map. apply map_ext_in. intros p Hp. rewrite Forall_forall in Ha. apply (ab_id (Ha p Hp)).
    - rewrite Hq. unfold outs. rewrite map_map. reflexivity. }
  assert (Hsq : map di_db_seq (map fst qs) = map rv_seq (filter (po_keep pol) (map snd (ordered ps)))).
  { transitivity (map rv_seq (map snd qs)).
    - rewrite !map_map. apply map_ext_in. intros p Hp. rewrite Forall_forall in Ha. apply (ab_seq (Ha p Hp)).
    - rewrite Hq. unfold outs. rewrite map_map. reflexivity. }
  assert (Hs : forall p, In p (ordered ps) -> about (fst p) (snd p)).
  { intros p Hp. pose proof (sd_rep S) as Hr. rewrite Forall_forall in Hr. apply Hr. eapply Permutation_in; [apply Permutation_sym, ordered_perm|exact Hp]. }
  assert (Hi' : map rv_id (map snd (ordered ps)) = map pid (ordered ps)).
  { rewrite map_map. apply map_ext_in. intros p Hp. symmetry. apply (ab_id (Hs p Hp)). }
  assert (Hsq' : map rv_seq (map snd (ordered ps)) = map di_db_seq (map fst (ordered ps))).
  { rewrite !map_map. apply map_ext_in. intros p Hp. symmetry. apply (ab_seq (Hs p Hp)). }
  repeat apply conj.
  - rewrite Hi. apply nodup_filter. rewrite Hi'. eapply Permutation_NoDup; [apply Permutation_map, ordered_perm|exact (sd_ids S)].
  - rewrite Hsq. apply nodup_filter. rewrite Hsq'. eapply Permutation_NoDup; [apply Permutation_map, Permutation_map, ordered_perm|exact (sd_seqs S)].
  - rewrite Hsq. set (P := fun a b => gtc (seq_cmp (be 6 a) (be 6 b)) = false). apply (proj1 (@ss_map _ _ rv_seq P _)). apply ss_filter. apply (proj2 (@ss_map _ _ rv_seq P _)). rewrite Hsq'. apply ordered_sorted.
  - intros p Hp. assert (Hin : In (di_db_seq (fst p)) (map di_db_seq (map fst qs))) by (rewrite map_map; apply in_map_iff; exists p; auto).
    rewrite Hsq in Hin. apply in_map_iff in Hin. destruct Hin as (r & <- & Hin). apply filter_In in Hin. destruct Hin as [Hin _]. apply in_map_iff in Hin.
    destruct Hin as (q & <- & Hin). rewrite <- (ab_seq (Hs q Hin)). apply (sd_max S). eapply Permutation_in; [apply Permutation_sym, ordered_perm|exact Hin].
Qed.

Lemma docs_copy r f1 : copy_docs c o src f = (r, f1) ->
  (exists log, writes f log f1) /\
  (fin47 f1 -> match r with Ok (scan, ids, seqs) => scan = Ok tt /\ exists qs, doc_copy qs ids seqs f1 | Err e => allowed e end).
Proof.
  unfold copy_docs. rewrite Hrec. destruct (h_by_seq (dbh src)) as [p0|] eqn:Hp.
  2:{ intros H; injection H as <- <-. split; [exists []; constructor|]. intros _. split; [reflexivity|]. exists [].
      constructor; [now rewrite (no_seq S Hp)|constructor|constructor|reflexivity|reflexivity]. }
  unfold seq_tree_copy. rewrite Hrec. pose proof (@scan_lookup cstate (LReq seq_cmp (seq_fetch o (seq_bulk c) (dbf src)) None false) p0
    (CState (St f [] false) new_btree_modres new_writer) eq_refl eq_refl eq_refl Hp) as Hscan.
  destruct (lookup_inner _ _ _ _ _ _) as [x l]. symmetry in Hscan. destruct (scan_writes Hscan) as [l1 W1]. cbn [cs_st st_f] in W1.
  pose proof (writes_le EO Gf W1) as L1. pose proof (okf_le Gf Of W1) as O1.
  pose proof (@scan_ok c o pol (dbf src) enc Gs enc_src Hre (ordered ps) [] [] _ _ _ copied0 all_ok Hscan) as Hscan'. cbn [app] in Hscan'.
  destruct x as [[]|e]; cbn [orb].
  2:{ intros H; injection H as <- <-. split; [eauto|exact Hscan']. }
  destruct (complete_new_btree (seq_bulk c) (cs_mr (l_u l)) (cs_st (l_u l))) as [cr s1] eqn:Hc; destruct (@ow_complete E _ _ _ _ _ Hc) as [l2 W2].
  pose proof (writes_le EO (le_good L1) W2) as L2. pose proof (okf_le (le_good L1) O1 W2) as O2.
  assert (W12 : writes f (l2 ++ l1) (st_f s1)) by (eapply writes_trans; eassumption).
  assert (Hcp : fin47 (st_f s1) -> exists qs, copied c pol enc (l_u l) (ordered ps) qs /\
     match cr with Ok sr => toptree (seq_bulk c) seqP seq_redP (st_f s1) sr (map seq_entry (map fst qs)) | Err e => allowed e end).
  { intros F. destruct (Hscan' (fin47_le L2 F)) as [qs Cq].
    exists qs. split; [exact Cq|]. pose proof (@run_complete E EO (seq_bulk c) seqP seq_redP okf allowed (seq_bulk_ok c) _ _ _ (okst_good (cp_good Cq) (cp_okf Cq)) (cp_mr Cq) (cp_mod Cq)) as R.
    specialize (R _ _ Hc (fin47_fin F)). destruct cr; [exact (proj1 R)|exact R]. }
  destruct cr as [sr|e].
  2:{ intros H; injection H as <- <-. split; [exists (l2 ++ l1); exact W12|]. intros F. destruct (Hcp F) as (_ & _ & H). exact H. }
  assert (Hsort : fin47 (st_f s1) -> exists qs rs, copied c pol enc (l_u l) (ordered ps) qs /\ toptree (seq_bulk c) seqP seq_redP (st_f s1) sr (map seq_entry (map fst qs)) /\
     tw_sort ebin_cmp (cs_w (l_u l)) = Ok (Writer (serial rs) (lenN qs) 0) /\ lenN rs = lenN qs /\ Forall rec_ok rs /\ Forall idP rs /\ rs = map id_entry (by_id (map fst qs)) /\
     by_seq (map fst qs) = map fst qs).
  { intros F. destruct (Hcp F) as (qs & Cq & Tq). exists qs.
    assert (Ha : Forall (fun p => about (fst p) (snd p)) qs) by (generalize (cp_rep Cq); apply Forall_impl; intros p Hr; apply Hr).
    destruct (outs_ids (cp_docs Cq) Ha) as (N1 & N2 & N3 & N4).
  pose proof (cp_ok Cq) as Hok. set (es := map id_entry (map fst qs)).
  assert (Hid : Forall idP es) by (unfold es; rewrite Forall_map; revert Hok; apply Forall_impl; intros i Hi; exists i; auto).
  assert (Hrk : Forall rec_ok es).
  { revert Hid. apply Forall_impl. intros y Hy. apply idP_ok in Hy. destruct Hy as [Y1 Y2]. change (2^12) with 4096 in Y1. change (2^28) with 268435456 in Y2.
    split; change (2^32) with 4294967296; lia. }
  assert (Hlen : lenN es < 2^63).
  { unfold es. rewrite !lenN_map. assert (Hb : lenN (map di_db_seq (map fst qs)) <= 2^48).
    { apply nodup_bound; [exact N2|]. intros n Hn'. apply in_map_iff in Hn'. destruct Hn' as (i & <- & Hi). rewrite Forall_forall in Hok. exact (dok_seq (Hok i Hi)). }
    rewrite !lenN_map in Hb. change (2^48) with 281474976710656 in Hb. change (2^63) with 9223372036854775808. lia. }
  assert (Hst : w_stream (cs_w (l_u l)) = serial es) by (rewrite (cp_w Cq); reflexivity).
  destruct (@tw_sort_ok ebin_cmp ord_ebin _ es Hst Hrk Hlen) as (rs & Hs1 & Hs2 & Hs3). exists rs.
  assert (Hrs : rs = map id_entry (by_id (map fst qs))).
  { apply (@sorted_ext ebin_cmp ord_ebin).
    - apply (@ss_strict kv fst ebin_cmp); [apply ord_ebin| | |].
      + eapply ss_impl; [|exact Hs3]. intros a b _ _ Hab. cbn beta in Hab. destruct (ebin_cmp (fst a) (fst b)); try reflexivity. congruence.
      + intros a b _ _. apply ebin_eq.
      + eapply Permutation_NoDup; [apply Permutation_map; exact Hs2|]. unfold es. rewrite !map_map. exact N1.
    - apply by_id_sorted. rewrite map_map. exact N1.
    - intros y. split; intros Hy.
      + apply Permutation_sym in Hs2. apply (Permutation_in _ Hs2) in Hy. unfold es in Hy. apply in_map_iff in Hy. destruct Hy as (i & <- & Hi). apply in_map. now rewrite in_by_id.
      + apply in_map_iff in Hy. destruct Hy as (i & <- & Hi). rewrite in_by_id in Hi. apply (Permutation_in _ Hs2). unfold es. now apply in_map. }
  assert (Hrk' : Forall rec_ok rs) by (eapply Permutation_Forall; eassumption).
  assert (Hid' : Forall idP rs) by (eapply Permutation_Forall; eassumption).
  split; [exact Cq|]. split; [exact Tq|]. split; [rewrite Hs1, (cp_w Cq); reflexivity|]. split; [|repeat (split; [assumption|])].
  - assert (Hl1 : lenN rs = lenN es) by (unfold lenN; now rewrite (Permutation_length Hs2)). rewrite Hl1. unfold es. now rewrite !lenN_map.
  - unfold by_seq; apply isort_id; apply (proj2 (@ss_map _ _ di_db_seq (fun a b => gtc (seq_cmp (be 6 a) (be 6 b)) = false) _)); exact N3. }
  destruct (tw_sort ebin_cmp (cs_w (l_u l))) as [w1|e] eqn:Hsrt.
  2:{ intros H; injection H as <- <-. split; [eauto|]. intros F. destruct (Hsort F) as (qs & rs & _ & _ & H & _). discriminate. }
  destruct (tw_write (id_bulk (target_cfg c)) w1 (St (st_f s1) [] false)) as [wr s2] eqn:Hw; destruct (@ow_tw_write E _ _ _ _ _ Hw) as [l3 W3]; cbn [st_f] in W3;
    pose proof (writes_le EO (le_good L2) W3) as L3; assert (W13 : writes f (l3 ++ l2 ++ l1) (st_f s2)) by (eapply writes_trans; eassumption).
  assert (Hwr : fin47 (st_f s2) -> exists qs rs, copied c pol enc (l_u l) (ordered ps) qs /\ toptree (seq_bulk c) seqP seq_redP (st_f s1) sr (map seq_entry (map fst qs)) /\
     rs = map id_entry (by_id (map fst qs)) /\ by_seq (map fst qs) = map fst qs /\
     match wr with Ok (ir, w2) => toptree (id_bulk (target_cfg c)) idP id_redP (st_f s2) ir rs /\ w_added w2 = w_written w2 | Err e => allowed e end).
  { intros F. destruct (Hsort (fin47_le L3 F)) as (qs & rs & Cq & Tq & Hs1 & Hn & Hrk & Hid & Hrs & Hb). exists qs, rs. do 4 (split; [assumption|]). injection Hs1 as ->.
    pose proof (@run_tw_write E EO (id_bulk (target_cfg c)) idP id_redP okf allowed (id_bulk_ok (target_cfg c)) (Writer (serial rs) (lenN qs) 0) rs (St (st_f s1) [] false)
      (okst_good (s := St (st_f s1) [] false) (le_good L2) O2) eq_refl Hrk Hid) as R.
    specialize (R _ _ Hw (fin47_fin F)). destruct wr as [[ir w2]|e]; [|exact R]. destruct R as (R1 & _ & R3). cbn [fst snd] in R1, R3. split; [exact R1|]. rewrite R3. cbn [w_added w_written]. lia. }
  destruct wr as [[ir w2]|e].
  2:{ intros H; injection H as <- <-. split; [eauto|]. intros F. destruct (Hwr F) as (_ & _ & _ & _ & _ & _ & H). exact H. }
  destruct (N.eqb_spec (w_added w2) (w_written w2)) as [Hn|Hn]; intros H; injection H as <- <-; (split; [eauto|]); intros F; destruct (Hwr F) as (qs & rs & Cq & Tq & Hrs & Hb & R1 & R2); [|congruence].
  split; [reflexivity|]. exists qs. constructor.
  - exact (cp_docs Cq).
  - generalize (cp_rep Cq). apply Forall_impl. intros p Hr. eapply rep_le; [|exact Hr]. eapply le_trans; eassumption.
  - exact (cp_ok Cq).
  - rewrite Hrs in R1. apply toptree_rtree in R1. exact R1.
  - rewrite Hb. apply toptree_rtree in Tq. eapply rtree_le in Tq; [|exact L3]. exact Tq.
Qed.

(** ** Local documents *)

Notation llq := (LReq ebin_cmp (local_fetch (local_bulk c)) None false).
Lemma local_fetch_writes k w u r u' : local_fetch (local_bulk c) k w u = (r, u') -> exists log, writes (st_f (snd u)) log (st_f (snd u')).
Proof.
  unfold local_fetch. destruct w as [w|]; [|intros H; injection H as <- <-; exists []; constructor].
  destruct (push_item _ _ _ _ _) as [[m|e] s] eqn:Ep; destruct (@ow_push E _ _ _ _ _ _ Ep) as [l W]; intros H; injection H as <- <-; exists l; exact W.
Qed.
Lemma local_scan_writes l : forall u r u', run_calls llq l u = (r, u') -> exists log, writes (st_f (snd u)) log (st_f (snd u')).
Proof.
  induction l as [|[k w] l IH]; intros u r u' H; cbn [run_calls l_fetch] in H; [injection H as <- <-; exists []; constructor|].
  destruct (local_fetch (local_bulk c) k w u) as [[[]|e] u1] eqn:Hf; destruct (local_fetch_writes Hf) as [l1 W1].
  - destruct (IH _ _ _ H) as [l2 W2]. exists (l2 ++ l1). eapply writes_trans; eassumption.
  - injection H as <- <-. eauto.
Qed.
Lemma local_scan_ok l : forall kvs u r u', good (st_f (snd u)) -> okf (st_f (snd u)) -> mrok (local_bulk c) kv_ok loc_redP (st_f (snd u)) true 0 (fst u) kvs -> m_mod (fst u) = true -> Forall kv_ok l ->
  run_calls llq (map found l) u = (r, u') -> fin47 (st_f (snd u')) ->
  match r with Ok _ => mrok (local_bulk c) kv_ok loc_redP (st_f (snd u')) true 0 (fst u') (kvs ++ l) /\ m_mod (fst u') = true | Err e => allowed e end.
Proof.
  induction l as [|[k w] l IH]; intros kvs u r u' G O M Hm Hl H F; cbn [map run_calls found fst snd l_fetch] in H.
  - injection H as <- <-. rewrite app_nil_r. auto.
  - inversion Hl as [|? ? Hk Hl']; subst.
    destruct (local_fetch (local_bulk c) k (Some w) u) as [lr u1] eqn:Hf. destruct (local_fetch_writes Hf) as [l1 W1]. pose proof (writes_le EO G W1) as L1. pose proof (okf_le G O W1) as O1.
    unfold local_fetch in Hf. destruct (push_item (local_bulk c) k w (fst u) (snd u)) as [pr s] eqn:Ep.
    pose proof (@run_push_item E EO (local_bulk c) kv_ok loc_redP okf allowed (local_bulk_ok c) 0 (fst u) kvs k w (snd u) (okst_good G O) M Hk) as R.
    destruct pr as [m|e]; injection Hf as <- <-; cbn [fst snd] in *; [|injection H as <- <-; exact (R _ _ Ep (fin47_fin F))].
    destruct (local_scan_writes H) as [l2 W2]. pose proof (writes_le EO (le_good L1) W2) as L2.
    destruct (R _ _ Ep (fin47_fin (fin47_le L2 F))) as (R1 & _ & R3).
    replace (kvs ++ (k, w) :: l) with ((kvs ++ [(k, w)]) ++ l) by (rewrite <- app_assoc; reflexivity).
    apply (IH (kvs ++ [(k, w)]) (m, s) r u'); auto; cbn [fst snd]; [exact (le_good L1)|congruence].
Qed.

Lemma locals_copy f1 r f2 : good f1 -> okf f1 -> copy_locals c src f1 = (r, f2) ->
  (exists log, writes f1 log f2) /\ (fin47 f2 -> match r with Ok locs => loc_tree f2 locs (by_key (v_locals v)) | Err e => allowed e end).
Proof.
  intros G1 Of1. unfold copy_locals. pose proof (sd_loc S) as T. destruct (h_local (dbh src)) as [p0|] eqn:Hp.
  2:{ intros H; injection H as <- <-. split; [exists []; constructor|]. intros _. cbn in T. rewrite T. constructor. }
  unfold local_tree_copy. destruct T as (d & p' & T & Hp' & _). rewrite <- Hp'.
  pose proof (tree_kvP T) as Hkv.
  assert (Hs : sorted (lookup_compare (l_cmp llq)) (by_key (v_locals v))) by (apply sorted_lookup_ebin, by_key_sorted; exact (sd_lids S)).
  assert (OL : ord (lookup_compare (l_cmp llq))) by (apply ord_lookup, ord_ebin).
  pose proof (@lookup_fold (mr * st) llq eq_refl eq_refl OL E EO (local_request cfg0) kv_ok loc_redP (fun _ H => H) Hloc_red (dbf src) [] Gs d _ (@depth_ok _ llq E _ _ _ _ _ _ _ T) [] p' _
     (new_btree_modres, St f1 [] false) true (le_S _ _ (le_n 0)) T Hs) as [H _].
  destruct (lookup_inner _ _ _ _ _ _) as [x l]. cbn [fst snd] in H.
  assert (Hfc : fc llq [] [] (by_key (v_locals v)) = map found (by_key (v_locals v))).
  { unfold fc. f_equal. generalize (by_key (v_locals v)). intros l0. induction l0 as [|[k w] l0 IH]; [reflexivity|]. cbn [filter]. unfold inrange. cbn [fst l_cmp]. rewrite lookup_ebin.
    assert (Hk : ge (ebin_cmp k []) = true) by (destruct k; reflexivity). rewrite Hk. cbn [andb]. f_equal. exact IH. }
  rewrite Hfc in H. symmetry in H. destruct (local_scan_writes H) as [l1 W1]. cbn [snd st_f] in W1. pose proof (writes_le EO G1 W1) as L1.
  assert (M0 : mrok (local_bulk c) kv_ok loc_redP f1 true 0 new_btree_modres []) by apply mrok_new.
  pose proof (@local_scan_ok _ [] (new_btree_modres, St f1 [] false) _ _ G1 Of1 M0 eq_refl Hkv H) as Hs1. cbn [app] in Hs1.
  destruct x as [[]|e].
  2:{ intros H0; injection H0 as <- <-. split; [eauto|exact Hs1]. }
  destruct (complete_new_btree (local_bulk c) (fst (l_u l)) (snd (l_u l))) as [y s] eqn:Hc. destruct (@ow_complete E _ _ _ _ _ Hc) as [l2 W2]. pose proof (writes_le EO (le_good L1) W2) as L2.
  intros H0; injection H0 as <- <-. split; [exists (l2 ++ l1); eapply writes_trans; eassumption|].
  intros F. destruct (Hs1 (fin47_le L2 F)) as [M1 M2].
  pose proof (@run_complete E EO (local_bulk c) kv_ok loc_redP okf allowed (local_bulk_ok c) _ _ _ (okst_good (le_good L1) (okf_le G1 Of1 W1)) M1 M2) as R.
  specialize (R _ _ Hc (fin47_fin F)). destruct y as [locs|e]; [|exact R]. destruct R as [R1 _]. apply toptree_rtree in R1. exact R1.
Qed.

(** What the copied indexes hold. *)
Theorem copy_stored r f1 q f2 : copy_docs c o src f = (r, f1) -> copy_locals c src f1 = (q, f2) ->
  (exists log, writes f log f2) /\
  (fin47 f2 -> forall scan ids seqs locs, r = Ok (scan, ids, seqs) -> q = Ok locs ->
     scan = Ok tt /\ forall h, h_update_seq h = h_update_seq (dbh src) -> h_by_id h = ids -> h_by_seq h = seqs -> h_local h = locs ->
       exists ps', stored f2 h (compacted pol v) ps').
Proof.
  intros H1 H2. destruct (docs_copy H1) as [[l1 W1] D]. pose proof (writes_le EO Gf W1) as L1.
  destruct (locals_copy (le_good L1) (okf_le Gf Of W1) H2) as [[l2 W2] L]. pose proof (writes_le EO (le_good L1) W2) as L2.
  split; [exists (l2 ++ l1); eapply writes_trans; eassumption|].
  intros F scan ids seqs locs -> ->. destruct (D (fin47_le L2 F)) as (-> & qs & [Q1 Q2 Q3 Q4 Q5]). specialize (L F).
  split; [reflexivity|]. intros h A1 A2 A3 A4.
  assert (Ha : Forall (fun p => about (fst p) (snd p)) qs) by (revert Q2; apply Forall_impl; intros p Hr; apply Hr).
  destruct (outs_ids Q1 Ha) as (N1 & N2 & N3 & N4). pose proof (le_keeps L2) as K.
  assert (S0 : stored f2 h (Contents (outs pol (ordered ps)) (v_locals v) (v_seq v)) qs).
  { constructor; cbn [v_docs v_locals v_seq]; auto.
    - revert Q2. apply Forall_impl. intros p. now apply rep_keeps.
    - rewrite A1. exact (sd_seq S).
    - exact (sd_bound S).
    - rewrite A2. eapply rtree_le; eassumption.
    - rewrite A3. eapply rtree_le; eassumption.
    - exact (sd_lids S).
    - rewrite A4. exact L. }
  assert (P : Permutation (map (remeta pol) (filter (po_keep pol) (v_docs v))) (map snd qs)).
  { rewrite Q1. unfold outs. apply Permutation_map, perm_filter. rewrite <- (sd_docs S). apply Permutation_map, ordered_perm. }
  apply Permutation_map_inv in P. destruct P as (ps' & P1 & P2). exists ps'.
  unfold compacted. rewrite P1. exact (stored_perm P2 S0).
Qed.
End Copy.
End WithEnv.
