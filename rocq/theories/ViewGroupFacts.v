(** Building and compacting view indexes. *)
From Coq Require Import Permutation Sorted.
From Verif Require Import Base Codec CodecFacts File FileFacts ChunkFacts Btree BtreeRead LookupFacts TreeStore SpecMap MergeFacts ModifyFacts SpecFile DataFacts SpecSession DbFacts SessionFacts SaveFacts ReadFacts DbRead
  Bitmap SpecUtil UtilFacts ViewCodec SpecView ViewFacts Reducers IndexHeader Cleanup ViewGroup SpecCleanup SortFacts PurgeFacts BulkFacts ModifyPurgeFacts CleanupFacts GroupFacts FileMerger SpecSorter PropertiesView SpecGroup.
Local Open Scope N_scope.
Unset Strict Implicit.

(** What the index by id and the views have in common. *)
Record kind_ok (cmp : bytes -> bytes -> comparison) (red : list kv -> res bytes) (rered : list bytes -> res bytes) (w : kv -> N) (record : kv -> Prop) (R : N)
    (pkv : bitmap -> bytes -> bytes -> res purge_action) (pkp : bitmap -> node_pointer -> res purge_action) (pw : event -> N) : Prop := {
  k_ord : ord cmp;
  k_R : R < 2^16;
  k_leaf : forall kvs r, red kvs = Ok r -> exact w kvs r /\ lenN r <= R;
  k_inner : forall kss rs r, Forall2 (exact w) kss rs -> rered rs = Ok r -> exact w (concat kss) r;
  k_inner_len : forall rs r, Forall (fun r => lenN r <= R) rs -> rered rs = Ok r -> lenN r <= R;
  k_rec : forall x, record x -> kv_ok x /\ part x < 1024;
  k_pkv : forall mask k v, record (k, v) -> pkv mask k v = view_purgekv_action mask (part (k, v));
  k_pkp : forall mask p c bm t, read_count_bitmap (np_reduce p) = Ok ((c, bm), t) -> pkp mask p = Ok (view_purgekp_action mask bm);
  k_pwkv : forall k v, record (k, v) -> pw (EvPurgeKv k v) = w (k, v);
  k_pwkp : forall p c bm t, read_count_bitmap (np_reduce p) = Ok ((c, bm), t) -> pw (EvPurgeKp p) = c;
  k_part : forall k v, record (k, v) -> decode_view_btree_partition v = Ok (part (k, v));
  k_lookup : forall kvs, Forall record kvs -> sorted cmp kvs -> sorted (lookup_compare cmp) kvs
}.
Lemma be_part p rest k : p < 1024 -> decode_view_btree_partition (be 2 p ++ rest) = Ok (part (k, be 2 p ++ rest)).
Proof.
  intros Hp. rewrite part_be by exact Hp. unfold decode_view_btree_partition, next_int, cur_bind, next.
  rewrite lenN_app. assert (Hl : lenN (be 2 p) = 2) by (unfold lenN; now rewrite be_length). rewrite Hl. destruct (N.leb_spec 2 (2 + lenN rest)); [|lia].
  rewrite take_app_exact by now rewrite Hl. cbn [cur_ret]. rewrite unbe_be_small; [reflexivity|]. change (256 ^ N.of_nat 2) with 65536. lia.
Qed.
Lemma id_kind : kind_ok ebin_cmp view_id_btree_reduce view_id_btree_rereduce (fun _ => 1) id_record 133 view_id_btree_purge_kv view_id_btree_purge_kp id_purged.
Proof.
  constructor.
  - exact ord_ebin.
  - reflexivity.
  - intros kvs r H. destruct (id_leaf H) as [H1 H2]. split; [exact H1|lia].
  - intros kss rs r. apply id_inner.
  - exact id_inner_len.
  - exact id_rec.
  - exact id_pkv.
  - intros mask0 p c bm t H. unfold view_id_btree_purge_kp, decode_view_id_btree_reduction. rewrite H. reflexivity.
  - reflexivity.
  - intros p c bm t H. cbn [id_purged]. unfold decode_view_id_btree_reduction. rewrite H. reflexivity.
  - intros k v (_ & _ & p & rest & Hp & Hv). cbn [snd] in Hv. subst v. now apply be_part.
  - intros kvs _. apply sorted_lookup_ebin.
Qed.
Lemma view_kind collate rs R : ord collate -> R < 2^16 -> bounded rs R ->
  kind_ok (view_key_cmp collate) (view_btree_reduce rs) (view_btree_rereduce rs) num_values view_record R view_btree_purge_kv view_btree_purge_kp view_purged.
Proof.
  intros OC HR [Hb1 Hb2]. constructor.
  - now apply view_key_ord.
  - exact HR.
  - intros kvs r H. split; [exact (proj1 (view_leaf H))|exact (Hb1 _ _ H)].
  - intros kss reds r. apply view_inner.
  - intros reds r _ H. exact (Hb2 _ _ H).
  - exact view_rec.
  - exact view_pkv.
  - intros mask0 p c bm t H. unfold view_btree_purge_kp, decode_view_btree_reduction_partitions_bitmap. rewrite H. reflexivity.
  - exact view_pw.
  - intros p c bm t H. cbn [view_purged]. unfold decode_view_btree_reduction_partitions_bitmap. rewrite H. reflexivity.
  - intros k v (_ & _ & y & Hp & _ & Hv). cbn [snd] in Hv. subst v. unfold encode_view_btree_value. now apply be_part.
  - intros kvs Hr. apply ss_impl. intros a b Ha Hb H. rewrite Forall_forall in Hr. destruct (Hr a Ha) as ((H1 & _) & _). destruct (Hr b Hb) as ((H2 & _) & _).
    destruct a as [[|x a] va]; [unfold lenN in H1; cbn in H1; lia|]. destruct b as [[|y b] vb]; [unfold lenN in H2; cbn in H2; lia|]. exact H.
Qed.

Lemma Forall_filter A (P : A -> Prop) p l : Forall P l -> Forall P (filter p l).
Proof. rewrite !Forall_forall. intros H x Hx. apply filter_In in Hx. apply H, Hx. Qed.
Section Kind.
Context {E : Env} (EO : EnvOk E).
Variable cmp : bytes -> bytes -> comparison.
Variable red : list kv -> res bytes.
Variable rered : list bytes -> res bytes.
Variable w : kv -> N.
Variable record : kv -> Prop.
Variable R : N.
Variable pkv : bitmap -> bytes -> bytes -> res purge_action.
Variable pkp : bitmap -> node_pointer -> res purge_action.
Variable pw : event -> N.
Hypothesis K : kind_ok cmp red rered w record R pkv pkp pw.
Notation rqm := (rqm cmp red rered pkv pkp).
Notation brq := (build_request cmp red rered).
Notation redR := (redR R).
Notation rtree mask := (rtree (rqm mask) record redR).

Lemma K_tree f root : made rqm record f root -> good f /\ (fin f -> exists kvs, rtree empty_bitmap f root kvs /\ sorted cmp kvs).
Proof. destruct K. eapply (@made_tree E EO); eassumption. Qed.
Lemma rtree_rec mask f root kvs : rtree mask f root kvs -> Forall record kvs.
Proof. destruct root as [p|]; [|intros ->; constructor]. intros (d & p' & Ht & _). exact (tree_kvP Ht). Qed.
Lemma rtree_idx mask f root kvs : good f -> rtree mask f root kvs -> exists z, index f root kvs z.
Proof.
  intros G T. destruct (@rtree_index E EO (rqm mask) record redR f root kvs (fun x H => proj1 (k_rec K H)) ltac:(unfold CleanupFacts.redR; intros; pose proof (k_R K); lia) G T) as (z & Hz & _). eauto.
Qed.

(** ** Building *)

Lemma build_one f root0 rows root' s' : made rqm record f root0 -> sorted cmp rows -> Forall record rows -> build_rows brq rows (St f [] false) = (Ok root', s') -> fits_file (st_f s') ->
  appends f (st_f s') /\ made rqm record (st_f s') root' /\ rtree empty_bitmap (st_f s') root' rows.
Proof.
  intros M Hs Hr Hb F. destruct (K_tree M) as [G _]. destruct (@ow_build E _ _ _ _ _ Hb) as [l W]. cbn [st_f] in W. split; [exact (writes_appends W)|].
  split; [exact (made_built M eq_refl eq_refl Hs Hr Hb)|].
  assert (RO : rq_ok brq record redR anyf anye).
  { assert (RQ : rq_ok (rqm empty_bitmap) record redR anyf anye) by (destruct K; eapply rqm_ok; eassumption). destruct RQ as [O1 O2 O3 O4 O5 O6 O7 O8 O9]. constructor; try assumption. now left. }
  pose proof (@run_bulk E EO brq record redR anyf anye RO rows (St f [] false) (conj G I) Hr _ _ Hb F) as [T' _]. apply toptree_rtree in T'. exact T'.
Qed.

(** ** Compaction *)

Lemma filter_ok fb k v : (forall mask, fb = Some mask -> bitmap_ok mask) -> record (k, v) ->
  match fb with Some bm => view_filter bm v | None => Ok false end = Ok (match fb with Some bm => in_mask bm (k, v) | None => false end).
Proof.
  intros Hb Hr. destruct fb as [bm|]; [|reflexivity]. unfold view_filter. rewrite (k_part K Hr). cbn [bind]. destruct (k_rec K Hr) as [_ Hp]. rewrite is_bit_set_eq by exact Hp.
  unfold in_mask. now rewrite (mask_bit (Hb bm eq_refl) Hp).
Qed.
Lemma scan_rows fb l : forall u m' s' n', (forall mask, fb = Some mask -> bitmap_ok mask) -> Forall record l ->
  run_calls (LReq cmp (compact_view_fetchcb brq fb) None false) (map found l) u = (Ok tt, (m', s', n')) -> snd u < 2^64 ->
  foldM (fun x m => push_item brq (fst x) (snd x) m) (kept_rows fb l) (fst (fst u)) (snd (fst u)) = (Ok m', s') /\ n' = (snd u + lenN (kept_rows fb l)) mod 2^64.
Proof.
  induction l as [|[k v] l IH]; intros [[m s] n] m' s' n' Hb Hr H Hn; cbn [fst snd] in *.
  - cbn [map run_calls] in H. injection H as <- <- <-. assert (Hk : kept_rows fb [] = []) by (destruct fb; reflexivity). rewrite Hk. cbn [foldM]. split; [reflexivity|].
    change (lenN (@nil kv)) with 0. rewrite N.add_0_r, N.mod_small by exact Hn. reflexivity.
  - inversion Hr as [|? ? H1 H2]; subst. cbn [map found run_calls l_fetch fst snd] in H. unfold compact_view_fetchcb in H at 1. rewrite (filter_ok Hb H1) in H.
    assert (Hk : kept_rows fb ((k, v) :: l) = (if match fb with Some bm => in_mask bm (k, v) | None => false end then [] else [(k, v)]) ++ kept_rows fb l).
    { unfold kept_rows. destruct fb as [bm|]; [|reflexivity]. unfold without. cbn [filter]. destruct (in_mask bm (k, v)); reflexivity. }
    rewrite Hk. destruct (match fb with Some bm => in_mask bm (k, v) | None => false end).
    + cbn [app]. exact (IH (m, s, n) m' s' n' Hb H2 H Hn).
    + cbn [app foldM fst snd]. unfold bindM. destruct (push_item brq k v m s) as [[m1|e] s1]; [|discriminate H].
      destruct (IH (m1, s1, (n + 1) mod 2^64) m' s' n' Hb H2 H ltac:(cbn [snd]; apply N.mod_lt; discriminate)) as [A B]. cbn [fst snd] in A, B. split; [exact A|].
      rewrite B. rewrite lenN_cons. rewrite N.add_mod_idemp_l by discriminate. f_equal. lia.
Qed.
Lemma none_made f : some_file f -> made rqm record f None.
Proof. intros (g & gsz & pl & m & k & Hg & A). exact (made_other (made_new rqm record pl m k Hg) A). Qed.
Lemma scan_writes fb l : forall u r u', run_calls (LReq cmp (compact_view_fetchcb brq fb) None false) l u = (r, u') -> exists log, TreeStore.writes (st_f (snd (fst u))) log (st_f (snd (fst u'))).
Proof.
  induction l as [|[k v] l IH]; intros u r u' H; cbn [run_calls l_fetch] in H; [injection H as <- <-; exists []; constructor|].
  assert (Hone : forall r1 u1, compact_view_fetchcb brq fb k v u = (r1, u1) -> exists log, TreeStore.writes (st_f (snd (fst u))) log (st_f (snd (fst u1)))).
  { intros r1 u1. unfold compact_view_fetchcb. destruct u as [[m s] n]. cbn [fst snd]. destruct v as [v|]; [|intros H0; injection H0 as <- <-; exists []; constructor].
    destruct (match fb with Some bm => view_filter bm v | None => Ok false end) as [[|]|e]; [intros H0; injection H0 as <- <-; exists []; constructor| |intros H0; injection H0 as <- <-; exists []; constructor].
    destruct (push_item brq k v m s) as [[m1|e] s1] eqn:Hp; intros H0; injection H0 as <- <-; cbn [fst snd]; exact (@ow_push E _ _ _ _ _ _ Hp). }
  destruct (compact_view_fetchcb brq fb k v u) as [[[]|e] u1] eqn:Hf; destruct (Hone _ _ eq_refl) as [l1 W1].
  - destruct (IH _ _ _ H) as [l2 W2]. exists (l2 ++ l1). eapply writes_trans; eassumption.
  - injection H as <- <-. eauto.
Qed.
Lemma compact_writes fb src root n f r f' : made rqm record src root -> fits_file src -> compact_btree brq fb src root n f = (r, f') -> appends f f'.
Proof.
  intros Ms Fs Hc. destruct (K_tree Ms) as [Gs Ts]. destruct (Ts Fs) as (kvs & T & So). pose proof (rtree_rec T) as Hr.
  unfold compact_btree in Hc. destruct root as [p|]; [|injection Hc as <- <-; constructor].
  set (lq := LReq (r_cmp brq) (compact_view_fetchcb brq fb) None false) in *.
  assert (OL : ord (lookup_compare (l_cmp lq))) by (apply ord_lookup; exact (k_ord K)).
  rewrite (@btree_lookup_range (mr * st * N) lq eq_refl eq_refl OL E EO (rqm empty_bitmap) record redR (fun x H => proj1 (k_rec K H)) ltac:(unfold CleanupFacts.redR; intros; pose proof (k_R K); lia)
     src p kvs [] [] _ Gs T (k_lookup K Hr So) (le_S _ _ (le_n 0))) in Hc.
  assert (Hfc : fc lq [] [] kvs = map found kvs).
  { unfold fc. f_equal. clear. induction kvs as [|[k v] l0 IH]; [reflexivity|]. cbn [filter]. unfold inrange at 1. cbn [fst].
    assert (Hk : ge (lookup_compare (l_cmp lq) k []) = true) by (destruct k; reflexivity). rewrite Hk. cbn [andb]. f_equal. exact IH. }
  rewrite Hfc in Hc. destruct (run_calls lq (map found kvs) (new_btree_modres, St f [] false, n)) as [x [[m s] n1]] eqn:Hrun. destruct (scan_writes Hrun) as [l1 W1]. cbn [fst snd st_f] in W1.
  destruct x as [[]|e]; [|injection Hc as <- <-; exact (writes_appends W1)].
  destruct (complete_new_btree brq m s) as [y s1] eqn:Hcomp. destruct (@ow_complete E _ _ _ _ _ Hcomp) as [l2 W2]. injection Hc as <- <-. exact (appends_trans (writes_appends W1) (writes_appends W2)).
Qed.
Lemma compact_one fb src root n f root' n' f' : made rqm record src root -> fits_file src -> some_file f -> (forall mask, fb = Some mask -> bitmap_ok mask) -> n < 2^64 ->
  compact_btree brq fb src root n f = (Ok (root', n'), f') -> fits_file f' ->
  appends f f' /\ made rqm record f' root' /\ exists kvs z z', index src root kvs z /\ sorted cmp kvs /\ Forall record kvs /\ index f' root' (kept_rows fb kvs) z' /\
    n' = (n + lenN (kept_rows fb kvs)) mod 2^64.
Proof.
  intros Ms Fs Sf Hb Hn Hc F. pose proof (none_made Sf) as Mf. destruct (K_tree Ms) as [Gs Ts]. destruct (Ts Fs) as (kvs & T & So). destruct (rtree_idx Gs T) as (z & Iz). pose proof (rtree_rec T) as Hr.
  unfold compact_btree in Hc. destruct root as [p|].
  2:{ injection Hc as <- <- <-. cbn in T. subst kvs. assert (Hk : kept_rows fb [] = []) by (destruct fb; reflexivity). split; [constructor|]. split; [exact Mf|].
      exists [], z, 0. rewrite Hk. split; [exact Iz|]. split; [constructor|]. split; [constructor|]. split; [split; reflexivity|]. change (lenN (@nil kv)) with 0. rewrite N.add_0_r, N.mod_small by exact Hn. reflexivity. }
  set (lq := LReq (r_cmp brq) (compact_view_fetchcb brq fb) None false) in *.
  assert (OL : ord (lookup_compare (l_cmp lq))) by (apply ord_lookup; exact (k_ord K)).
  rewrite (@btree_lookup_range (mr * st * N) lq eq_refl eq_refl OL E EO (rqm empty_bitmap) record redR (fun x H => proj1 (k_rec K H)) ltac:(unfold CleanupFacts.redR; intros; pose proof (k_R K); lia)
     src p kvs [] [] _ Gs T (k_lookup K Hr So) (le_S _ _ (le_n 0))) in Hc.
  assert (Hfc : fc lq [] [] kvs = map found kvs).
  { unfold fc. f_equal. clear. induction kvs as [|[k v] l0 IH]; [reflexivity|]. cbn [filter]. unfold inrange at 1. cbn [fst].
    assert (Hk : ge (lookup_compare (l_cmp lq) k []) = true) by (destruct k; reflexivity). rewrite Hk. cbn [andb]. f_equal. exact IH. }
  rewrite Hfc in Hc. destruct (run_calls lq (map found kvs) (new_btree_modres, St f [] false, n)) as [[[]|e] [[m s] n1]] eqn:Hrun; [|discriminate Hc].
  destruct (scan_rows Hb Hr Hrun Hn) as [Hfold ->]. cbn [fst snd] in Hfold.
  destruct (complete_new_btree brq m s) as [[r|e] s1] eqn:Hcomp; [|discriminate Hc]. cbn [bind] in Hc. injection Hc as <- <- <-.
  assert (Hbr : build_rows brq (kept_rows fb kvs) (St f [] false) = (Ok r, s1)) by (unfold build_rows, bindM; rewrite Hfold; exact Hcomp).
  assert (Hks : sorted cmp (kept_rows fb kvs)) by (unfold kept_rows; destruct fb; [apply filter_sorted|]; exact So).
  assert (Hkr : Forall record (kept_rows fb kvs)) by (unfold kept_rows, without; destruct fb; [apply Forall_filter|]; exact Hr).
  destruct (build_one Mf Hks Hkr Hbr F) as (A & M & T'). split; [exact A|]. split; [exact M|]. destruct (K_tree M) as [G' _]. destruct (rtree_idx G' T') as (z' & Iz'). exists kvs, z, z'. auto 10.
Qed.
End Kind.

(** ** The header *)
Section Group.
Context {E : Env} (EO : EnvOk E).
Lemma header_stored h mask id views b : (forall x y, compress x = Some y -> y <> []) -> header_fits h -> lenN mask = 128 -> (forall p, id = Some p -> np_pointer p < 2^48) ->
  Forall (fun r => forall p, r = Some p -> np_pointer p < 2^48) views -> length views = length (ih_view_states h) -> encode_index_header (with_roots h mask id views) = Ok b ->
  decode_index_header b = Ok (with_roots h mask (stored_root id) (map stored_root views)) /\ header_fits (with_roots h mask (stored_root id) (map stored_root views)).
Proof.
  intros HC Hfit Hm Hid Hv Hl Henc. set (h' := with_roots h mask (stored_root id) (map stored_root views)).
  assert (Henc' : encode_index_header h' = Ok b).
  { rewrite <- Henc. unfold encode_index_header, h'. cbn [with_roots ih_version ih_signature ih_num_partitions ih_active ih_passive ih_cleanup ih_seqs ih_id_state ih_view_states ih_has_replica ih_replicas ih_pend_active ih_pend_passive ih_pend_unindexable ih_unindexable ih_versions].
    rewrite enc_stored, enc_stored_all. unfold lenN. rewrite map_length. reflexivity. }
  destruct (enc_state id) as [x|] eqn:Hx; [|unfold encode_index_header in Henc; cbn [with_roots ih_id_state ih_view_states] in Henc; rewrite Hx in Henc; discriminate Henc].
  destruct (enc_states views) as [y|] eqn:Hy; [|unfold encode_index_header in Henc; cbn [with_roots ih_id_state ih_view_states] in Henc; rewrite Hx in Henc; cbn [bind] in Henc; rewrite Hy in Henc; discriminate Henc].
  assert (Hfit' : header_fits h') by (apply (with_stored_fits Hfit (x := x) (y := y)); auto).
  split; [|exact Hfit']. destruct (C43_roundtrip EO Hfit' HC) as [(b' & Hb1 & Hb2)|[Hb1 _]]; [|congruence]. assert (b' = b) by congruence. subst b'. exact Hb2.
Qed.
Lemma without_empty l : without empty_bitmap l = l.
Proof. unfold without. induction l as [|x l IH]; [reflexivity|]. cbn [filter]. unfold in_mask at 1. change (number empty_bitmap) with 0. rewrite N.bits_0. cbn [negb]. now rewrite IH. Qed.
Lemma kept_mask mask l : kept_rows (if is_equal_bitmap empty_bitmap mask then None else Some mask) l = without mask l.
Proof. destruct (is_equal_bitmap empty_bitmap mask) eqn:H; [|reflexivity]. apply is_equal_eq in H. subst mask. now rewrite without_empty. Qed.

Definition view_made collate rs f root := made (view_cleanup_request collate rs) view_record f root.
Lemma view_has_keep collate rs f root l f' : ord collate -> view_made collate rs f root -> appends f f' -> fits_file f' -> holds f root l -> holds f' root l.
Proof.
  intros OC M A F [z Hz]. destruct (max_bounded [rs]) as (Rs & HR & _). inversion HR as [|? R ? ? [HR1 HB] _]; subst. destruct (view_keep EO OC HR1 HB M A F) as (l0 & y0 & y1 & L1 & L2 & _).
  destruct (index_det Hz L1) as [-> _]. exists y1. exact L2.
Qed.
Lemma id_has_keep f root l f' : made id_cleanup_request id_record f root -> appends f f' -> fits_file f' -> holds f root l -> holds f' root l.
Proof. intros M A F [z Hz]. destruct (id_keep EO M A F) as (l0 & y0 & y1 & L1 & L2 & _). destruct (index_det Hz L1) as [-> _]. exists y1. exact L2. Qed.
Lemma some_appends f f' : some_file f -> appends f f' -> some_file f'.
Proof. intros (g & gsz & pl & m & k & Hg & A) A'. exists g, gsz, pl, m, k. split; [exact Hg|exact (appends_trans A A')]. Qed.
Lemma some_good f : some_file f -> good f.
Proof. intros (g & gsz & pl & m & k & Hg & A). exact (proj1 (appends_good EO A (@opened_on_good g gsz pl m k Hg))). Qed.

Lemma views_compact_appends collate fb src : ord collate -> fits_file src -> forall reds roots n f r f', Forall2 (fun rs root => view_made collate rs src root) reds roots ->
  compact_views collate fb src (combine reds roots) n f = (r, f') -> appends f f'.
Proof.
  intros OC Fs. induction reds as [|rs reds IH]; intros roots n f r f' HM Hc; inversion HM as [|? root ? roots1 M1 M2]; subst; cbn [combine compact_views] in Hc; [injection Hc as <- <-; constructor|].
  destruct (max_bounded [rs]) as (Rs & HR & _). inversion HR as [|? R ? ? [HR1 HB] _]; subst.
  destruct (compact_btree (view_build_request collate rs) fb src root n f) as [x f1] eqn:H1. pose proof (@compact_writes E EO _ _ _ _ _ _ _ _ _ (view_kind OC HR1 HB) fb src root n f x f1 M1 Fs H1) as A1.
  destruct x as [[root' n1]|e]; [|injection Hc as <- <-; exact A1].
  destruct (compact_views collate fb src (combine reds roots1) n1 f1) as [[[roots n2]|e] f2] eqn:H2; injection Hc as <- <-; exact (appends_trans A1 (IH _ _ _ _ _ M2 H2)).
Qed.
Lemma views_compact collate fb src : ord collate -> (forall mask, fb = Some mask -> bitmap_ok mask) -> fits_file src -> forall reds roots n f roots' n' f',
  Forall2 (fun rs root => view_made collate rs src root) reds roots -> some_file f -> n < 2^64 -> compact_views collate fb src (combine reds roots) n f = (Ok (roots', n'), f') -> fits_file f' ->
  appends f f' /\ Forall2 (fun rs root => view_made collate rs f' root) reds roots' /\ length roots' = length roots /\
  exists kss, Forall2 (holds src) roots kss /\ Forall2 (fun root kvs => holds f' root (kept_rows fb kvs)) roots' kss /\ n' = (n + sum_of (fun kvs => lenN (kept_rows fb kvs)) kss) mod 2^64.
Proof.
  intros OC Hb Fs. induction reds as [|rs reds IH]; intros roots n f roots' n' f' HM Sf Hn Hc F.
  - inversion HM; subst. cbn [combine compact_views] in Hc. injection Hc as <- <- <-. split; [constructor|]. split; [constructor|]. split; [reflexivity|]. exists []. split; [constructor|]. split; [constructor|].
    cbn [sum_of fold_right]. rewrite N.add_0_r, N.mod_small by exact Hn. reflexivity.
  - inversion HM as [|? root ? roots1 M1 M2]; subst. cbn [combine compact_views] in Hc.
    destruct (compact_btree (view_build_request collate rs) fb src root n f) as [[[root' n1]|e] f1] eqn:H1; [|discriminate Hc].
    destruct (compact_views collate fb src (combine reds roots1) n1 f1) as [[[roots2 n2]|e] f2] eqn:H2; [|discriminate Hc]. injection Hc as <- <- <-.
    destruct (max_bounded [rs]) as (Rs & HR & _). inversion HR as [|? R ? ? [HR1 HB] _]; subst.
    pose proof (some_good Sf) as G. pose proof (@compact_writes E EO _ _ _ _ _ _ _ _ _ (view_kind OC HR1 HB) _ _ _ _ _ _ _ M1 Fs H1) as A1. pose proof (proj1 (appends_good EO A1 G)) as G1. pose proof (views_compact_appends OC Fs M2 H2) as A2. pose proof (fits_back EO G1 A2 F) as F1.
    destruct (@compact_one E EO _ _ _ _ _ _ _ _ _ (view_kind OC HR1 HB) fb src root n f root' n1 f1 M1 Fs Sf Hb Hn H1 F1) as (_ & M' & kvs & z & z' & I1 & _ & _ & I2 & ->).
    destruct (IH roots1 _ f1 roots2 n2 f2 M2 (some_appends Sf A1) ltac:(apply N.mod_lt; discriminate) H2 F) as (_ & HM2 & HL & kss & K1 & K2 & ->).
    split; [exact (appends_trans A1 A2)|]. split; [constructor; [exact (made_other M' A2)|exact HM2]|]. split; [cbn [length]; now rewrite HL|].
    exists (kvs :: kss). split; [constructor; [exists z; exact I1|exact K1]|]. split.
    + constructor; [|exact K2]. apply (view_has_keep OC M' A2 F). exists z'. exact I2.
    + rewrite sum_of_cons. rewrite N.add_mod_idemp_l by discriminate. f_equal. lia.
Qed.
Theorem group_compact collate reds h src f n h' n' f' : ord collate -> group_made collate reds h src -> fits_file src -> some_file f -> n < 2^64 ->
  compact_header collate reds h src f n = (Ok (h', n'), f') -> fits_file f' ->
  appends f f' /\ h' = with_roots h empty_bitmap (ih_id_state h') (ih_view_states h') /\ length (ih_view_states h') = length (ih_view_states h) /\ group_made collate reds h' f' /\
  exists ids kss, holds src (ih_id_state h) ids /\ holds f' (ih_id_state h') (without (ih_cleanup h) ids) /\
    Forall2 (holds src) (ih_view_states h) kss /\ Forall2 (fun root kvs => holds f' root (without (ih_cleanup h) kvs)) (ih_view_states h') kss /\
    n' = (n + lenN (without (ih_cleanup h) ids) + sum_of (fun kvs => lenN (without (ih_cleanup h) kvs)) kss) mod 2^64.
Proof.
  intros OC (Hmask & M0 & MV) Fs Sf Hn Hc F. unfold compact_header in Hc. destruct (negb (lenN reds =? lenN (ih_view_states h))); [discriminate Hc|]. set (mask := ih_cleanup h) in *.
  pose proof (kept_mask mask) as HK. set (fb := if is_equal_bitmap empty_bitmap mask then None else Some mask) in *.
  assert (Hb : forall m, fb = Some m -> bitmap_ok m) by (unfold fb; intros m Hm; destruct (is_equal_bitmap empty_bitmap mask); [discriminate Hm|injection Hm as <-; exact Hmask]).
  destruct (compact_btree id_build_request fb src (ih_id_state h) n f) as [[[id_root n1]|e] f1] eqn:H1; [|discriminate Hc].
  destruct (compact_views collate fb src (combine reds (ih_view_states h)) n1 f1) as [[[roots n2]|e] f2] eqn:H2; [|discriminate Hc]. injection Hc as <- <- <-.
  pose proof (some_good Sf) as G. pose proof (@compact_writes E EO _ _ _ _ _ _ _ _ _ id_kind _ _ _ _ _ _ _ M0 Fs H1) as A1. pose proof (proj1 (appends_good EO A1 G)) as G1. pose proof (views_compact_appends OC Fs MV H2) as A2. pose proof (fits_back EO G1 A2 F) as F1.
  destruct (@compact_one E EO _ _ _ _ _ _ _ _ _ id_kind fb src (ih_id_state h) n f id_root n1 f1 M0 Fs Sf Hb Hn H1 F1) as (_ & M' & ids & z & z' & I1 & _ & _ & I2 & ->).
  destruct (views_compact OC Hb Fs MV (some_appends Sf A1) ltac:(apply N.mod_lt; discriminate) H2 F) as (_ & HM2 & HL & kss & K1 & K2 & ->).
  cbn [with_roots ih_cleanup ih_id_state ih_view_states]. split; [exact (appends_trans A1 A2)|]. split; [reflexivity|]. split; [exact HL|].
  split; [split; [exact empty_ok|split; [exact (made_other M' A2)|exact HM2]]|].
  exists ids, kss. split; [exists z; exact I1|]. split; [rewrite <- HK; apply (id_has_keep M' A2 F); exists z'; exact I2|]. split; [exact K1|]. split.
  - revert K2. apply Forall2_impl. intros r k. now rewrite HK.
  - rewrite N.add_mod_idemp_l by discriminate. f_equal. rewrite HK. f_equal. clear - HK. induction kss as [|k kss IH]; [reflexivity|]. rewrite !sum_of_cons, IH, HK. reflexivity.
Qed.

(** A header with new roots is written and decoded again. *)
Lemma group_pointers collate reds h f : ord collate -> group_made collate reds h f -> fits_file f ->
  (forall p, ih_id_state h = Some p -> np_pointer p < 2^48) /\ Forall (fun r => forall p, r = Some p -> np_pointer p < 2^48) (ih_view_states h).
Proof.
  intros OC (_ & M0 & MV) F. split.
  - destruct (id_keep EO M0 (app_refl f) F) as (_ & _ & _ & _ & _ & H & _). exact H.
  - induction MV as [|rs r reds roots M MV IH]; constructor; [|exact IH]. destruct (max_bounded [rs]) as (Rs & HR & _). inversion HR as [|? R ? ? [HR1 HB] _]; subst.
    destruct (view_keep EO OC HR1 HB M (app_refl f) F) as (_ & _ & _ & _ & _ & H & _). exact H.
Qed.
Lemma header_again collate reds h h1 f b : (forall x y, compress x = Some y -> y <> []) -> ord collate -> header_fits h -> group_made collate reds h1 f -> fits_file f ->
  h1 = with_roots h (ih_cleanup h1) (ih_id_state h1) (ih_view_states h1) -> length (ih_view_states h1) = length (ih_view_states h) -> encode_index_header h1 = Ok b ->
  exists h', decode_index_header b = Ok h' /\ header_fits h' /\ group_made collate reds h' f /\ ih_cleanup h' = ih_cleanup h1 /\ h' = with_roots h (ih_cleanup h') (ih_id_state h') (ih_view_states h') /\
    ih_id_state h' = stored_root (ih_id_state h1) /\ ih_view_states h' = map stored_root (ih_view_states h1).
Proof.
  intros HC OC Hfit Hm F Hh Hl Henc. destruct (group_pointers OC Hm F) as [P0 PV]. destruct Hm as (Hbm & M0 & MV). rewrite Hh in Henc.
  destruct (header_stored HC Hfit ltac:(destruct Hbm as [Hb _]; unfold lenN; rewrite Hb; reflexivity) P0 PV Hl Henc) as [Hd Hf'].
  eexists. split; [exact Hd|]. split; [exact Hf'|]. split.
  { split; [exact Hbm|]. split; [apply made_stored; exact M0|]. cbn [with_roots ih_view_states]. clear - MV. induction MV; cbn [map]; constructor; [|assumption]. apply made_stored. assumption. }
  split; [reflexivity|]. split; [reflexivity|]. split; reflexivity.
Qed.
Lemma holds_stored f r l : holds f r l -> holds f (stored_root r) l.
Proof. intros [z H]. exists z. now apply index_stored. Qed.
Lemma holds_stored_all f roots A (g : A -> list kv) kss : Forall2 (fun r k => holds f r (g k)) roots kss -> Forall2 (fun r k => holds f r (g k)) (map stored_root roots) kss.
Proof. induction 1; cbn [map]; constructor; auto. now apply holds_stored. Qed.

Theorem file_compact collate reds hb h src f n hb' n' f' : (forall x y, compress x = Some y -> y <> []) -> ord collate -> decode_index_header hb = Ok h -> header_fits h ->
  group_made collate reds h src -> fits_file src -> some_file f -> n < 2^64 -> compact_view_group collate reds hb src f n = (Ok (hb', n'), f') -> fits_file f' ->
  exists h', decode_index_header hb' = Ok h' /\ header_fits h' /\ group_made collate reds h' f' /\ appends f f' /\ h' = with_roots h empty_bitmap (ih_id_state h') (ih_view_states h') /\
  exists ids kss, holds src (ih_id_state h) ids /\ holds f' (ih_id_state h') (without (ih_cleanup h) ids) /\
    Forall2 (holds src) (ih_view_states h) kss /\ Forall2 (fun root kvs => holds f' root (without (ih_cleanup h) kvs)) (ih_view_states h') kss /\
    n' = (n + lenN (without (ih_cleanup h) ids) + sum_of (fun kvs => lenN (without (ih_cleanup h) kvs)) kss) mod 2^64.
Proof.
  intros HC OC Hd Hfit Hm Fs Sf Hn Hc F. unfold compact_view_group in Hc. rewrite Hd in Hc. assert (A0 : appends f (set_fpos f (size f))) by (apply app_end; constructor).
  destruct (compact_header collate reds h src (set_fpos f (size f)) n) as [[[h1 n1]|e] f1] eqn:Hch; [|discriminate Hc]. destruct (encode_index_header h1) as [b|e] eqn:Henc; [|discriminate Hc].
  cbn [bind] in Hc. injection Hc as <- <- <-. destruct (group_compact OC Hm Fs (some_appends Sf A0) Hn Hch F) as (A1 & Hh1 & Hl & Hm1 & ids & kss & I1 & I2 & K1 & K2 & Hn').
  assert (Hcl : ih_cleanup h1 = empty_bitmap) by now rewrite Hh1. rewrite <- Hcl in Hh1.
  destruct (header_again HC OC Hfit Hm1 F Hh1 Hl Henc) as (h' & D' & Hf' & Hm' & Hc' & Hh' & Hi' & Hv').
  exists h'. split; [exact D'|]. split; [exact Hf'|]. split; [exact Hm'|]. split; [exact (appends_trans A0 A1)|]. split; [congruence|].
  exists ids, kss. split; [exact I1|]. split; [rewrite Hi'; now apply holds_stored|]. split; [exact K1|]. split; [rewrite Hv'; now apply holds_stored_all|exact Hn'].
Qed.

(** ** Building *)
Lemma build_appends rq sorted f r f' : build_btree rq sorted f = (r, f') -> appends f f'.
Proof.
  intros H. unfold build_btree in H. destruct sorted as [l|e]; [|injection H as <- <-; constructor].
  destruct (build_rows rq (map (fun x => (v_key x, v_val x)) l) (St f [] false)) as [r1 s] eqn:Hb. injection H as <- <-. destruct (@ow_build E _ _ _ _ _ Hb) as [log W]. exact (writes_appends W).
Qed.
Lemma views_build_appends collate l : forall f r f', build_views collate l f = (r, f') -> appends f f'.
Proof.
  induction l as [|[rs recs] l IH]; intros f r f' H; cbn [build_views] in H; [injection H as <- <-; constructor|].
  destruct (build_btree (view_build_request collate rs) recs f) as [[root|e] f1] eqn:H1; pose proof (build_appends H1) as A1; [|injection H as <- <-; exact A1].
  destruct (build_views collate l f1) as [[roots|e] f2] eqn:H2; injection H as <- <-; exact (appends_trans A1 (IH _ _ _ H2)).
Qed.
Lemma rows_sorted cmp l : strictly cmp l -> sorted cmp (rows_of l).
Proof. unfold strictly, sorted, rows_of. induction 1 as [|x l H IH HF]; cbn [map]; constructor; [exact IH|]. rewrite Forall_map. exact HF. Qed.
Lemma id_build l f root f' : strictly ebin_cmp l -> Forall id_record (rows_of l) -> some_file f -> build_btree id_build_request (Good l) f = (Ok root, f') -> fits_file f' ->
  made id_cleanup_request id_record f' root /\ holds f' root (rows_of l).
Proof.
  intros Hs Hr Sf Hb F. unfold build_btree in Hb. fold (rows_of l) in Hb. destruct (build_rows id_build_request (rows_of l) (St f [] false)) as [r s] eqn:H. injection Hb as -> <-.
  destruct (@build_one E EO _ _ _ _ _ _ _ _ _ id_kind f None (rows_of l) root s (@none_made E _ _ _ _ _ _ f Sf) (rows_sorted Hs) Hr H F) as (_ & M & T). split; [exact M|].
  destruct (@K_tree E EO _ _ _ _ _ _ _ _ _ id_kind _ _ M) as [G _]. exact (@rtree_idx E EO _ _ _ _ _ _ _ _ _ id_kind _ _ _ _ G T).
Qed.
Lemma view_build collate rs l f root f' : ord collate -> strictly (view_key_cmp collate) l -> Forall view_record (rows_of l) -> some_file f ->
  build_btree (view_build_request collate rs) (Good l) f = (Ok root, f') -> fits_file f' -> view_made collate rs f' root /\ holds f' root (rows_of l).
Proof.
  intros OC Hs Hr Sf Hb F. unfold build_btree in Hb. fold (rows_of l) in Hb. destruct (build_rows (view_build_request collate rs) (rows_of l) (St f [] false)) as [r s] eqn:H. injection Hb as -> <-.
  destruct (max_bounded [rs]) as (Rs & HR & _). inversion HR as [|? R ? ? [HR1 HB] _]; subst. pose proof (view_kind OC HR1 HB) as KK.
  destruct (@build_one E EO _ _ _ _ _ _ _ _ _ KK f None (rows_of l) root s (@none_made E _ _ _ _ _ _ f Sf) (rows_sorted Hs) Hr H F) as (_ & M & T). split; [exact M|].
  destruct (@K_tree E EO _ _ _ _ _ _ _ _ _ KK _ _ M) as [G _]. exact (@rtree_idx E EO _ _ _ _ _ _ _ _ _ KK _ _ _ _ G T).
Qed.
Lemma views_build collate : ord collate -> forall reds recs f roots f', length recs = length reds -> Forall (strictly (view_key_cmp collate)) recs -> Forall (fun l => Forall view_record (rows_of l)) recs ->
  some_file f -> build_views collate (combine reds (map (fun l => Good l) recs)) f = (Ok roots, f') -> fits_file f' ->
  Forall2 (fun rs root => view_made collate rs f' root) reds roots /\ Forall2 (fun root l => holds f' root (rows_of l)) roots recs.
Proof.
  intros OC. induction reds as [|rs reds IH]; intros [|l recs] f roots f' Hl Hs Hr Sf Hb F; try discriminate Hl; cbn [map combine build_views] in Hb.
  - injection Hb as <- <-. split; constructor.
  - inversion Hs as [|? ? S1 S2]; inversion Hr as [|? ? R1 R2]; subst. destruct (build_btree (view_build_request collate rs) (Good l) f) as [[root|e] f1] eqn:H1; [|discriminate Hb].
    destruct (build_views collate (combine reds (map (fun l => Good l) recs)) f1) as [[roots1|e] f2] eqn:H2; [|discriminate Hb]. injection Hb as <- <-.
    pose proof (some_good Sf) as G. pose proof (build_appends H1) as A1. pose proof (proj1 (appends_good EO A1 G)) as G1. pose proof (views_build_appends H2) as A2. pose proof (fits_back EO G1 A2 F) as F1.
    destruct (view_build OC S1 R1 Sf H1 F1) as [M Ho]. destruct (IH recs f1 roots1 f2 ltac:(injection Hl as Hl; exact Hl) S2 R2 (some_appends Sf A1) H2 F) as [MV HV].
    split; constructor; [exact (made_other M A2)|exact MV|exact (view_has_keep OC M A2 F Ho)|exact HV].
Qed.
Theorem file_build collate reds info pos h ids kvs f p f' : (forall x y, compress x = Some y -> y <> []) -> ord collate -> read_view_group_header info pos = Ok h -> header_fits h -> bitmap_ok (ih_cleanup h) ->
  strictly ebin_cmp ids -> Forall id_record (rows_of ids) -> length kvs = length reds -> Forall (strictly (view_key_cmp collate)) kvs -> Forall (fun l => Forall view_record (rows_of l)) kvs -> some_file f ->
  build_view_group collate reds info pos (Good ids) (map (fun l => Good l) kvs) f = (Ok p, f') -> fits_file f' -> fpos f' - p <= MAX_VIEW_HEADER ->
  exists h', read_view_group_header f' p = Ok h' /\ header_fits h' /\ group_made collate reds h' f' /\ h' = with_roots h (ih_cleanup h) (ih_id_state h') (ih_view_states h') /\
    holds f' (ih_id_state h') (rows_of ids) /\ Forall2 (fun root l => holds f' root (rows_of l)) (ih_view_states h') kvs.
Proof.
  intros HC OC Hread Hfit Hbm Hs Hr Hl Hvs Hvr Sf Hb F Hsz. unfold build_view_group in Hb. rewrite Hread in Hb. destruct (lenN reds =? lenN (ih_view_states h)) eqn:Hn; cbn [negb] in Hb; [|discriminate Hb].
  apply N.eqb_eq in Hn. unfold lenN in Hn. apply Nnat.Nat2N.inj in Hn.
  destruct (build_btree id_build_request (Good ids) f) as [[id_root|e] f1] eqn:H1; [|discriminate Hb].
  destruct (build_views collate (combine reds (map (fun l => Good l) kvs)) f1) as [[roots|e] f2] eqn:H2; [|discriminate Hb].
  set (h1 := with_roots h (ih_cleanup h) id_root roots) in *. pose proof Hb as Hw. unfold write_view_group_header in Hw. destruct (encode_index_header h1) as [b|e] eqn:Henc; [|discriminate Hw].
  pose proof (some_good Sf) as G. pose proof (build_appends H1) as A1. pose proof (proj1 (appends_good EO A1 G)) as G1. pose proof (views_build_appends H2) as A2. pose proof (proj1 (appends_good EO A2 G1)) as G2.
  assert (A3 : appends f2 f') by (eapply app_header; [constructor|exact Hw]). pose proof (fits_back EO G2 A3 F) as F2. pose proof (fits_back EO G1 A2 F2) as F1.
  destruct (id_build Hs Hr Sf H1 F1) as [M0 H0]. destruct (views_build OC Hl Hvs Hvr (some_appends Sf A1) H2 F2) as [MV HV].
  assert (Hm1 : group_made collate reds h1 f2) by (split; [exact Hbm|split; [exact (made_other M0 A2)|exact MV]]).
  destruct (header_again HC OC Hfit Hm1 F2 eq_refl ltac:(cbn [h1 with_roots ih_view_states]; rewrite <- (F2_length MV); exact Hn) Henc) as (h' & D' & Hf' & Hm' & Hc' & Hh' & Hi' & Hv').
  cbn [h1 with_roots ih_cleanup ih_id_state ih_view_states] in Hc', Hi', Hv'.
  assert (Henc' : write_view_group_header f2 h' = (Ok p, f')).
  { unfold write_view_group_header. assert (Hq : encode_index_header h' = Ok b) by (destruct (C43_roundtrip EO Hf' HC) as [(b' & Hb1 & Hb2)|[Hb1 _]]; [|];
      rewrite <- Henc; rewrite Hh', Hc', Hi', Hv'; unfold encode_index_header, h1; cbn [with_roots ih_version ih_signature ih_num_partitions ih_active ih_passive ih_cleanup ih_seqs ih_id_state ih_view_states ih_has_replica ih_replicas ih_pend_active ih_pend_passive ih_pend_unindexable ih_unindexable ih_versions];
      rewrite enc_stored, enc_stored_all; unfold lenN; rewrite map_length; reflexivity). rewrite Hq. exact Hw. }
  exists h'. split; [exact (write_then_read EO HC Hf' G2 Henc' Hsz)|]. split; [exact Hf'|].
  assert (HGm : group_made collate reds h' f').
  { destruct Hm' as (B' & M' & MV'). split; [exact B'|]. split; [exact (made_other M' A3)|]. revert MV'. apply Forall2_impl. intros rs root M. exact (made_other M A3). }
  split; [exact HGm|]. split; [now rewrite Hc' in Hh'|].
  assert (Keep : forall rs root l, view_made collate rs f2 root -> holds f2 root l -> holds f' (stored_root root) l) by (intros rs root l M Ho; apply holds_stored; exact (view_has_keep OC M A3 F Ho)).
  split; [rewrite Hi'; apply holds_stored; apply (id_has_keep (made_other M0 A2) A3 F); exact (id_has_keep M0 A2 F2 H0)|].
  rewrite Hv'. clear - MV HV Keep. revert kvs HV. induction MV as [|rs root reds roots M MV IH]; intros kvs HV; inversion HV as [|? l ? kvs' Ho HV']; subst; cbn [map]; constructor; [exact (Keep _ _ _ M Ho)|exact (IH _ HV')].
Qed.
End Group.

(** Records with different keys that are in order are strictly in order. *)
Lemma strict_order cmp l out : distinct_keys cmp l -> Permutation out l -> in_key_order cmp out -> strictly cmp out.
Proof.
  intros [Hn Hd] P So. assert (Hno : NoDup out) by (eapply Permutation_NoDup; [apply Permutation_sym; exact P|exact Hn]).
  assert (Hdo : forall x y, In x out -> In y out -> cmp (v_key x) (v_key y) = Eq -> x = y) by (intros x y Hx Hy; apply Hd; eapply Permutation_in; eassumption).
  clear - So Hno Hdo. unfold in_key_order, strictly in *. induction So as [|x out S IH F]; constructor.
  - inversion Hno; subst. apply IH; [assumption|]. intros a b Ha Hb. apply Hdo; now right.
  - inversion Hno as [|? ? N1 N2]; subst. rewrite Forall_forall in *. intros y Hy. specialize (F y Hy). destruct (cmp (v_key x) (v_key y)) eqn:Hc; [|reflexivity|contradiction].
    exfalso. apply N1. rewrite (Hdo x y (or_introl eq_refl) (or_intror Hy) Hc). exact Hy.
Qed.
