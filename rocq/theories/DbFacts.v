(** What saving does to the stored contents. *)
From Verif Require Import Base Codec CodecFacts File FileFacts ChunkFacts Header Btree TreeStore SpecMap MergeFacts ModifyFacts BtreeRead LookupFacts Db SortFacts ReduceFacts SpecDb.
Local Open Scope N_scope.

(** ** Updating a list by key *)

Lemma same_true a b : same a b = true <-> a = b.
Proof. unfold same. destruct (list_eq_dec N.eq_dec a b); split; congruence. Qed.
Lemma same_false a b : same a b = false <-> a <> b.
Proof. unfold same. destruct (list_eq_dec N.eq_dec a b); split; congruence. Qed.

Section Put.
Variable A : Type.
Variable key : A -> bytes.
Definition gput (x : A) (l : list A) : list A := x :: filter (fun y => negb (same (key y) (key x))) l.
Definition gputs (ns l : list A) : list A := fold_left (fun d x => gput x d) ns l.

Lemma gput_in x y l : In y (gput x l) <-> y = x \/ (In y l /\ key y <> key x).
Proof.
  unfold gput. cbn [In]. rewrite filter_In, negb_true_iff, same_false. split; intros [H|H]; auto.
Qed.
Lemma gputs_in ns : NoDup (map key ns) -> forall l y, In y (gputs ns l) <-> In y ns \/ (In y l /\ forall x, In x ns -> key x <> key y).
Proof.
  induction ns as [|x ns IH]; intros Hn l y; cbn [gputs fold_left].
  - split; [intros H; right; split; [exact H|intros ? []]|intros [[]|[H _]]; exact H].
  - cbn [map] in Hn. inversion Hn as [|? ? H1 H2]; subst. fold (gputs ns (gput x l)). rewrite (IH H2), gput_in. cbn [In]. split.
    + intros [H|[[->|[H H']] H'']]; [auto|auto|]. right. split; [exact H|]. intros z [<-|Hz]; [congruence|auto].
    + intros [[<-|H]|[H H']]; [|auto|].
      * right. split; [now left|]. intros z Hz He. apply H1. rewrite <- He. now apply in_map.
      * right. split; [right; split; [exact H|intros He; apply (H' x); [now left|congruence]]|auto].
Qed.
Lemma nodup_filter (p : A -> bool) l : NoDup (map key l) -> NoDup (map key (filter p l)).
Proof.
  induction l as [|x l IH]; cbn [map filter]; intros H; [constructor|]. inversion H as [|? ? H1 H2]; subst. destruct (p x); [|auto].
  cbn [map]. constructor; [|auto]. intros Hi. apply H1. apply in_map_iff in Hi. destruct Hi as (y & <- & Hy). apply filter_In in Hy. apply in_map. tauto.
Qed.
Lemma gput_nodup x l : NoDup (map key l) -> NoDup (map key (gput x l)).
Proof.
  intros H. cbn [gput map]. constructor; [|now apply nodup_filter]. intros Hi. apply in_map_iff in Hi. destruct Hi as (y & He & Hy).
  apply filter_In in Hy. destruct Hy as [_ Hy]. rewrite negb_true_iff, same_false in Hy. congruence.
Qed.
Lemma gputs_nodup ns : forall l, NoDup (map key l) -> NoDup (map key (gputs ns l)).
Proof. induction ns as [|x ns IH]; intros l H; [exact H|]. cbn [gputs fold_left]. apply IH. now apply gput_nodup. Qed.
End Put.

Lemma gputs_map A B (g : A -> B) (ka : A -> bytes) (kb : B -> bytes) ns : (forall x, In x ns -> ka x = kb (g x)) ->
  forall l, (forall x, In x l -> ka x = kb (g x)) -> map g (gputs ka ns l) = gputs kb (map g ns) (map g l).
Proof.
  induction ns as [|x ns IH]; intros Hn l Hl; [reflexivity|]. cbn [map].
  change (gputs ka (x :: ns) l) with (gputs ka ns (gput ka x l)).
  change (gputs kb (g x :: map g ns) (map g l)) with (gputs kb (map g ns) (gput kb (g x) (map g l))).
  assert (Hg : map g (gput ka x l) = gput kb (g x) (map g l)).
  { unfold gput. cbn [map]. rewrite <- (Hn x (or_introl eq_refl)). apply f_equal. clear - Hl.
    induction l as [|y l IH]; [reflexivity|]. cbn [filter map]. rewrite <- (Hl y (or_introl eq_refl)).
    rewrite <- IH by (intros; apply Hl; now right). now destruct (negb (same (ka y) (ka x))). }
  rewrite IH, Hg; [reflexivity| |].
  - intros; apply Hn; now right.
  - intros y Hy. apply gput_in in Hy. destruct Hy as [->|[Hy _]]; [apply Hn; now left|auto].
Qed.

Lemma nodup_map_inj A B (g : A -> B) l : NoDup l -> (forall x y, In x l -> In y l -> g x = g y -> x = y) -> NoDup (map g l).
Proof.
  intros H Hi. induction H as [|x l H1 H2 IH]; cbn [map]; constructor.
  - intros Hx. apply in_map_iff in Hx. destruct Hx as (y & He & Hy). apply H1. rewrite <- (Hi y x); [exact Hy|now right|now left|exact He].
  - apply IH. intros; apply Hi; auto; now right.
Qed.
Lemma nodup_map_eq A B (g : A -> B) l x y : NoDup (map g l) -> In x l -> In y l -> g x = g y -> x = y.
Proof.
  induction l as [|z l IH]; cbn [map]; intros Hn Hx Hy He; [destruct Hx|]. inversion Hn as [|? ? H1 H2]; subst.
  destruct Hx as [<-|Hx], Hy as [<-|Hy]; auto.
  - exfalso. apply H1. rewrite He. now apply in_map.
  - exfalso. apply H1. rewrite <- He. now apply in_map.
Qed.
Lemma nodup_of_map A B (g : A -> B) l : NoDup (map g l) -> NoDup l.
Proof. apply NoDup_map_inv. Qed.
Lemma perm_nodup_map A B (g : A -> B) l l' : Permutation l l' -> NoDup (map g l) -> NoDup (map g l').
Proof. intros H. apply Permutation_NoDup. now apply Permutation_map. Qed.

(** ** Orders of documents *)

Definition by_id (l : list doc_info) : list doc_info := isort (fun a b => gtc (ebin_cmp (di_id a) (di_id b))) l.
Definition by_seq (l : list doc_info) : list doc_info :=
  isort (fun a b => gtc (seq_cmp (be 6 (di_db_seq a)) (be 6 (di_db_seq b)))) l.
Definition by_key (l : list kv) : list kv := isort (fun a b => gtc (ebin_cmp (fst a) (fst b))) l.

Lemma in_by_id l x : In x (by_id l) <-> In x l. Proof. apply isort_in. Qed.
Lemma in_by_seq l x : In x (by_seq l) <-> In x l. Proof. apply isort_in. Qed.
Lemma in_by_key l x : In x (by_key l) <-> In x l. Proof. apply isort_in. Qed.

Lemma seq_cmp_be a b : a < 2^48 -> b < 2^48 -> seq_cmp (be 6 a) (be 6 b) = (a ?= b).
Proof.
  intros Ha Hb. unfold seq_cmp. assert (Ht : forall x, take 6 (be 6 x) = be 6 x) by (intros x; unfold take; rewrite firstn_all2; [reflexivity|now rewrite be_length]).
  rewrite !Ht, !unbe_be_small by assumption. reflexivity.
Qed.
Lemma isort_ss A (key : A -> bytes) cmp l : ord cmp -> (forall a b, In a l -> In b l -> cmp (key a) (key b) = Eq -> key a = key b) -> NoDup (map key l) ->
  StronglySorted (fun a b => cmp (key a) (key b) = Lt) (isort (fun a b => gtc (cmp (key a) (key b))) l).
Proof.
  intros O He Hn. apply ss_strict; [exact O| | |].
  - apply isort_sorted; intros a b; [apply gtc_total; exact O|]. intros c. apply gtc_trans. exact O.
  - intros a b Ha Hb. apply He; eapply isort_in; eassumption.
  - eapply perm_nodup_map; [apply isort_perm|exact Hn].
Qed.
Lemma by_id_sorted l : NoDup (map di_id l) -> sorted ebin_cmp (map id_entry (by_id l)).
Proof.
  intros H. unfold sorted. rewrite <- ss_map. apply (@isort_ss _ di_id ebin_cmp); [apply ord_ebin| |exact H]. intros a b _ _ Hc. now apply ebin_eq.
Qed.
Lemma seq_key_eq a b : di_db_seq a < 2^48 -> di_db_seq b < 2^48 -> seq_cmp (be 6 (di_db_seq a)) (be 6 (di_db_seq b)) = Eq -> di_db_seq a = di_db_seq b.
Proof. intros Ha Hb. rewrite seq_cmp_be by assumption. apply N.compare_eq. Qed.
Lemma dok_seq d : dok d -> di_db_seq d < 2^48.
Proof. intros [(_ & H & _) _]. exact H. Qed.
Lemma by_seq_sorted l : Forall dok l -> NoDup (map di_db_seq l) -> sorted seq_cmp (map seq_entry (by_seq l)).
Proof.
  intros Hd H. unfold sorted. rewrite <- ss_map. rewrite Forall_forall in Hd. apply (@isort_ss _ (fun d => be 6 (di_db_seq d)) seq_cmp); [apply ord_seq| |].
  - intros a b Ha Hb Hc. f_equal. apply seq_key_eq; auto using dok_seq.
  - apply nodup_map_inj; [eapply nodup_of_map; exact H|]. intros x y Hx Hy He. eapply nodup_map_eq; [exact H|exact Hx|exact Hy|].
    eapply be_inj; [| |exact He]; [exact (dok_seq (Hd x Hx))|exact (dok_seq (Hd y Hy))].
Qed.
Lemma by_key_sorted l : NoDup (map fst l) -> sorted ebin_cmp (by_key l).
Proof. intros H. apply (@isort_ss _ fst ebin_cmp); [apply ord_ebin| |exact H]. intros a b _ _ Hc. now apply ebin_eq. Qed.

(** ** Readers do not fail on entries *)

Lemma by_id_read_any k v : 23 <= lenN v -> exists d, by_id_read_docinfo k v = Ok d.
Proof.
  intros H. unfold by_id_read_docinfo. destruct (N.ltb_spec (lenN v) 23); [lia|].
  repeat match goal with |- context [rd_be ?n ?o v] => let x := fresh "x" in let Hx := fresh in destruct (@rd_be_ok n o v) as [x Hx]; [lia|rewrite Hx; cbn [bind]] end.
  rewrite getb_ok by lia. cbn [bind]. eauto.
Qed.
Lemma id_retotals_any rs : Forall id_redP rs -> forall acc, exists t, id_retotals rs acc = Ok t.
Proof.
  induction 1 as [|r rs Hr _ IH]; intros acc; cbn [id_retotals]; [eauto|]. unfold id_redP in Hr. rewrite Hr. change (16 <? 16) with false. cbv iota.
  repeat match goal with |- context [rd_be ?n ?o r] => let x := fresh "x" in let Hx := fresh in destruct (@rd_be_ok n o r) as [x Hx]; [lia|rewrite Hx; cbn [bind]] end.
  destruct acc as [[a b] c]. apply IH.
Qed.
Lemma seq_total_any rs : Forall seq_redP rs -> forall acc, exists t, seq_total rs acc = Ok t.
Proof.
  induction 1 as [|r rs Hr _ IH]; intros acc; cbn [seq_total]; [eauto|]. unfold seq_redP in Hr. rewrite Hr. change (5 <? 5) with false. cbv iota.
  destruct (@rd_be_ok 5 0 r) as [x Hx]; [lia|rewrite Hx; cbn [bind]]. apply IH.
Qed.

Section WithEnv.
Context {E : Env} (EO : EnvOk E).

Definition cfg0 : cfg := Cfg 0 0.
Definition id_tree (f : file) (r : option node_pointer) (l : list kv) : Prop := rtree (id_request cfg0 false) idP id_redP f r l.
Definition seq_tree (f : file) (r : option node_pointer) (l : list kv) : Prop := rtree (seq_request cfg0) seqP seq_redP f r l.
Definition loc_tree (f : file) (r : option node_pointer) (l : list kv) : Prop := rtree (local_request cfg0) kv_ok loc_redP f r l.

Lemma id_tree_any c cb f r l : id_tree f r l <-> rtree (id_request c cb) idP id_redP f r l.
Proof. split; intros H; exact H. Qed.
Lemma seq_tree_any c f r l : seq_tree f r l <-> rtree (seq_request c) seqP seq_redP f r l.
Proof. split; intros H; exact H. Qed.
Lemma loc_tree_any c f r l : loc_tree f r l <-> rtree (local_request c) kv_ok loc_redP f r l.
Proof. split; intros H; exact H. Qed.

(** ** Errors *)

Record okerr (okf : file -> Prop) (allowed : err -> Prop) : Prop := {
  oe_okf : forall f b r f', okf f -> good f -> db_write_buf f b = (r, f') -> okf f';
  oe_node : forall f b e f', okf f -> good f -> db_write_buf_compressed f b = (Err e, f') -> fin f' -> allowed e;
  oe_body : forall f b e f', okf f -> good f -> lenN b + mac_size + 8 < 2^28 -> db_write_buf f b = (Err e, f') -> fin f' -> allowed e
}.

Section Ok.
Variable okf : file -> Prop.
Variable allowed : err -> Prop.
Hypothesis OE : okerr okf allowed.
Variable c : cfg.
Hypothesis Hc : 2 <= c_kv c.

Lemma id_rq cb : rq_ok (id_request c cb) idP id_redP okf allowed.
Proof.
  constructor.
  - right. exact Hc.
  - apply idP_ok.
  - intros r Hr. rewrite Hr. reflexivity.
  - intros kvs _ H. destruct (idP_docs H) as (ds & -> & Hds). unfold leaf_red. cbn [id_request r_reduce]. unfold by_id_reduce.
    rewrite id_totals_ok by exact Hds. cbn [bind]. apply lenN_id_reduce.
  - intros rs _ H. unfold inner_red. cbn [id_request r_rereduce]. unfold by_id_rereduce. destruct (id_retotals_any H (0, 0, 0)) as [[[a b] d] ->].
    cbn [bind]. apply lenN_id_reduce.
  - intros g k v e [= <-] Hv He. unfold idfetch in He. destruct v as [b|]; [|discriminate]. destruct (Hv b eq_refl) as (k' & d & Hd & Hx).
    apply (f_equal snd) in Hx. cbn [snd id_entry] in Hx. subst b. rewrite lenN_id_value in He. destruct (N.ltb_spec (23 + lenN (di_rev_meta d)) 23); [lia|discriminate].
  - intros g k k' v e Hg (d & Hd & Hx) He. cbn [id_request r_save] in Hg. destruct cb; [|discriminate]. injection Hg as <-.
    apply (f_equal snd) in Hx. cbn [snd id_entry] in Hx. subst v. destruct (@by_id_read_any k (assemble_id_index_value d)) as [y Hy]; [rewrite lenN_id_value; lia|].
    rewrite Hy in He. discriminate.
  - apply (oe_okf OE).
  - apply (oe_node OE).
Qed.
Lemma seq_rq : rq_ok (seq_request c) seqP seq_redP okf allowed.
Proof.
  constructor.
  - right. exact Hc.
  - apply seqP_ok.
  - intros r Hr. rewrite Hr. reflexivity.
  - intros kvs _ _. unfold leaf_red. cbn [seq_request r_reduce]. unfold by_seq_reduce. unfold seq_redP. now rewrite lenN_be.
  - intros rs _ H. unfold inner_red. cbn [seq_request r_rereduce]. unfold by_seq_rereduce. destruct (seq_total_any H 0) as [t ->].
    cbn [bind]. unfold seq_redP. now rewrite lenN_be.
  - intros g k v e [=].
  - intros g k k' v e [=].
  - apply (oe_okf OE).
  - apply (oe_node OE).
Qed.
Lemma loc_rq : rq_ok (local_request c) kv_ok loc_redP okf allowed.
Proof.
  constructor.
  - right. exact Hc.
  - auto.
  - intros r Hr. rewrite Hr. reflexivity.
  - intros kvs _ _. reflexivity.
  - intros rs _ H. reflexivity.
  - intros g k v e [=].
  - intros g k k' v e [=].
  - apply (oe_okf OE).
  - apply (oe_node OE).
Qed.
End Ok.

(** ** Stored contents *)

(** The document information [i] in the indexes stands for the revision [r]. *)
Definition rep (f : file) (i : doc_info) (r : revision) : Prop :=
  about i r /\
  match rv_body r with
  | None => di_bp i = 0 /\ di_physical_size i = 0
  | Some b => di_bp i <> 0 /\ exists z, has f (di_bp i) z /\ stored_as b z /\ di_physical_size i = csize f (lenN z)
  end.

Notation pair := (doc_info * revision)%type.
Definition pid (p : pair) : bytes := di_id (fst p).

Record stored (f : file) (h : header) (v : contents) (ps : list pair) : Prop := {
  sd_docs : map snd ps = v_docs v;
  sd_rep : Forall (fun p => rep f (fst p) (snd p)) ps;
  sd_ok : Forall dok (map fst ps);
  sd_ids : NoDup (map pid ps);
  sd_seqs : NoDup (map di_db_seq (map fst ps));
  sd_max : forall p, In p ps -> di_db_seq (fst p) <= v_seq v;
  sd_seq : h_update_seq h = v_seq v;
  sd_bound : v_seq v < 2^48;
  sd_id : id_tree f (h_by_id h) (map id_entry (by_id (map fst ps)));
  sd_sq : seq_tree f (h_by_seq h) (map seq_entry (by_seq (map fst ps)));
  sd_lids : NoDup (map fst (v_locals v));
  sd_loc : loc_tree f (h_local h) (by_key (v_locals v))
}.

(** Later files. *)
Definition keeps (f f' : file) : Prop := (forall q z, has f q z -> has f' q z) /\ fkey f' = fkey f.
Lemma le_keeps f f' : le f f' -> keeps f f'.
Proof. intros L. split; [intros q z; exact (has_le q z L)|]. destruct L as (X & _). exact (ex_fkey X). Qed.
Lemma csize_keeps f f' n : fkey f' = fkey f -> csize f' n = csize f n.
Proof. unfold csize. now intros ->. Qed.
Lemma rep_keeps f f' i r : keeps f f' -> rep f i r -> rep f' i r.
Proof.
  intros [K1 K2] [H1 H2]. split; [exact H1|]. destruct (rv_body r) as [b|]; [|exact H2]. destruct H2 as (H2 & z & H3 & H4 & H5).
  split; [exact H2|]. exists z. split; [auto|]. split; [exact H4|]. now rewrite (@csize_keeps f f' _ K2).
Qed.
Lemma tree_keeps rq kvP redP f f' d : keeps f f' -> forall p l, tree rq kvP redP f d p l -> tree rq kvP redP f' d p l.
Proof.
  intros [K1 K2]. assert (Hz : forall q b sz, hasz f q b sz -> hasz f' q b sz).
  { intros q b sz (z & H1 & H2 & H3). exists z. split; [auto|]. split; [exact H2|]. now rewrite (@csize_keeps f f' _ K2). }
  induction d as [|d IH]; intros p l (H1 & H2 & H3 & H); (split; [exact H1|]; split; [exact H2|]; split; [exact H3|]).
  - destruct H as (A1 & A2 & A3 & A4 & sz & A5 & A6). repeat (split; [assumption|]). exists sz. split; [apply Hz, A5|exact A6].
  - destruct H as (cs & ks & sz & A1 & A2 & A3 & A4 & A5 & A6 & A7 & A8). exists cs, ks, sz. split; [exact A1|].
    split; [eapply Forall2_impl; [|exact A2]; exact IH|]. split; [exact A3|]. split; [exact A4|]. split; [exact A5|]. split; [apply Hz, A6|]. split; [exact A7|exact A8].
Qed.
Lemma rtree_keeps rq kvP redP f f' r l : keeps f f' -> rtree rq kvP redP f r l -> rtree rq kvP redP f' r l.
Proof. intros K. destruct r as [p|]; cbn; [|auto]. intros (d & p' & H & H'). exists d, p'. split; [eapply tree_keeps; eassumption|exact H']. Qed.
Lemma stored_keeps f f' h v ps : keeps f f' -> stored f h v ps -> stored f' h v ps.
Proof.
  intros K [H1 H2 H3 H4 H5 H6 H7 H8 H9 H10 H11 H12]. constructor; auto.
  - eapply Forall_impl; [|exact H2]. intros p. now apply rep_keeps.
  - eapply rtree_keeps; eassumption.
  - eapply rtree_keeps; eassumption.
  - eapply rtree_keeps; eassumption.
Qed.
Lemma stored_new f h : h_by_id h = None -> h_by_seq h = None -> h_local h = None -> h_update_seq h = 0 -> stored f h no_contents [].
Proof.
  intros H1 H2 H3 H4. constructor; cbn; auto; try constructor; try (intros ? []); try (rewrite ?H1, ?H2, ?H3); reflexivity.
Qed.

(** ** Writing the bodies *)

Section Save.
Variable okf : file -> Prop.
Variable allowed : err -> Prop.
Hypothesis OE : okerr okf allowed.

Definition fin47 (f : file) : Prop := big f = false /\ fpos f < 2^47.
Lemma fin47_fin f : fin47 f -> fin f.
Proof. intros [H1 H2]. split; [exact H1|]. change (2^48) with 281474976710656. change (2^47) with 140737488355328 in H2. lia. Qed.
Lemma fin47_le f f' : le f f' -> fin47 f' -> fin47 f.
Proof. intros (X & H & _) [B F]. split; [exact (ex_big X B)|lia]. Qed.
Lemma okf_writes' f l f' : good f -> okf f -> writes f l f' -> okf f'.
Proof.
  intros G O H. induction H as [f|f l f1 b r f2 H IH Hw]; [exact O|]. eapply (oe_okf OE); [now apply IH| |exact Hw].
  exact (le_good (writes_le EO G H)).
Qed.

Lemma write_body f b r f' : good f -> okf f -> 1 <= fpos f -> db_write_buf f b = (r, f') -> fin47 f' ->
  (exists log, writes f log f') /\ le f f' /\ okf f' /\
  match r with
  | Ok (p, sz) => p <> 0 /\ p < 2^47 /\ has f' p b /\ sz = csize f' (lenN b)
  | Err e => lenN b + mac_size + 8 < 2^28 -> allowed e
  end.
Proof.
  intros G O H1 Hw F. destruct (db_write_buf_spec EO _ G Hw) as [L S]. split.
  { destruct r as [[p sz]|e]; eexists; (eapply wr_step; [constructor|exact Hw]). }
  split; [exact L|]. split; [eapply (oe_okf OE); eassumption|]. destruct r as [[p sz]|e].
  - destruct (S p sz eq_refl) as (A1 & A2 & A3 & A4 & _). destruct F as [F1 F2]. split; [lia|]. split; [lia|]. split; [now apply A3|].
    rewrite A4. unfold csize. destruct L as (X & _). now rewrite (ex_fkey X).
  - intros Hb. eapply (oe_body OE); try eassumption. now apply fin47_fin.
Qed.

Definition info_of (o : saveopts) (x : submit) (seq : N) : doc_info := if so_as_is o then sb_info x else with_seq (sb_info x) seq.

Lemma add_doc_ok o f x seq r f' : good f -> okf f -> 1 <= fpos f -> add_doc o f (sb_body x) (info_of o x seq) = (r, f') -> fin47 f' ->
  fits o x -> seq < 2^48 -> (so_as_is o = true -> seq = di_db_seq (sb_info x)) ->
  (exists log, writes f log f') /\ le f f' /\ okf f' /\
  match r with
  | Ok i => rep f' i (new_rev o x seq) /\ dok i
  | Err e => allowed e
  end.
Proof.
  intros G O H1 Ha F (F1 & F2 & F3 & F4 & F5 & F6) Hs Hg.
  assert (Hi : di_id (info_of o x seq) = di_id (sb_info x) /\ di_db_seq (info_of o x seq) = seq /\ di_rev_seq (info_of o x seq) = di_rev_seq (sb_info x) /\
    di_rev_meta (info_of o x seq) = di_rev_meta (sb_info x) /\ di_deleted (info_of o x seq) = di_deleted (sb_info x) /\ di_content_meta (info_of o x seq) = di_content_meta (sb_info x)).
  { unfold info_of. destruct (so_as_is o); [|cbn; auto 10]. rewrite <- Hg by reflexivity. auto 10. }
  destruct Hi as (I1 & I2 & I3 & I4 & I5 & I6).
  unfold add_doc in Ha. destruct (sb_body x) as [b|] eqn:Hb.
  - assert (Hz : exists z r0, match r0 with Ok (pos, sz) => r = Ok (with_body (info_of o x seq) (di_deleted (info_of o x seq)) pos sz) | Err e => r = Err e end /\
        stored_as (if so_compress o && flagged (sb_info x) then Packed b else Raw b) z /\ db_write_buf f z = (r0, f')
      \/ (r = Err E_CORRUPT /\ f' = f /\ so_compress o && flagged (sb_info x) = true /\ compress b = None /\ z = [] /\ r0 = Err E_CORRUPT)).
    { assert (Hfl : flagged (info_of o x seq) = flagged (sb_info x)) by (unfold flagged; now rewrite I6). rewrite Hfl in Ha.
      destruct (so_compress o && flagged (sb_info x)) eqn:Hcf.
      - unfold db_write_buf_compressed in Ha. destruct (compress b) as [z|] eqn:Hcb.
        + exists z. destruct (db_write_buf f z) as [[[p sz]|e] f1] eqn:Hw; exists (fst (db_write_buf f z)); left; rewrite Hw; cbn [fst]; injection Ha as <- <-; auto.
        + exists [], (Err E_CORRUPT). right. injection Ha as <- <-. auto 10.
      - exists b. destruct (db_write_buf f b) as [[[p sz]|e] f1] eqn:Hw; exists (fst (db_write_buf f b)); left; rewrite Hw; cbn [fst]; injection Ha as <- <-; repeat split; auto. }
    destruct Hz as (z & r0 & [(Hr & Hst & Hw)|(-> & -> & Hcf & Hcb & -> & ->)]).
    + destruct (@write_body f z r0 f' G O H1 Hw F) as (W1 & W2 & W3 & W4). split; [exact W1|]. split; [exact W2|]. split; [exact W3|].
      cbn [new_rev rv_body] in F6. rewrite Hb in F6. specialize (F6 z Hst).
      destruct r0 as [[p sz]|e]; rewrite Hr; [|now apply W4].
      destruct W4 as (P1 & P2 & P3 & P4). split.
      * split; [constructor; cbn [new_rev rv_id rv_seq rv_rev_seq rv_rev_meta rv_deleted rv_content_meta with_body di_id di_db_seq di_rev_seq di_rev_meta di_deleted di_content_meta];
          rewrite ?Hb; assumption|].
        cbn [new_rev rv_body]. rewrite Hb. cbn [with_body di_bp di_physical_size]. split; [exact P1|]. exists z. auto.
      * unfold dok, docinfo_ok. cbn [with_body di_id di_db_seq di_rev_seq di_rev_meta di_content_meta di_bp di_physical_size]. rewrite I1, I2, I3, I4, I6.
        split; [|exact F3]. repeat (split; [assumption|]). rewrite P4. unfold csize. destruct (fkey f'); lia.
    + split; [exists []; constructor|]. split; [now apply le_refl|]. split; [exact O|].
      eapply (oe_node OE) with (f := f) (b := b) (f' := f); [exact O|exact G| |now apply fin47_fin]. unfold db_write_buf_compressed. now rewrite Hcb.
  - injection Ha as <- <-. split; [exists []; constructor|]. split; [now apply le_refl|]. split; [exact O|]. split.
    + split; [constructor; cbn [new_rev rv_id rv_seq rv_rev_seq rv_rev_meta rv_deleted rv_content_meta with_body di_id di_db_seq di_rev_seq di_rev_meta di_deleted di_content_meta];
        rewrite ?Hb; auto|]. cbn [new_rev rv_body]. rewrite Hb. auto.
    + unfold dok, docinfo_ok. cbn [with_body di_id di_db_seq di_rev_seq di_rev_meta di_content_meta di_bp di_physical_size]. rewrite I1, I2, I3, I4, I6.
      split; [|exact F3]. repeat (split; [assumption|]). split; reflexivity.
Qed.

Lemma last_seq_cons o seq x l : last_seq o seq (x :: l) = last_seq o (if so_as_is o then N.max seq (di_db_seq (sb_info x)) else seq + 1) l.
Proof. unfold last_seq. destruct (so_as_is o); [reflexivity|]. rewrite lenN_cons. lia. Qed.
Lemma last_seq_ge o l : forall seq, seq <= last_seq o seq l.
Proof.
  induction l as [|x l IH]; intros seq; [unfold last_seq; cbn; destruct (so_as_is o); [|change (lenN []) with 0]; lia|]. rewrite last_seq_cons.
  eapply N.le_trans; [|apply IH]. destruct (so_as_is o); lia.
Qed.
Lemma new_revs_cons o seq x l : new_revs o seq (x :: l) =
  new_rev o x (if so_as_is o then di_db_seq (sb_info x) else seq + 1) :: new_revs o (if so_as_is o then N.max seq (di_db_seq (sb_info x)) else seq + 1) l.
Proof.
  cbn [new_revs]. destruct (so_as_is o) eqn:Ho; [|reflexivity]. f_equal. generalize (N.max seq (di_db_seq (sb_info x))). clear x. revert seq.
  induction l as [|y l IH]; intros a b; [reflexivity|]. cbn [new_revs]. rewrite Ho. f_equal. apply IH.
Qed.

(** The caller's infos after the save. *)
Lemma add_docs_ok o l : forall seq f r f' infos, good f -> okf f -> 1 <= fpos f -> add_docs o seq f l = (r, f', infos) -> fin47 f' ->
  Forall (fits o) l -> last_seq o seq l < 2^48 ->
  (exists log, writes f log f') /\ le f f' /\ okf f' /\
  match r with
  | Ok (ds, s) => Forall2 (fun x r => rep f' (fst x) r) ds (new_revs o seq l) /\ Forall dok (map fst ds) /\ map snd ds = map sb_req l /\ s = last_seq o seq l /\
      length infos = length l
  | Err e => allowed e
  end.
Proof.
  induction l as [|x l IH]; intros seq f r f' infos G O H1 Ha F Hf Hl.
  - cbn [add_docs] in Ha. injection Ha as <- <- <-. split; [exists []; constructor|]. split; [now apply le_refl|]. split; [exact O|].
    repeat split; try constructor. unfold last_seq. cbn. destruct (so_as_is o); [reflexivity|]. change (lenN []) with 0. lia.
  - cbn [add_docs] in Ha. inversion Hf as [|? ? Hx Hf']; subst. rewrite last_seq_cons in Hl. rewrite new_revs_cons, last_seq_cons.
    set (seq' := if so_as_is o then N.max seq (di_db_seq (sb_info x)) else seq + 1) in *.
    assert (Hsm : (if so_as_is o then N.max seq (di_db_seq (sb_info x)) else (seq + 1) mod 2^64) = seq').
    { unfold seq' in *. destruct (so_as_is o); [reflexivity|]. apply N.mod_small. pose proof (last_seq_ge o l (seq + 1)).
      eapply N.le_lt_trans; [|eapply N.lt_trans; [exact Hl|reflexivity]]. lia. }
    rewrite Hsm in Ha. fold (info_of o x seq') in Ha.
    assert (Hinfo : info_of o x seq' = info_of o x (if so_as_is o then di_db_seq (sb_info x) else seq + 1)).
    { unfold info_of, seq'. destruct (so_as_is o); reflexivity. }
    rewrite Hinfo in Ha. set (sq := if so_as_is o then di_db_seq (sb_info x) else seq + 1) in *.
    assert (Hsq : sq <= seq') by (unfold sq, seq'; destruct (so_as_is o); lia). pose proof (last_seq_ge o l seq').
    destruct (add_doc o f (sb_body x) (info_of o x sq)) as [[d|e] f1] eqn:Hd.
    + destruct (add_docs o seq' f1 l) as [[r1 f2] infos1] eqn:Hr.
      assert (Hf2 : f2 = f') by congruence. subst f2.
      assert (L1 : le f f1 /\ good f1 /\ okf f1 /\ 1 <= fpos f1).
      { assert (Hw : exists log, writes f log f1).
        { clear - Hd. unfold add_doc in Hd. destruct (sb_body x) as [b|]; [|injection Hd as <- <-; exists []; constructor].
          destruct (so_compress o && flagged (info_of o x sq)); unfold db_write_buf_compressed in Hd.
          - destruct (compress b) as [z|]; [|discriminate]. destruct (db_write_buf f z) as [[[p sz]|e] f2] eqn:Hw; [|discriminate]. injection Hd as _ <-.
            eexists. eapply wr_step; [constructor|exact Hw].
          - destruct (db_write_buf f b) as [[[p sz]|e] f2] eqn:Hw; [|discriminate]. injection Hd as _ <-. eexists. eapply wr_step; [constructor|exact Hw]. }
        destruct Hw as [log Hw]. pose proof (writes_le EO G Hw) as L. split; [exact L|]. split; [exact (le_good L)|]. split; [eapply okf_writes'; eassumption|].
        destruct L as (_ & L & _). lia. }
      destruct L1 as (L1 & G1 & O1 & P1).
      destruct (IH seq' f1 r1 f' infos1 G1 O1 P1 Hr F Hf' Hl) as ((log2 & W2) & L2 & O2 & R2).
      assert (F1 : fin47 f1) by (exact (fin47_le L2 F)).
      destruct (@add_doc_ok o f x sq (Ok d) f1 G O H1 Hd F1 Hx) as ((log1 & W1) & _ & _ & Rd & Dd).
      { lia. } { unfold sq. intros ->. reflexivity. }
      split; [exists (log2 ++ log1); eapply writes_trans; eassumption|]. split; [eapply le_trans; eassumption|]. split; [exact O2|].
      destruct r1 as [[ds s]|e]; injection Ha as <- <-.
      * destruct R2 as (R2 & R3 & R4 & R5 & R6). split; [|split; [|split; [|split]]].
        -- constructor; [|exact R2]. cbn [fst]. eapply rep_keeps; [apply le_keeps; exact L2|exact Rd].
        -- cbn [map fst]. constructor; assumption.
        -- cbn [map snd]. now rewrite R4.
        -- exact R5.
        -- cbn [length]. now rewrite R6.
      * exact R2.
    + injection Ha as <- <- <-. destruct (@add_doc_ok o f x sq (Err e) f1 G O H1 Hd F Hx) as (W1 & L1 & O1 & R1).
      { lia. } { unfold sq. intros ->. reflexivity. }
      auto.
Qed.
End Save.
End WithEnv.
