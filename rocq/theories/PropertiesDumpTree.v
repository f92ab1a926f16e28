(** Property C77: what couch_dbdump --tree draws. *)
From Coq Require Import Sorting.Sorted.
From Verif Require Import Base SpecOrder Codec CodecFacts File FileFacts ChunkFacts Header HeaderFacts History CrashFacts DataFacts SpecCrash NavFacts ReachNav OpenFacts CommitFacts SpecFile PropertiesCrash PropertiesNav
  Btree BtreeRead TreeStore SpecMap MergeFacts ModifyFacts LookupFacts Db SpecDb SortFacts ReduceFacts DbFacts DbSave DbRead TreeWriter Compact SpecCompact CompactFacts
  SpecSession ShowFacts SessionFacts ReadFacts SaveFacts EnvExample SessionExample PropertiesDb Walk SpecWalk WalkFacts PropertiesWalk SpecRecover PropertiesRecover PropertiesTolerate PropertiesTolerateWalk Dbinfo DbdumpFacts DbdumpTree DbdumpTreeFacts.
Local Open Scope N_scope.
Unset Strict Implicit.

(** ** The drawing of an index *)

(** The document has a body or is deleted. *)
Definition known (i : doc_info) : bool := negb (di_bp i =? 0) || di_deleted i.
Definition doc_line (loc : bool) (depth : N) (i : doc_info) : tline := if known i || loc then TDoc depth i else TCorrupt depth i.
Section Drawing.
Variable A : Type.
Variable loc : bool.
Variable info : A -> doc_info.
Variable sum : list A -> bytes.
(** The lines below a node of depth [depth]: every document and every child one level deeper, each child before everything below it, with the bytes and the total of everything below it. *)
Fixpoint drawing (depth : N) (t : shape A) : list tline :=
  match t with
  | Leaf _ ds => map (fun a => doc_line loc (depth + 1) (info a)) ds
  | Inner _ cs => flat_map (fun c => TNode (depth + 1) (space c mod 2^48) (sum (docs c)) :: drawing (depth + 1) c) cs
  end.
End Drawing.

(** The result [x] is a success with the drawing of the index of the contents [v], and with the number of the documents that are known. The index has a shape, without empty nodes and with all leaves equally
    deep, that is found in the file below its root. It holds all documents in order. *)
Definition draws {E : Env} (m : tree_mode) (d : db) (v : contents) (x : res unit * tstate) : Prop :=
  match m with
  | TreeId => match h_by_id (dbh d) with
      | None => v_docs v = [] /\ x = (Ok tt, ([], 0))
      | Some p => exists t k lk n rs, drawn (fun x i => by_id_read_docinfo (fst x) (snd x) = Ok i) (dbf d) (np_pointer p) lk t /\ even k t /\ n mod 2^48 = space t mod 2^48 /\
          (forall r, In r rs <-> In r (v_docs v)) /\ StronglySorted id_before rs /\ Forall2 (shown d) (docs t) rs /\
          x = (Ok tt, (TNode 0 n (id_total (docs t)) :: drawing false (fun i => i) id_total 0 t, lenN (filter known (docs t))))
      end
  | TreeSeq => match h_by_seq (dbh d) with
      | None => v_docs v = [] /\ x = (Ok tt, ([], 0))
      | Some p => exists t k lk n rs, drawn (fun x i => by_seq_read_docinfo (fst x) (snd x) = Ok i) (dbf d) (np_pointer p) lk t /\ even k t /\ n mod 2^48 = space t mod 2^48 /\
          (forall r, In r rs <-> In r (v_docs v)) /\ StronglySorted seq_before rs /\ Forall2 (shown d) (docs t) rs /\
          x = (Ok tt, (TNode 0 n (seq_total (docs t)) :: drawing false (fun i => i) seq_total 0 t, lenN (filter known (docs t))))
      end
  | TreeLocal => match h_local (dbh d) with
      | None => v_locals v = [] /\ x = (Ok tt, ([], 0))
      | Some p => exists t k lk n, drawn (fun x y => x = y) (dbf d) (np_pointer p) lk t /\ even k t /\ n mod 2^48 = space t mod 2^48 /\
          (forall l, In l (docs t) <-> In l (v_locals v)) /\ StronglySorted (fun a b => lex (fst a) (fst b)) (docs t) /\
          x = (Ok tt, (TNode 0 n [] :: drawing true local_info (fun _ => []) 0 t, lenN (docs t)))
      end
  end.

(** ** Facts *)

Definition line (loc : bool) (w : N * item) : tline := match snd w with INode n r => TNode (fst w) n r | IDoc i => doc_line loc (fst w) i end.
Definition counts (loc : bool) (w : N * item) : bool := match snd w with INode _ _ => false | IDoc i => known i || loc end.
Lemma visit_eq loc w u : visit_node loc (fst w) (snd w) u = (Ok tt, (fst u ++ [line loc w], snd u + lenN (filter (counts loc) [w]))).
Proof.
  unfold visit_node, line, counts, doc_line, known. cbn [filter]. destruct w as [dep [n r|i]]; cbn [fst snd].
  - change (lenN (@nil (N * item))) with 0. now rewrite N.add_0_r.
  - assert (Hk : (0 <? di_bp i) || ((di_bp i =? 0) && di_deleted i) || loc = negb (di_bp i =? 0) || di_deleted i || loc).
    { destruct (N.eqb_spec (di_bp i) 0) as [->|Hb]; [reflexivity|]. rewrite (proj2 (N.ltb_lt 0 (di_bp i))) by lia. reflexivity. }
    rewrite Hk. destruct (negb (di_bp i =? 0) || di_deleted i || loc); [reflexivity|]. change (lenN (@nil (N * item))) with 0. now rewrite N.add_0_r.
Qed.
Lemma feed_visit loc l : forall u, SpecDb.feed (fun w => visit_node loc (fst w) (snd w)) l u = (Ok tt, (fst u ++ map (line loc) l, snd u + lenN (filter (counts loc) l))).
Proof.
  induction l as [|w l IH]; intros u; cbn [SpecDb.feed map].
  - cbn [filter]. change (lenN (@nil (N * item))) with 0. rewrite app_nil_r, N.add_0_r. now destruct u.
  - rewrite visit_eq, IH. cbn [fst snd]. rewrite <- app_assoc. f_equal. f_equal. cbn [filter]. destruct (counts loc w); rewrite ?lenN_cons; change (lenN (@nil (N * item))) with 0; lia.
Qed.

Section Shape.
Variable A : Type.
Variable loc : bool.
Variable keep : A -> bool.
Variable want : doc_info -> bool.
Variable info : A -> doc_info.
Variable sum : list A -> bytes.
Hypothesis Hk : forall a, keep a = true.
Hypothesis Hw : forall i, want i = true.
Lemma kept_all (l : list A) : filter (fun a => keep a && want (info a)) l = l.
Proof. induction l as [|a l IH]; [reflexivity|]. cbn [filter]. now rewrite Hk, Hw, IH. Qed.
Lemma even_docs k : forall (t : shape A), even k t -> docs t <> [].
Proof.
  induction k as [|k IH]; intros [own ds|own cs] Ev; try contradiction; [exact Ev|]. destruct Ev as [Hc Ev]. destruct cs as [|c cs]; [now elim Hc|]. inversion Ev; subst. cbn [docs flat_map].
  intros H. apply app_eq_nil in H. exact (IH c H1 (proj1 H)).
Qed.
Lemma some_kept (t : shape A) k : even k t -> existsb keep (docs t) = true.
Proof. intros Ev. pose proof (even_docs Ev) as H. destruct (docs t) as [|a l]; [now elim H|]. cbn [existsb]. now rewrite Hk. Qed.
Lemma drawing_visits k : forall (t : shape A) dep, even k t -> map (line loc) (visits keep want info sum dep t) = drawing loc info sum dep t.
Proof.
  induction k as [|k IH]; intros [own ds|own cs] dep Ev; try contradiction; cbn [visits drawing].
  - rewrite kept_all, map_map. reflexivity.
  - destruct Ev as [_ Ev]. induction Ev as [|c cs Hc _ IH2]; [reflexivity|]. cbn [flat_map]. rewrite (some_kept Hc), map_app, IH2. cbn [map]. rewrite (IH c _ Hc). reflexivity.
Qed.
Lemma counts_visits k : forall (t : shape A) dep, even k t -> lenN (filter (counts loc) (visits keep want info sum dep t)) = lenN (filter (fun a => known (info a) || loc) (docs t)).
Proof.
  induction k as [|k IH]; intros [own ds|own cs] dep Ev; try contradiction; cbn [visits docs].
  - rewrite kept_all. induction ds as [|a ds IHd] in Ev |- *; [reflexivity|]. clear Ev. assert (X : forall l, lenN (filter (counts loc) (map (fun a => (dep + 1, IDoc (info a))) l)) = lenN (filter (fun a => known (info a) || loc) l)).
    { induction l as [|b l IHl]; [reflexivity|]. cbn [map filter]. unfold counts at 1. cbn [snd]. destruct (known (info b) || loc); rewrite ?lenN_cons, IHl; reflexivity. }
    apply X.
  - destruct Ev as [_ Ev]. induction Ev as [|c cs Hc _ IH2]; [reflexivity|]. cbn [flat_map]. rewrite (some_kept Hc), !filter_app, !lenN_app, IH2. cbn [filter]. unfold counts at 1. cbn [snd]. rewrite (IH c _ Hc). reflexivity.
Qed.
End Shape.

Section Same.
Context {E : Env}.
Lemma same_walk U (cb : walk_fn U) d root cmp read start dl nd u u' : walk_tree d root cmp read start (EnumOpts dl nd false) cb u = (Ok tt, u') ->
  walk_tree d root cmp read start (EnumOpts dl nd true) cb u = (Ok tt, u').
Proof.
  unfold walk_tree. destruct (dropped d); [auto|]. destruct root as [p|]; [|auto]. destruct (cb 0 _ u) as [[[]|e] u1]; [|auto]. unfold btree_lookup. intros H.
  destruct (lookup_inner (walk_request cmp (EnumOpts dl nd false) read cb) _ _ _ _ _) as [x s] eqn:El. injection H as -> <-.
  rewrite (@same_lookup (N * U) (walk_request cmp (EnumOpts dl nd false) read cb) (walk_request cmp (EnumOpts dl nd true) read cb) eq_refl eq_refl eq_refl eq_refl) with (s' := s); [reflexivity| |exact El].
  intros k v c c'. cbn [walk_request l_fetch]. unfold walk_fetch, lookup_callback. cbn [eo_tolerate eo_deletes_only eo_no_deletes]. destruct v as [b|]; [|auto].
  destruct (read k b) as [i|er]; [intros X; exact X|]. intros X. destruct er; discriminate X.
Qed.
End Same.

Lemma collect (l : list doc_info) : forall u, SpecDb.feed (fun i (u : list doc_info) => (Ok tt, u ++ [i])) l u = (Ok tt, u ++ l).
Proof. induction l as [|i l IH]; intros u; cbn [SpecDb.feed]; [now rewrite app_nil_r|]. rewrite IH, <- app_assoc. reflexivity. Qed.
Lemma delivered {E : Env} d v before l : delivers d v before (fun _ => True) (fun U cb u => SpecDb.feed cb l u) ->
  exists rs, (forall r, In r rs <-> In r (v_docs v)) /\ StronglySorted before rs /\ Forall2 (shown d) l rs.
Proof.
  intros (rs & js & H1 & H2 & H3 & H4). specialize (H4 _ (fun i u => (Ok tt, u ++ [i])) []). rewrite !collect in H4. cbn [app] in H4. assert (Hl : l = js) by congruence. subst js.
  exists rs. split; [|auto]. intros r. rewrite H1. tauto.
Qed.
Lemma loc_known (l : list kv) : filter (fun a => known (local_info a) || true) l = l.
Proof. induction l as [|a l IH]; [reflexivity|]. cbn [filter]. rewrite orb_true_r. now rewrite IH. Qed.
Lemma doc_known (l : list doc_info) : filter (fun a => known a || false) l = filter known l.
Proof. apply filter_ext. intros a. apply orb_false_r. Qed.

Section Stored.
Context {E : Env} (EO : EnvOk E).
Lemma stored_draws d v ps m : good (dbf d) -> dropped d = false -> stored (dbf d) (dbh d) v ps -> draws m d v (dump_tree m d).
Proof.
  intros G D S. destruct m; unfold draws, dump_tree; cbv zeta.
  - destruct (h_by_seq (dbh d)) as [p|] eqn:Hp.
    + destruct (seq_walk EO G D S Hp) as (t & k & lk & H1 & H2 & H3 & H4 & H5). pose proof (all_by_seq EO G D S) as Hd. rewrite <- H3 in Hd. destruct (delivered Hd) as (rs & R1 & R2 & R3).
      exists t, k, lk, (np_subtree p), rs. repeat (split; [assumption|]). unfold walk_seq_tree in *. pose proof (H5 tstate 0 (EnumOpts false false false) (visit_node false) ([], 0) eq_refl) as Hx. rewrite feed_visit in Hx. apply same_walk in Hx. etransitivity; [exact Hx|]. clear Hx.
      cbn [map filter fst snd app]. unfold counts at 1. cbn [snd]. rewrite (@drawing_visits _ _ _ _ _ _) with (k := k); [|intros a; now destruct (di_db_seq a)|reflexivity|exact H2]. rewrite (@counts_visits _ _ _ _ _ _) with (k := k); [|intros a; now destruct (di_db_seq a)|reflexivity|exact H2].
      rewrite doc_known. reflexivity.
    + split; [rewrite <- (sd_docs S), (DbRead.no_seq S Hp); reflexivity|]. unfold walk_seq_tree, walk_tree. now rewrite D, Hp.
  - destruct (h_by_id (dbh d)) as [p|] eqn:Hp.
    + destruct (id_walk EO G D S Hp) as (t & k & lk & H1 & H2 & H3 & H4 & H5). pose proof (all_by_id EO G D S) as Hd. rewrite <- H3 in Hd. destruct (delivered Hd) as (rs & R1 & R2 & R3).
      exists t, k, lk, (np_subtree p), rs. repeat (split; [assumption|]). unfold walk_id_tree in *. pose proof (H5 tstate [] (EnumOpts false false false) (visit_node false) ([], 0) eq_refl) as Hx. rewrite feed_visit in Hx. apply same_walk in Hx. etransitivity; [exact Hx|]. clear Hx.
      cbn [map filter fst snd app]. unfold counts at 1. cbn [snd]. rewrite (@drawing_visits _ _ _ _ _ _) with (k := k); [|intros a; now destruct (di_id a)|reflexivity|exact H2].
      rewrite (@counts_visits _ _ _ _ _ _) with (k := k); [|intros a; now destruct (di_id a)|reflexivity|exact H2]. rewrite doc_known. reflexivity.
    + split; [rewrite <- (sd_docs S), (DbRead.no_id S Hp); reflexivity|]. unfold walk_id_tree, walk_tree. now rewrite D, Hp.
  - destruct (h_local (dbh d)) as [p|] eqn:Hp.
    + destruct (local_walk EO G D S Hp) as (t & k & lk & H1 & H2 & H3 & H4 & H5). exists t, k, lk, (np_subtree p). split; [exact H1|]. split; [exact H2|]. split; [exact H4|].
      split; [intros l; rewrite H3; apply in_by_key|]. split.
      { rewrite H3. pose proof (by_key_sorted _ (sd_lids S)) as Q. unfold sorted in Q. eapply ss_impl; [|exact Q]. intros a b _ _ Hc. now apply ebin_lex. }
      unfold walk_local_tree in *. pose proof (H5 tstate [] (EnumOpts false false false) (visit_node true) ([], 0) eq_refl) as Hx. rewrite feed_visit in Hx. apply same_walk in Hx. etransitivity; [exact Hx|]. clear Hx.
      cbn [map filter fst snd app]. unfold counts at 1. cbn [snd]. rewrite (@drawing_visits _ _ _ _ _ _) with (k := k); [|intros a; now destruct (fst a)|reflexivity|exact H2].
      rewrite (@counts_visits _ _ _ _ _ _) with (k := k); [|intros a; now destruct (fst a)|reflexivity|exact H2]. rewrite loc_known. reflexivity.
    + pose proof (sd_loc S) as T. rewrite Hp in T. cbn in T. split.
      * destruct (v_locals v) as [|x l] eqn:Hl; [reflexivity|]. exfalso. assert (Hx : In x (by_key (x :: l))) by (rewrite in_by_key; now left). rewrite T in Hx. destruct Hx.
      * unfold walk_local_tree, walk_tree. now rewrite D, Hp.
Qed.
End Stored.

(** ** C77 *)

(** Every index of a snapshot is drawn in full, every node with the size and total of what lies below it, and success is reported. *)
Theorem C77_tree : forall (E : Env), EnvOk E -> forall key getkey, key_ok key getkey -> forall s h v, sessions key getkey s -> snapshot s h v ->
  forall p, fpos (dbf (ss_db s)) <= p <= size (dbf (ss_db s)) -> forall m, draws m (reader s h p) v (dump_tree m (reader s h p)).
Proof.
  intros E EO key getkey KO s h v H Sn p Hp m. destruct (sessions_linked EO KO H) as [t L]. destruct (linked_snapshot EO KO L Sn) as [ps S]. destruct (sessions_stored EO KO H) as (G & _).
  assert (G' : good (dbf (reader s h p))) by (apply good_fpos; [exact G|apply Hp]).
  assert (S' : stored (dbf (reader s h p)) (dbh (reader s h p)) v ps) by (eapply stored_keeps; [apply set_fpos_keeps; apply Hp|exact S]).
  exact (@stored_draws E EO (reader s h p) v ps m G' eq_refl S').
Qed.
Print Assumptions C77_tree.

(** A document with a body, or a deleted one, is never drawn as corrupt. *)
Theorem C77_known : forall (E : Env) d i r, shown d i r -> rv_body r <> None \/ rv_deleted r = true -> known i = true /\ forall depth, doc_line false depth i = TDoc depth i.
Proof.
  intros E d i r [A B] H. assert (K : known i = true).
  { unfold known. destruct (N.eqb_spec (di_bp i) 0) as [Hb|_]; [|reflexivity]. cbn [negb orb]. rewrite (ab_deleted A). destruct H as [H|H]; [|exact H]. exfalso.
    pose proof (B false) as X. unfold open_doc_with_docinfo in X. rewrite Hb in X. cbn [N.eqb] in X. unfold body_read in X. cbn [andb] in X. destruct (rv_body r); [destruct X as (z & _ & X); discriminate X|now apply H]. }
  split; [exact K|]. intros depth. unfold doc_line. now rewrite K.
Qed.
Print Assumptions C77_known.

(** The program on a file as a crash (or no crash) left it: it draws the index of the last acknowledged commit, or of one that was being made. *)
Theorem C77_file : forall (E : Env), EnvOk E -> forall key getkey, key_ok key getkey -> forall s v0, sessions key getkey s -> ss_ack s = Some v0 ->
  forall g gsz, crash_image (dbf (ss_db s)) g gsz -> forall pl m,
  exists w d out n, (w = v0 \/ In w (ss_pend s)) /\ open_at (image g gsz pl) getkey None = Ok d /\ h_position (dbh d) = vn_pos w /\
    draws m d (vn_contents w) (Ok tt, (out, n)) /\ dump_tree_file (image g gsz pl) getkey None m = (Ok n, out).
Proof.
  intros E EO key getkey KO s v0 H Ha g gsz G pl m. destruct (sessions_linked EO KO H) as [t L]. destruct (link_open EO KO pl false L Ha G) as (d & w & s' & Ho & Hw & Hpos & Hs & Hre & _).
  assert (H' : sessions key getkey s') by exact (sess_reopen H Hre). destruct (sessions_stored EO KO H') as (G' & D' & _). assert (Hd : ss_db s' = d) by now rewrite Hs. rewrite Hd in G', D'.
  assert (Er : reader s' (dbh d) (fpos (dbf d)) = d) by (unfold reader; rewrite Hd; destruct d as [[] hh dd]; cbn [dropped] in D'; subst dd; reflexivity).
  assert (T : draws m d (vn_contents w) (dump_tree m d)).
  { rewrite <- Er. apply (@C77_tree E EO key getkey KO s' (dbh d) (vn_contents w) H'); [left; rewrite Hs; split; reflexivity|rewrite Hd; split; [apply N.le_refl|exact (proj2 G')]]. }
  assert (Hok : fst (dump_tree m d) = Ok tt).
  { destruct m; unfold draws in T.
    - destruct (h_by_seq (dbh d)); [destruct T as (t' & k & lk & n' & rs & _ & _ & _ & _ & _ & _ & T)|destruct T as [_ T]]; rewrite T; reflexivity.
    - destruct (h_by_id (dbh d)); [destruct T as (t' & k & lk & n' & rs & _ & _ & _ & _ & _ & _ & T)|destruct T as [_ T]]; rewrite T; reflexivity.
    - destruct (h_local (dbh d)); [destruct T as (t' & k & lk & n' & _ & _ & _ & _ & _ & T)|destruct T as [_ T]]; rewrite T; reflexivity. }
  destruct (dump_tree m d) as [x [out n]] eqn:Ed. cbn [fst] in Hok. subst x. exists w, d, out, n. split; [exact Hw|]. unfold dump_tree_file, open_at. rewrite Ho. cbn [bind]. split; [reflexivity|]. split; [exact (eq_sym Hpos)|].
  split; [exact T|]. rewrite Ed. reflexivity.
Qed.
Print Assumptions C77_file.

(** In a damaged file, the documents that are still found in the index are drawn, in order, and no others. *)
Definition line_docs (out : list tline) : list doc_info := flat_map (fun l => match l with TNode _ _ _ => [] | TDoc _ i => [i] | TCorrupt _ i => [i] end) out.
Lemma line_docs_app a b : line_docs (a ++ b) = line_docs a ++ line_docs b.
Proof. apply flat_map_app. Qed.
Definition take (i : doc_info) (u : list doc_info) : res unit * list doc_info := (Ok tt, u ++ [i]).
Lemma take_all l : forall u, snd (feed_on take l u) = u ++ l.
Proof.
  induction l as [|i l IH]; intros u; cbn [feed_on]; [now rewrite app_nil_r|]. unfold take at 1. specialize (IH (u ++ [i])). destruct (feed_on take l (u ++ [i])) as [b w]. cbn [snd] in *. rewrite IH, <- app_assoc. reflexivity.
Qed.
Lemma drawn_docs {E : Env} loc d root cmp read start o : line_docs (fst (snd (walk_tree d root cmp read start o (visit_node loc) ([], 0)))) = snd (walk_tree d root cmp read start o (on_docs take) []).
Proof.
  assert (Hc : forall n x (u : tstate), on_docs take n x (line_docs (fst u)) = (fst (visit_node loc n x u), line_docs (fst (snd (visit_node loc n x u))))).
  { intros n [sz red|i] u; unfold visit_node, on_docs, take.
    - cbn [fst snd]. rewrite line_docs_app. cbn. now rewrite app_nil_r.
    - destruct ((0 <? di_bp i) || ((di_bp i =? 0) && di_deleted i) || loc); cbn [fst snd]; rewrite line_docs_app; reflexivity. }
  pose proof (@walk_proj E tstate (list doc_info) (fun u => line_docs (fst u)) (visit_node loc) (on_docs take) Hc d root cmp read start o ([], 0)) as H. apply (f_equal snd) in H. symmetry. exact H.
Qed.
Theorem C77_damaged : forall (E : Env), EnvOk E -> forall key getkey, key_ok key getkey -> forall s h v, sessions key getkey s -> snapshot s h v ->
  forall p, fpos (dbf (ss_db s)) <= p <= size (dbf (ss_db s)) -> forall g, spoiled (dbf (reader s h p)) g ->
  let d := Db g h false in
  (exists rs, (forall r, In r rs <-> In r (v_docs v) /\ exists i, docinfo_by_id d (rv_id r) = Ok i) /\ StronglySorted id_before rs /\ Forall2 about (line_docs (fst (snd (dump_tree TreeId d)))) rs) /\
  (exists rs, (forall r, In r rs <-> In r (v_docs v) /\ exists i, docinfo_by_sequence d (rv_seq r) = Ok i) /\ StronglySorted seq_before rs /\ Forall2 about (line_docs (fst (snd (dump_tree TreeSeq d)))) rs).
Proof.
  intros E EO key getkey KO s h v H Sn p Hp g Sp. cbv zeta. destruct (@C70_walk E EO key getkey KO s h v H Sn p Hp g Sp (EnumOpts false false true) eq_refl) as [A B]. split.
  - destruct (A []) as (rs & js & H1 & H2 & H3 & H4). exists rs. split; [|split; [exact H2|]].
    + intros r. rewrite H1. unfold picked. cbn [eo_deletes_only eo_no_deletes]. split; [tauto|]. intros [X Y]. split; [exact X|]. split; [exact Y|]. split; [unfold lex_le; destruct (rv_id r); [now left|right; constructor]|]. split; discriminate.
    + unfold dump_tree. cbv zeta. unfold walk_id_tree. rewrite drawn_docs. specialize (H4 _ take []). unfold walk_id_tree in H4. rewrite H4, take_all. exact H3.
  - destruct (B 0 eq_refl) as (rs & js & H1 & H2 & H3 & H4). exists rs. split; [|split; [exact H2|]].
    + intros r. rewrite H1. unfold picked. cbn [eo_deletes_only eo_no_deletes]. split; [tauto|]. intros [X Y]. split; [exact X|]. split; [exact Y|]. split; [apply N.le_0_l|]. split; discriminate.
    + unfold dump_tree. cbv zeta. unfold walk_seq_tree. rewrite drawn_docs. specialize (H4 _ take []). unfold walk_seq_tree in H4. rewrite H4, take_all. exact H3.
Qed.
Print Assumptions C77_damaged.
Example C77_damaged_ex : @spoiled env0 (dbf ysrc) (dbf seq_hit) /\ @sessions env0 None gks sy1 /\ @snapshot env0 sy1 (dbh (ss_db sy1)) (ss_now sy1) /\
  (fpos (dbf (ss_db sy1)) <=? size (dbf (ss_db sy1))) = true /\ map di_id (line_docs (fst (snd (@dump_tree env0 TreeSeq seq_hit)))) = [[97]; [99]; [100]; [101]].
Proof.
  split; [apply spoiled_check; vm_compute; reflexivity|]. split; [exact sy1_session|]. split; [left; split; reflexivity|]. split; vm_compute; reflexivity.
Qed.

(** An index with three levels of nodes, drawn; the third document is deleted. *)
Definition show_line (l : tline) : N * N := match l with TNode d n _ => (d, n) | TDoc d i => (d, di_db_seq i) | TCorrupt d i => (d, 999 + di_db_seq i) end.
Definition w_r : db := reader wx1 (dbh (ss_db wx1)) (fpos (dbf (ss_db wx1))).
Example C77_ex : @sessions env0 None gks wx1 /\ @snapshot env0 wx1 (dbh (ss_db wx1)) (ss_now wx1) /\ (fpos (dbf (ss_db wx1)) <=? size (dbf (ss_db wx1))) = true /\ lenN (v_docs (ss_now wx1)) = 10 /\
  (let '(x, (out, n)) := @dump_tree env0 TreeId w_r in (x, map show_line out, n)) =
  (Ok tt, [(0, 659); (1, 232); (2, 74); (3, 1); (3, 2); (2, 74); (3, 3); (3, 4); (1, 343); (2, 74); (3, 5); (3, 6); (2, 74); (3, 7); (3, 8); (2, 74); (3, 9); (3, 10)], 10).
Proof. split; [exact wx1_session|]. split; [left; split; reflexivity|]. repeat split; vm_compute; reflexivity. Qed.

(** *** What does not hold *)

(** The enumerations without --tree report a failure if documents of a damaged file are missing. With --tree the program reports success though a document could not be drawn, in either order. *)
Theorem C77_damaged_refuted : exists (E : Env) s g g', EnvOk E /\ sessions None gks s /\ spoiled (dbf (reader s (dbh (ss_db s)) (fpos (dbf (ss_db s))))) g /\ spoiled (dbf (reader s (dbh (ss_db s)) (fpos (dbf (ss_db s))))) g' /\
  lenN (v_docs (ss_now s)) = 5 /\
  docinfo_by_id (Db g (dbh (ss_db s)) false) [98] = Err E_CHECKSUM /\ fst (dump_tree TreeId (Db g (dbh (ss_db s)) false)) = Ok tt /\ snd (snd (dump_tree TreeId (Db g (dbh (ss_db s)) false))) = 4 /\
  docinfo_by_sequence (Db g' (dbh (ss_db s)) false) 2 = Err E_CHECKSUM /\ fst (dump_tree TreeSeq (Db g' (dbh (ss_db s)) false)) = Ok tt /\ snd (snd (dump_tree TreeSeq (Db g' (dbh (ss_db s)) false))) = 4.
Proof.
  exists env0, sy1, (dbf id_hit), (dbf seq_hit). split; [exact env0_ok|]. split; [exact sy1_session|]. split; [fold ysrc; apply spoiled_check; vm_compute; reflexivity|].
  split; [fold ysrc; apply spoiled_check; vm_compute; reflexivity|]. repeat split; vm_compute; reflexivity.
Qed.
Print Assumptions C77_damaged_refuted.
