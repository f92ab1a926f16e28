(** Property C62: the walks over the nodes and documents of an index. *)
From Verif Require Import Base SpecOrder Codec CodecFacts File FileFacts ChunkFacts Header History Btree BtreeRead TreeStore SpecMap MergeFacts ModifyFacts LookupFacts
  Db SpecDb SortFacts ReduceFacts DbFacts DbSave DbRead SpecSession ShowFacts SessionFacts ReadFacts SaveFacts Walk SpecWalk WalkFacts EnvExample SessionExample.
Local Open Scope N_scope.
Unset Strict Implicit.

Lemma not_before_ebin a : forall b, ge (ebin_cmp a b) = not_before a b.
Proof.
  induction a as [|x a IH]; intros [|y b]; try reflexivity. cbn [ebin_cmp not_before]. destruct (N.compare_spec x y) as [->|H|H].
  - rewrite N.eqb_refl. apply IH.
  - rewrite (proj2 (N.eqb_neq x y)) by lia. cbn [ge]. symmetry. apply N.ltb_ge. lia.
  - rewrite (proj2 (N.eqb_neq x y)) by lia. cbn [ge]. symmetry. now apply N.ltb_lt.
Qed.
Lemma wanted_chosen o i : wanted o i = chosen o i.
Proof. unfold wanted, chosen. destruct (eo_deletes_only o), (eo_no_deletes o), (di_deleted i); reflexivity. Qed.
Lemma id_total_sum ds : id_sum ds = id_total ds.
Proof.
  unfold id_sum, encode_by_id_reduce, id_total, alive, gone. reflexivity.
Qed.

Section Session.
Context {E : Env} (EO : EnvOk E).
Variable d : db.
Variable v : contents.
Variable ps : list (doc_info * revision).
Hypothesis G : good (dbf d).
Hypothesis D : dropped d = false.
Hypothesis S : stored (dbf d) (dbh d) v ps.

Lemma all_by_id : delivers d v id_before (fun _ => True) (fun U cb u => feed cb (by_id (map fst ps)) u).
Proof.
  apply (@deliver E EO d v ps G D S by_id id_before _ (fun i => true) (fun a b => ebin_cmp (di_id a) (di_id b) = Lt)).
  - intros l i. apply in_by_id.
  - exact (id_strict S).
  - intros i i' r r' Hi Hi' Hlt. pose proof (proj1 (pair_rep S Hi)) as A. pose proof (proj1 (pair_rep S Hi')) as A'. unfold id_before.
    rewrite <- (ab_id A), <- (ab_id A'). now apply ebin_lex.
  - intros. tauto.
  - intros U cb u. f_equal. induction (by_id (map fst ps)) as [|x l IH]; [reflexivity|]. cbn [filter]. now rewrite <- IH.
Qed.
Lemma all_by_seq : delivers d v seq_before (fun _ => True) (fun U cb u => feed cb (by_seq (map fst ps)) u).
Proof.
  apply (@deliver E EO d v ps G D S by_seq seq_before _ (fun i => true) (fun a b => di_db_seq a < di_db_seq b)).
  - intros l i. apply in_by_seq.
  - exact (seq_strict S).
  - intros i i' r r' Hi Hi' Hlt. pose proof (proj1 (pair_rep S Hi)) as A. pose proof (proj1 (pair_rep S Hi')) as A'. unfold seq_before.
    now rewrite <- (ab_seq A), <- (ab_seq A').
  - intros. tauto.
  - intros U cb u. f_equal. induction (by_seq (map fst ps)) as [|x l IH]; [reflexivity|]. cbn [filter]. now rewrite <- IH.
Qed.
Lemma by_id_ok : Forall dok (by_id (map fst ps)).
Proof. apply Forall_forall. intros i Hi. rewrite in_by_id in Hi. exact (in_ok S Hi). Qed.
Lemma by_seq_ok : Forall dok (by_seq (map fst ps)).
Proof. apply Forall_forall. intros i Hi. rewrite in_by_seq in Hi. exact (in_ok S Hi). Qed.

Lemma id_walk p : h_by_id (dbh d) = Some p -> exists t k lk, drawn (fun x i => by_id_read_docinfo (fst x) (snd x) = Ok i) (dbf d) (np_pointer p) lk t /\ even k t /\
  docs t = by_id (map fst ps) /\ np_subtree p mod 2^48 = space t mod 2^48 /\
  forall U start o (cb : walk_fn U) u, eo_tolerate o = false -> walk_id_tree d start o cb u =
    feed (fun v => cb (fst v) (snd v)) ((0, INode (np_subtree p) (id_total (docs t))) :: visits (fun i => not_before (di_id i) start) (wanted o) (fun i => i) id_total 0 t) u.
Proof.
  intros Hp. pose proof (sd_id S) as T. rewrite Hp in T.
  assert (Hsum : forall f n q ds, Forall dok ds -> tree (id_request cfg0 false) idP id_redP f n q (map id_entry ds) -> np_reduce q = id_total ds).
  { intros f n q ds H1 H2. rewrite <- id_total_sum. exact (@id_tree_reduce E cfg0 false f n q ds H1 H2). }
  assert (Hm : forall i, dok i -> by_id_read_docinfo (fst (id_entry i)) (snd (id_entry i)) = Ok i) by (intros i [Hi _]; exact (by_id_roundtrip Hi)).
  destruct (@walk_index E EO _ _ _ idP_ok Hid_red doc_info id_entry dok id_total Hsum (fun x i => by_id_read_docinfo (fst x) (snd x) = Ok i) Hm ebin_cmp (ord_lookup ord_ebin)
    by_id_read_docinfo (fun i => i) Hm d p _ G D T by_id_ok (id_sorted S)) as (t & k & lk & H1 & H2 & H3 & H4 & H5).
  exists t, k, lk. repeat (split; [assumption|]). intros U start o cb u Ho. unfold walk_id_tree. rewrite Hp. apply H5; [exact Ho|].
  intros i _. cbn [id_entry fst]. rewrite lookup_ebin. apply not_before_ebin.
Qed.
Lemma seq_walk p : h_by_seq (dbh d) = Some p -> exists t k lk, drawn (fun x i => by_seq_read_docinfo (fst x) (snd x) = Ok i) (dbf d) (np_pointer p) lk t /\ even k t /\
  docs t = by_seq (map fst ps) /\ np_subtree p mod 2^48 = space t mod 2^48 /\
  forall U start o (cb : walk_fn U) u, eo_tolerate o = false -> walk_seq_tree d start o cb u =
    feed (fun v => cb (fst v) (snd v)) ((0, INode (np_subtree p) (seq_total (docs t))) :: visits (fun i => start mod 2^48 <=? di_db_seq i) (wanted o) (fun i => i) seq_total 0 t) u.
Proof.
  intros Hp. pose proof (sd_sq S) as T. rewrite Hp in T.
  assert (Hsum : forall f n q ds, Forall dok ds -> tree (seq_request cfg0) seqP seq_redP f n q (map seq_entry ds) -> np_reduce q = seq_total ds).
  { intros f n q ds _ H2. rewrite (@seq_tree_reduce E cfg0 f n q _ H2). unfold seq_total. now rewrite lenN_map. }
  assert (Hm : forall i, dok i -> by_seq_read_docinfo (fst (seq_entry i)) (snd (seq_entry i)) = Ok i) by (intros i [Hi _]; exact (by_seq_roundtrip Hi)).
  destruct (@walk_index E EO _ _ _ seqP_ok Hseq_red doc_info seq_entry dok seq_total Hsum (fun x i => by_seq_read_docinfo (fst x) (snd x) = Ok i) Hm seq_cmp (ord_lookup ord_seq)
    by_seq_read_docinfo (fun i => i) Hm d p _ G D T by_seq_ok (seq_sorted S)) as (t & k & lk & H1 & H2 & H3 & H4 & H5).
  exists t, k, lk. repeat (split; [assumption|]). intros U start o cb u Ho. unfold walk_seq_tree. rewrite Hp. apply H5; [exact Ho|].
  intros i Hi. cbn [seq_entry fst]. rewrite lookup_seq. rewrite in_by_seq in Hi. pose proof (dok_seq (in_ok S Hi)) as Hq.
  rewrite <- (be_mod 6 start). change (256 ^ N.of_nat 6) with (2^48). rewrite seq_cmp_be; [|exact Hq|now apply N.mod_lt].
  unfold N.leb. rewrite (N.compare_antisym (di_db_seq i)). destruct (di_db_seq i ?= start mod 2^48); reflexivity.
Qed.
Lemma local_walk p : h_local (dbh d) = Some p -> exists t k lk, drawn (fun x y => x = y) (dbf d) (np_pointer p) lk t /\ even k t /\
  docs t = by_key (v_locals v) /\ np_subtree p mod 2^48 = space t mod 2^48 /\
  forall U start o (cb : walk_fn U) u, eo_tolerate o = false -> walk_local_tree d start o cb u =
    feed (fun v => cb (fst v) (snd v)) ((0, INode (np_subtree p) []) :: visits (fun x => not_before (fst x) start) (wanted o) local_info (fun _ => []) 0 t) u.
Proof.
  intros Hp. pose proof (sd_loc S) as T. rewrite Hp in T.
  assert (Hsum : forall f n q (ds : list kv), Forall (fun _ => True) ds -> tree (local_request cfg0) kv_ok loc_redP f n q (map (fun x => x) ds) -> np_reduce q = []).
  { intros f n q ds _ H2. destruct n; destruct H2 as (_ & _ & Hr & _); exact Hr. }
  assert (T' : rtree (local_request cfg0) kv_ok loc_redP (dbf d) (Some p) (map (fun x => x) (by_key (v_locals v)))) by (rewrite map_id; exact T).
  assert (Hg : Forall (fun _ : kv => True) (by_key (v_locals v))) by (apply Forall_forall; auto).
  assert (Hs : sorted (lookup_compare ebin_cmp) (map (fun x => x) (by_key (v_locals v)))) by (rewrite map_id; apply sorted_lookup_ebin, by_key_sorted; exact (sd_lids S)).
  destruct (@walk_index E EO _ _ _ (fun (x : kv) (H : kv_ok x) => H) Hloc_red kv (fun x => x) (fun _ => True) (fun _ => []) Hsum (fun x y => x = y) (fun _ _ => eq_refl) ebin_cmp (ord_lookup ord_ebin)
    local_read_docinfo local_info (fun _ _ => eq_refl) d p _ G D T' Hg Hs) as (t & k & lk & H1 & H2 & H3 & H4 & H5).
  exists t, k, lk. repeat (split; [assumption|]). intros U start o cb u Ho. unfold walk_local_tree. rewrite Hp. apply H5; [exact Ho|].
  intros i _. rewrite lookup_ebin. apply not_before_ebin.
Qed.
End Session.

(** ** C62 *)

(** The walk over the index by id. There is a shape [t] (without empty nodes, all leaves equally deep), found in the file below the root, that holds all documents in the order of
    their ids, and the walk calls the user's function for the root at depth 0 and then along the shape, until it fails. The size reported for the root
    is exact up to the width of the field. *)
Theorem C62_ids : forall (E : Env), EnvOk E -> forall key getkey, key_ok key getkey -> forall s, sessions key getkey s ->
  match h_by_id (dbh (ss_db s)) with
  | None => v_docs (ss_now s) = [] /\ forall U start o (cb : walk_fn U) u, walk_id_tree (ss_db s) start o cb u = (Ok tt, u)
  | Some p => exists t k lk n,
      drawn (fun x i => by_id_read_docinfo (fst x) (snd x) = Ok i) (dbf (ss_db s)) (np_pointer p) lk t /\ even k t /\
      delivers (ss_db s) (ss_now s) id_before (fun _ => True) (fun U cb u => feed cb (docs t) u) /\ n mod 2^48 = space t mod 2^48 /\
      forall U start o (cb : walk_fn U) u, eo_tolerate o = false -> walk_id_tree (ss_db s) start o cb u =
        feed (fun v => cb (fst v) (snd v)) ((0, INode n (id_total (docs t))) :: visits (fun i => not_before (di_id i) start) (wanted o) (fun i => i) id_total 0 t) u
  end.
Proof.
  intros E EO key getkey KO s H. destruct (sessions_stored EO KO H) as (G & D & P & ps & S). destruct (h_by_id (dbh (ss_db s))) as [p|] eqn:Hp.
  - destruct (id_walk EO G D S Hp) as (t & k & lk & H1 & H2 & H3 & H4 & H5). exists t, k, lk, (np_subtree p). split; [exact H1|]. split; [exact H2|].
    split; [rewrite H3; exact (all_by_id EO G D S)|]. split; [exact H4|]. exact H5.
  - split; [rewrite <- (sd_docs S), (no_id S Hp); reflexivity|]. intros. unfold walk_id_tree, walk_tree. now rewrite D, Hp.
Qed.
Print Assumptions C62_ids.

(** The same for the index by sequence number; the start is taken modulo 2^48. *)
Theorem C62_sequences : forall (E : Env), EnvOk E -> forall key getkey, key_ok key getkey -> forall s, sessions key getkey s ->
  match h_by_seq (dbh (ss_db s)) with
  | None => v_docs (ss_now s) = [] /\ forall U start o (cb : walk_fn U) u, walk_seq_tree (ss_db s) start o cb u = (Ok tt, u)
  | Some p => exists t k lk n,
      drawn (fun x i => by_seq_read_docinfo (fst x) (snd x) = Ok i) (dbf (ss_db s)) (np_pointer p) lk t /\ even k t /\
      delivers (ss_db s) (ss_now s) seq_before (fun _ => True) (fun U cb u => feed cb (docs t) u) /\ n mod 2^48 = space t mod 2^48 /\
      forall U start o (cb : walk_fn U) u, eo_tolerate o = false -> walk_seq_tree (ss_db s) start o cb u =
        feed (fun v => cb (fst v) (snd v)) ((0, INode n (seq_total (docs t))) :: visits (fun i => start mod 2^48 <=? di_db_seq i) (wanted o) (fun i => i) seq_total 0 t) u
  end.
Proof.
  intros E EO key getkey KO s H. destruct (sessions_stored EO KO H) as (G & D & P & ps & S). destruct (h_by_seq (dbh (ss_db s))) as [p|] eqn:Hp.
  - destruct (seq_walk EO G D S Hp) as (t & k & lk & H1 & H2 & H3 & H4 & H5). exists t, k, lk, (np_subtree p). split; [exact H1|]. split; [exact H2|].
    split; [rewrite H3; exact (all_by_seq EO G D S)|]. split; [exact H4|]. exact H5.
  - split; [rewrite <- (sd_docs S), (no_seq S Hp); reflexivity|]. intros. unfold walk_seq_tree, walk_tree. now rewrite D, Hp.
Qed.
Print Assumptions C62_sequences.

(** The same for the local documents. *)
Theorem C62_locals : forall (E : Env), EnvOk E -> forall key getkey, key_ok key getkey -> forall s, sessions key getkey s ->
  match h_local (dbh (ss_db s)) with
  | None => v_locals (ss_now s) = [] /\ forall U start o (cb : walk_fn U) u, walk_local_tree (ss_db s) start o cb u = (Ok tt, u)
  | Some p => exists t k lk n,
      drawn (fun x y => x = y) (dbf (ss_db s)) (np_pointer p) lk t /\ even k t /\
      (forall x, In x (docs t) <-> In x (v_locals (ss_now s))) /\ StronglySorted (fun x y => lex (fst x) (fst y)) (docs t) /\ n mod 2^48 = space t mod 2^48 /\
      forall U start o (cb : walk_fn U) u, eo_tolerate o = false -> walk_local_tree (ss_db s) start o cb u =
        feed (fun v => cb (fst v) (snd v)) ((0, INode n []) :: visits (fun x => not_before (fst x) start) (wanted o) local_info (fun _ => []) 0 t) u
  end.
Proof.
  intros E EO key getkey KO s H. destruct (sessions_stored EO KO H) as (G & D & P & ps & S). destruct (h_local (dbh (ss_db s))) as [p|] eqn:Hp.
  - destruct (local_walk EO G D S Hp) as (t & k & lk & H1 & H2 & H3 & H4 & H5). exists t, k, lk, (np_subtree p). split; [exact H1|]. split; [exact H2|].
    rewrite H3. split; [intros x; apply in_by_key|]. split; [|split; [exact H4|exact H5]].
    pose proof (by_key_sorted _ (sd_lids S)) as Q. unfold sorted in Q. eapply ss_impl; [|exact Q]. intros a b _ _ Hc. now apply ebin_lex.
  - pose proof (sd_loc S) as T. rewrite Hp in T. cbn in T. split.
    + destruct (v_locals (ss_now s)) as [|x l] eqn:Hl; [reflexivity|]. exfalso. assert (Hx : In x (by_key (x :: l))) by (rewrite in_by_key; now left). rewrite T in Hx. destruct Hx.
    + intros. unfold walk_local_tree, walk_tree. now rewrite D, Hp.
Qed.
Print Assumptions C62_locals.

(** A walk that ignores the nodes is the enumeration of the documents. *)
Theorem C62_documents : forall (E : Env), EnvOk E -> forall key getkey, key_ok key getkey -> forall s, sessions key getkey s ->
  forall U o (cb : doc_info -> U -> res unit * U) u, eo_tolerate o = false ->
  let docs_only := fun (_ : N) x u => match x with IDoc i => cb i u | INode _ _ => (Ok tt, u) end in
  (forall start, walk_id_tree (ss_db s) start o docs_only u = all_docs (ss_db s) start o cb u) /\
  (forall start, start < 2^48 -> walk_seq_tree (ss_db s) start o docs_only u = changes_since (ss_db s) start o cb u).
Proof.
  intros E EO key getkey KO s H U o cb u Ho docs_only. destruct (sessions_stored EO KO H) as (G & D & P & ps & S).
  change docs_only with (only_docs cb). clear docs_only. split; intros start.
  - rewrite (@all_docs_eq E EO _ _ _ G D S U start o cb u Ho). destruct (h_by_id (dbh (ss_db s))) as [p|] eqn:Hp.
    + destruct (id_walk EO G D S Hp) as (t & k & lk & H1 & H2 & H3 & H4 & H5). rewrite (H5 U start o (only_docs cb) u Ho). cbn [feed fst snd only_docs].
      rewrite (@docs_of_visits U _ cb _ _ _ _ k) by exact H2. rewrite H3, map_id. f_equal. apply filter_ext. intros i. now rewrite not_before_ebin, wanted_chosen.
    + unfold walk_id_tree, walk_tree. rewrite D, Hp, (no_id S Hp). reflexivity.
  - intros Hst. rewrite (@changes_since_eq E EO _ _ _ G D S U start o cb u Ho Hst). destruct (h_by_seq (dbh (ss_db s))) as [p|] eqn:Hp.
    + destruct (seq_walk EO G D S Hp) as (t & k & lk & H1 & H2 & H3 & H4 & H5). rewrite (H5 U start o (only_docs cb) u Ho). cbn [feed fst snd only_docs].
      rewrite (@docs_of_visits U _ cb _ _ _ _ k) by exact H2. rewrite H3, map_id. f_equal. apply filter_ext. intros i. now rewrite (N.mod_small _ _ Hst), wanted_chosen.
    + unfold walk_seq_tree, walk_tree. rewrite D, Hp, (no_seq S Hp). reflexivity.
Qed.
Print Assumptions C62_documents.

(** An index with three levels of nodes. *)
Definition tiny : cfg := Cfg 90 90.
Definition batch_walk : list submit := map (fun n => mk [97; n] 1 (n =? 3) 0 (if n =? 3 then None else Some [n]) n) [1;2;3;4;5;6;7;8;9;10].
Definition wx1 : session := @after_docs env0 sx0 tiny so true batch_walk.
Lemma wx1_session : @sessions env0 None gks wx1.
Proof.
  refine (sess_write sx0_session _). apply docs_write; [discriminate| |vm_compute; reflexivity]. apply batch_check; vm_compute; reflexivity.
Qed.
(** A user's function that notes what it gets: for a node the depth, the size and the live and deleted documents; for a document the depth and the sequence number. *)
Definition note (depth : N) (x : item) (u : list (N * N * list N)) : res unit * list (N * N * list N) :=
  (Ok tt, u ++ [match x with INode n r => (depth, n, [nth 4 r 0; nth 9 r 0]) | IDoc i => (depth, di_db_seq i, []) end]).
Example C62_ex : @sessions env0 None gks wx1 /\
  @walk_id_tree _ env0 (ss_db wx1) [97; 5] (EnumOpts false false false) note [] =
    (Ok tt, [(0, 659, [9; 1]); (1, 343, [6; 0]); (2, 74, [2; 0]); (3, 5, []); (3, 6, []); (2, 74, [2; 0]); (3, 7, []); (3, 8, []); (2, 74, [2; 0]); (3, 9, []); (3, 10, [])]) /\
  @walk_seq_tree _ env0 (ss_db wx1) (2^48 + 9) (EnumOpts false false false) (fun d x u => (Ok tt, (d, match x with INode _ r => unbe r | IDoc i => di_db_seq i end) :: u)) [] = (Ok tt, [(3, 10); (3, 9); (2, 2); (1, 6); (0, 10)]) /\
  @walk_local_tree _ env0 (ss_db sx5) [] (EnumOpts false false false) (fun d x u => (Ok tt, (d, x) :: u)) [] =
    (Ok tt, [(1, IDoc (DocInfo [76] 0 0 [] false 0 0 2)); (0, INode 18 [])]).
Proof. split; [exact wx1_session|]. vm_compute. auto. Qed.

(** "A negative return value will cancel the iteration": with COUCHSTORE_TOLERATE_CORRUPTION the walk goes on after the user's function has failed. Here it fails for every
    document and is called for all four. *)
Theorem C62_cancel_refuted : exists (E : Env) key getkey s o,
  EnvOk E /\ key_ok key getkey /\ sessions key getkey s /\ lenN (v_docs (ss_now s)) = 4 /\
  walk_id_tree (ss_db s) [] o (fun depth x u => match x with IDoc _ => (Err E_CANCEL, u + 1) | INode _ _ => (Ok tt, u) end) 0 = (Err E_CANCEL, 4).
Proof.
  exists env0, None, gks, sx5, (EnumOpts false false true). split; [exact env0_ok|]. split; [exact Logic.I|]. split; [exact sx5_session|]. split; vm_compute; reflexivity.
Qed.
Print Assumptions C62_cancel_refuted.

(** "The root node is 0": with the same option, a failed call for an inner node makes the depths of all later calls too large. The children of the root are at depth 1; here the
    second one is reported with depth 2 after the function has failed once, for the first child of the first one.
    The walk reports success although the function has failed. *)
Theorem C62_depth_refuted : exists (E : Env) key getkey s o,
  EnvOk E /\ key_ok key getkey /\ sessions key getkey s /\
  (let cb := fun fail depth x (u : list (N * N)) => match x with
                                          | INode n _ => (if fail && (lenN u =? 2) then Err E_CANCEL else Ok tt, u ++ [(depth, n)])
                                          | IDoc _ => (Ok tt, u)
                                          end in
   walk_id_tree (ss_db s) [] o (cb false) [] = (Ok tt, [(0, 659); (1, 232); (2, 74); (2, 74); (1, 343); (2, 74); (2, 74); (2, 74)]) /\
   walk_id_tree (ss_db s) [] o (cb true) [] = (Ok tt, [(0, 659); (1, 232); (2, 74); (2, 343); (3, 74); (3, 74); (3, 74)])).
Proof.
  exists env0, None, gks, wx1, (EnumOpts false false true). split; [exact env0_ok|]. split; [exact Logic.I|]. split; [exact wx1_session|]. vm_compute. auto 20.
Qed.
Print Assumptions C62_depth_refuted.
