(** Walking damaged trees, and recovering documents from stale headers. *)
From Coq Require Import Sorting.Permutation.
From Verif Require Import Base SpecOrder Codec CodecFacts File FileFacts ChunkFacts Header HeaderFacts History CrashFacts DataFacts SpecCrash NavFacts ReachNav OpenFacts CommitFacts SpecFile PropertiesCrash
  Btree BtreeRead TreeStore SpecMap MergeFacts ModifyFacts LookupFacts Db SpecDb SortFacts ReduceFacts DbFacts DbSave DbRead TreeWriter Compact SpecCompact CompactFacts Replay SpecReplay ReplayFacts
  SpecSession ShowFacts SessionFacts ReadFacts SaveFacts ErrorFacts Walk
  SpecRecover RecoverFacts RecoverCopy RecoverLink PropertiesTolerate Dbck SpecDbck.
Local Open Scope N_scope.
Unset Strict Implicit.

(** ** A tolerant lookup with a node callback that does nothing *)

Section Sim.
Context {E : Env}.
Variable U : Type.
Variable rq : lreq (N * U).
Variable rq0 : lreq U.
Hypothesis Hcmp : l_cmp rq = l_cmp rq0.
Hypothesis Htol : l_tol rq = true.
Hypothesis Htol0 : l_tol rq0 = true.
Hypothesis Hnode0 : l_node rq0 = None.
Variable nc : option (N * bytes) -> N * U -> res unit * (N * U).
Hypothesis Hnode : l_node rq = Some nc.
Hypothesis Hnc : forall a u, exists n, nc a u = (Ok tt, (n, snd u)).
Hypothesis Hfetch : forall k v u, fst (l_fetch rq k v u) = fst (l_fetch rq0 k v (snd u)) /\ snd (snd (l_fetch rq k v u)) = snd (l_fetch rq0 k v (snd u)).
Definition rel (s : lst (N * U)) (s0 : lst U) : Prop := snd (l_u s) = l_u s0 /\ l_fold s = l_fold s0 /\ l_in s = l_in s0.

Lemma lcmp_same a b : lcmp rq a b = lcmp rq0 a b. Proof. unfold lcmp. now rewrite Hcmp. Qed.
Lemma span_same ck ks : span_ge rq ck ks = span_ge rq0 ck ks.
Proof. induction ks as [|k ks IH]; [reflexivity|]. cbn [span_ge]. rewrite lcmp_same, IH. reflexivity. Qed.
Lemma rel_in b s s0 : rel s s0 -> rel (set_in b s) (set_in b s0). Proof. intros (H1 & H2 & H3). split; [exact H1|]. split; [exact H2|reflexivity]. Qed.
Lemma rel_u u u0 s s0 : rel s s0 -> snd u = u0 -> rel (set_u u s) (set_u u0 s0). Proof. intros (H1 & H2 & H3) Hu. split; [exact Hu|]. split; [exact H2|exact H3]. Qed.
Lemma rest_rel ks : forall ec ec0 s s0, rel s s0 -> rel (snd (lk_rest rq ks ec s)) (snd (lk_rest rq0 ks ec0 s0)).
Proof.
  induction ks as [|k ks IH]; intros ec ec0 s s0 R; [exact R|]. cbn [lk_rest]. pose proof R as (H1 & H2 & H3). rewrite H2. destruct (l_fold s0); [exact R|].
  destruct (Hfetch k None (l_u s)) as [F1 F2]. rewrite H1 in F1, F2. destruct (l_fetch rq k None (l_u s)) as [x u]. destruct (l_fetch rq0 k None (l_u s0)) as [x0 u0]. cbn [fst snd] in F1, F2. subst x0.
  pose proof (@rel_u u u0 s s0 R F2) as R'. destruct x; [apply IH; exact R'|exact R'].
Qed.
Lemma entry_rel k v ks : forall ec ec0 s s0, rel s s0 ->
  match kv_entry rq k v ks ec s, kv_entry rq0 k v ks ec0 s0 with
  | KDone _ s1, KDone _ s2 => rel s1 s2
  | KMore ks1 _ s1, KMore ks2 _ s2 => ks1 = ks2 /\ rel s1 s2
  | _, _ => False
  end.
Proof.
  induction ks as [|k0 ks IH]; intros ec ec0 s s0 R; [exact R|]. cbn [kv_entry]. rewrite Htol, Htol0, lcmp_same. pose proof R as (H1 & H2 & H3). rewrite H2, H3.
  set (b := ge (lcmp rq0 k k0) && l_fold s0 && negb (l_in s0)).
  set (s1 := if b then set_in true s else s). set (s2 := if b then set_in true s0 else s0).
  assert (R1 : rel s1 s2) by (unfold s1, s2; destruct b; [now apply rel_in|exact R]). clearbody s1 s2. pose proof R1 as (G1 & G2 & G3). rewrite G3.
  assert (Hk : match ks with [] => false | k1 :: _ => match lcmp rq k k1 with Gt => true | _ => false end end = match ks with [] => false | k1 :: _ => match lcmp rq0 k k1 with Gt => true | _ => false end end)
    by (destruct ks; [reflexivity|now rewrite lcmp_same]). rewrite Hk. clear Hk.
  match goal with |- context [if l_in s2 && ?z then _ else _] => destruct (l_in s2 && z) end; [split; [exact G1|split; reflexivity]|]. destruct (ge (lcmp rq0 k k0)); [|split; [reflexivity|exact R1]].
  set (t := (match lcmp rq0 k k0 with Eq => true | _ => false end) || l_in s2).
  assert (F : fst (if t then l_fetch rq k (Some v) (l_u s1) else l_fetch rq k0 None (l_u s1)) = fst (if t then l_fetch rq0 k (Some v) (l_u s2) else l_fetch rq0 k0 None (l_u s2)) /\
    snd (snd (if t then l_fetch rq k (Some v) (l_u s1) else l_fetch rq k0 None (l_u s1))) = snd (if t then l_fetch rq0 k (Some v) (l_u s2) else l_fetch rq0 k0 None (l_u s2))).
  { destruct t; rewrite <- G1; apply Hfetch. }
  destruct (if t then l_fetch rq k (Some v) (l_u s1) else _) as [x u]. destruct (if t then l_fetch rq0 k (Some v) (l_u s2) else _) as [x0 u0]. cbn [fst snd] in F. destruct F as [<- F2].
  pose proof (@rel_u u u0 s1 s2 R1 F2) as R'. clearbody t. pose proof R' as (Q1 & Q2 & Q3). rewrite Q3.
  destruct x as [y|e]; (destruct (l_in (set_u u0 s2)); [split; [reflexivity|exact R']|]; destruct (lcmp rq0 k k0); [split; [reflexivity|exact R']|apply IH; exact R'|apply IH; exact R']).
Qed.
Lemma kv_rel items t : forall ks ec ec0 s s0, rel s s0 -> rel (snd (lk_kv rq items t ks ec s)) (snd (lk_kv rq0 items t ks ec0 s0)).
Proof.
  induction items as [|[k v] items IH]; intros ks ec ec0 s s0 R; (destruct ks as [|k0 ks]; [exact R|]); cbn [lk_kv].
  - destruct t; [apply rest_rel; exact R|exact R].
  - pose proof (@entry_rel k v (k0 :: ks) ec ec0 s s0 R) as H. destruct (kv_entry rq k v (k0 :: ks) ec s) as [x s1|ks1 ec1 s1]; destruct (kv_entry rq0 k v (k0 :: ks) ec0 s0) as [x2 s2|ks2 ec2 s2]; try contradiction; [exact H|].
    destruct H as [-> H]. apply IH. exact H.
Qed.
Lemma node_rel a ec s s0 : rel s s0 -> exists s1, call_node rq a ec s = (Ok tt, Ok tt, s1) /\ rel s1 s0.
Proof.
  intros (H1 & H2 & H3). unfold call_node. rewrite Hnode. destruct (Hnc a (l_u s)) as [n ->]. eexists. split; [reflexivity|]. repeat split; assumption.
Qed.
Lemma call0 a ec s : call_node rq0 a ec s = (Ok tt, ec, s).
Proof. unfold call_node. now rewrite Hnode0. Qed.
Lemma kp_rel rec rec0 items t : (forall pos ks s s0, rel s s0 -> rel (snd (rec pos ks s)) (snd (rec0 pos ks s0))) ->
  forall ks ec ec0 s s0, rel s s0 -> rel (snd (lk_kp rq rec items t ks ec s)) (snd (lk_kp rq0 rec0 items t ks ec0 s0)).
Proof.
  intros Hrec. induction items as [|[ck v] items IH]; intros ks ec ec0 s s0 R; (destruct ks as [|k0 ks]; [exact R|]); cbn [lk_kp].
  - destruct t; [apply rest_rel; exact R|exact R].
  - rewrite lcmp_same. destruct (ge (lcmp rq0 ck k0)); [|apply IH; exact R]. rewrite span_same. destruct (span_ge rq0 ck ks) as [here later].
    assert (R1 : rel (if l_fold s then set_in true s else s) (if l_fold s0 then set_in true s0 else s0)).
    { pose proof R as (_ & H2 & _). rewrite H2. destruct (l_fold s0); [now apply rel_in|exact R]. }
    destruct (read_pointer ck v) as [p|e]; [|exact R1].
    destruct (@node_rel (Some (np_subtree p, np_reduce p)) ec _ _ R1) as (s1 & -> & R2). rewrite call0.
    pose proof (Hrec (np_pointer p) (k0 :: here) _ _ R2) as R3. destruct (rec _ _ s1) as [x2 s3]. destruct (rec0 _ _ _) as [x3 s4]. cbn [snd] in R3. rewrite Htol, Htol0.
    assert (Hin : l_in s3 = l_in s4) by apply R3.
    destruct x2, x3; rewrite call0, Hin;
      match goal with |- context [call_node rq None ?z s3] => destruct (@node_rel None z _ _ R3) as (s5 & -> & R4) end; apply IH; exact R4.
Qed.
Lemma inner_rel F f : forall pos ks s s0, rel s s0 -> rel (snd (lookup_inner rq F f pos ks s)) (snd (lookup_inner rq0 F f pos ks s0)).
Proof.
  induction F as [|F IH]; intros pos ks s s0 R; destruct ks as [|k ks]; try exact R. cbn [lookup_inner].
  destruct (node_at f pos) as [buf|e]; [|exact R]. destruct (node_items buf) as [items t].
  destruct buf as [|[|[q|q|]] r]; try (apply rest_rel; exact R); [apply kp_rel; [exact IH|exact R]|apply kv_rel; exact R].
Qed.
Lemma lookup_rel f pos ks fold n u : snd (snd (btree_lookup rq f pos ks fold (n, u))) = snd (btree_lookup rq0 f pos ks fold u).
Proof.
  unfold btree_lookup. pose proof (@inner_rel (depth_fuel f) f pos ks (Lst (n, u) fold false) (Lst u fold false)) as H.
  destruct (lookup_inner rq _ _ _ _ _) as [x s]. destruct (lookup_inner rq0 _ _ _ _ _) as [x0 s0]. cbn [snd] in *. apply H. repeat split; reflexivity.
Qed.
End Sim.

(** ** Rewinding *)

Section Rewind.
Context {E : Env}.
Lemma parse_pos_any h pos buf r h1 : parse_header h pos buf = (r, h1) -> h_position h1 = h_position h \/ h_position h1 = pos.
Proof.
  unfold parse_header. destruct buf as [|v b]; [intros [= <- <-]; cbn; auto|]. set (buf := v :: b).
  destruct (raw_header_size v) as [hs|]; [|intros [= <- <-]; cbn; auto].
  destruct (lenN buf <? hs); [intros [= <- <-]; cbn; auto|].
  destruct (raw_to_internal (set_version (set_position h pos) v) v buf) as [[h2 [[s1 s2] s3]]|] eqn:Er; [|intros [= <- <-]; cbn; auto].
  assert (Hp : h_position h2 = pos).
  { unfold raw_to_internal in Er. repeat bind_inv Er. inv Er. reflexivity. }
  destruct (pos <? h_purge_ptr h2); [intros [= <- <-]; cbn; auto|].
  destruct (negb (lenN buf =? hs + s1 + s2 + s3)); [intros [= <- <-]; cbn; auto|].
  destruct (getb hs s1 buf) as [d1|]; [|intros [= <- <-]; cbn; auto].
  destruct (getb (hs + s1) s2 buf) as [d2|]; [|intros [= <- <-]; cbn; auto].
  destruct (getb (hs + s1 + s2) s3 buf) as [d3|]; [|intros [= <- <-]; cbn; auto].
  destruct (read_db_root pos d1) as [[u1|e1] r1]; [|intros [= <- <-]; cbn; auto].
  destruct (read_db_root pos d2) as [[u2|e2] r2]; [|intros [= <- <-]; cbn; auto].
  destruct (read_db_root pos d3) as [x3 r3]. intros [= <- <-]; cbn; auto.
Qed.
Lemma find_pos_any f h pos r h1 : find_header_at_pos f h pos = (r, h1) -> h_position h1 = h_position h \/ h_position h1 = pos.
Proof.
  unfold find_header_at_pos. destruct (pread f pos 1) as [|t [|? ?]]; try (intros [= <- <-]; auto).
  destruct ((t =? B_DATA) || (t =? B_META)); [intros [= <- <-]; auto|]. destruct (negb (t =? B_HEADER)); [intros [= <- <-]; auto|].
  destruct (pread_header f pos MAX_DB_HEADER_SIZE) as [buf|e]; [apply parse_pos_any|intros [= <- <-]; auto].
Qed.
Lemma rewind_lower d d' : rewind_db_header d = Ok d' -> dbf d' = dbf d /\ dropped d' = dropped d /\ h_position (dbh d') < h_position (dbh d).
Proof.
  unfold rewind_db_header, rewind_impl. destruct (dropped d) eqn:Hd; [discriminate|]. cbn zeta. set (h := reset_roots (dbh d)).
  assert (Back : forall h1 x, h_position h1 <= h_position (dbh d) ->
    (if h_position h1 <? BLOCK then (Err E_DB_NO_LONGER_VALID, Db (dbf d) h1 false) else let '(r, h') := find_header (dbf d) h1 (Z.of_N (h_position h1) - 2) false in (r, Db (dbf d) h' false)) = (Ok tt, x) ->
    dbf x = dbf d /\ dropped x = false /\ h_position (dbh x) < h_position (dbh d)).
  { intros h1 x Hle. destruct (N.ltb_spec (h_position h1) BLOCK) as [Hb|Hb]; [discriminate|]. unfold find_header. unfold BLOCK in Hb.
    destruct (Z.ltb_spec (Z.of_N (h_position h1) - 2) 0) as [Hz|Hz]; [lia|].
    destruct (find_header_loop _ _ _ _ _) as [r h'] eqn:Hf. intros H. injection H as -> <-. cbn [dbf dropped dbh]. split; [reflexivity|]. split; [reflexivity|].
    destruct (find_loop_ok _ _ _ _ _ Hf) as (k & Hk & Hh & _). pose proof (find_pos _ _ _ Hh) as Hp. rewrite Hp.
    assert (Hm : N.of_nat k <= Z.to_N (Z.of_N (h_position h1) - 2) / BLOCK) by lia. pose proof (N.mul_div_le (Z.to_N (Z.of_N (h_position h1) - 2)) BLOCK). unfold BLOCK in *. nia. }
  assert (H0 : h_position h <= h_position (dbh d)) by (cbn; lia). clearbody h.
  assert (Fin : forall y, (forall x, y = (Ok tt, x) -> dbf x = dbf d /\ dropped x = false /\ h_position (dbh x) < h_position (dbh d)) ->
    match y with (Ok _, d0) => Ok d0 | (Err _, _) => Err E_DB_NO_LONGER_VALID end = Ok d' -> dbf d' = dbf d /\ dropped d' = false /\ h_position (dbh d') < h_position (dbh d)).
  { intros [[[]|e] x] Hy H; [|discriminate]. injection H as <-. now apply Hy. }
  apply Fin. clear Fin. intros x. destruct (14 <=? h_version h); [|apply Back; exact H0]. destruct (h_prev h =? NO_PREV); [discriminate|].
  destruct (negb (h_prev h =? UNKNOWN_PREV)); [|apply Back; exact H0]. cbn [andb]. destruct (N.ltb_spec (h_prev h) (h_position h)) as [Hp|Hp]; [|apply Back; exact H0].
  destruct (find_header_at_pos (dbf d) h (h_prev h)) as [r h1] eqn:Hf. destruct r as [[]|e].
  - intros H. injection H as <-. cbn [dbf dropped dbh]. rewrite (find_pos _ _ _ Hf). repeat split; lia.
  - assert (Hq : h_position h1 <= h_position (dbh d)) by (destruct (find_pos_any Hf) as [->| ->]; lia).
    destruct e; try discriminate; apply Back; exact Hq.
Qed.
End Rewind.

(** ** One stale header *)

Section Stale.
Context {E : Env} (EO : EnvOk E).
Hypothesis Hcomp : forall b, compress b <> None.
Variable c : cfg.
Hypothesis Hc : 2 <= c_kv c.
Variable h0 : header.
Definition dst (d : db) (w : contents) : Prop := holds easy_file h0 (Context d [] [] 0) w.
Variable src : db.
Variable g : file.
Variable v : contents.
Variable ps : list (doc_info * revision).
Hypothesis Gs : good (dbf src).
Hypothesis Ds : dropped src = false.
Hypothesis Sp : spoiled (dbf src) g.
Hypothesis S : stored (dbf src) (dbh src) v ps.
Hypothesis Hst : Forall storable (v_docs v).
Variable alt : header.
Notation srcg := (Db g alt false).
Definition foundb (p : doc_info * revision) : bool := match open_doc_with_docinfo srcg (fst p) false with Ok _ => true | Err _ => false end.

Lemma open_left p b : In p ps -> open_doc_with_docinfo srcg (fst p) false = Ok b -> stored_bytes (rv_body (snd p)) = Some b.
Proof.
  intros Hp. assert (Rp : rep (dbf src) (fst p) (snd p)) by (pose proof (sd_rep S) as H; rewrite Forall_forall in H; exact (H p Hp)).
  pose proof (@open_ok E EO src Gs Ds (fst p) (snd p) false Rp) as Ho. unfold open_doc_with_docinfo in *. cbn [dropped dbf andb] in *. rewrite Ds in Ho. unfold body_read in Ho.
  destruct Rp as [_ Rb]. destruct (rv_body (snd p)) as [x|].
  - destruct Rb as [Hn _]. apply N.eqb_neq in Hn. rewrite Hn in *. cbn [andb] in Ho. destruct Ho as (z & Hz & Ho). destruct (proj2 Sp (di_bp (fst p))) as [He|[e He]]; rewrite He; [|discriminate].
    rewrite Ho. intros H. injection H as <-. now apply stored_bytes_as.
  - destruct Rb as [-> _]. discriminate.
Qed.

Lemma has_same w id : has_id w id = true <-> exists x, In x (v_docs w) /\ rv_id x = id.
Proof. unfold has_id. rewrite existsb_exists. split; intros (x & H1 & H2); exists x; (split; [exact H1|]); now apply same_true. Qed.
Lemma dst_has d w id : dst d w -> (exists i, docinfo_by_id d id = Ok i) <-> has_id w id = true.
Proof.
  intros H. destruct (ho_stored H) as [qs Sq]. pose proof (ho_good H) as G. pose proof (ho_drop H) as D. unfold cxf in *. cbn [cx_db] in *. rewrite (docinfo_by_id_eq EO G D Sq), has_same.
  destruct (old_of (map fst qs) id) as [i|] eqn:Ho.
  - unfold old_of in Ho. apply find_some in Ho. rewrite same_true in Ho. destruct Ho as [Hi He]. apply in_map_iff in Hi. destruct Hi as ([i' r] & Hi & Hp). cbn [fst] in Hi. subst i'. split; [|eauto]. intros _. exists r.
    split; [rewrite <- (sd_docs Sq); exact (in_map snd _ _ Hp)|]. rewrite <- (ab_id (pair_about Sq Hp)). exact He.
  - split; [intros [i H1]; discriminate|]. intros (x & Hx & He). exfalso. rewrite <- (sd_docs Sq) in Hx. apply in_map_iff in Hx. destruct Hx as ([i r] & Hr & Hp). cbn [snd] in Hr. subst x.
    unfold old_of in Ho. pose proof (@List.find_none _ _ _ Ho i (in_map fst _ _ Hp)) as Hn. cbn beta in Hn. assert (Hs : same (di_id i) id = true); [|congruence]. apply same_true. rewrite (ab_id (pair_about Sq Hp)). exact He.
Qed.
Lemma put_new r l : existsb (fun x => same (rv_id x) (rv_id r)) l = false -> SpecDb.put r l = r :: l.
Proof.
  intros H. unfold SpecDb.put. f_equal. induction l as [|x l IH]; [reflexivity|]. cbn [existsb] in H. apply orb_false_elim in H. destruct H as [H1 H2]. cbn [filter]. rewrite H1. cbn [negb]. now rewrite IH.
Qed.

Section Step.
Variable P : revision -> Prop.
Hypothesis HP : forall x y, P x -> P y -> rv_seq x = rv_seq y -> rv_id x = rv_id y.
Hypothesis Hv : forall r, In r (v_docs v) -> P r.

Lemma stale_step p d n w d' n' : In p ps -> dst d w -> (forall x, In x (v_docs w) -> P x) -> snd (rewind_hook c srcg 0 (IDoc (fst p)) (d, n)) = (d', n') -> fin47 (dbf d') ->
  let w' := if foundb p then add_missing w (snd p) else w in
  dst d' w' /\ (forall x, In x (v_docs w') -> P x) /\ n <= n' /\ (n' = n -> w' = w) /\ lenN (v_docs w') + n = lenN (v_docs w) + n'.
Proof.
  intros Hp H Hw Hr F. cbn zeta. unfold rewind_hook in Hr. cbn [fst snd] in Hr.
  assert (Ab : about (fst p) (snd p)) by (destruct p; exact (pair_about S Hp)).
  assert (Hin : In (snd p) (v_docs v)) by (rewrite <- (sd_docs S); now apply in_map).
  pose proof (dst_has (di_id (fst p)) H) as Hh. rewrite (ab_id Ab) in Hh, Hr. unfold foundb, add_missing.
  destruct (docinfo_by_id d (rv_id (snd p))) as [j|e] eqn:Hj.
  { cbn [snd] in Hr. injection Hr as <- <-. destruct Hh as [Hh _]. rewrite (Hh (ex_intro _ j eq_refl)). destruct (open_doc_with_docinfo _ _ _); (split; [exact H|]; split; [exact Hw|]; split; [lia|]; split; [reflexivity|lia]). }
  destruct (has_id w (rv_id (snd p))) eqn:Hi; [destruct Hh as [_ Hh]; destruct (Hh eq_refl); discriminate|]. clear Hh.
  destruct (open_doc_with_docinfo srcg (fst p) false) as [b|e'] eqn:Ho.
  2:{ cbn [snd] in Hr. injection Hr as <- <-. split; [exact H|]. split; [exact Hw|]. split; [lia|]. split; [reflexivity|lia]. }
  cbn [snd] in Hr. pose proof (open_left Hp Ho) as Hb.
  assert (Hs : Submit (Some b) (fst p) 0 = subm p) by (unfold subm; rewrite Hb; reflexivity). rewrite Hs in Hr.
  set (R := save_documents c (SaveOpts false true) false [subm p] d) in *.
  assert (Hd' : d' = sv_db R /\ n' = n + 1) by (injection Hr; auto). destruct Hd' as [-> ->]. clear Hr.
  destruct (ho_stored H) as [qs Sq]. unfold cxf in Sq. cbn [cx_db] in Sq.
  assert (B : batch_ok (SaveOpts false true) [subm p] w).
  { assert (Dp : dok (fst p)) by (apply (in_ok S); now apply in_map). constructor.
    - constructor; [|constructor]. destruct Dp as [(K1 & K2 & K3 & K4 & K5 & K6) K7]. unfold fits. cbn [subm sb_info]. repeat (split; [assumption|]). split; [auto|].
      unfold new_rev. cbn [subm sb_info sb_body rv_body so_compress andb]. rewrite Forall_forall in Hst. specialize (Hst _ Hin). unfold storable in Hst. destruct (rv_body (snd p)) as [x|]; [|discriminate].
      rewrite Hb. intros z' Hz'. cbn in Hz'. subst z'. apply Hst. now apply stored_bytes_as.
    - constructor; [intros []|constructor].
    - unfold last_seq. cbn [so_as_is fold_left subm sb_info]. pose proof (sd_bound Sq). pose proof (dok_seq Dp). lia.
    - intros _. split; [constructor; [intros []|constructor]|]. intros r x Hr [<-|[]] He. exists (subm p). split; [now left|]. cbn [subm sb_info] in *. rewrite (ab_id Ab). rewrite (ab_seq Ab) in He.
      symmetry. apply HP; auto. }
  pose proof (@flush_docs E EO easy_file no_error (easy_okerr EO Hcomp) c Hc h0 (Context d [] [subm p] 0) w) as Fl.
  assert (Hx : holds easy_file h0 (Context d [] [subm p] 0) w) by (exact (@holds_db E easy_file h0 (Context d [] [] 0) (Context d [] [subm p] 0) w eq_refl H)).
  unfold flush in Fl. cbn [cx_locals cx_docs cx_db] in Fl. fold R in Fl.
  assert (K : dst (sv_db R) (save (SaveOpts false true) [subm p] w)).
  { destruct (sv_res R) as [u|e2]; [|destruct (Fl _ _ Hx eq_refl B eq_refl F)]. destruct (Fl _ _ Hx eq_refl B eq_refl F) as [K _]. exact (@holds_db E easy_file h0 _ (Context (sv_db R) [] [] 0) _ eq_refl K). }
  clear Fl Hx.
  assert (Hsave : save (SaveOpts false true) [subm p] w = Contents (nr p :: v_docs w) (v_locals w) (N.max (v_seq w) (rv_seq (snd p)))).
  { unfold save. cbn [new_revs so_as_is fold_left last_seq subm sb_info]. rewrite put_new; [rewrite <- (ab_seq Ab); reflexivity|]. cbn [rv_id new_rev sb_info fst subm]. rewrite (ab_id Ab). exact Hi. }
  rewrite Hsave in K. split; [|split; [|split; [|split]]].
  - destruct K as [K1 K2 K3 K4 [qs' K5] K6]. constructor; auto.
    set (r := snd p) in *.
    pose proof (@stored_convert E _ _ _ qs' (r :: v_docs w) (v_locals w) (fun q => if same (rv_id (snd q)) (rv_id r) then r else snd q) K5) as Cv. apply Cv; clear Cv.
    + intros q Hq. pose proof (sd_rep K5) as Rq. rewrite Forall_forall in Rq. specialize (Rq q Hq). destruct (same (rv_id (snd q)) (rv_id r)) eqn:Hs2; [|exact Rq].
      pose proof (in_map snd _ _ Hq) as Hq2. rewrite (sd_docs K5) in Hq2. cbn [v_docs] in Hq2. destruct Hq2 as [Hq2|Hq2].
      * rewrite <- Hq2 in Rq. assert (Rp : rep (dbf src) (fst p) (snd p)) by (pose proof (sd_rep S) as H1; rewrite Forall_forall in H1; exact (H1 p Hp)).
        apply (@rep_back E src _ (fst q) p Rp); [|exact Rq]. intros Hn. change (snd p) with r in Hn. rewrite Hn in Hb. discriminate.
      * exfalso. assert (Hi2 : has_id w (rv_id r) = true); [|congruence]. apply has_same. exists (snd q). split; [exact Hq2|now apply same_true].
    + rewrite <- (map_map snd (fun x => if same (rv_id x) (rv_id r) then r else x)). rewrite (sd_docs K5). cbn [v_docs map].
      assert (Hn : rv_id (nr p) = rv_id r) by (cbn [nr new_rev rv_id subm sb_info]; exact (ab_id Ab)). rewrite Hn.
      assert (Hr : same (rv_id r) (rv_id r) = true) by (now apply same_true). rewrite Hr.
      assert (Hm : map (fun x => if same (rv_id x) (rv_id r) then r else x) (v_docs w) = v_docs w); [|rewrite Hm; apply Permutation_refl].
      unfold has_id in Hi. clear - Hi. induction (v_docs w) as [|x l IH]; [reflexivity|]. cbn [existsb] in Hi. apply orb_false_elim in Hi. destruct Hi as [H1 H2]. cbn [map]. rewrite H1. f_equal. now apply IH.
    + exact (sd_lids K5).
    + intros x. reflexivity.
  - cbn [v_docs]. intros x [<-|Hx]; auto.
  - lia.
  - lia.
  - cbn [v_docs]. rewrite lenN_cons. lia.
Qed.

Definition hookf (i : doc_info) (u : db * N) : res unit * (db * N) := rewind_hook c srcg 0 (IDoc i) u.
Lemma hook_writes i u : exists log, writes (dbf (fst u)) log (dbf (fst (snd (hookf i u)))).
Proof.
  unfold hookf, rewind_hook. destruct (docinfo_by_id _ _); [exists []; constructor|]. destruct (open_doc_with_docinfo _ _ _); [|exists []; constructor]. apply save_writes.
Qed.
Lemma feed_hook_writes l : forall u, exists log, writes (dbf (fst u)) log (dbf (fst (snd (feed_on hookf l u)))).
Proof.
  induction l as [|i l IH]; intros u; cbn [feed_on]; [exists []; constructor|]. destruct (hook_writes i u) as [l1 W1]. destruct (hookf i u) as [y u1]. cbn [snd] in W1.
  destruct (IH u1) as [l2 W2]. destruct (feed_on hookf l u1) as [b u2]. cbn [snd] in *. exists (l2 ++ l1). eapply writes_trans; eassumption.
Qed.
Lemma stale_fold l : forall d n w d' n', (forall p, In p l -> In p ps) -> dst d w -> (forall x, In x (v_docs w) -> P x) -> snd (feed_on hookf (map fst l) (d, n)) = (d', n') -> fin47 (dbf d') ->
  let w' := fold_left add_missing (map snd (filter foundb l)) w in
  dst d' w' /\ (forall x, In x (v_docs w') -> P x) /\ n <= n' /\ (n' = n -> w' = w) /\ lenN (v_docs w') + n = lenN (v_docs w) + n'.
Proof.
  induction l as [|p l IH]; intros d n w d' n' Hl H Hw Hr F; cbn zeta.
  - cbn [map feed_on snd] in Hr. injection Hr as <- <-. cbn [filter map fold_left]. split; [exact H|]. split; [exact Hw|]. split; [lia|]. split; [reflexivity|lia].
  - cbn [map feed_on] in Hr. destruct (hook_writes (fst p) (d, n)) as [l1 W1]. destruct (hookf (fst p) (d, n)) as [y [d1 n1]] eqn:Hy. cbn [fst snd] in W1.
    destruct (feed_hook_writes (map fst l) (d1, n1)) as [l2 W2]. destruct (feed_on hookf (map fst l) (d1, n1)) as [b [d2 n2]] eqn:Hf. cbn [fst snd] in W2, Hr. injection Hr as <- <-.
    assert (G1 : good (dbf d1)) by exact (le_good (writes_le EO (ho_good H) W1)).
    assert (F1 : fin47 (dbf d1)) by exact (fin47_le (writes_le EO G1 W2) F).
    destruct (@stale_step p d n w d1 n1 (Hl p (or_introl eq_refl)) H Hw) as (A1 & A2 & A3 & A4 & A5); [unfold hookf in Hy; rewrite Hy; reflexivity|exact F1|].
    destruct (IH d1 n1 _ d2 n2 (fun q Hq => Hl q (or_intror Hq)) A1 A2) as (B1 & B2 & B3 & B4 & B5); [rewrite Hf; reflexivity|exact F|].
    assert (Hfold : fold_left add_missing (map snd (filter foundb (p :: l))) w = fold_left add_missing (map snd (filter foundb l)) (if foundb p then add_missing w (snd p) else w)).
    { cbn [filter]. destruct (foundb p); reflexivity. }
    rewrite Hfold. split; [exact B1|]. split; [exact B2|]. split; [lia|]. split; [|lia]. intros He. assert (n1 = n) by lia. assert (n2 = n1) by lia. rewrite (B4 H1). now apply A4.
Qed.

(** The walk feeds the hook with the documents that are left. *)
Notation d0 := (Db g (dbh src) false).
Lemma walk_feed u : snd (walk_id_tree d0 [] (EnumOpts false false true) (rewind_hook c srcg) u) = snd (all_docs d0 [] (EnumOpts false false true) hookf u).
Proof.
  unfold walk_id_tree, walk_tree, all_docs. cbn [dropped dbh dbf]. destruct (h_by_id (dbh src)) as [p0|]; [|reflexivity]. cbn [rewind_hook eo_tolerate].
  set (rq := walk_request _ _ _ _). set (rq0 := enum_request _ _ _ _ _).
  pose proof (@lookup_rel E (db * N) rq rq0 eq_refl eq_refl eq_refl eq_refl (walk_node_callback (rewind_hook c srcg)) eq_refl) as H.
  rewrite <- (H) with (n := 1).
  - destruct (btree_lookup rq _ _ _ _ _) as [y z]. reflexivity.
  - intros [[sz red]|] u1; cbn [walk_node_callback rewind_hook]; eexists; reflexivity.
  - intros k vv u1. cbn [rq rq0 walk_request enum_request l_fetch walk_fetch]. unfold walk_fetch.
    assert (Hcb : forall uu, lookup_callback (EnumOpts false false true) by_id_read_docinfo (fun i u => rewind_hook c srcg (fst u1) (IDoc i) u) k vv uu = lookup_callback (EnumOpts false false true) by_id_read_docinfo hookf k vv uu).
    { intros uu. reflexivity. }
    rewrite Hcb. destruct (lookup_callback _ _ _ _ _ _) as [x z]. split; reflexivity.
Qed.
Lemma walk_left : exists l, (forall p, In p l -> In p ps) /\
  (forall p, In p ps -> (In p l <-> docinfo_by_id d0 (rv_id (snd p)) = Ok (fst p)) /\ forall j, docinfo_by_id d0 (rv_id (snd p)) = Ok j -> j = fst p) /\
  forall u, snd (walk_id_tree d0 [] (EnumOpts false false true) (rewind_hook c srcg) u) = snd (feed_on hookf (map fst l) u).
Proof.
  destruct (h_by_id (dbh src)) as [p0|] eqn:Hp0.
  2:{ exists []. assert (Hps : ps = []) by exact (DbRead.no_id S Hp0). split; [intros p []|]. split; [intros p Hp; rewrite Hps in Hp; destruct Hp|].
      intros u. rewrite walk_feed. unfold all_docs. cbn [dropped dbh]. rewrite Hp0. reflexivity. }
  destruct (id_left EO Gs Sp S Hp0) as [q Hq]. set (X := by_id (map fst ps)) in *. set (Lx := filter (fun i => q (id_entry i)) X).
  destruct (@pairs_of ps Lx) as [rs Hrs]; [intros i Hi; unfold Lx, X in Hi; apply filter_In in Hi; destruct Hi as [Hi _]; now apply in_by_id|].
  assert (Hl : exists l, map fst l = Lx /\ forall p, In p l -> In p ps).
  { clear - Hrs. induction Hrs as [|i r L rs HR F IH]; [exists []; split; [reflexivity|intros p []]|]. destruct IH as (l & <- & H2). exists ((i, r) :: l). split; [reflexivity|]. intros p [<-|Hp]; auto. }
  destruct Hl as (l & Hl1 & Hl2). exists l. split; [exact Hl2|]. split.
  - intros p Hp. destruct p as [i r]. cbn [fst snd].
    assert (Di : dok i) by (apply (in_ok S); apply in_map_iff; exists (i, r); auto).
    assert (Hx : In (id_entry i) (map id_entry X)) by (apply in_map; unfold X; rewrite in_by_id; apply in_map_iff; exists (i, r); auto).
    pose proof (lv_find Hq (rq := LReq ebin_cmp (docinfo_fetch by_id_read_docinfo) None false) eq_refl eq_refl eq_refl Hx None) as Hf.
    assert (Hin : In (i, r) l <-> q (id_entry i) = true).
    { split.
      - intros H. apply (in_map fst) in H. rewrite Hl1 in H. unfold Lx in H. apply filter_In in H. apply H.
      - intros H. assert (Hi : In i (map fst l)). { rewrite Hl1. unfold Lx, X. apply filter_In. split; [|exact H]. apply in_by_id. apply in_map_iff. exists (i, r). auto. }
        apply in_map_iff in Hi. destruct Hi as ([i' r'] & Hi & Hp'). cbn [fst] in Hi. subst i'. now rewrite (pair_fun S Hp (Hl2 _ Hp')). }
    rewrite Hin. unfold docinfo_by_id. cbn [dropped dbh dbf]. rewrite Hp0. unfold btree_lookup. rewrite <- (ab_id (pair_about S Hp)). cbn [id_entry fst] in Hf. rewrite filter_In in Hf.
    destruct Hf as [[[_ Hi] Hf]|[Hi (e & Hf)]]; rewrite Hf.
    + unfold out. cbn [run_calls found l_fetch docinfo_fetch fst snd id_entry]. rewrite (by_id_roundtrip (proj1 Di)). split; [|intros j H; injection H as <-; reflexivity]. split; [reflexivity|]. intros _. exact Hi.
    + split; [|intros j H; discriminate]. split; [|intros H; discriminate]. intros H. exfalso. apply Hi. split; [exact Hx|exact H].
  - intros u. rewrite walk_feed, Hl1. unfold all_docs. cbn [dropped dbh dbf]. rewrite Hp0. cbn [eo_tolerate]. set (rq := enum_request _ _ _ _ _). unfold btree_lookup.
    destruct (lv_from Hq (rq := rq) eq_refl eq_refl eq_refl [] u false) as (x & i' & A1 & _). rewrite A1. cbn [snd l_u].
    assert (Hfr : from rq [] (filter q (map id_entry X)) = map id_entry Lx).
    { unfold from. rewrite filter_map. rewrite filter_map. unfold Lx. f_equal. apply filter_all. intros y _. cbn [rq enum_request l_cmp]. unfold id_entry. cbn [fst]. rewrite lookup_ebin. destruct (di_id y); reflexivity. }
    rewrite Hfr, (@tol_feed _ rq (EnumOpts false false true) by_id_read_docinfo hookf id_entry); [|reflexivity|].
    + f_equal. f_equal. rewrite (proj2 (filter_all (chosen (EnumOpts false false true)) Lx)); [reflexivity|]. intros y _. reflexivity.
    + intros y Hy. unfold Lx, X in Hy. apply filter_In in Hy. destruct Hy as [Hy _]. rewrite in_by_id in Hy. exact (by_id_roundtrip (proj1 (in_ok S Hy))).
Qed.

Theorem stale_walk : exists rs, (forall r, In r rs <-> In r (v_docs v) /\ rescued d0 r) /\
  forall d n w d' n', dst d w -> (forall x, In x (v_docs w) -> P x) -> snd (walk_id_tree d0 [] (EnumOpts false false true) (rewind_hook c srcg) (d, n)) = (d', n') ->
  (exists log, writes (dbf d) log (dbf d')) /\ (fin47 (dbf d') ->
  let w' := fold_left add_missing rs w in
  dst d' w' /\ (forall x, In x (v_docs w') -> P x) /\ n <= n' /\ (n' = n -> w' = w) /\ lenN (v_docs w') + n = lenN (v_docs w) + n').
Proof.
  destruct walk_left as (l & H1 & H2 & H3). exists (map snd (filter foundb l)). split.
  - intros r. rewrite in_map_iff. split.
    + intros (p & <- & Hp). apply filter_In in Hp. destruct Hp as [Hp Hf]. pose proof (H1 _ Hp) as Hp'. split; [rewrite <- (sd_docs S); now apply in_map|].
      destruct (H2 p Hp') as [H4 _]. apply H4 in Hp. unfold foundb in Hf. destruct (open_doc_with_docinfo srcg (fst p) false) as [b|e] eqn:Ho; [|discriminate]. exists (fst p), b. split; [exact Hp|exact Ho].
    + intros [Hr (i & b & Hi & Ho)]. rewrite <- (sd_docs S) in Hr. apply in_map_iff in Hr. destruct Hr as (p & <- & Hp). exists p. split; [reflexivity|]. destruct (H2 p Hp) as [H4 H5].
      pose proof (H5 i Hi) as He. subst i. apply filter_In. split; [now apply H4|]. unfold foundb. change (open_doc_with_docinfo srcg (fst p) false) with (open_doc_with_docinfo d0 (fst p) false). now rewrite Ho.
  - intros d n w d' n' Hd Hw Hr. rewrite H3 in Hr. split.
    + destruct (feed_hook_writes (map fst l) (d, n)) as [log W]. rewrite Hr in W. exists log. exact W.
    + intros F. exact (stale_fold H1 Hd Hw Hr F).
Qed.
End Step.
End Stale.

(** ** What a walk does to the state of its function *)

Section Keep.
Context {E : Env}.
Variable U : Type.
Variable rq : lreq U.
Variable K : U -> Prop.
Hypothesis Hf : forall k v u, K u -> K (snd (l_fetch rq k v u)).
Hypothesis Hn : forall nc a u, l_node rq = Some nc -> K u -> K (snd (nc a u)).
Lemma rest_keep ks : forall ec s, K (l_u s) -> K (l_u (snd (lk_rest rq ks ec s))).
Proof.
  induction ks as [|k ks IH]; intros ec s H; [exact H|]. cbn [lk_rest]. destruct (l_fold s); [exact H|]. pose proof (@Hf k None _ H) as H1. destruct (l_fetch rq k None (l_u s)) as [[x|e] u]; [apply IH; exact H1|exact H1].
Qed.
Lemma entry_keep k v ks : forall ec s, K (l_u s) -> match kv_entry rq k v ks ec s with KDone _ s1 => K (l_u s1) | KMore _ _ s1 => K (l_u s1) end.
Proof.
  induction ks as [|k0 ks IH]; intros ec s H; [exact H|]. cbn [kv_entry].
  set (b := ge (lcmp rq k k0) && l_fold s && negb (l_in s)). set (s1 := if b then set_in true s else s). assert (H1 : K (l_u s1)) by (unfold s1; destruct b; exact H). clearbody s1.
  match goal with |- context [if l_in s1 && ?z then _ else _] => destruct (l_in s1 && z) end; [exact H1|]. destruct (ge (lcmp rq k k0)); [|exact H1].
  match goal with |- context [if ?z || l_in s1 then _ else _] => set (t := z || l_in s1) end. clearbody t.
  assert (F : K (snd (if t then l_fetch rq k (Some v) (l_u s1) else l_fetch rq k0 None (l_u s1)))) by (destruct t; apply Hf; exact H1).
  destruct (if t then l_fetch rq k (Some v) (l_u s1) else _) as [x u]. cbn [snd] in F.
  destruct x as [y|e], (l_tol rq); cbn [set_u l_u l_in]; try exact F; (destruct (l_in s1); [exact F|]; destruct (lcmp rq k k0); [exact F|apply IH; exact F|apply IH; exact F]).
Qed.
Lemma kv_keep items t : forall ks ec s, K (l_u s) -> K (l_u (snd (lk_kv rq items t ks ec s))).
Proof.
  induction items as [|[k v] items IH]; intros ks ec s H; (destruct ks as [|k0 ks]; [exact H|]); cbn [lk_kv].
  - destruct t; [apply rest_keep; exact H|exact H].
  - pose proof (@entry_keep k v (k0 :: ks) ec s H) as H1. destruct (kv_entry rq k v (k0 :: ks) ec s) as [x s1|ks1 ec1 s1]; [exact H1|apply IH; exact H1].
Qed.
Lemma node_keep a ec s : K (l_u s) -> K (l_u (snd (call_node rq a ec s))).
Proof. intros H. unfold call_node. destruct (l_node rq) as [nc|] eqn:He; [|exact H]. pose proof (@Hn nc a _ eq_refl H) as H1. destruct (nc a (l_u s)) as [x u]. exact H1. Qed.
Lemma kp_keep rec items t : (forall pos ks s, K (l_u s) -> K (l_u (snd (rec pos ks s)))) -> forall ks ec s, K (l_u s) -> K (l_u (snd (lk_kp rq rec items t ks ec s))).
Proof.
  intros Hrec. induction items as [|[ck v] items IH]; intros ks ec s H; (destruct ks as [|k0 ks]; [exact H|]); cbn [lk_kp].
  - destruct t; [apply rest_keep; exact H|exact H].
  - destruct (ge (lcmp rq ck k0)); [|apply IH; exact H]. destruct (span_ge rq ck ks) as [here later].
    set (s0 := if l_fold s then set_in true s else s). assert (H0 : K (l_u s0)) by (unfold s0; destruct (l_fold s); exact H). clearbody s0.
    destruct (read_pointer ck v) as [p|e]; [|exact H0]. pose proof (@node_keep (Some (np_subtree p, np_reduce p)) ec s0 H0) as H1.
    destruct (call_node rq _ ec s0) as [[x1 ec1] s2]. cbn [snd] in H1. destruct x1; [|exact H1]. pose proof (Hrec (np_pointer p) (k0 :: here) s2 H1) as H2.
    destruct (rec _ _ s2) as [x2 s3]. cbn [snd] in H2.
    assert (N3 : forall z w, K (l_u (snd (let '(x3, ec3, s4) := call_node rq None z s3 in match x3 with Ok _ => lk_kp rq rec items t w ec3 s4 | Err e => (Err e, s4) end)))).
    { intros z w. pose proof (@node_keep None z s3 H2) as H3. destruct (call_node rq None z s3) as [[x3 ec3] s4]. cbn [snd] in H3. destruct x3; [apply IH; exact H3|exact H3]. }
    destruct x2, (l_tol rq); try apply N3. exact H2.
Qed.
Lemma inner_keep F f : forall pos ks s, K (l_u s) -> K (l_u (snd (lookup_inner rq F f pos ks s))).
Proof.
  induction F as [|F IH]; intros pos ks s H; destruct ks as [|k ks]; try exact H. cbn [lookup_inner].
  destruct (node_at f pos) as [buf|e]; [|exact H]. destruct (node_items buf) as [items t].
  destruct buf as [|[|[q|q|]] r]; try (apply rest_keep; exact H); [apply kp_keep; [exact IH|exact H]|apply kv_keep; exact H].
Qed.
Lemma lookup_keep f pos ks fold u : K u -> K (snd (btree_lookup rq f pos ks fold u)).
Proof. intros H. unfold btree_lookup. pose proof (@inner_keep (depth_fuel f) f pos ks (Lst u fold false) H) as H1. destruct (lookup_inner rq _ _ _ _ _) as [x s]. exact H1. Qed.
End Keep.
Lemma walk_keep {E : Env} U (K : U -> Prop) d start o (cb : walk_fn U) u : (forall dep x u, K u -> K (snd (cb dep x u))) -> K u -> K (snd (walk_id_tree d start o cb u)).
Proof.
  intros Hcb H. unfold walk_id_tree, walk_tree. destruct (dropped d); [exact H|]. destruct (h_by_id (dbh d)) as [p|]; [|exact H].
  pose proof (Hcb 0 (INode (np_subtree p) (np_reduce p)) u H) as H1. destruct (cb 0 _ u) as [[x|e] u1]; [|exact H1]. cbn [snd] in H1.
  pose proof (@lookup_keep E (N * U) (walk_request ebin_cmp o by_id_read_docinfo cb) (fun z => K (snd z))) as L.
  assert (L1 : K (snd (snd (btree_lookup (walk_request ebin_cmp o by_id_read_docinfo cb) (dbf d) (np_pointer p) [start] true (1, u1))))).
  { apply L; [| |exact H1].
    - intros k v [n z] Hz. cbn [walk_request l_fetch snd] in *. unfold walk_fetch. cbn [fst snd].
      assert (Hl : K (snd (lookup_callback o by_id_read_docinfo (fun i u => cb n (IDoc i) u) k v z))).
      { unfold lookup_callback. destruct v as [b|]; [|exact Hz]. match goal with |- K (snd (match ?x with Ok _ => _ | Err _ => _ end)) => destruct x as [i|e] end; [|exact Hz]. destruct (_ && _); [exact Hz|]. destruct (_ && _); [exact Hz|]. apply Hcb. exact Hz. }
      destruct (lookup_callback _ _ _ _ _ _) as [y z']. exact Hl.
    - intros nc a [n z] Hnc Hz. cbn [walk_request l_node] in Hnc. injection Hnc as <-. destruct a as [[sz red]|]; cbn [walk_node_callback fst snd] in *; [|exact Hz].
      pose proof (Hcb n (INode sz red) z Hz) as H2. destruct (cb n _ z) as [y z']. exact H2. }
  destruct (btree_lookup _ _ _ _ _ _) as [y z]. exact L1.
Qed.
Lemma walk_writes {E : Env} c src d start o u : exists log, writes (dbf (fst u)) log (dbf (fst (snd (walk_id_tree d start o (rewind_hook c src) u)))).
Proof.
  apply (@walk_keep E (db * N) (fun z => exists log, writes (dbf (fst u)) log (dbf (fst z)))); [|exists []; constructor].
  intros dep x z [l1 W1]. unfold rewind_hook. destruct x as [sz red|i]; [exists l1; exact W1|]. destruct (docinfo_by_id _ _); [exists l1; exact W1|]. destruct (open_doc_with_docinfo _ _ _) as [b|e1]; [|exists l1; exact W1].
  cbn [snd fst]. destruct (save_writes c (SaveOpts false true) false [Submit (Some b) i 0] (fst z)) as [l2 W2]. exists (l2 ++ l1). eapply writes_trans; eassumption.
Qed.

(** ** All stale headers *)

Section Loop.
Context {E : Env} (EO : EnvOk E).
Lemma older_len d hs : older d hs -> (length hs <= N.to_nat (h_position (dbh d)))%nat.
Proof. induction 1 as [d e H|d d' hs H O IH]; cbn [length]; [lia|]. destruct (rewind_lower H) as (_ & _ & Hp). lia. Qed.

Hypothesis Hcomp : forall b, compress b <> None.
Variable c : cfg.
Hypothesis Hc : 2 <= c_kv c.
Variable h0 : header.
Variables f0 g : file.
Hypothesis G0 : good f0.
Hypothesis Sp : spoiled f0 g.
Variable P : revision -> Prop.
Hypothesis HP : forall x y, P x -> P y -> rv_seq x = rv_seq y -> rv_id x = rv_id y.
Variable alt : header.

Lemma loop_ok hvs : forall src fuel, older src (map fst hvs) -> dbf src = g -> dropped src = false -> (length hvs < fuel)%nat ->
  Forall (fun hv : header * contents => (exists ps, stored f0 (fst hv) (snd hv) ps) /\ Forall storable (v_docs (snd hv)) /\ forall r, In r (v_docs (snd hv)) -> P r) hvs ->
  exists rss, Forall2 (fun hv rs => forall r, In r rs <-> In r (v_docs (snd hv)) /\ rescued (Db g (fst hv) false) r) hvs rss /\
  forall d n w d' n', dst h0 d w -> (forall x, In x (v_docs w) -> P x) -> rewind_loop c fuel (Db g alt false) src (d, n) = (d', n') ->
  (exists log, writes (dbf d) log (dbf d')) /\ (fin47 (dbf d') ->
  let w' := fold_left add_missing (concat rss) w in
  dst h0 d' w' /\ n <= n' /\ (n' = n -> w' = w) /\ lenN (v_docs w') + n = lenN (v_docs w) + n').
Proof.
  induction hvs as [|[h v] hvs IH]; intros src fuel Ho Hg Hd Hlen Hf; (destruct fuel as [|fuel]; [cbn in Hlen; lia|]); cbn [rewind_loop].
  - exists []. split; [constructor|]. intros d n w d' n' H Hw Hr. inversion Ho as [d1 e He|]; subst. rewrite He in Hr. injection Hr as <- <-. split; [exists []; constructor|]. intros F.
    cbn [concat fold_left]. split; [exact H|]. split; [lia|]. split; [reflexivity|lia].
  - cbn [map fst] in Ho. inversion Ho as [|d1 src' hs Hr O E1 E2]; subst. destruct (rewind_lower Hr) as (R1 & R2 & _). rewrite Hr.
    inversion Hf as [|? ? ((ps & S) & Hst & HvP) Hf']; subst. cbn [fst snd] in *.
    destruct src' as [f1 h1 dr1]. cbn [dbf dropped dbh] in *. subst f1. rewrite Hd in R2. subst dr1.
    destruct (@stale_walk E EO Hcomp c Hc h0 (Db f0 h1 false) (dbf src) v ps G0 eq_refl Sp S Hst alt P HP HvP) as (rs & Hrs & Hwalk).
    destruct (IH (Db (dbf src) h1 false) fuel O eq_refl eq_refl ltac:(cbn [length] in Hlen; lia) Hf') as (rss & Hrss & Hloop).
    exists (rs :: rss). split; [constructor; [exact Hrs|exact Hrss]|]. intros d n w d' n' H Hw Hl. cbn [dbh] in Hwalk.
    destruct (snd (walk_id_tree _ _ _ _ _)) as [d1 n1] eqn:Hwk. destruct (Hwalk d n w d1 n1 H Hw Hwk) as ((l1 & W1) & A).
    assert (G1 : good (dbf d1)) by exact (le_good (writes_le EO (ho_good H) W1)).
    assert (W2 : forall fu s u, exists log, writes (dbf (fst u)) log (dbf (fst (rewind_loop c fu (Db (dbf src) alt false) s u)))).
    { clear - EO. intros fu. induction fu as [|fu IH]; intros s u; cbn [rewind_loop]; [exists []; constructor|]. destruct (rewind_db_header s) as [s'|e]; [|exists []; constructor].
      assert (Hw : exists log, writes (dbf (fst u)) log (dbf (fst (snd (walk_id_tree s' [] (EnumOpts false false true) (rewind_hook c (Db (dbf src) alt false)) u))))).
      { apply walk_writes. }
      destruct Hw as [la Wa]. destruct (IH s' (snd (walk_id_tree s' [] (EnumOpts false false true) (rewind_hook c (Db (dbf src) alt false)) u))) as [lb Wb]. exists (lb ++ la). eapply writes_trans; eassumption. }
    destruct (W2 fuel (Db (dbf src) h1 false) (d1, n1)) as [l2 Wl]. rewrite Hl in Wl. cbn [fst] in Wl.
    split; [exists (l2 ++ l1); eapply writes_trans; eassumption|]. intros F. cbn zeta.
    assert (F1 : fin47 (dbf d1)) by exact (fin47_le (writes_le EO G1 Wl) F).
    destruct (A F1) as (A1 & A2 & A3 & A4 & A5). destruct (Hloop d1 n1 _ d' n' A1 A2 Hl) as (_ & B). destruct (B F) as (B1 & B2 & B3 & B4).
    cbn [concat]. rewrite fold_left_app. split; [exact B1|]. split; [lia|]. split; [|lia]. intros He. assert (n1 = n) by lia. assert (n' = n1) by lia. rewrite (B3 H1). now apply A4.
Qed.
End Loop.
