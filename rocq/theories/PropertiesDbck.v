(** Property C71: the recovery program. *)
From Coq Require Import Sorting.Permutation.
From Verif Require Import Base SpecOrder Codec CodecFacts File FileFacts ChunkFacts Header HeaderFacts History CrashFacts DataFacts SpecCrash NavFacts ReachNav OpenFacts CommitFacts SpecFile PropertiesCrash
  Btree BtreeRead TreeStore SpecMap MergeFacts ModifyFacts LookupFacts Db SpecDb SortFacts ReduceFacts DbFacts DbSave DbRead TreeWriter Compact SpecCompact CompactFacts Replay SpecReplay
  SpecSession ShowFacts SessionFacts ReadFacts SaveFacts ErrorFacts EnvExample SessionExample Walk PropertiesDb PropertiesCompact
  SpecRecover RecoverFacts RecoverCopy RecoverLink PropertiesRecover PropertiesTolerate Dbck SpecDbck DbckFacts DbckLink.
Local Open Scope N_scope.
Unset Strict Implicit.

(** The database recovered from a damaged one has the documents that can be read in the latest version, as they were, and the local documents. If damage was detected and documents of older versions were asked for, it also
    has, for every id without a document, the revision of the latest older version in which it can be found with its body. The database is committed: it is what is found after any
    crash. The number of documents said to be recovered from older versions is right.
    Assumed: writes of the new file do not fail, its sizes are within the limits of the format, local documents can be read, every header found by going back is that of a
    commit, and no sequence number was given to two ids. *)
Theorem C71_recovers : forall (E : Env), EnvOk E -> (forall b, compress b <> None) -> forall getkey, key_ok None getkey ->
  forall s h v, sessions None getkey s -> snapshot s h v -> h_purge_ptr h = 0 -> h_purge_seq h + 1 < 2^48 -> h_timestamp h < 2^64 ->
  forall p, fpos (dbf (ss_db s)) <= p <= size (dbf (ss_db s)) -> forall g, spoiled (dbf (reader s h p)) g ->
  (forall id, In id (map fst (v_locals v)) -> exists x, open_local_document (Db g h false) id = Ok x) ->
  forall c pl pl2, 2 <= c_kv c -> calm (empty_file pl) -> calm (empty_file pl2) ->
  forall r t, compact c dbck_options (Db g h false) (empty_file pl) None = (r, t) -> room t -> fpos (dbf t) + BLOCK < 2^47 ->
  forall hvs, older (Db g h false) (map fst hvs) -> Forall (fun hv => snapshot s (fst hv) (snd hv) /\ Forall storable (v_docs (snd hv))) hvs ->
  (let some := v :: map snd hvs in forall v1 v2 x y, In v1 some -> In v2 some -> In x (v_docs v1) -> In y (v_docs v2) -> rv_seq x = rv_seq y -> rv_id x = rv_id y) ->
  exists b rss, (forall rv, In rv (v_docs v) -> (b rv = true <-> readable_doc (Db g h false) rv)) /\
    Forall2 (fun hv rs => forall rv, In rv rs <-> In rv (v_docs (snd hv)) /\ SpecDbck.rescued (Db g (fst hv) false) rv) hvs rss /\
    forall stale ts retries, ts < 2^64 ->
    exists x, recover_file c getkey (Db g h false) pl pl2 stale ts retries = Ok x /\
      (dk_detected x = false -> forall rv, In rv (v_docs v) -> readable_doc (Db g h false) rv) /\
      (room (dk_db x) -> fpos (dbf (dk_db x)) + BLOCK < 2^47 ->
       let w := Contents (filter b (v_docs v)) (v_locals v) (v_seq v) in
       let w' := if dk_detected x && stale then fold_left add_missing (concat rss) w else w in
       dk_res x = Ok tt /\ lenN (v_docs w') = lenN (v_docs w) + dk_stale x /\ shows_contents (dk_db x) w' /\
       forall gi gsz, crash_image (dbf (dk_db x)) gi gsz -> forall pl' recovery, exists d', open_existing (image gi gsz pl') getkey recovery false = Ok d' /\ shows_contents d' w').
Proof.
  intros E EO Hcomp getkey KO s h v H Sn Hpp Hps Hts p Hp g Sp Hloc c pl pl2 Hc Hcalm Hcalm2 r t Hcmp Rm Hend hvs Hold Hf Huniq.
  destruct (@dbck_link E EO Hcomp getkey KO s h v p g c pl pl2 H Sn Hpp Hps Hts Hp Sp Hloc Hc Hcalm Hcalm2 r t Hcmp Rm Hend hvs Hold Hf Huniq) as (b & rss & Hb & Hrss & Hr & Hrun).
  exists b, rss. split; [exact Hb|]. split; [exact Hrss|]. intros stale ts retries Hts2. destruct (Hrun stale ts retries Hts2) as (x & Hx & Hdet & _ & Hres). exists x. split; [exact Hx|]. split.
  { intros Hd. apply Hr. destruct r as [[]|e]; [reflexivity|]. exfalso. assert (dk_detected x = true) by (apply Hdet; left; eexists; reflexivity). congruence. }
  intros Rm2 Hend2. destruct (Hres Rm2 Hend2) as (A1 & A2 & q & old & t' & L'). clear Hres. cbv zeta in A2, L' |- *.
  split; [exact A1|]. split; [exact A2|]. pose proof (linked_shows EO KO L') as Sh. cbn [ss_db ss_now] in Sh. split; [exact Sh|].
  intros gi gsz Ci pl' recovery. destruct (link_open EO KO pl' recovery L' eq_refl Ci) as (d' & v' & s' & Ho & Hv & _ & Hs & _ & t2 & L2). exists d'. split; [exact Ho|].
  pose proof (linked_shows EO KO L2) as Sh2. rewrite Hs in Sh2. cbn [ss_db ss_now] in Sh2. destruct Hv as [-> | []]. exact Sh2.
Qed.
Print Assumptions C71_recovers.

(** The counters that are printed: the documents that are found by their sequence numbers in the latest version, and those among them that are not deleted and whose body cannot
    be read. *)
Theorem C71_counts : forall (E : Env), EnvOk E -> forall getkey, key_ok None getkey -> forall s h v, sessions None getkey s -> snapshot s h v ->
  forall p, fpos (dbf (ss_db s)) <= p <= size (dbf (ss_db s)) -> forall g, spoiled (dbf (reader s h p)) g ->
  let d := Db g h false in
  exists a b : revision -> bool,
    (forall r, In r (v_docs v) -> (a r = true <-> exists j, docinfo_by_sequence d (rv_seq r) = Ok j)) /\
    (forall r, In r (v_docs v) -> (b r = true <-> rv_deleted r = false /\ exists j e, docinfo_by_sequence d (rv_seq r) = Ok j /\ open_doc_with_docinfo d j false = Err e)) /\
    forall c pl pl2 stale ts retries x, recover_file c getkey d pl pl2 stale ts retries = Ok x ->
      dk_visited x = lenN (filter a (v_docs v)) /\ dk_corrupted x = lenN (filter b (v_docs v)) /\ (0 < dk_corrupted x -> dk_detected x = true).
Proof.
  intros E EO getkey KO s h v H Sn p Hp g Sp d. destruct (sessions_linked EO KO H) as [t0 L]. destruct (linked_snapshot EO KO L Sn) as [ps S]. destruct (sessions_stored EO KO H) as (G & _).
  assert (G0 : good (dbf (reader s h p))) by (apply good_fpos; [exact G|apply Hp]).
  assert (S0 : stored (dbf (reader s h p)) (dbh (reader s h p)) v ps) by (eapply stored_keeps; [apply set_fpos_keeps; apply Hp|exact S]).
  destruct (@counts_ok E EO (reader s h p) g v ps G0 Sp S0) as (a & b & Ha & Hb & Hab). change (Db g (dbh (reader s h p)) false) with d in *.
  exists a, b. split; [exact Ha|]. split; [exact Hb|]. intros c pl pl2 stale ts retries x. unfold recover_file. destruct (compact c dbck_options d (empty_file pl) None) as [r t].
  destruct (open_existing _ _ _ _) as [d0|e]; [|discriminate]. rewrite Hab. cbn zeta. match goal with |- context [let '(_, _) := ?z in _] => destruct z as [d1 n] end. match goal with |- context [let '(_, _) := ?z in _] => destruct z as [y d2] end.
  intros Hx. injection Hx as <-. cbn [dk_visited dk_corrupted dk_detected]. split; [reflexivity|]. split; [reflexivity|]. intros H0. apply N.ltb_lt in H0. rewrite H0. apply orb_true_r.
Qed.
Print Assumptions C71_counts.

(** *** A database with two versions *)
Definition z_batch1 : list submit := [mk [97] 1 false 0 (Some [1;2;3]) 11; mk [98] 1 false 0 (Some [9]) 12].
Definition z_batch2 : list submit := [mk [97] 2 false 0 (Some [4;5;6]) 13; mk [98] 2 true 0 None 14].
Definition zs1 : session := @after_docs env0 sx0 cf so false z_batch1.
Definition zs2 : session := @after_commit_ex env0 zs1 1000 0.
Definition zs3 : session := @after_docs env0 zs2 cf so false z_batch2.
Definition zs4 : session := @after_commit_ex env0 zs3 2000 0.
Definition zsrc : db := reader zs4 (dbh (ss_db zs4)) (fpos (dbf (ss_db zs4))).
(** Damage of one byte is checked at the positions up to it. Not part of the code. *)
Definition quick {E : Env} (f : file) (pos : N) : res bytes :=
  match rd1 (File.cur f) (size f) pos 4 with
  | Ok l => if N.land (unbe l) HIGH =? 0 then Err E_CORRUPT else qread f pos
  | Err e => Err e
  end.
Lemma quick_complete {E : Env} f pos b : fkey f = None -> pread_bin f pos = Ok b -> quick f pos = Ok b.
Proof.
  intros Hk Hr. destruct (qread_complete Hk Hr) as [Hq _]. unfold quick. pose proof Hr as Hr0. unfold pread_bin, pread_bin_internal in Hr. rewrite Hk, read_skip_eq in Hr. change (N.to_nat 8) with 8%nat in Hr.
  destruct (rd1 (File.cur f) (size f) pos 8) as [i|e] eqn:Ei; cbn [bind] in Hr; [|discriminate]. change 8%nat with (4 + 4)%nat in Ei. rewrite rd1_app in Ei.
  destruct (rd1 (File.cur f) (size f) pos 4) as [l|e] eqn:El; cbn [bind] in Ei; [|discriminate]. destruct (rd1 (File.cur f) (size f) (adv pos 4) 4) as [m|e]; cbn [bind] in Ei; [|discriminate]. assert (Hi : i = l ++ m) by congruence. subst i.
  destruct (@rd1_inv _ _ _ _ _ El) as (Ll & _).
  assert (Hg : getb 0 4 (l ++ m) = Ok l).
  { do 4 (destruct l as [|? l]; [discriminate|]). destruct l; [|discriminate]. unfold getb. cbn [app]. destruct (_ <=? _) eqn:Hle; [reflexivity|]. apply N.leb_gt in Hle. rewrite !lenN_cons in Hle. lia. }
  rewrite Hg in Hr. cbn [bind] in Hr. destruct (getb 4 4 (l ++ m)) as [q|e]; cbn [bind] in Hr; [|discriminate].
  destruct (N.land (unbe l) HIGH =? 0) eqn:Hh; [|exact Hq]. change (negb (0 =? 0)) with false in Hr. cbn [negb Bool.eqb] in Hr. discriminate.
Qed.
Lemma rd1_from (a b : N -> N) sz n : forall pos, (forall i, pos <= i -> a i = b i) -> rd1 a sz pos n = rd1 b sz pos n.
Proof.
  induction n as [|n IH]; intros pos H; [reflexivity|]. cbn [rd1]. assert (Hs : pos <= skip_prefix pos) by (unfold skip_prefix; destruct (_ =? _); lia).
  rewrite (IH (skip_prefix pos + 1)) by (intros i Hi; apply H; lia). rewrite (H _ Hs). reflexivity.
Qed.
Definition hitb {E : Env} (f : file) (p : N) : bool :=
  (match fkey f with None => true | Some _ => false end) &&
  forallb (fun n => match quick (hit f p) (N.of_nat n) with Err _ => true | Ok y => match qread f (N.of_nat n) with Ok x => beq x y | Err _ => false end end) (seq 0 (S (N.to_nat p))).
Lemma hit_check {E : Env} f p : hitb f p = true -> spoiled f (hit f p).
Proof.
  unfold hitb. rewrite andb_true_iff. intros [H2 H3]. split; [reflexivity|]. intros pos. destruct (pread_bin (hit f p) pos) as [b|e] eqn:Hg; [left|right; eauto].
  destruct (fkey f) as [k|] eqn:Hk; [discriminate|]. destruct (N.le_gt_cases pos p) as [Hp|Hp].
  - rewrite forallb_forall in H3. specialize (H3 (N.to_nat pos)). assert (Hin : In (N.to_nat pos) (seq 0 (S (N.to_nat p)))) by (apply List.in_seq; lia). specialize (H3 Hin). cbv beta in H3.
    rewrite Nnat.N2Nat.id in H3. rewrite (@quick_complete E (hit f p) pos b Hk Hg) in H3. destruct (qread f pos) as [x|e] eqn:Hf; [|discriminate]. apply beq_eq in H3. subst x. symmetry. exact (qread_sound Hf).
  - rewrite <- Hg. unfold pread_bin, pread_bin_internal. change (fkey (hit f p)) with (fkey f). rewrite Hk. rewrite !read_skip_eq. change (size (hit f p)) with (size f). change (crcm (hit f p)) with (crcm f).
    assert (Hc : forall i, pos <= i -> File.cur (hit f p) i = File.cur f i) by (intros i Hi; cbn [hit File.cur]; destruct (N.eqb_spec i p); [lia|reflexivity]).
    rewrite (@rd1_from _ _ (size f) (N.to_nat 8) pos Hc). destruct (rd1 (File.cur f) (size f) pos (N.to_nat 8)) as [i|e]; cbn [bind]; [|reflexivity].
    destruct (getb 0 4 i); cbn [bind]; [|reflexivity]. destruct (getb 4 4 i); cbn [bind]; [|reflexivity]. destruct (Bool.eqb _ _); [reflexivity|]. destruct (_ && _); [reflexivity|].
    rewrite !read_skip_eq. change (size (hit f p)) with (size f).
    match goal with |- context [rd1 (File.cur (hit f p)) (size f) ?p1 ?n] => rewrite (@rd1_from _ (File.cur f) (size f) n p1); [reflexivity|] end.
    intros j Hj. apply Hc. change (8 =? 0) with false in Hj. cbv iota in Hj. pose proof (@adv_more pos (N.to_nat 8)).
    assert (Hs : adv pos (N.to_nat 8) <= skip_prefix (adv pos (N.to_nat 8))) by (unfold skip_prefix; destruct (_ =? _); lia). lia.
Qed.
Definition z_body : file := hit (dbf zsrc) 4198.
Definition z_node : file := hit (dbf zsrc) 4285.
Lemma z_body_spoiled : @spoiled env0 (dbf zsrc) z_body. Proof. apply hit_check. vm_compute. reflexivity. Qed.
Lemma z_node_spoiled : @spoiled env0 (dbf zsrc) z_node. Proof. apply hit_check. vm_compute. reflexivity. Qed.
Lemma zs_write1 : @write env0 sx0 zs1. Proof. apply docs_write; [discriminate| |vm_compute; reflexivity]. apply batch_check; vm_compute; reflexivity. Qed.
Lemma zs_write2 : @write env0 zs1 zs2. Proof. apply commit_write; vm_compute; reflexivity. Qed.
Lemma zs_write3 : @write env0 zs2 zs3. Proof. apply docs_write; [discriminate| |vm_compute; reflexivity]. apply batch_check; vm_compute; reflexivity. Qed.
Lemma zs_write4 : @write env0 zs3 zs4. Proof. apply commit_write; vm_compute; reflexivity. Qed.
Lemma zs1_session : @sessions env0 None gks zs1. Proof. exact (sess_write sx0_session zs_write1). Qed.
Lemma zs2_session : @sessions env0 None gks zs2. Proof. exact (sess_write zs1_session zs_write2). Qed.
Lemma zs3_session : @sessions env0 None gks zs3. Proof. exact (sess_write zs2_session zs_write3). Qed.
Lemma zs4_session : @sessions env0 None gks zs4. Proof. exact (sess_write zs3_session zs_write4). Qed.

(** The handle on the damaged file, and those that rewinding it leads to. *)
Definition z_d (f : file) : db := Db f (dbh (ss_db zs4)) false.
Definition back (d : db) : db := match @rewind_db_header env0 d with Ok d' => d' | Err _ => d end.
Definition canback (d : db) : bool := match @rewind_db_header env0 d with Ok _ => true | Err _ => false end.
Lemma back_older d hs : canback d = true -> @older env0 (back d) hs -> @older env0 d (dbh (back d) :: hs).
Proof. unfold canback, back. destruct (rewind_db_header d) as [d'|e] eqn:Hd; [|discriminate]. intros _ H. exact (older_step Hd H). Qed.
Lemma back_end d : canback d = false -> @older env0 d [].
Proof. unfold canback. destruct (rewind_db_header d) as [d'|e] eqn:Hd; [discriminate|]. intros _. exact (older_end Hd). Qed.
Definition nth_version (s : session) (n : nat) : version := nth n (opt_list (ss_ack s) ++ ss_old s) (Version 0 no_contents).
Lemma nth_snapshot {E : Env} s n h : (Nat.ltb n (length (opt_list (ss_ack s) ++ ss_old s))) = true -> find_header_at_pos (dbf (ss_db s)) header0 (vn_pos (nth_version s n)) = (Ok tt, h) ->
  snapshot s h (vn_contents (nth_version s n)).
Proof. intros H1 H2. right. exists (nth_version s n). split; [apply nth_In; now apply Nat.ltb_lt|]. split; [exact H2|reflexivity]. Qed.
Definition z_hvs (f : file) : list (header * contents) := [(dbh (back (z_d f)), vn_contents (nth_version zs4 1)); (dbh (back (back (z_d f))), vn_contents (nth_version zs4 2))].
Lemma z_older f : canback (z_d f) && canback (back (z_d f)) && negb (canback (back (back (z_d f)))) = true -> @older env0 (z_d f) (map fst (z_hvs f)).
Proof. rewrite !andb_true_iff, negb_true_iff. intros [[H1 H2] H3]. apply back_older; [exact H1|]. apply back_older; [exact H2|]. now apply back_end. Qed.
(** No sequence number is given to two ids. Not part of the code. *)
Definition uniqb (l : list contents) : bool :=
  let rs := flat_map v_docs l in forallb (fun x => forallb (fun y => negb (rv_seq x =? rv_seq y) || beq (rv_id x) (rv_id y)) rs) rs.
Lemma uniq_check l : uniqb l = true -> forall v1 v2 x y, In v1 l -> In v2 l -> In x (v_docs v1) -> In y (v_docs v2) -> rv_seq x = rv_seq y -> rv_id x = rv_id y.
Proof.
  unfold uniqb. cbv zeta. intros H v1 v2 x y H1 H2 Hx Hy He. rewrite forallb_forall in H. specialize (H x). rewrite in_flat_map in H. specialize (H (ex_intro _ v1 (conj H1 Hx))).
  rewrite forallb_forall in H. specialize (H y). rewrite in_flat_map in H. specialize (H (ex_intro _ v2 (conj H2 Hy))). apply N.eqb_eq in He. rewrite He in H. now apply beq_eq.
Qed.
Lemma storable_check {E : Env} l : forallb (fun r => sizeb (rv_body r)) l = true -> Forall storable l.
Proof.
  rewrite forallb_forall, Forall_forall. intros H r Hr. specialize (H r Hr). unfold storable. unfold sizeb in H. destruct (rv_body r) as [[b|b]|]; [| |exact Logic.I]; cbn [stored_as].
  - intros z ->. now apply N.ltb_lt.
  - intros z Hz. rewrite Hz in H. now apply N.ltb_lt.
Qed.
Definition z_run (f : file) (pl2 : list wstep) (stale : bool) : res dbck_end := @recover_file env0 cf gks (z_d f) [] pl2 stale 3000 0.
Definition z_compact (f : file) : res unit * db := @compact env0 cf dbck_options (z_d f) (empty_file []) None.
Definition ended (x : res dbck_end) (test : dbck_end -> bool) : bool := match x with Ok y => test y | Err _ => false end.
Lemma ended_run x test : ended x test = true -> exists y, x = Ok y /\ test y = true.
Proof. destruct x as [y|e]; [|discriminate]. intros H. exists y. auto. Qed.
Definition is_body (d : db) (id b : bytes) : bool := match @open_document env0 d id false with Ok x => beq x b | Err _ => false end.
Definition is_deleted (d : db) (id : bytes) : bool := match @docinfo_by_id env0 d id with Ok i => di_deleted i | Err _ => false end.
Definition is_missing (d : db) (id : bytes) : bool := match @docinfo_by_id env0 d id with Err E_DOC_NOT_FOUND => true | _ => false end.
Definition is_ok (r : res unit) : bool := match r with Ok _ => true | Err _ => false end.

Lemma z_snapshot1 : @snapshot env0 zs4 (dbh (back (z_d z_body))) (vn_contents (nth_version zs4 1)). Proof. apply (@nth_snapshot env0 zs4 1%nat); vm_compute; reflexivity. Qed.
Lemma z_snapshot2 : @snapshot env0 zs4 (dbh (back (back (z_d z_body)))) (vn_contents (nth_version zs4 2)). Proof. apply (@nth_snapshot env0 zs4 2%nat); vm_compute; reflexivity. Qed.
Lemma z_storable1 : Forall (@storable env0) (v_docs (vn_contents (nth_version zs4 1))). Proof. apply (@storable_check env0). vm_compute. reflexivity. Qed.
Lemma z_storable2 : Forall (@storable env0) (v_docs (vn_contents (nth_version zs4 2))). Proof. apply (@storable_check env0). vm_compute. reflexivity. Qed.

(** The latest body of "a" is damaged; "b" is deleted in the latest version. The recovered database has the previous body of "a", and "b" stays deleted. *)
Example C71_ex : @sessions env0 None gks zs4 /\ @snapshot env0 zs4 (dbh (ss_db zs4)) (ss_now zs4) /\
  (h_purge_ptr (dbh (ss_db zs4)) =? 0) && (h_purge_seq (dbh (ss_db zs4)) + 1 <? 2^48) && (h_timestamp (dbh (ss_db zs4)) <? 2^64) && (fpos (dbf (ss_db zs4)) <=? size (dbf (ss_db zs4))) = true /\
  @spoiled env0 (dbf (reader zs4 (dbh (ss_db zs4)) (fpos (dbf (ss_db zs4))))) z_body /\ v_locals (ss_now zs4) = [] /\
  room (snd (z_compact z_body)) /\ (fpos (dbf (snd (z_compact z_body))) + BLOCK <? 2^47) = true /\
  @older env0 (Db z_body (dbh (ss_db zs4)) false) (map fst (z_hvs z_body)) /\
  Forall (fun hv => @snapshot env0 zs4 (fst hv) (snd hv) /\ Forall (@storable env0) (v_docs (snd hv))) (z_hvs z_body) /\
  (let some := ss_now zs4 :: map snd (z_hvs z_body) in forall v1 v2 x y, In v1 some -> In v2 some -> In x (v_docs v1) -> In y (v_docs v2) -> rv_seq x = rv_seq y -> rv_id x = rv_id y) /\
  ended (z_run z_body [] true) (fun y => is_ok (dk_res y) && (dk_visited y =? 2) && (dk_corrupted y =? 1) && (dk_stale y =? 1) && roomb (dk_db y) && (fpos (dbf (dk_db y)) + BLOCK <? 2^47) &&
    is_body (dk_db y) [97] [1;2;3] && is_deleted (dk_db y) [98]) = true.
Proof.
  split; [exact zs4_session|]. split; [left; split; reflexivity|]. split; [vm_compute; reflexivity|]. split; [exact z_body_spoiled|]. split; [vm_compute; reflexivity|].
  split; [apply room_check; vm_compute; reflexivity|]. split; [vm_compute; reflexivity|]. split; [apply z_older; vm_compute; reflexivity|]. split.
  { apply Forall_cons; [split; [exact z_snapshot1|exact z_storable1]|]. apply Forall_cons; [split; [exact z_snapshot2|exact z_storable2]|]. apply Forall_nil. }
  split; [apply uniq_check; vm_compute; reflexivity|]. vm_compute. reflexivity.
Qed.

(** *** What it does not do *)

(** If the local documents cannot be read, the new database cannot be opened, and a null pointer is followed. *)
Theorem C71_null_refuted : exists (E : Env) s g, EnvOk E /\ sessions None gks s /\ spoiled (dbf (reader s (dbh (ss_db s)) (fpos (dbf (ss_db s))))) g /\
  (forall rv, In rv (v_docs (ss_now s)) -> readable_doc (Db g (dbh (ss_db s)) false) rv) /\
  forall stale ts retries, recover_file cf gks (Db g (dbh (ss_db s)) false) [] [] stale ts retries = Err E_UB.
Proof.
  exists env0, sx2, local_hit. split; [exact env0_ok|]. split; [exact sx2_session|]. split; [fold src2; apply spoiled_check; vm_compute; reflexivity|]. split.
  - assert (H : forallb (@readableb env0 (Db local_hit (dbh (ss_db sx2)) false)) (v_docs (ss_now sx2)) = true) by (vm_compute; reflexivity).
    rewrite forallb_forall in H. intros rv Hrv. apply readable_check. exact (H rv Hrv).
  - intros stale ts retries. vm_compute. reflexivity.
Qed.
Print Assumptions C71_null_refuted.

(** What a run of the program ends with, for handles in general. *)
Lemma run_deleted (d : db) : ended (@recover_file env0 cf gks d [] [] true 3000 0) (fun y => is_ok (dk_res y) && is_body (dk_db y) [98] [9]) = true ->
  exists y, @recover_file env0 cf gks d [] [] true 3000 0 = Ok y /\ dk_res y = Ok tt /\ @open_document env0 (dk_db y) [98] false = Ok [9].
Proof.
  intros H. destruct (ended_run H) as (y & Hy & Ht). apply andb_prop in Ht. destruct Ht as [H1 H2]. exists y. split; [exact Hy|].
  split; [destruct (dk_res y) as [[]|e]; [reflexivity|discriminate]|]. unfold is_body in H2. destruct (open_document (dk_db y) [98] false) as [x|e]; [|discriminate]. apply beq_eq in H2. now rewrite H2.
Qed.
Lemma run_count (d : db) : ended (@recover_file env0 cf gks d [] [full] true 3000 0) (fun y => is_ok (dk_res y) && (dk_stale y =? 1) && is_missing (dk_db y) [97]) = true ->
  exists y, @recover_file env0 cf gks d [] [full] true 3000 0 = Ok y /\ dk_res y = Ok tt /\ dk_stale y = 1 /\ @docinfo_by_id env0 (dk_db y) [97] = Err E_DOC_NOT_FOUND.
Proof.
  intros H. destruct (ended_run H) as (y & Hy & Ht). apply andb_prop in Ht. destruct Ht as [Ht H3]. apply andb_prop in Ht. destruct Ht as [H1 H2]. exists y. split; [exact Hy|].
  split; [destruct (dk_res y) as [[]|e]; [reflexivity|discriminate]|]. split; [now apply N.eqb_eq|]. unfold is_missing in H3. destruct (docinfo_by_id (dk_db y) [97]) as [x|e]; [discriminate|]. destruct e; (discriminate || reflexivity).
Qed.
Lemma run_success (d : db) : ended (@recover_file env0 cf gks d [] [] false 3000 0) (fun y => is_ok (dk_res y) && ((dk_visited y =? 0) && (dk_corrupted y =? 0)) && (is_missing (dk_db y) [97] && is_missing (dk_db y) [98])) = true ->
  exists y, @recover_file env0 cf gks d [] [] false 3000 0 = Ok y /\ dk_res y = Ok tt /\ dk_visited y = 0 /\ dk_corrupted y = 0 /\
    @docinfo_by_id env0 (dk_db y) [97] = Err E_DOC_NOT_FOUND /\ @docinfo_by_id env0 (dk_db y) [98] = Err E_DOC_NOT_FOUND.
Proof.
  intros H. destruct (ended_run H) as (y & Hy & Ht). apply andb_prop in Ht. destruct Ht as [Ht H3]. apply andb_prop in Ht. destruct Ht as [H1 H2]. apply andb_prop in H2. destruct H2 as [H2 H2']. apply andb_prop in H3. destruct H3 as [H3 H4].
  exists y. split; [exact Hy|]. split; [destruct (dk_res y) as [[]|e]; [reflexivity|discriminate]|]. split; [now apply N.eqb_eq|]. split; [now apply N.eqb_eq|]. unfold is_missing in H3, H4. split.
  - destruct (docinfo_by_id (dk_db y) [97]) as [x|e]; [discriminate|]. destruct e; (discriminate || reflexivity).
  - destruct (docinfo_by_id (dk_db y) [98]) as [x|e]; [discriminate|]. destruct e; (discriminate || reflexivity).
Qed.
Lemma docinfo_deleted (d : db) : is_deleted d [98] = true -> exists i, @docinfo_by_id env0 d [98] = Ok i /\ di_deleted i = true.
Proof. unfold is_deleted. destruct (docinfo_by_id d [98]) as [i|e]; [|discriminate]. intros H. exists i. auto. Qed.

(** A document that was deleted comes back if the record of the deletion is lost: damage of one node of the index by sequence numbers, and "b" has its old body again. *)
Theorem C71_deleted_refuted : exists (E : Env) s g, EnvOk E /\ sessions None gks s /\ spoiled (dbf (reader s (dbh (ss_db s)) (fpos (dbf (ss_db s))))) g /\
  (exists i, docinfo_by_id (ss_db s) [98] = Ok i /\ di_deleted i = true) /\
  exists y, recover_file cf gks (Db g (dbh (ss_db s)) false) [] [] true 3000 0 = Ok y /\ dk_res y = Ok tt /\ open_document (dk_db y) [98] false = Ok [9].
Proof.
  exists env0, zs4, z_node. split; [exact env0_ok|]. split; [exact zs4_session|]. split; [exact z_node_spoiled|]. split; [apply docinfo_deleted; vm_compute; reflexivity|].
  apply run_deleted. vm_compute. reflexivity.
Qed.
Print Assumptions C71_deleted_refuted.

(** A document is counted as recovered from an older version though writing it failed; the program ends with success. *)
Theorem C71_count_refuted : exists (E : Env) s g pl2, EnvOk E /\ sessions None gks s /\ spoiled (dbf (reader s (dbh (ss_db s)) (fpos (dbf (ss_db s))))) g /\
  exists y, recover_file cf gks (Db g (dbh (ss_db s)) false) [] pl2 true 3000 0 = Ok y /\ dk_res y = Ok tt /\ dk_stale y = 1 /\ docinfo_by_id (dk_db y) [97] = Err E_DOC_NOT_FOUND.
Proof.
  exists env0, zs4, z_body, [full]. split; [exact env0_ok|]. split; [exact zs4_session|]. split; [exact z_body_spoiled|]. apply run_count. vm_compute. reflexivity.
Qed.
Print Assumptions C71_count_refuted.

(** Success does not mean that nothing is lost: without the option for older versions the database recovered from the same file is empty. *)
Theorem C71_success_refuted : exists (E : Env) s g, EnvOk E /\ sessions None gks s /\ spoiled (dbf (reader s (dbh (ss_db s)) (fpos (dbf (ss_db s))))) g /\ lenN (v_docs (ss_now s)) = 2 /\
  exists y, recover_file cf gks (Db g (dbh (ss_db s)) false) [] [] false 3000 0 = Ok y /\ dk_res y = Ok tt /\ dk_visited y = 0 /\ dk_corrupted y = 0 /\
    docinfo_by_id (dk_db y) [97] = Err E_DOC_NOT_FOUND /\ docinfo_by_id (dk_db y) [98] = Err E_DOC_NOT_FOUND.
Proof.
  exists env0, zs4, z_node. split; [exact env0_ok|]. split; [exact zs4_session|]. split; [exact z_node_spoiled|]. split; [vm_compute; reflexivity|]. apply run_success. vm_compute. reflexivity.
Qed.
Print Assumptions C71_success_refuted.
