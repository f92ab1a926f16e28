(** Property C47: replaying the changes of the source in the target of a compaction. *)
From Verif Require Import Base SpecOrder Codec CodecFacts File FileFacts ChunkFacts Header HeaderFacts History CrashFacts DataFacts SpecCrash NavFacts ReachNav OpenFacts CommitFacts SpecFile PropertiesCrash
  Btree BtreeRead TreeStore SpecMap MergeFacts ModifyFacts Db SpecDb SortFacts ReduceFacts DbFacts DbSave DbRead TreeWriter Compact SpecCompact CompactFacts Replay SpecReplay ReplayFacts
  SpecSession ShowFacts SessionFacts ReadFacts SaveFacts ErrorFacts EnvExample SessionExample PropertiesDb PropertiesSave PropertiesTree PropertiesCompact.
Local Open Scope N_scope.
Unset Strict Implicit.

(** ** What grows *)

(** [v] came from [v0] by changes that replaying can follow. *)
Record later (v0 v : contents) : Prop := {
  la_old : forall r, In r (v_docs v) -> rv_seq r <= v_seq v0 -> In r (v_docs v0);
  la_kept : forall r, In r (v_docs v0) -> exists r', In r' (v_docs v) /\ rv_id r' = rv_id r /\ (r' = r \/ v_seq v0 < rv_seq r');
  la_local : forall x, In x (v_locals v0) -> exists y, In y (v_locals v) /\ fst y = fst x;
  la_seq : v_seq v0 <= v_seq v;
  la_top : v_seq v = v_seq v0 \/ exists r, In r (v_docs v) /\ rv_seq r = v_seq v /\ v_seq v0 < rv_seq r;
  la_max : forall r, In r (v_docs v) -> rv_seq r <= v_seq v;
  la_ids : NoDup (map rv_id (v_docs v));
  la_lids : NoDup (map fst (v_locals v))
}.
Lemma new_le o l s r : In r (new_revs o s l) -> rv_seq r <= last_seq o s l.
Proof. exact (@new_revs_le (Cfg 2 2) (N.le_refl 2) o l s r). Qed.
Lemma new_above o l s r : (so_as_is o = true -> Forall (fun x => s < di_db_seq (sb_info x)) l) -> In r (new_revs o s l) -> s < rv_seq r.
Proof.
  intros H Hr. destruct (so_as_is o) eqn:Ho; [|now apply (@new_revs_above (Cfg 2 2) (N.le_refl 2) o l Ho s)]. specialize (H eq_refl). rewrite Forall_forall in H.
  apply (in_map rv_seq) in Hr. rewrite (@new_revs_given o l Ho) in Hr. apply in_map_iff in Hr. destruct Hr as (x & <- & Hx). exact (H x Hx).
Qed.
Lemma new_last o l : forall s, l <> [] -> (so_as_is o = true -> Forall (fun x => s < di_db_seq (sb_info x)) l) -> exists r, In r (new_revs o s l) /\ rv_seq r = last_seq o s l.
Proof.
  assert (H : forall s, last_seq o s l = s \/ exists r, In r (new_revs o s l) /\ rv_seq r = last_seq o s l).
  { induction l as [|x l IH]; intros s; [left; unfold last_seq; cbn; destruct (so_as_is o); [|change (lenN []) with 0]; lia|].
    rewrite last_seq_cons. cbn [new_revs]. destruct (so_as_is o) eqn:Ho.
    - destruct (IH (N.max s (di_db_seq (sb_info x)))) as [H|(r & H1 & H2)].
      + rewrite H. destruct (N.max_spec s (di_db_seq (sb_info x))) as [[_ ->]|[_ ->]]; [|now left]. right. eexists. split; [now left|reflexivity].
      + right. exists r. split; [|exact H2]. right. clear - H1 Ho. revert H1. generalize (N.max s (di_db_seq (sb_info x))). intros s'. revert s s'. induction l as [|y l IH]; intros s s' H; [destruct H|].
        cbn [new_revs] in *. rewrite Ho in *. destruct H as [H|H]; [now left|right; eapply IH; exact H].
    - destruct (IH (s + 1)) as [H|(r & H1 & H2)]; right.
      + eexists. split; [now left|]. now rewrite H.
      + exists r. split; [now right|exact H2]. }
  intros s Hl Ha. destruct (H s) as [E|X]; [|exact X]. exfalso. destruct l as [|x l]; [congruence|].
  assert (Hx : exists r, In r (new_revs o s (x :: l))) by (cbn [new_revs]; destruct (so_as_is o); eexists; now left).
  destruct Hx as [r Hr]. pose proof (new_above Ha Hr). pose proof (new_le Hr). lia.
Qed.
Lemma save_in {E : Env} o l v r : batch_ok o l v -> In r (v_docs (save o l v)) <->
  In r (new_revs o (v_seq v) l) \/ (In r (v_docs v) /\ forall x, In x (new_revs o (v_seq v) l) -> rv_id x <> rv_id r).
Proof.
  intros B. cbn [save v_docs]. change (fold_left (fun d r => SpecDb.put r d) ?a ?b) with (gputs rv_id a b). apply gputs_in. rewrite new_revs_ids. exact (bt_ids B).
Qed.
Lemma put_locals_key l : Forall (fun x => ld_deleted x = false) l -> forall v x, In x v -> exists y, In y (fold_left (fun d x => put_local x d) l v) /\ fst y = fst x.
Proof.
  induction l as [|z l IH]; intros Hf v x Hx; [exists x; auto|]. inv Hf. cbn [fold_left].
  assert (Hy : exists y, In y (put_local z v) /\ fst y = fst x).
  { unfold put_local. rewrite H1. destruct (list_eq_dec N.eq_dec (fst x) (ld_id z)) as [He|He].
    - exists (ld_id z, ld_json z). split; [now left|]. now rewrite He.
    - exists x. split; [right; apply filter_In; split; [exact Hx|]; rewrite negb_true_iff; now apply same_false|reflexivity]. }
  destruct Hy as (y & Hy & He). destruct (IH H2 _ _ Hy) as (y' & H3 & H4). exists y'. split; [exact H3|congruence].
Qed.
Lemma later_grows {E : Env} v0 v w : later v0 v -> grows v w -> later v0 w.
Proof.
  intros L G. revert L. induction G as [v|v o l w B Ha G IH|v l w Hl G IH]; intros L; [exact L| |]; apply IH; clear G IH.
  - destruct L as [L1 L2 L3 L4 L5 L6 L7 L8]. constructor.
    + intros r Hr Hs. rewrite (save_in _ B) in Hr. destruct Hr as [Hr|[Hr _]]; [|auto]. pose proof (new_above Ha Hr). lia.
    + intros r Hr. destruct (L2 r Hr) as (r' & R1 & R2 & R3).
      destruct (existsb (fun n => same (rv_id n) (rv_id r')) (new_revs o (v_seq v) l)) eqn:Hx.
      * apply existsb_exists in Hx. destruct Hx as (n & Hn & Hs). apply same_true in Hs. exists n. split; [apply (save_in _ B); now left|]. split; [congruence|]. right. pose proof (new_above Ha Hn). lia.
      * exists r'. split; [|auto]. apply (save_in _ B). right. split; [exact R1|]. intros n Hn He.
        assert (existsb (fun n => same (rv_id n) (rv_id r')) (new_revs o (v_seq v) l) = true); [|congruence]. apply existsb_exists. exists n. split; [exact Hn|now apply same_true].
    + exact L3.
    + cbn [save v_seq]. pose proof (last_seq_ge o l (v_seq v)). lia.
    + destruct l as [|x l].
      * assert (Hs : save o [] v = v). { unfold save. cbn [new_revs fold_left]. unfold last_seq. cbn [fold_left]. change (lenN (@nil submit)) with 0. rewrite N.add_0_r. destruct (so_as_is o), v; reflexivity. }
        rewrite Hs. exact L5.
      * right. destruct (@new_last o (x :: l) (v_seq v)) as (r & R1 & R2); [discriminate|exact Ha|]. exists r. split; [apply (save_in _ B); now left|]. split; [exact R2|]. pose proof (new_above Ha R1). lia.
    + intros r Hr. rewrite (save_in _ B) in Hr. cbn [save v_seq]. destruct Hr as [Hr|[Hr _]]; [exact (new_le Hr)|]. pose proof (last_seq_ge o l (v_seq v)). specialize (L6 r Hr). lia.
    + cbn [save v_docs]. change (fold_left (fun d r => SpecDb.put r d) ?a ?b) with (gputs rv_id a b). now apply gputs_nodup.
    + exact L8.
  - destruct L as [L1 L2 L3 L4 L5 L6 L7 L8]. constructor; auto; cbn [save_locals v_locals].
    + intros x Hx. destruct (L3 x Hx) as (y & Y1 & Y2). destruct (put_locals_key Hl Y1) as (y' & Y3 & Y4). exists y'. split; [exact Y3|congruence].
    + now apply put_locals_nodup.
Qed.
Lemma later_refl v : (forall r, In r (v_docs v) -> rv_seq r <= v_seq v) -> NoDup (map rv_id (v_docs v)) -> NoDup (map fst (v_locals v)) -> later v v.
Proof.
  intros H1 H2 H3. constructor; auto.
  - intros r Hr. exists r. auto.
  - intros x Hx. exists x. auto.
  - apply N.le_refl.
Qed.
Lemma foldmax_ge l : forall s, s <= fold_left N.max l s /\ forall x, In x l -> x <= fold_left N.max l s.
Proof.
  induction l as [|y l IH]; intros s; cbn [fold_left]; [split; [lia|intros ? []]|]. destruct (IH (N.max s y)) as [H1 H2]. split; [lia|]. intros x [->|Hx]; [lia|auto].
Qed.
Lemma foldmax_le l b : forall s, s <= b -> (forall x, In x l -> x <= b) -> fold_left N.max l s <= b.
Proof. induction l as [|y l IH]; intros s Hs Hl; cbn [fold_left]; [exact Hs|]. apply IH; [|intros; apply Hl; now right]. specialize (Hl y (or_introl eq_refl)). lia. Qed.

Lemma later_caught_up v0 v t : later v0 v -> same_contents t v0 -> same_contents (caught_up (v_seq v0) v t) v.
Proof.
  intros [L1 L2 L3 L4 L5 L6 L7 L8] (T1 & T2 & T3). unfold caught_up.
  assert (Hn : forall r, In r (newer (v_seq v0) v) <-> In r (v_docs v) /\ v_seq v0 < rv_seq r) by (intros r; unfold newer; now rewrite filter_In, N.ltb_lt).
  split; [|split]; cbn [v_docs v_locals v_seq].
  - intros r. rewrite in_app_iff, filter_In, negb_true_iff, Hn. split.
    + intros [[H _]|[H1 H2]]; [exact H|]. apply T1 in H1. destruct (L2 r H1) as (r' & R1 & R2 & [->|R3]); [exact R1|]. exfalso.
      assert (existsb (fun n => same (rv_id n) (rv_id r)) (newer (v_seq v0) v) = true); [|congruence]. apply existsb_exists. exists r'. split; [now apply Hn|now apply same_true].
    + intros Hr. destruct (N.le_gt_cases (rv_seq r) (v_seq v0)) as [Hs|Hs]; [|left; auto]. right. split; [apply T1; auto|].
      destruct (existsb _ _) eqn:Hx; [|reflexivity]. exfalso. apply existsb_exists in Hx. destruct Hx as (n & Hi & He). apply same_true in He. apply Hn in Hi.
      pose proof (@nodup_map_eq _ _ rv_id _ _ _ L7 (proj1 Hi) Hr He). subst n. lia.
  - intros x. rewrite in_app_iff, filter_In, negb_true_iff. split; [|auto]. intros [H|[H1 H2]]; [exact H|]. exfalso. apply T2 in H1. destruct (L3 x H1) as (y & Y1 & Y2).
    assert (existsb (fun y : kv => same (fst y) (fst x)) (v_locals v) = true); [|congruence]. apply existsb_exists. exists y. split; [exact Y1|now apply same_true].
  - rewrite T3. apply N.le_antisymm.
    + apply foldmax_le; [exact L4|]. intros s Hs. apply in_map_iff in Hs. destruct Hs as (r & <- & Hr). apply Hn in Hr. now apply L6.
    + destruct (foldmax_ge (map rv_seq (newer (v_seq v0) v)) (v_seq v0)) as [H1 H2]. destruct L5 as [->|(r & R1 & R2 & R3)]; [exact H1|]. rewrite <- R2. apply H2, in_map, Hn. auto.
Qed.
Lemma stored_later {E : Env} f h v ps : stored f h v ps -> later v v.
Proof.
  intros S. pose proof (sd_rep S) as HR. rewrite Forall_forall in HR. apply later_refl.
  - intros r Hr. rewrite <- (sd_docs S) in Hr. apply in_map_iff in Hr. destruct Hr as (p & <- & Hp). rewrite <- (ab_seq (proj1 (HR p Hp))). exact (sd_max S _ Hp).
  - rewrite <- (sd_docs S), map_map. erewrite map_ext_in; [exact (sd_ids S)|]. intros p Hp. symmetry. exact (ab_id (proj1 (HR p Hp))).
  - exact (sd_lids S).
Qed.
Lemma stored_same {E : Env} f h a b ps : stored f h a ps -> same_contents a b -> NoDup (map rv_id (v_docs b)) -> NoDup (map fst (v_locals b)) -> exists ps', stored f h b ps'.
Proof.
  intros S (H1 & H2 & H3) N1 N2. destruct (@stored_convert E f h a ps (v_docs b) (v_locals b) snd S) as [ps' S'].
  - intros p Hp. pose proof (sd_rep S) as HR. rewrite Forall_forall in HR. now apply HR.
  - rewrite (sd_docs S). apply NoDup_Permutation.
    + now apply NoDup_map_inv in N1.
    + pose proof (la_ids (stored_later S)) as N3. now apply NoDup_map_inv in N3.
    + intros r. symmetry. apply H1.
  - exact N2.
  - exact H2.
  - exists ps'. rewrite H3 in S'. destruct b. exact S'.
Qed.

(** ** The theorems *)

(** A successful replay into the session [s] of what the commit [x] in the file of the session [s0] has above the last sequence number of the
    snapshot with the contents [v0]. The target has no higher sequence number; the limits of the format are respected. *)
Record replays {E : Env} (key0 : option keyinfo) (getkey0 : N -> bytes -> bytes -> res N) (s0 : session) (v0 : contents) (x : version)
    (key : option keyinfo) (getkey : N -> bytes -> bytes -> res N) (s : session) (d : db) : Prop := {
  rp_source : sessions key0 getkey0 s0;
  rp_target : sessions key getkey s;
  rp_commit : In x (opt_list (ss_ack s0) ++ ss_old s0);
  rp_run : exists h0 c limit hook precommit p,
    snapshot s0 h0 v0 /\ fpos (dbf (ss_db s0)) <= p <= size (dbf (ss_db s0)) /\ 2 <= c_kv c /\
    replay c limit hook precommit (reader s0 h0 p) (vn_pos x) (ss_db s) = (Ok tt, d);
  rp_below : v_seq (ss_now s) <= v_seq v0;
  rp_seq : v_seq v0 + 1 < 2^48;
  rp_bodies : Forall storable (v_docs (vn_contents x));
  rp_room : room d;
  rp_end : fpos (dbf d) + BLOCK < 2^47
}.

Lemma replay_parts {E : Env} c limit hook precommit s0 h0 p off t d : replay c limit hook precommit (reader s0 h0 p) off t = (Ok tt, d) ->
  exists h1 d1, find_header_at_pos (dbf (ss_db s0)) header0 off = (Ok tt, h1) /\
    replay_changes c limit hook (reader s0 h1 p) (h_update_seq h0) t = (Ok tt, d1) /\ commit_ex d1 (h_timestamp h1) 0 = (Ok tt, d).
Proof.
  unfold replay. destruct (seek (reader s0 h0 p) off) as [[u|e] src] eqn:Hs; [|discriminate].
  assert (Hh : exists h1, find_header_at_pos (dbf (ss_db s0)) header0 off = (Ok tt, h1) /\ src = reader s0 h1 p).
  { unfold seek in Hs. cbn [reader dropped dbf dbh] in Hs. destruct (negb _); [discriminate Hs|]. destruct (_ <=? _); [discriminate Hs|].
    destruct (find_header_at_pos _ _ off) as [[[]|e] h1] eqn:Hf; [|cbv beta iota zeta in Hs; unfold reopen_current in Hs; cbn [dbf dbh dropped] in Hs; destruct (find_header_at_pos _ _ _) as [[?|?] ?] in Hs; discriminate Hs].
    injection Hs as <- <-. exists h1. split; [|reflexivity]. apply find_indep with (h' := header0) in Hf. eapply header_at_cong; [| | |exact Hf]; reflexivity. }
  destruct Hh as (h1 & Hf & ->). change (h_update_seq (dbh (reader s0 h0 p))) with (h_update_seq h0).
  destruct (replay_changes _ _ _ _ _ _) as [[[]|e] d1] eqn:Hr; [|discriminate]. destruct precommit as [u1|e]; [|discriminate]. intros H. exists h1, d1. auto.
Qed.
Lemma commit_room {E : Env} (EO : EnvOk E) d1 ts n d : good (dbf d1) -> commit_ex d1 ts n = (Ok tt, d) -> room d -> fpos (dbf d) + BLOCK < 2^47 ->
  room d1 /\ fpos (dbf d1) + BLOCK < 2^47 /\ fpos (dbf d1) <= fpos (dbf d).
Proof.
  intros G Hc Rm He. destruct (appends_mono EO (commit_appends Hc) G) as [M1 M2]. destruct (@appends_good E EO _ _ (commit_appends Hc) G) as (_ & Pc & _).
  destruct (commit_header_roots Hc) as (H1 & H2 & H3). split; [|split; [lia|exact Pc]].
  constructor; [exact (M2 (rm_big Rm))|exact (M1 (rm_lost Rm))|pose proof (rm_pos Rm); lia|rewrite <- H1; exact (rm_id Rm)|rewrite <- H2; exact (rm_seq Rm)|rewrite <- H3; exact (rm_local Rm)].
Qed.

(** The target afterwards is a committed session with the contents [caught_up]. *)
Theorem C47_replay : forall (E : Env), EnvOk E -> forall key0 getkey0, key_ok key0 getkey0 -> forall key getkey, key_ok key getkey ->
  forall s0 v0 x s d, replays key0 getkey0 s0 v0 x key getkey s d ->
  exists s', sessions key getkey s' /\ ss_db s' = d /\ ss_now s' = caught_up (v_seq v0) (vn_contents x) (ss_now s) /\
    ss_ack s' = Some (Version (h_position (dbh d)) (ss_now s')).
Proof.
  intros E EO key0 getkey0 K0 key getkey KO s0 v0 x s d [H0 H Hx (h0 & c & limit & hook & pre & p & Sn & Hp & Hc & Hr) Hsq Hsi Hst Rm Hend].
  destruct (replay_parts Hr) as (h1 & d1 & Hf & Hr1 & Hcm).
  destruct (sessions_linked EO K0 H0) as [t0 L0]. destruct (linked_snapshot EO K0 L0 Sn) as [ps0 S0]. rewrite (sd_seq S0) in Hr1.
  assert (Sn1 : snapshot s0 h1 (vn_contents x)) by (right; exists x; auto).
  destruct (linked_snapshot EO K0 L0 Sn1) as [ps1 S1]. destruct (sessions_stored EO K0 H0) as (G0 & D0 & _). destruct (sessions_stored EO KO H) as (G & _).
  assert (Gr : good (dbf (reader s0 h1 p))) by (apply good_fpos; [exact G0|apply Hp]).
  assert (Sr : stored (dbf (reader s0 h1 p)) (dbh (reader s0 h1 p)) (vn_contents x) ps1) by exact (stored_keeps (set_fpos_keeps (proj1 Hp)) S1).
  destruct (@replay_changes_writes E EO c Hc limit hook (reader s0 h1 p) Gr eq_refl _ ps1 Sr (v_seq v0) Hsi (ss_db s) (Ok tt) d1 Hr1) as [log W].
  pose proof (le_good (writes_le EO G W)) as G1. destruct (commit_room EO G1 Hcm Rm Hend) as (Rm1 & Hp1 & _).
  pose proof (@sess_replay E key getkey key0 getkey0 s0 h1 (vn_contents x) p c limit hook (v_seq v0) s d1 K0 H0 H Sn1 Hp Hc Hsq Hsi Hst Hr1 Rm1) as Hs1.
  assert (Hts : h_timestamp h1 < 2^64).
  { destruct (link_inv EO K0 L0) as [B I]. destruct (ver_stored EO K0 L0 Hx) as (cc & Hcc & V & _).
    assert (Rd : reads t0 (ss_db s0)). { rewrite <- (lk_db L0). constructor; auto; [|exact (i_dropped I)]. pose proof (proj2 (i_good I)). lia. }
    pose proof (chain_header I cc Rd Hcc) as Hat. apply header_at_find with (h0 := header0) in Hat. unfold cpos in Hat. rewrite (proj1 V), Hf in Hat. injection Hat as ->.
    exact (hf_ts (cw_fits (chain_cw I cc Hcc))). }
  set (ss1 := Session d1 (caught_up (v_seq v0) (vn_contents x) (ss_now s)) (ss_ack s) (ss_old s) (ss_pend s)) in *.
  pose proof (@write_commit E ss1 (h_timestamp h1) 0 (Ok tt) d Hts Hp1 Hcm (rm_lost Rm)) as Wc. cbv iota zeta in Wc.
  eexists. split; [exact (sess_write Hs1 Wc)|]. split; [reflexivity|]. split; [reflexivity|]. cbn [ss_ack ss_now].
  destruct (sessions_linked EO KO Hs1) as [t1 L1]. destruct (link_inv EO KO L1) as [B1 I1]. pose proof (lk_db L1) as E1. cbn [ss1 ss_db] in E1. rewrite <- E1 in Hcm.
  destruct (@commit_header E EO key B1 t1 _ _ _ _ I1 Hcm) as [_ Hh]. cbn [ss1 ss_db]. rewrite Hh, E1. reflexivity.
Qed.
Print Assumptions C47_replay.

(** Every read through the target afterwards gives what it is to give for the contents [caught_up]. *)
Theorem C47_reads : forall (E : Env), EnvOk E -> forall key0 getkey0, key_ok key0 getkey0 -> forall key getkey, key_ok key getkey ->
  forall s0 v0 x s d, replays key0 getkey0 s0 v0 x key getkey s d -> shows_contents d (caught_up (v_seq v0) (vn_contents x) (ss_now s)).
Proof.
  intros E EO key0 getkey0 K0 key getkey KO s0 v0 x s d R. destruct (@C47_replay E EO key0 getkey0 K0 key getkey KO s0 v0 x s d R) as (s' & H & <- & <- & _). exact (C06_contents EO KO H).
Qed.
Print Assumptions C47_reads.

(** If the target started out with the contents [v0], and the source reached the commit [x] from [v0] by saves under new sequence numbers and without deleting local
    documents, then the target ends up with the documents, local documents and last sequence number of the source. *)
Theorem C47_same_partial : forall (E : Env), EnvOk E -> forall key0 getkey0, key_ok key0 getkey0 -> forall key getkey, key_ok key getkey ->
  forall s0 v0 x s d, replays key0 getkey0 s0 v0 x key getkey s d -> same_contents (ss_now s) v0 -> grows v0 (vn_contents x) ->
  shows_contents d (vn_contents x).
Proof.
  intros E EO key0 getkey0 K0 key getkey KO s0 v0 x s d R Ht Gr. destruct (@C47_replay E EO key0 getkey0 K0 key getkey KO s0 v0 x s d R) as (s' & H & Hd & Hn & _).
  destruct (rp_run R) as (h0 & _ & _ & _ & _ & _ & Sn & _). destruct (sessions_linked EO K0 (rp_source R)) as [t0 L0]. destruct (linked_snapshot EO K0 L0 Sn) as [ps0 S0].
  pose proof (later_grows (stored_later S0) Gr) as La. destruct (sessions_stored EO KO H) as (G & D & _ & ps & S). rewrite Hn in S.
  destruct (stored_same S (later_caught_up La Ht) (la_ids La) (la_lids La)) as [ps' S']. rewrite <- Hd. exact (stored_shows EO G D S').
Qed.
Print Assumptions C47_same_partial.

(** In particular after a compaction that keeps everything. *)
Theorem C47_compaction_partial : forall (E : Env), EnvOk E -> forall key0 getkey0, key_ok key0 getkey0 -> forall key getkey, key_ok key getkey ->
  forall sc h v0 o t, compacts key0 getkey0 sc h v0 key o keep_all t ->
  forall s0 x d, replays key0 getkey0 s0 v0 x key getkey (Session t (compacted keep_all v0) (Some (Version (h_position (dbh t)) (compacted keep_all v0))) [] []) d ->
  grows v0 (vn_contents x) -> shows_contents d (vn_contents x).
Proof.
  intros E EO key0 getkey0 K0 key getkey KO sc h v0 o t Cm s0 x d R Gr. eapply C47_same_partial; [exact EO|exact K0|exact KO|exact R| |exact Gr].
  cbn [ss_now]. rewrite compacted_all. split; [|split]; [intros; reflexivity|intros; reflexivity|reflexivity].
Qed.
Print Assumptions C47_compaction_partial.

(** ** Examples and counterexamples *)

(** The compacted file of the examples, and replaying into it what the session [s0], which went on with the source, has committed last. *)
Definition st5 : session := Session target5 (compacted keep_all (ss_now sx5)) (Some (Version (h_position (dbh target5)) (compacted keep_all (ss_now sx5)))) [] [].
Definition any_doc : precopy_hook := fun _ _ => Ok tt.
Definition p5 : N := match ss_ack sx5 with Some v => vn_pos v | None => 0 end.
Definition h5 (s0 : session) : header := snd (@find_header_at_pos env0 (dbf (ss_db s0)) header0 p5).
Definition replay5 (s0 : session) (x : version) : res unit * db :=
  @replay env0 cf 3 any_doc (Ok tt) (reader s0 (h5 s0) (fpos (dbf (ss_db s0)))) (vn_pos x) target5.
Definition check5 (s0 : session) (x : version) : bool :=
  okb (fst (@find_header_at_pos env0 (dbf (ss_db s0)) header0 p5)) && okb (fst (replay5 s0 x)) && roomb (snd (replay5 s0 x)) &&
  (fpos (dbf (snd (replay5 s0 x))) + BLOCK <? 2^47) && forallb (fun r => @sizeb env0 (rv_body r)) (v_docs (vn_contents x)) && (v_seq (ss_now sx5) + 1 <? 2^48).
Lemma ack5 : ss_ack sx5 = Some (Version p5 (ss_now sx5)). Proof. vm_compute. reflexivity. Qed.
Lemma c5 : @compacts env0 None gks sx5 (dbh (ss_db sx5)) (ss_now sx5) None plain keep_all target5.
Proof. exact (proj1 C19_ex). Qed.
Lemma hd_in {A} (l : list A) x : hd_error l = Some x -> In x l.
Proof. destruct l as [|y l]; [discriminate|]. intros H. injection H as ->. now left. Qed.
Lemma sx5_replays s0 x : @sessions env0 None gks s0 -> ss_ack s0 = Some x -> In (Version p5 (ss_now sx5)) (ss_old s0) -> check5 s0 x = true ->
  @replays env0 None gks s0 (ss_now sx5) x None gks st5 (snd (replay5 s0 x)).
Proof.
  unfold check5. rewrite !andb_true_iff. intros H Ha Ho (((((H1 & H2) & H3) & H4) & H5) & H6). constructor.
  - exact H.
  - exact (compacts_session gks sx_key c5).
  - rewrite Ha. left. reflexivity.
  - exists (h5 s0), cf, 3, any_doc, (Ok tt), (fpos (dbf (ss_db s0))). split; [|split; [|split]].
    + right. exists (Version p5 (ss_now sx5)). split; [apply in_or_app; right; exact Ho|]. split; [|reflexivity]. cbn [vn_pos]. apply okb_ok in H1. unfold h5.
      destruct (find_header_at_pos _ header0 p5) as [r h]. cbn [fst snd] in *. now rewrite H1.
    + split; [apply N.le_refl|]. destruct (sessions_stored env0_ok sx_key H) as (G & _). exact (proj2 G).
    + discriminate.
    + apply okb_ok in H2. change (ss_db st5) with target5. fold (replay5 s0 x). destruct (replay5 s0 x) as [r d]. cbn [fst snd] in *. now rewrite H2.
  - unfold st5. cbn [ss_now]. rewrite compacted_all. apply N.le_refl.
  - now apply N.ltb_lt.
  - rewrite forallb_forall in H5. apply Forall_forall. intros r Hr. specialize (H5 r Hr). unfold storable, sizeb in *. destruct (rv_body r) as [[b|b]|]; [| |exact Logic.I]; cbn [stored_as].
    + intros z ->. now apply N.ltb_lt.
    + intros z Hz. rewrite Hz in H5. now apply N.ltb_lt.
  - apply room_check. exact H3.
  - now apply N.ltb_lt.
Qed.

(** A document is changed, one is deleted, two are new; a local document is changed; a commit. *)
Definition batch3 : list submit := [mk [98] 2 false 0 (Some [1;1;1;1]) 31; mk [99] 6 true 0 None 32; mk [100] 1 false 128 (Some [7;7;7]) 33; mk [96] 1 false 0 (Some []) 34].
Definition sx6 : session := @after_docs env0 sx5 cf so true batch3.
Definition sx7 : session := @after_local env0 sx6 cf (LocalDoc [76] [2;2;2] false).
Definition sx8 : session := @after_commit_ex env0 sx7 3000 0.
Lemma sx56 : @write env0 sx5 sx6.
Proof. apply docs_write; [discriminate| |vm_compute; reflexivity]. apply batch_check; vm_compute; reflexivity. Qed.
Lemma sx67 : @write env0 sx6 sx7.
Proof. apply local_write; [discriminate|split; vm_compute; reflexivity|vm_compute; reflexivity]. Qed.
Lemma sx78 : @write env0 sx7 sx8.
Proof. apply commit_write; vm_compute; reflexivity. Qed.
Lemma sx8_session : @sessions env0 None gks sx8. Proof. exact (sess_write (sess_write (sess_write sx5_session sx56) sx67) sx78). Qed.
Lemma sx8_ack : exists p, ss_ack sx8 = Some (Version p (ss_now sx8)). Proof. exists (match ss_ack sx8 with Some v => vn_pos v | None => 0 end). vm_compute. reflexivity. Qed.
Lemma sx8_old : hd_error (ss_old sx8) = Some (Version p5 (ss_now sx5)). Proof. vm_compute. reflexivity. Qed.
Lemma sx8_now : ss_now sx8 = save_locals [LocalDoc [76] [2;2;2] false] (save so batch3 (ss_now sx5)). Proof. vm_compute. reflexivity. Qed.
Definition x8 : version := match ss_ack sx8 with Some v => v | None => Version 0 no_contents end.
Example C47_ex : @compacts env0 None gks sx5 (dbh (ss_db sx5)) (ss_now sx5) None plain keep_all target5 /\
  @replays env0 None gks sx8 (ss_now sx5) x8 None gks st5 (snd (replay5 sx8 x8)) /\ same_contents (ss_now st5) (ss_now sx5) /\ @grows env0 (ss_now sx5) (vn_contents x8) /\
  @open_document env0 (snd (replay5 sx8 x8)) [98] true = Ok [1;1;1;1] /\ @open_document env0 (snd (replay5 sx8 x8)) [97] true = Ok [6;7;8;9].
Proof.
  split; [exact c5|]. destruct sx8_ack as [p Hp]. assert (Hx : ss_ack sx8 = Some x8) by (unfold x8; rewrite Hp; reflexivity). split; [|split; [|split]].
  - apply sx5_replays; [exact sx8_session|exact Hx| |vm_compute; reflexivity]. exact (hd_in sx8_old).
  - unfold st5. cbn [ss_now]. rewrite compacted_all. split; [|split]; [intros; reflexivity|intros; reflexivity|reflexivity].
  - assert (Hv : vn_contents x8 = ss_now sx8) by (unfold x8; rewrite Hp; reflexivity). rewrite Hv, sx8_now.
    apply gr_docs with (o := so) (l := batch3); [apply batch_check; vm_compute; reflexivity|discriminate|].
    apply gr_locals with (l := [LocalDoc [76] [2;2;2] false]); [repeat constructor|]. apply gr_refl.
  - split; vm_compute; reflexivity.
Qed.

(** A local document that was deleted in the source after the start of the compaction stays in the target. *)
Definition sy6 : session := @after_local env0 sx5 cf (LocalDoc [76] [] true).
Definition sy7 : session := @after_commit_ex env0 sy6 3000 0.
Lemma sy56 : @write env0 sx5 sy6.
Proof. apply local_write; [discriminate|split; vm_compute; reflexivity|vm_compute; reflexivity]. Qed.
Lemma sy67 : @write env0 sy6 sy7.
Proof. apply commit_write; vm_compute; reflexivity. Qed.
Theorem C47_local_refuted : exists (E : Env) sc h v0 o t s0 x d, EnvOk E /\ compacts None gks sc h v0 None o keep_all t /\ writing sc s0 /\ ss_ack s0 = Some x /\
  replays None gks s0 v0 x None gks (Session t (compacted keep_all v0) (Some (Version (h_position (dbh t)) (compacted keep_all v0))) [] []) d /\
  find_local [76] (v_locals (vn_contents x)) = None /\ open_local_document d [76] = Ok (LocalDoc [76] [1;1] false).
Proof.
  assert (H : exists x, ss_ack sy7 = Some x /\ hd_error (ss_old sy7) = Some (Version p5 (ss_now sx5)) /\ find_local [76] (v_locals (vn_contents x)) = None /\ check5 sy7 x = true /\
    @open_local_document env0 (snd (replay5 sy7 x)) [76] = Ok (LocalDoc [76] [1;1] false)).
  { exists (match ss_ack sy7 with Some v => v | None => Version 0 no_contents end). split; [vm_compute; reflexivity|]. split; [vm_compute; reflexivity|]. split; [vm_compute; reflexivity|].
    split; vm_compute; reflexivity. }
  destruct H as (x & H1 & H2 & H3 & H4 & H5). exists env0, sx5, (dbh (ss_db sx5)), (ss_now sx5), plain, target5, sy7, x, (snd (replay5 sy7 x)).
  split; [exact env0_ok|]. split; [exact c5|]. split; [exact (wg_step (wg_step (wg_refl _) sy56) sy67)|]. split; [exact H1|]. split; [|split; [exact H3|exact H5]].
  apply sx5_replays; [exact (sess_write (sess_write sx5_session sy56) sy67)|exact H1| |exact H4]. exact (hd_in H2).
Qed.
Print Assumptions C47_local_refuted.

(** A document that was saved in the source under a given sequence number, below the last one at the start of the compaction, does not reach the target. *)
Definition given2 : list submit := [Submit (Some [5;5]) (DocInfo [120] 2 1 [] false 0 0 0) 0].
Definition as_is : saveopts := SaveOpts false true.
Definition sz6 : session := @after_docs env0 sx5 cf as_is true given2.
Definition sz7 : session := @after_commit_ex env0 sz6 3000 0.
Lemma sz56 : @write env0 sx5 sz6.
Proof.
  apply docs_write; [discriminate| |vm_compute; reflexivity]. constructor.
  - constructor; [|constructor]. apply fits_check. vm_compute. reflexivity.
  - apply nodup_check. vm_compute. reflexivity.
  - vm_compute. reflexivity.
  - intros _. split; [constructor; [intros []|constructor]|]. intros r y Hr [<-|[]] Hs. exfalso. cbn [given2 sb_info di_db_seq] in Hs.
    assert (Hn : forallb (fun r => negb (rv_seq r =? 2)) (v_docs (ss_now sx5)) = true) by (vm_compute; reflexivity). rewrite forallb_forall in Hn. specialize (Hn r Hr).
    apply negb_true_iff, N.eqb_neq in Hn. exact (Hn Hs).
Qed.
Lemma sz67 : @write env0 sz6 sz7.
Proof. apply commit_write; vm_compute; reflexivity. Qed.
Theorem C47_given_refuted : exists (E : Env) sc h v0 o t s0 x d r, EnvOk E /\ compacts None gks sc h v0 None o keep_all t /\ writing sc s0 /\ ss_ack s0 = Some x /\
  replays None gks s0 v0 x None gks (Session t (compacted keep_all v0) (Some (Version (h_position (dbh t)) (compacted keep_all v0))) [] []) d /\
  find_doc [120] (v_docs (vn_contents x)) = Some r /\ docinfo_by_id d [120] = Err E_DOC_NOT_FOUND.
Proof.
  assert (H : exists x, ss_ack sz7 = Some x /\ hd_error (ss_old sz7) = Some (Version p5 (ss_now sx5)) /\ match find_doc [120] (v_docs (vn_contents x)) with Some _ => true | None => false end = true /\
    check5 sz7 x = true /\ @docinfo_by_id env0 (snd (replay5 sz7 x)) [120] = Err E_DOC_NOT_FOUND).
  { exists (match ss_ack sz7 with Some v => v | None => Version 0 no_contents end). split; [vm_compute; reflexivity|]. split; [vm_compute; reflexivity|]. split; [vm_compute; reflexivity|].
    split; vm_compute; reflexivity. }
  destruct H as (x & H1 & H2 & H3 & H4 & H5). destruct (find_doc [120] (v_docs (vn_contents x))) as [r|] eqn:Hf; [|discriminate H3].
  exists env0, sx5, (dbh (ss_db sx5)), (ss_now sx5), plain, target5, sz7, x, (snd (replay5 sz7 x)), r.
  split; [exact env0_ok|]. split; [exact c5|]. split; [exact (wg_step (wg_step (wg_refl _) sz56) sz67)|]. split; [exact H1|]. split; [|split; [exact Hf|exact H5]].
  apply sx5_replays; [exact (sess_write (sess_write sx5_session sz56) sz67)|exact H1| |exact H4]. exact (hd_in H2).
Qed.
Print Assumptions C47_given_refuted.
