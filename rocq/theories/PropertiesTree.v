(** Properties C26 and C27: the shape of the indexes, and termination of the index writer. *)
From Verif Require Import Base SpecOrder Codec CodecFacts File FileFacts ChunkFacts Header HeaderFacts History CrashFacts SpecFile SpecCrash PropertiesCodec
  Btree BtreeRead TreeStore SpecMap MergeFacts ModifyFacts
  Db SpecDb SortFacts ReduceFacts DbFacts DbSave DbRead SpecSession ShowFacts SessionFacts ReadFacts SaveFacts EnvExample SessionExample PropertiesDb PropertiesSave.
Local Open Scope N_scope.
Unset Strict Implicit.

(** ** C26 *)

(** In every session each of the three indexes is a tree of readable nodes with all leaves at the same depth ([subtree], SpecSession.v, where each
    child pointer also carries the last key below it); its entries are in strictly ascending order and stand for exactly the contents. *)
Theorem C26_shape : forall (E : Env), EnvOk E -> forall key getkey, key_ok key getkey -> forall s, sessions key getkey s ->
  exists ids seqs locs n1 n2 n3,
    (index (dbf (ss_db s)) (h_by_id (dbh (ss_db s))) ids n1 /\ StronglySorted lex (map fst ids) /\
       (forall k, In k (map fst ids) <-> exists r, In r (v_docs (ss_now s)) /\ k = rv_id r)) /\
    (index (dbf (ss_db s)) (h_by_seq (dbh (ss_db s))) seqs n2 /\ StronglySorted lex (map fst seqs) /\
       (forall k, In k (map fst seqs) <-> exists r, In r (v_docs (ss_now s)) /\ k = be 6 (rv_seq r))) /\
    (index (dbf (ss_db s)) (h_local (dbh (ss_db s))) locs n3 /\ StronglySorted lex (map fst locs) /\
       (forall x, In x locs <-> In x (v_locals (ss_now s)))).
Proof.
  intros E EO key getkey KO s H. destruct (sessions_stored EO KO H) as (G & D & P & ps & S).
  destruct (stored_indexes EO G S) as (a & b & c & [Ha _] & [Hb _] & [Hc _]).
  eexists _, _, _, a, b, c. split; [|split].
  - split; [exact Ha|]. split.
    + rewrite map_map. cbn [id_entry fst]. rewrite <- ss_map. eapply ss_impl; [|exact (id_strict S)]. intros x y _ _ Hxy. cbn. apply lt_lex, Hxy.
    + intros k. rewrite map_map. cbn [id_entry fst]. rewrite in_map_iff. split.
      * intros (i & <- & Hi). rewrite in_by_id in Hi. apply in_map_iff in Hi. destruct Hi as ([i' r] & He & Hp). cbn [fst] in He. subst i'.
        exists r. rewrite (ab_id (rev_of (sd_rep S) Hp)). split; [|reflexivity]. rewrite <- (sd_docs S). apply in_map_iff. exists (i, r). auto.
      * intros (r & Hr & ->). destruct (in_revs S Hr) as (i & Hp & Hi). exists i. split; [exact (ab_id (proj1 Hi))|]. rewrite in_by_id. apply in_map_iff. exists (i, r). auto.
  - split; [exact Hb|]. split.
    + rewrite map_map. cbn [seq_entry fst]. rewrite <- ss_map. eapply ss_impl; [|exact (seq_strict S)]. intros x y Hx Hy Hxy. cbv beta.
      rewrite in_by_seq in Hx, Hy. apply lt_lex. rewrite (proj2 (C29_seq_order (dok_seq (in_ok S Hx)) (dok_seq (in_ok S Hy)))). exact Hxy.
    + intros k. rewrite map_map. cbn [seq_entry fst]. rewrite in_map_iff. split.
      * intros (i & <- & Hi). rewrite in_by_seq in Hi. apply in_map_iff in Hi. destruct Hi as ([i' r] & He & Hp). cbn [fst] in He. subst i'.
        exists r. rewrite (ab_seq (rev_of (sd_rep S) Hp)). split; [|reflexivity]. rewrite <- (sd_docs S). apply in_map_iff. exists (i, r). auto.
      * intros (r & Hr & ->). destruct (in_revs S Hr) as (i & Hp & Hi). exists i. split; [now rewrite (ab_seq (proj1 Hi))|]. rewrite in_by_seq. apply in_map_iff. exists (i, r). auto.
  - split; [exact Hc|]. split; [|intros x; apply in_by_key].
    pose proof (by_key_sorted _ (sd_lids S)) as Q. unfold sorted in Q. rewrite <- ss_map. eapply ss_impl; [|exact Q]. intros x y _ _ Hxy. apply lt_lex, Hxy.
Qed.
Print Assumptions C26_shape.

Lemma sessions_sane {E : Env} (EO : EnvOk E) key getkey (KO : key_ok key getkey) s : sessions key getkey s -> plan_ok (dbf (ss_db s)) -> sane (dbf (ss_db s)).
Proof.
  intros H P. split; [|exact P]. destruct (sessions_linked EO KO H) as [t L]. destruct (link_inv EO KO L) as [B I]. rewrite <- (lk_db L), (ho_mode (i_hok I)).
  unfold mode_of. destruct (_ <=? 11); discriminate.
Qed.

(** The only errors that saving can give are those of the disk, of the compression and of the encryption: no index node overflows its buffer
    (that would be [E_INVALID_ARGUMENTS]), no node written earlier is found to be unreadable, no loop fails to terminate ([E_FUEL]) and no memory is accessed outside its bounds
    ([E_UB]). *)
Theorem C26_errors : forall (E : Env), EnvOk E -> forall key getkey, key_ok key getkey ->
  forall s, sessions key getkey s -> plan_ok (dbf (ss_db s)) -> forall c, 2 <= c_kv c -> forall e,
  (forall o cb l R, can_save s c o cb l R -> sv_res R = Err e -> io_error e) /\
  (forall x d, local_fits x -> room d -> save_local_document c (ss_db s) x = (Err e, d) -> io_error e) /\
  (forall l d, Forall local_fits l -> NoDup (map ld_id l) -> room d -> save_local_documents c (ss_db s) l = (Err e, d) -> io_error e).
Proof.
  intros E EO key getkey KO s H P0 c Hc e. destruct (sessions_stored EO KO H) as (G & D & P & ps & S). pose proof (sessions_sane EO KO H P0) as Sn.
  split; [|split].
  - intros o cb l R (_ & HR & Hb & Rm) He.
    destruct (@save_documents_ok E EO sane io_error io_okerr c Hc cb o l _ _ ps R HR G Sn P D S Hb (room_fin Rm)) as (_ & _ & _ & _ & Q). rewrite He in Q. exact (proj1 Q).
  - intros x d Hf Rm Hs.
    destruct (@save_local_document_ok E EO sane io_error io_okerr c Hc x _ _ ps _ _ G Sn D S Hf Hs (room_fin' Rm)) as (_ & _ & _ & _ & Q & _). exact Q.
  - intros l d Hf Hn Rm Hs.
    destruct (@save_local_documents_ok E EO sane io_error io_okerr c Hc l _ _ ps _ _ G Sn D S Hn Hf Hs (room_fin' Rm)) as (_ & _ & _ & _ & Q & _). exact Q.
Qed.
Print Assumptions C26_errors.

(** A session with small nodes: the id index has an inner node with several children; and the conditions of the theorem on errors. *)
Definition small_cfg : cfg := Cfg 2 2.
Definition batch5 : list submit := map (fun k => mk [96 + k] 1 (k =? 3) 0 (Some [k; k; k]) 0) [1; 2; 3; 4; 5].
Definition sm1 : session := @after_docs env0 sx0 small_cfg so true batch5.
Lemma sm1_session : @sessions env0 None gks sm1.
Proof. apply (sess_write sx0_session). apply docs_write; [discriminate| |vm_compute; reflexivity]. apply batch_check; vm_compute; reflexivity. Qed.
Example C26_ex :
  @sessions env0 None gks sm1 /\ plan_ok (dbf (ss_db sm1)) /\
  (match h_by_id (dbh (ss_db sm1)) with
   | Some p => match @pread_compressed env0 (dbf (ss_db sm1)) (np_pointer p) with
               | Ok b => hd_error b = Some KP_NODE /\ (2 <= length (fst (node_items b)))%nat
               | Err _ => False end
   | None => False end) /\
  @can_save env0 sm1 cf so true batch2 (@save_documents env0 cf so true batch2 (ss_db sm1)).
Proof.
  split; [exact sm1_session|]. split; [constructor|]. split; [vm_compute; auto|].
  apply can_check; [discriminate|apply batch_check; vm_compute; reflexivity|vm_compute; reflexivity].
Qed.

(** ** C27 *)

Section Rounds.
Context {E : Env}.
Variable rq : request.

(** A structure that collects pointers; [n]: the number of pointers pushed. *)
Record collects (n : nat) (m : mr) : Prop := {
  co_type : m_type m = KP_NODE;
  co_mod : m_mod m = true;
  co_count : m_count m = lenN (m_vals m);
  co_len : m_len m = isum (m_vals m);
  co_all : (2 * length (m_ptrs m) + length (m_vals m) <= n)%nat;
  co_some : (0 < n -> 0 < length (m_ptrs m) + length (m_vals m))%nat
}.

Lemma flush_collects q n m s m' s' : collects n m -> flush_mr_partial rq q m s = (Ok m', s') -> (2 <= length (m_vals m))%nat \/ m_vals m = [] -> collects n m'.
Proof.
  intros [C1 C2 C3 C4 C5 C6]. unfold flush_mr_partial. destruct (m_vals m) as [|i vs] eqn:Hv; [intros H _; inv H; constructor; rewrite ?Hv; auto|].
  rewrite <- Hv in *. rewrite C2. cbn [negb]. intros H Hl. destruct Hl as [Hl|Hl]; [|rewrite Hv in Hl; discriminate].
  destruct (@take_items_ok (m_type m =? KP_NODE) q (m_vals m) (m_len m + 1) 0 1 0) as (now & later & Et & Es & T1 & T2 & T3); [lia|].
  rewrite Et in H. unfold bindM, lift in H. destruct (write_node (mk_node (m_type m) (map kv_of now)) s) as [[[pos disk]|e] s1]; [|discriminate].
  destruct (node_reduce rq (m_type m) now) as [red|e]; [|discriminate]. unfold ret in H. inv H.
  assert (H2 : (2 <= length now)%nat).
  { destruct later as [|j later]; [rewrite app_nil_r in Es; now rewrite <- Es|]. assert (Hn : 2 <= 0 + lenN now) by (apply T3; [now rewrite C1|discriminate]). unfold lenN in Hn. lia. }
  rewrite Es in *. rewrite app_length in C5.
  constructor; cbn [m_type m_mod m_count m_vals m_len m_ptrs]; auto.
  - rewrite C3, lenN_app. lia.
  - rewrite lenN_mk_node, C4, isum_app. lia.
  - rewrite app_length. cbn [length]. lia.
  - rewrite app_length. cbn [length]. lia.
Qed.
Lemma push_collects p n m s m' s' : collects n m -> push_pointerinfo rq p m s = (Ok m', s') -> collects (S n) m'.
Proof.
  intros C. unfold push_pointerinfo, push. set (m1 := Mr _ _ _ _ _ _).
  assert (C1 : collects (S n) m1).
  { destruct C as [C1 C2 C3 C4 C5 C6]. constructor; subst m1; cbn [m_type m_mod m_count m_vals m_len m_ptrs]; auto.
    - rewrite C3, lenN_app. reflexivity.
    - rewrite C4, isum_app. cbn. lia.
    - rewrite app_length. cbn [length]. lia.
    - rewrite app_length. cbn [length]. lia. }
  clearbody m1. clear C. unfold maybe_flush. rewrite (co_type C1), (co_mod C1). cbn [andb]. replace (KP_NODE =? KV_NODE) with false by reflexivity. rewrite N.eqb_refl. cbn [andb orb].
  destruct (r_compact rq).
  - destruct ((r_kp rq * 2 / 3 <? m_len m1) && (1 <? m_count m1)) eqn:Hb; [|intros H; inv H; exact C1].
    apply andb_true_iff in Hb. destruct Hb as [_ Hb]. apply N.ltb_lt in Hb. rewrite (co_count C1) in Hb. unfold lenN in Hb.
    intros H. eapply flush_collects; [exact C1|exact H|left; lia].
  - destruct (3 <? m_count m1) eqn:Hb; [|intros H; inv H; exact C1]. apply N.ltb_lt in Hb. rewrite (co_count C1) in Hb. unfold lenN in Hb.
    destruct (r_kp rq <? m_len m1); [|intros H; inv H; exact C1]. intros H. eapply flush_collects; [exact C1|exact H|left; lia].
Qed.
Lemma pushes_collect ps : forall n m s m' s', collects n m -> foldM (push_pointerinfo rq) ps m s = (Ok m', s') -> collects (n + length ps) m'.
Proof.
  induction ps as [|p ps IH]; intros n m s m' s' C; cbn [foldM length]; [intros H; inv H; rewrite Nat.add_0_r; exact C|].
  unfold bindM. destruct (push_pointerinfo rq p m s) as [[m1|e] s1] eqn:Hp; [|discriminate]. intros H. rewrite <- Nat.add_succ_comm.
  eapply IH; [eapply push_collects; eassumption|exact H].
Qed.
(** The last flush writes everything that is left. *)
Lemma flush_all n m s m' s' : collects n m -> flush_mr rq m s = (Ok m', s') ->
  length (m_ptrs m') = (length (m_ptrs m) + match m_vals m with [] => 0 | _ => 1 end)%nat.
Proof.
  intros [C1 C2 C3 C4 C5 C6]. unfold flush_mr, flush_mr_partial. destruct (m_vals m) as [|i vs] eqn:Hv; [intros H; inv H; lia|]. rewrite <- Hv in *. rewrite C2. cbn [negb].
  unfold bindM, lift. destruct (take_items _ _ _ _ _ _ _) as [[now later]|e]; [|discriminate].
  destruct (write_node (mk_node (m_type m) (map kv_of now)) s) as [[[pos disk]|e] s1]; [|discriminate].
  destruct (node_reduce rq (m_type m) now) as [red|e]; [|discriminate]. unfold ret. intros H. inv H. cbn [m_ptrs]. rewrite app_length. reflexivity.
Qed.
End Rounds.

(** One round of building a new root (src/btree_modify.cc:763-787): the pointers of the level become entries of new nodes. Whatever the
    node-size settings (zero included), the mode and the reduce functions: if there were several pointers and the round succeeds then there are fewer afterwards, and
    at least one. *)
Theorem C27_round : forall (E : Env) rq ptrs s m' s', (2 <= length ptrs)%nat ->
  (let+ m := foldM (push_pointerinfo rq) ptrs (set_mod (make_modres KP_NODE)) in flush_mr rq m) s = (Ok m', s') ->
  (0 < length (m_ptrs m') < length ptrs)%nat.
Proof.
  intros E rq ptrs s m' s' Hl H. unfold bindM in H. destruct (foldM _ _ _ s) as [[m|e] s1] eqn:Hf; [|discriminate].
  assert (C0 : collects 0 (set_mod (make_modres KP_NODE))) by (constructor; cbn; auto; lia).
  pose proof (pushes_collect C0 Hf) as C. cbn [Nat.add] in C. rewrite (flush_all C H). pose proof (co_all C) as A. pose proof (co_some C) as B.
  destruct (m_vals m); cbn [length] in *; lia.
Qed.
Print Assumptions C27_round.

(** Hence the number of rounds is below the number of pointers: the bound that the model puts on the rounds never has an effect. *)
Theorem C27_terminates : forall (E : Env) rq ptrs s fuel, ptrs <> [] -> (length ptrs <= fuel)%nat ->
  finish_loop fuel rq ptrs s = finish_loop (length ptrs) rq ptrs s.
Proof.
  intros E rq. assert (H : forall k ptrs s a b, ptrs <> [] -> (length ptrs <= k)%nat -> (length ptrs <= a)%nat -> (length ptrs <= b)%nat ->
    finish_loop a rq ptrs s = finish_loop b rq ptrs s).
  { induction k as [|k IH]; intros ptrs s a b Hne Hk Ha Hb; [destruct ptrs; [congruence|cbn in Hk; lia]|].
    destruct ptrs as [|p [|p' ps]]; [congruence|destruct a, b; reflexivity|].
    destruct a as [|a]; [cbn in Ha; lia|]. destruct b as [|b]; [cbn in Hb; lia|]. cbn [finish_loop].
    pose proof (@C27_round E rq (p :: p' :: ps) s) as R. unfold bindM in *.
    destruct (foldM (push_pointerinfo rq) (p :: p' :: ps) (set_mod (make_modres KP_NODE)) s) as [[m|e] s1]; [|reflexivity].
    destruct (flush_mr rq m s1) as [[m'|e] s2]; [|reflexivity].
    specialize (R m' s2). cbn [length] in R, Hk, Ha, Hb. destruct R as [R1 R2]; [lia|reflexivity|].
    apply IH; try lia. intros Hz. rewrite Hz in R1. cbn in R1. lia. }
  intros ptrs s fuel Hne Hf. apply (H (length ptrs)); auto.
Qed.
Print Assumptions C27_terminates.

(** A request with node sizes zero, in the normal and in the compacting mode, and five pointers: the loop ends, with as many rounds as needed. *)
Definition zero_request (compact : bool) : request := Request ebin_cmp None None 0 0 compact None None None None.
Definition five : list node_pointer := map (fun k => NodePointer [k] (k * 100) [] 50) [1; 2; 3; 4; 5].
Example C27_ex :
  let round c := (let+ m := @foldM node_pointer (@push_pointerinfo env0 (zero_request c)) five (set_mod (make_modres KP_NODE)) in @flush_mr env0 (zero_request c) m) (St (set_crcm (empty_file []) CRC32C) [] false) in
  (match fst (round false) with Ok m => length (m_ptrs m) = 2%nat | Err _ => False end) /\
  (match fst (round true) with Ok m => length (m_ptrs m) = 3%nat | Err _ => False end) /\
  (match fst (@finish_loop env0 5 (zero_request false) five (St (set_crcm (empty_file []) CRC32C) [] false)) with Ok p => np_key p = [5] | Err _ => False end) /\
  match fst (@finish_loop env0 5 (zero_request true) five (St (set_crcm (empty_file []) CRC32C) [] false)) with Ok p => np_key p = [5] | Err _ => False end.
Proof. vm_compute. auto. Qed.
