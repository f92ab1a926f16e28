(** Property C69: compaction in recovery mode of a damaged file. *)
From Verif Require Import Base SpecOrder Codec CodecFacts File FileFacts ChunkFacts Header HeaderFacts History CrashFacts DataFacts SpecCrash NavFacts ReachNav OpenFacts CommitFacts SpecFile PropertiesCrash
  Btree BtreeRead TreeStore SpecMap MergeFacts ModifyFacts Db SpecDb SortFacts ReduceFacts DbFacts DbSave DbRead TreeWriter Compact SpecCompact CompactFacts
  SpecSession ShowFacts SessionFacts ReadFacts SaveFacts ErrorFacts EnvExample SessionExample PropertiesDb PropertiesSave PropertiesTree PropertiesCompact
  SpecRecover RecoverFacts RecoverCopy RecoverLink.
Local Open Scope N_scope.
Unset Strict Implicit.

Lemma linked_shows {E : Env} (EO : EnvOk E) key getkey (KO : key_ok key getkey) s t : linked key getkey s t -> shows_contents (ss_db s) (ss_now s).
Proof.
  intros L. destruct (link_inv EO KO L) as [B I]. destruct (lk_now L) as [ps S]. rewrite <- (lk_db L).
  pose proof (lk_db L) as Ed. rewrite <- Ed in S. exact (@stored_shows E EO (s_db t) (ss_now s) ps (i_good I) (i_dropped I) S).
Qed.

Lemma filter_ext_in' {A} (f g : A -> bool) (l : list A) : (forall x, In x l -> f x = g x) -> filter f l = filter g l.
Proof. induction l as [|x l IH]; intros H; [reflexivity|]. cbn [filter]. rewrite (H x (or_introl eq_refl)), IH by (intros y Hy; apply H; now right). reflexivity. Qed.
Lemma compacted_sub pol v (b : revision -> bool) : (forall rv, In rv (v_docs v) -> b rv = true \/ po_keep pol rv = false) ->
  compacted pol (Contents (filter b (v_docs v)) (v_locals v) (v_seq v)) = compacted pol v.
Proof.
  intros H. unfold compacted. cbn [v_docs v_locals v_seq]. f_equal. f_equal. induction (v_docs v) as [|r l IH]; [reflexivity|]. cbn [filter].
  destruct (H r (or_introl eq_refl)) as [Hb|Hb].
  - rewrite Hb. cbn [filter]. rewrite IH by (intros y Hy; apply H; now right). reflexivity.
  - rewrite Hb. rewrite <- IH by (intros y Hy; apply H; now right). destruct (b r); [|reflexivity]. cbn [filter]. now rewrite Hb.
Qed.

(** ** C69 *)

(** A snapshot (header [h], contents [v]) of an unencrypted database is compacted in recovery mode from a file [g] in which parts have been damaged, so that reading them fails;
    the local documents can be read, the writes to the new file succeed, the hooks do as [pol] says. Then the new file shows exactly the documents that can still be read -
    those whose information is found by their sequence number and whose body is read -, all local documents and the last sequence number; also what is left of the file after a crash does.
    If success is reported, nothing that was to be kept is missing; and if everything can be read, success is reported. *)
Theorem C69_recovers : forall (E : Env), EnvOk E -> (forall b, compress b <> None) -> forall getkey, key_ok None getkey ->
  forall s h v, sessions None getkey s -> snapshot s h v -> h_purge_ptr h = 0 -> h_purge_seq h + 1 < 2^48 -> h_timestamp h < 2^64 ->
  forall p, fpos (dbf (ss_db s)) <= p <= size (dbf (ss_db s)) -> forall g, spoiled (dbf (reader s h p)) g ->
  (forall id, In id (map fst (v_locals v)) -> exists x, open_local_document (Db g h false) id = Ok x) ->
  forall o pol, co_recovery o = true -> (co_filter o = None -> co_rewrite o = None) -> Forall (follows o pol) (v_docs v) -> (co_filter o <> None -> co_last o = Ok tt) ->
  forall c pl r d, calm (empty_file pl) -> compact c o (Db g h false) (empty_file pl) None = (r, d) -> room d -> fpos (dbf d) + BLOCK < 2^47 ->
  exists b, (forall rv, In rv (v_docs v) -> (b rv = true <-> readable_doc (Db g h false) rv)) /\
    let w := compacted pol (Contents (filter b (v_docs v)) (v_locals v) (v_seq v)) in
    shows_contents d w /\
    (forall gi gsz, crash_image (dbf d) gi gsz -> forall pl' recovery, exists d', open_existing (image gi gsz pl') getkey recovery false = Ok d' /\ shows_contents d' w) /\
    (r = Ok tt -> shows_contents d (compacted pol v)) /\
    ((forall rv, In rv (v_docs v) -> readable_doc (Db g h false) rv) -> r = Ok tt).
Proof.
  intros E EO Hcomp getkey KO s h v H Sn Hpp Hps Hts p Hp g Sp Hloc o pol Hrec Hre Hfo Hlast c pl r d Hcalm Hc Rm Hend.
  destruct (sessions_linked EO KO H) as [t L]. destruct (linked_snapshot EO KO L Sn) as [ps S]. destruct (sessions_stored EO KO H) as (G & _).
  assert (Hkey : fkey (dbf (ss_db s)) = None).
  { destruct (link_inv EO KO L) as [B I]. rewrite <- (lk_db L), (inv_fkey KO I). reflexivity. }
  destruct (@link_recover E EO Hcomp getkey KO s h v ps p g c o pol pl r d G S Hp Hkey Sp Hre Hrec Hfo Hlast Hloc Hpp Hps Hts Hcalm Hc Rm Hend) as (b & Hb & Hok & Hall & Hlink).
  exists b. split; [exact Hb|]. cbv zeta. destruct (Hlink _ eq_refl) as [t' L']. clear Hlink. pose proof (linked_shows EO KO L') as Sh. cbn [ss_db ss_now] in Sh.
  split; [exact Sh|]. split; [|split].
  - intros gi gsz Ci pl' recovery. destruct (link_open EO KO pl' recovery L' eq_refl Ci) as (d' & v' & s' & Ho & Hv & _ & Hs & _ & t2 & L2). exists d'. split; [exact Ho|].
    pose proof (linked_shows EO KO L2) as Sh2. rewrite Hs in Sh2. cbn [ss_db ss_now] in Sh2. destruct Hv as [-> | []]. exact Sh2.
  - intros Hr. rewrite <- (compacted_sub (b := b)); [exact Sh|]. exact (Hok Hr).
  - intros Hr. apply Hall. intros rv Hrv. apply Hb; [exact Hrv|]. now apply Hr.
Qed.
Print Assumptions C69_recovers.

(** *** The damaged example *)

(** Damage can be checked by looking at every position in the file. Not part of the code. *)
Definition qread {E : Env} (f : file) (pos : N) : res bytes :=
  match rd1 (File.cur f) (size f) pos 8 with
  | Ok i => if size f <? N.ldiff (unbe (take 4 i)) HIGH then Err E_READ else pread_bin f pos
  | Err e => Err e
  end.
Definition beq (a b : bytes) : bool := if list_eq_dec N.eq_dec a b then true else false.
Definition spoiledb {E : Env} (f g : file) : bool :=
  (fpos g =? fpos f) && (match fkey g with None => true | Some _ => false end) &&
  forallb (fun n => match qread g (N.of_nat n) with Err _ => true | Ok y => match qread f (N.of_nat n) with Ok x => beq x y | Err _ => false end end) (seq 0 (N.to_nat (size g))).
Lemma qread_sound {E : Env} f pos b : qread f pos = Ok b -> pread_bin f pos = Ok b.
Proof. unfold qread. destruct (rd1 _ _ _ _) as [i|e]; [|discriminate]. destruct (_ <? _); [discriminate|auto]. Qed.
Lemma adv_more pos n : pos + N.of_nat n <= adv pos n.
Proof.
  revert pos. induction n as [|n IH]; intros pos; cbn [adv]; [lia|]. specialize (IH (skip_prefix pos + 1)). assert (pos <= skip_prefix pos) by (unfold skip_prefix; destruct (_ =? _); lia). lia.
Qed.
Lemma qread_complete {E : Env} f pos b : fkey f = None -> pread_bin f pos = Ok b -> qread f pos = Ok b /\ pos < size f.
Proof.
  intros Hk Hr. pose proof Hr as Hr0. unfold pread_bin, pread_bin_internal in Hr. rewrite Hk, read_skip_eq in Hr. change (N.to_nat 8) with 8%nat in Hr.
  unfold qread. destruct (rd1 (File.cur f) (size f) pos 8) as [i|e] eqn:Ei; cbn [bind] in Hr; [|discriminate].
  destruct (@rd1_inv _ _ _ _ _ Ei) as (Li & _ & Hi). specialize (Hi ltac:(discriminate)). pose proof (@adv_more pos 8) as Ha.
  split; [|lia]. destruct (getb 0 4 i) as [l|e] eqn:El; cbn [bind] in Hr; [|discriminate]. destruct (getb 4 4 i) as [q|e]; cbn [bind] in Hr; [|discriminate].
  assert (Hl : l = take 4 i). { unfold getb in El. destruct (_ <=? _); [|discriminate]. inversion El. reflexivity. }
  change (negb (0 =? 0)) with false in Hr. change (0 =? 0) with true in Hr. cbv iota in Hr. destruct (Bool.eqb _ _); [discriminate|]. cbn [andb] in Hr.
  match type of Hr with context [read_skip f ?p1 ?n] => rewrite (@read_skip_eq f p1 n) in Hr; destruct (rd1 (File.cur f) (size f) p1 (N.to_nat n)) as [y|e] eqn:Ey end; cbn [bind] in Hr; [|discriminate].
  destruct (@rd1_inv _ _ _ _ _ Ey) as (_ & _ & Hy). rewrite <- Hl. destruct (N.ltb_spec (size f) (N.ldiff (unbe l) HIGH)) as [Hlt|]; [|exact Hr0]. exfalso.
  destruct (N.to_nat (N.ldiff (unbe l) HIGH)) as [|n] eqn:En; [lia|]. specialize (Hy ltac:(discriminate)). match type of Hy with adv ?a ?b <= _ => pose proof (@adv_more a b) end. lia.
Qed.
Lemma spoiled_check {E : Env} f g : spoiledb f g = true -> spoiled f g.
Proof.
  unfold spoiledb. rewrite !andb_true_iff. intros [[H1 H2] H3]. split; [now apply N.eqb_eq|]. intros pos. destruct (pread_bin g pos) as [b|e] eqn:Hg; [left|right; eauto].
  destruct (fkey g) as [k|] eqn:Hk; [discriminate|]. destruct (qread_complete Hk Hg) as [Hq Hp]. rewrite forallb_forall in H3. specialize (H3 (N.to_nat pos)). assert (Hin : In (N.to_nat pos) (seq 0 (N.to_nat (size g)))) by (apply List.in_seq; lia). specialize (H3 Hin). cbv beta in H3.
  rewrite Nnat.N2Nat.id, Hq in H3. destruct (qread f pos) as [x|e] eqn:Hf; [|discriminate].
  unfold beq in H3. destruct (list_eq_dec N.eq_dec x b) as [->|]; [|discriminate]. symmetry. exact (qread_sound Hf).
Qed.

(** The byte at [p] of the file [f] is changed. Not part of the code. *)
Definition hit (f : file) (p : N) : file :=
  File (fun i => if i =? p then (File.cur f i + 1) mod 256 else File.cur f i) (size f) (vals f) (dirty f) (dsize f) (ddirty f) (lost f) (big f) (dead f) (plan f) (fpos f) (crcm f) (fkey f).
Lemma pair_of {A B} (x : A * B) a : fst x = a -> x = (a, snd x).
Proof. destruct x. cbn. intros ->. reflexivity. Qed.
Definition rescue : copts := COpts false false true None (Ok tt) None.
Definition src2 : db := reader sx2 (dbh (ss_db sx2)) (fpos (dbf (ss_db sx2))).
Definition body_hit : file := hit (dbf src2) 68.
Definition rescued : res unit * db := @compact env0 cf rescue (Db body_hit (dbh src2) false) (empty_file []) None.
Lemma env0_compress b : @compress env0 b <> None.
Proof. discriminate. Qed.

(** In the file of the session with saved documents a byte of the body of "a" is changed: "a" is lost, the other two documents and the local document are kept, the error is reported. *)
Example C69_recovers_ex : (forall b, @compress env0 b <> None) /\ @sessions env0 None gks sx2 /\ @snapshot env0 sx2 (dbh (ss_db sx2)) (ss_now sx2) /\
  (h_purge_ptr (dbh (ss_db sx2)) =? 0) && (h_purge_seq (dbh (ss_db sx2)) + 1 <? 2^48) && (h_timestamp (dbh (ss_db sx2)) <? 2^64) = true /\
  @spoiled env0 (dbf src2) body_hit /\ (forall id, In id (map fst (v_locals (ss_now sx2))) -> exists x, @open_local_document env0 (Db body_hit (dbh src2) false) id = Ok x) /\
  Forall (@follows env0 rescue keep_all) (v_docs (ss_now sx2)) /\ calm (empty_file []) /\ room (snd rescued) /\ fpos (dbf (snd rescued)) + BLOCK < 2^47 /\
  fst rescued = Err E_CHECKSUM /\ @open_document env0 (snd rescued) [97] false = Err E_DOC_NOT_FOUND /\ @open_document env0 (snd rescued) [98] false = Ok [1;2;3].
Proof.
  split; [exact env0_compress|]. split; [exact sx2_session|]. split; [left; split; reflexivity|]. split; [vm_compute; reflexivity|]. split; [apply spoiled_check; vm_compute; reflexivity|].
  split. { intros id Hid. assert (Hl : map fst (v_locals (ss_now sx2)) = [[76]]) by (vm_compute; reflexivity). rewrite Hl in Hid. destruct Hid as [<-|[]]. exists (LocalDoc [76] [1;1] false). vm_compute. reflexivity. }
  split; [now apply plain_hooks|]. split; [split; [reflexivity|constructor]|]. split; [apply room_check; vm_compute; reflexivity|].
  split; [apply N.ltb_lt; vm_compute; reflexivity|]. split; [vm_compute; reflexivity|]. split; vm_compute; reflexivity.
Qed.

(** The documents that can be read, decided. Not part of the code. *)
Definition readableb {E : Env} (d : db) (r : revision) : bool :=
  match docinfo_by_sequence d (rv_seq r) with
  | Ok i => beq (di_id i) (rv_id r) && (di_db_seq i =? rv_seq r) && (di_rev_seq i =? rv_rev_seq r) && beq (di_rev_meta i) (rv_rev_meta r) && Bool.eqb (di_deleted i) (rv_deleted r) &&
      (di_content_meta i =? rv_content_meta r) && match open_doc_with_docinfo d i false with Ok _ => true | Err _ => match rv_body r with None => true | Some _ => false end end
  | Err _ => false
  end.
Lemma beq_eq a b : beq a b = true -> a = b.
Proof. unfold beq. destruct (list_eq_dec N.eq_dec a b); [auto|discriminate]. Qed.
Lemma readable_check {E : Env} d r : readableb d r = true -> readable_doc d r.
Proof.
  unfold readableb. destruct (docinfo_by_sequence d (rv_seq r)) as [i|e] eqn:Hi; [|discriminate]. rewrite !andb_true_iff. intros ((((((H1 & H2) & H3) & H4) & H5) & H6) & H7).
  exists i. split; [exact Hi|]. split.
  - constructor; [now apply beq_eq|now apply N.eqb_eq|now apply N.eqb_eq|now apply beq_eq|now apply Bool.eqb_prop|now apply N.eqb_eq].
  - intros Hb. destruct (open_doc_with_docinfo d i false) as [b|e]; [eauto|]. destruct (rv_body r); [discriminate|now destruct Hb].
Qed.

(** The local documents are not read with the same tolerance: if a node of their index is damaged, the recovery fails with all documents lost, though every document can be read. *)
Definition local_hit : file := hit (dbf src2) 290.
Definition rescued_local : res unit * db := @compact env0 cf rescue (Db local_hit (dbh (ss_db sx2)) false) (empty_file []) None.
Theorem C69_locals_refuted : exists (E : Env) s g e d, EnvOk E /\ sessions None gks s /\ spoiled (dbf (reader s (dbh (ss_db s)) (fpos (dbf (ss_db s))))) g /\
  (forall rv, In rv (v_docs (ss_now s)) -> readable_doc (Db g (dbh (ss_db s)) false) rv) /\ v_docs (ss_now s) <> [] /\
  compact cf rescue (Db g (dbh (ss_db s)) false) (empty_file []) None = (Err e, d) /\
  open_existing (image (File.cur (dbf d)) (size (dbf d)) []) gks true false = Err E_NO_HEADER.
Proof.
  exists env0, sx2, local_hit, E_CHECKSUM, (snd rescued_local).
  split; [exact env0_ok|]. split; [exact sx2_session|]. split; [fold src2; apply spoiled_check; vm_compute; reflexivity|].
  split; [|split; [vm_compute; discriminate|split]].
  - assert (H : forallb (@readableb env0 (Db local_hit (dbh (ss_db sx2)) false)) (v_docs (ss_now sx2)) = true) by (vm_compute; reflexivity).
    rewrite forallb_forall in H. intros rv Hrv. apply readable_check. exact (H rv Hrv).
  - unfold rescued_local. apply pair_of. vm_compute. reflexivity.
  - vm_compute. reflexivity.
Qed.
Print Assumptions C69_locals_refuted.

(** If a write to the new file fails, recovery mode goes on as if a part of the source were damaged. Here nothing is damaged and one write - that of the root of the index by sequence
    numbers - fails: the new file is committed and opened, the documents are in the index by ids, but there is no index by sequence numbers, and looking up the sequence number of
    a document follows a null pointer. *)
Definition full : wstep := WStep 0 false (Some E_WRITE) false false.
(** The compaction of [src] into a file with the writes [pl] gives an error of a write; the new file can be opened, and [test] holds of it. *)
Definition half (src : db) (pl : list wstep) (test : db -> bool) : bool :=
  let x := @compact env0 cf rescue src (empty_file pl) None in
  match fst x, @open_existing env0 (image (File.cur (dbf (snd x))) (size (dbf (snd x))) []) gks false false with
  | Err E_WRITE, Ok d => roomb (snd x) && test d
  | _, _ => false
  end.
Lemma half_run src pl test : half src pl test = true -> exists d d', @compact env0 cf rescue src (empty_file pl) None = (Err E_WRITE, d) /\ room d /\
  @open_existing env0 (image (File.cur (dbf d)) (size (dbf d)) []) gks false false = Ok d' /\ test d' = true.
Proof.
  unfold half. cbv zeta. destruct (compact cf rescue src (empty_file pl) None) as [r d]. cbn [fst snd]. destruct r as [u|e]; [discriminate|]. destruct e; try discriminate.
  destruct (open_existing _ _ _ _) as [d'|e] eqn:Ho; [|discriminate]. rewrite andb_true_iff. intros [H1 H2]. exists d, d'. split; [reflexivity|]. split; [apply room_check; exact H1|]. auto.
Qed.
Definition no_seq (d : db) : bool :=
  match @docinfo_by_id env0 d [98] with Ok i => match @docinfo_by_sequence env0 d (di_db_seq i) with Err E_UB => true | _ => false end | Err _ => false end.
Lemma no_seq_run d : no_seq d = true -> exists i, @docinfo_by_id env0 d [98] = Ok i /\ @docinfo_by_sequence env0 d (di_db_seq i) = Err E_UB.
Proof.
  unfold no_seq. destruct (docinfo_by_id d [98]) as [i|e]; [|discriminate]. exists i. split; [reflexivity|]. destruct (docinfo_by_sequence d (di_db_seq i)) as [j|e]; [discriminate|]. destruct e; try discriminate. reflexivity.
Qed.
Theorem C69_write_refuted : exists (E : Env) s pl d d' i, EnvOk E /\ sessions None gks s /\
  compact cf rescue (reader s (dbh (ss_db s)) (fpos (dbf (ss_db s)))) (empty_file pl) None = (Err E_WRITE, d) /\ room d /\
  open_existing (image (File.cur (dbf d)) (size (dbf d)) []) gks false false = Ok d' /\
  docinfo_by_id d' [98] = Ok i /\ docinfo_by_sequence d' (di_db_seq i) = Err E_UB.
Proof.
  assert (H : half src5 (repeat fine 6 ++ [full]) no_seq = true) by (vm_compute; reflexivity). apply half_run in H. destruct H as (d & d' & H1 & H2 & H3 & H4). apply no_seq_run in H4. destruct H4 as (i & H4 & H5).
  exists env0, sx5, (repeat fine 6 ++ [full]), d, d', i. split; [exact env0_ok|]. split; [exact sx5_session|]. split; [exact H1|]. split; [exact H2|]. split; [exact H3|]. split; [exact H4|exact H5].
Qed.
Print Assumptions C69_write_refuted.

(** In the same way a document that can be read is lost, if the write of its body fails once; the error reported is that of the write, and the new file is committed. *)
Definition b_lost (d : db) : bool :=
  match @open_document env0 d [98] false with Err E_DOC_NOT_FOUND => true | _ => false end && match @open_document env0 d [97] false with Ok b => beq b [6;7;8;9] | _ => false end.
Lemma b_lost_run d : b_lost d = true -> @open_document env0 d [98] false = Err E_DOC_NOT_FOUND /\ @open_document env0 d [97] false = Ok [6;7;8;9].
Proof.
  unfold b_lost. rewrite andb_true_iff. intros [H1 H2]. split.
  - destruct (open_document d [98] false) as [b|e]; [discriminate|]. destruct e; try discriminate. reflexivity.
  - destruct (open_document d [97] false) as [b|e]; [|discriminate]. apply beq_eq in H2. now rewrite H2.
Qed.
Theorem C69_body_refuted : exists (E : Env) s pl d d', EnvOk E /\ sessions None gks s /\
  compact cf rescue (reader s (dbh (ss_db s)) (fpos (dbf (ss_db s)))) (empty_file pl) None = (Err E_WRITE, d) /\ room d /\
  open_existing (image (File.cur (dbf d)) (size (dbf d)) []) gks false false = Ok d' /\
  open_document (ss_db s) [98] false = Ok [1;2;3] /\ open_document d' [98] false = Err E_DOC_NOT_FOUND /\ open_document d' [97] false = Ok [6;7;8;9].
Proof.
  assert (H : half src5 (repeat fine 1 ++ [full]) b_lost = true) by (vm_compute; reflexivity). apply half_run in H. destruct H as (d & d' & H1 & H2 & H3 & H4). apply b_lost_run in H4. destruct H4 as (H4 & H5).
  exists env0, sx5, (repeat fine 1 ++ [full]), d, d'. split; [exact env0_ok|]. split; [exact sx5_session|]. split; [exact H1|]. split; [exact H2|]. split; [exact H3|].
  split; [vm_compute; reflexivity|]. split; [exact H4|exact H5].
Qed.
Print Assumptions C69_body_refuted.
