(** Property C76: what couch_dbdump --json lists. *)
From Coq Require Import Sorting.Sorted.
From Verif Require Import Base SpecOrder Codec CodecFacts File FileFacts ChunkFacts Header HeaderFacts History CrashFacts DataFacts SpecCrash NavFacts ReachNav OpenFacts CommitFacts SpecFile PropertiesCrash PropertiesNav
  Btree BtreeRead TreeStore SpecMap MergeFacts ModifyFacts LookupFacts Db SpecDb SortFacts ReduceFacts DbFacts DbSave DbRead TreeWriter Compact SpecCompact CompactFacts Replay SpecReplay
  SpecSession ShowFacts SessionFacts ReadFacts SaveFacts EnvExample SessionExample PropertiesDb SpecRecover PropertiesRecover PropertiesTolerate PropertiesDbck PropertiesDbckVersions Dbinfo Dbdump DbdumpFacts PropertiesDump DbdumpJson.
Local Open Scope N_scope.
Unset Strict Implicit.

(** The metadata of the document says that its datatype has this bit: 0 JSON, 1 snappy, 2 extended attributes. *)
Definition typed (r : revision) (bit : N) : Prop := exists t, nth_error (rv_rev_meta r) 17 = Some t /\ N.testbit t bit = true.
(** The body is marked as compressed by the library. *)
Definition marked (r : revision) : Prop := N.land (rv_content_meta r) DOC_IS_COMPRESSED <> 0.

Section Params.
Variable inflate : bytes -> option bytes.
Variable xattr : bytes -> option (bytes * bytes).
Variable parses : bytes -> bool.
(** The inflated document, [None] if it cannot be inflated; its attributes and its value, [None] if the attributes are not well formed. *)
Definition inflated (r : revision) (data : bytes) (x : option bytes) : Prop := (typed r 1 /\ ~ marked r /\ x = inflate data) \/ (~ (typed r 1 /\ ~ marked r) /\ x = Some data).
Definition parted (r : revision) (b : bytes) (x : option (bytes * bytes)) : Prop := (typed r 2 /\ x = xattr b) \/ (~ typed r 2 /\ x = Some ([], b)).
(** What becomes of a document in the output, if reading its body gives [x]. *)
Inductive shows_body (r : revision) (x : res bytes) : jbody -> Prop :=
| sb_null e : x = Err e -> shows_body r x JNull
| sb_skip data : x = Ok data -> inflated r data None -> shows_body r x JSkip
| sb_attrs data b : x = Ok data -> inflated r data (Some b) -> parted r b None -> shows_body r x JAbort
| sb_parse data b a w : x = Ok data -> inflated r data (Some b) -> parted r b (Some (a, w)) -> typed r 0 -> parses w = false -> shows_body r x JAbort
| sb_body data b a w : x = Ok data -> inflated r data (Some b) -> parted r b (Some (a, w)) -> (typed r 0 -> parses w = true) -> shows_body r x (JBody (lenN data) a w).
End Params.

(** Of the documents with what becomes of them: those that are printed. The program ends at the first that makes it abort. *)
Fixpoint shown_part (l : list (revision * jbody)) : list (revision * jbody) :=
  match l with
  | [] => []
  | (_, JAbort) :: _ => []
  | (_, JSkip) :: t => shown_part t
  | p :: t => p :: shown_part t
  end.

Lemma typed_bit r bit n : n = 2 ^ bit -> (negb (N.land (datatype (rv_rev_meta r)) n =? 0) = true <-> typed r bit).
Proof.
  intros ->. unfold typed, datatype. assert (B : forall t, negb (N.land t (2 ^ bit) =? 0) = N.testbit t bit).
  { intros t. destruct (N.testbit t bit) eqn:Ht.
    - apply negb_true_iff, N.eqb_neq. intros H. assert (X : N.testbit (N.land t (2 ^ bit)) bit = true) by (rewrite N.land_spec, Ht, N.pow2_bits_true; reflexivity). rewrite H, N.bits_0 in X. discriminate.
    - apply negb_false_iff, N.eqb_eq. apply N.bits_inj. intros k. rewrite N.land_spec, N.bits_0. destruct (N.eq_dec bit k) as [<-|Hk]; [now rewrite Ht|]. rewrite (N.pow2_bits_false _ _ Hk). apply andb_false_r. }
  destruct (N.leb_spec 18 (lenN (rv_rev_meta r))) as [L|L].
  - assert (Hn : nth_error (rv_rev_meta r) 17 = Some (nth 17 (rv_rev_meta r) 0)) by (apply nth_error_nth'; unfold lenN in L; lia). rewrite B, Hn.
    split; [intros H; eexists; split; [reflexivity|exact H]|intros (t & H & H'); injection H as <-; exact H'].
  - assert (Hn : nth_error (rv_rev_meta r) 17 = None) by (apply nth_error_None; unfold lenN in L; lia). rewrite Hn. rewrite N.land_0_l. split; [discriminate|intros (t & H & _); discriminate].
Qed.

Section WithEnv.
Context {E : Env} (EO : EnvOk E).
Variable inflate : bytes -> option bytes.
Variable xattr : bytes -> option (bytes * bytes).
Variable parses : bytes -> bool.

Lemma json_shows d i r : about i r -> shows_body inflate xattr parses r (open_doc_with_docinfo d i true) (json_body inflate xattr parses d i).
Proof.
  intros A. unfold json_body. rewrite (ab_rev_meta A). destruct (open_doc_with_docinfo d i true) as [data|e]; [|eapply sb_null; reflexivity].
  pose proof (typed_bit r (bit := 1) (n := 2) eq_refl) as T1. pose proof (typed_bit r (bit := 2) (n := 4) eq_refl) as T2. pose proof (typed_bit r (bit := 0) (n := 1) eq_refl) as T0.
  assert (M : flagged i = true <-> marked r). { unfold flagged, marked. rewrite (ab_content_meta A). destruct (N.eqb_spec (N.land (rv_content_meta r) DOC_IS_COMPRESSED) 0); cbn [negb]; split; auto; try discriminate; congruence. }
  cbv zeta. set (y := if negb (N.land (datatype (rv_rev_meta r)) 2 =? 0) && negb (flagged i) then inflate data else Some data).
  assert (I : inflated inflate r data y).
  { unfold inflated, y. destruct (negb (N.land (datatype (rv_rev_meta r)) 2 =? 0)), (flagged i); cbn [andb negb].
    - right. split; [|reflexivity]. intros [_ H]. apply H, M. reflexivity.
    - left. split; [now apply T1|]. split; [|reflexivity]. intros H. apply M in H. discriminate.
    - right. split; [|reflexivity]. intros [H _]. apply T1 in H. discriminate.
    - right. split; [|reflexivity]. intros [H _]. apply T1 in H. discriminate. }
  destruct y as [b|]; [|eapply sb_skip; [reflexivity|exact I]].
  set (z := if negb (N.land (datatype (rv_rev_meta r)) 4 =? 0) then xattr b else Some ([], b)).
  assert (P : parted xattr r b z).
  { unfold parted, z. destruct (negb (N.land (datatype (rv_rev_meta r)) 4 =? 0)); [left; split; [now apply T2|reflexivity]|right; split; [|reflexivity]]. intros H. apply T2 in H. discriminate. }
  destruct z as [[a w]|]; [|eapply sb_attrs; [reflexivity|exact I|exact P]].
  destruct (negb (N.land (datatype (rv_rev_meta r)) 1 =? 0)); cbn [andb].
  - destruct (parses w) eqn:Hw; cbn [negb]; [eapply sb_body|eapply sb_parse]; try reflexivity; try eassumption; auto. now apply T0.
  - eapply sb_body; try reflexivity; try eassumption. intros H. apply T0 in H. discriminate.
Qed.

Definition jitem (body : bool) (d : db) (i : doc_info) : jbody := if body then json_body inflate xattr parses d i else JNull.
(** Not part of the code: what is printed for a list of documents. *)
Fixpoint jpart (body : bool) (d : db) (l : list doc_info) : list jprinted :=
  match l with
  | [] => []
  | i :: t => match jitem body d i with JAbort => [] | JSkip => jpart body d t | b => JPrinted i b :: jpart body d t end
  end.
Definition aborts (body : bool) (d : db) (l : list doc_info) : bool := existsb (fun i => match jitem body d i with JAbort => true | _ => false end) l.
Lemma feed_dead body d l : forall out, SpecDb.feed (foldprint_json inflate xattr parses body d) l (JState out true) = (Ok tt, JState out true).
Proof. induction l as [|i l IH]; intros out; cbn [SpecDb.feed]; [reflexivity|]. unfold foldprint_json at 1. cbn [js_dead]. apply IH. Qed.
Lemma feed_json body d l : forall out, SpecDb.feed (foldprint_json inflate xattr parses body d) l (JState out false) = (Ok tt, JState (out ++ jpart body d l) (aborts body d l)).
Proof.
  induction l as [|i l IH]; intros out; cbn [SpecDb.feed jpart aborts existsb]; [now rewrite app_nil_r|]. unfold foldprint_json at 1. cbn [js_dead js_out]. fold (jitem body d i). destruct (jitem body d i) as [| | |n x w].
  - rewrite IH, <- app_assoc. reflexivity.
  - apply IH.
  - rewrite feed_dead. cbn [orb]. now rewrite app_nil_r.
  - rewrite IH, <- app_assoc. reflexivity.
Qed.
Lemma feed_on_dead body d l : forall out, feed_on (foldprint_json inflate xattr parses body d) l (JState out true) = (true, JState out true).
Proof. induction l as [|i l IH]; intros out; cbn [feed_on]; [reflexivity|]. unfold foldprint_json at 1. cbn [js_dead]. rewrite IH. reflexivity. Qed.
Lemma feed_on_json body d l : forall out, feed_on (foldprint_json inflate xattr parses body d) l (JState out false) = (true, JState (out ++ jpart body d l) (aborts body d l)).
Proof.
  induction l as [|i l IH]; intros out; cbn [feed_on jpart aborts existsb]; [now rewrite app_nil_r|]. unfold foldprint_json at 1. cbn [js_dead js_out]. fold (jitem body d i). destruct (jitem body d i) as [| | |n x w].
  - rewrite IH, <- app_assoc. reflexivity.
  - rewrite IH. reflexivity.
  - rewrite feed_on_dead. cbn [orb]. now rewrite app_nil_r.
  - rewrite IH, <- app_assoc. reflexivity.
Qed.
Lemma jpart_shown body d js rs : Forall2 about js rs ->
  Forall2 (fun o p => about (jp_info o) (fst p) /\ jp_body o = snd p) (jpart body d js) (shown_part (combine rs (map (jitem body d) js))).
Proof.
  induction 1 as [|i r js rs A F IH]; cbn [jpart map combine shown_part]; [constructor|]. destruct (jitem body d i) as [| | |n x w]; [|exact IH|constructor|]; (constructor; [split; [exact A|reflexivity]|exact IH]).
Qed.
Lemma aborts_in body d js rs : Forall2 about js rs -> (aborts body d js = true <-> exists r, In (r, JAbort) (combine rs (map (jitem body d) js))).
Proof.
  unfold aborts. induction 1 as [|i r js rs A F IH]; cbn [existsb map combine]; [split; [discriminate|intros (r & [])]|]. rewrite orb_true_iff, IH. split.
  - intros [H|(r' & H)]; [|exists r'; now right]. exists r. left. destruct (jitem body d i); try discriminate. reflexivity.
  - intros (r' & [H|H]); [|right; now exists r']. left. injection H as _ ->. reflexivity.
Qed.

Lemma json_shown d v m body : shows_contents d v -> m = BySequence \/ m = ById ->
  exists rs bs out dead, dump_once_json inflate xattr parses body m d = (Ok tt, JState out dead) /\ (forall r, In r rs <-> In r (v_docs v)) /\ StronglySorted (order m) rs /\
    Forall2 (fun r b => if body then exists x, body_read r true x /\ shows_body inflate xattr parses r x b else b = JNull) rs bs /\
    Forall2 (fun o p => about (jp_info o) (fst p) /\ jp_body o = snd p) out (shown_part (combine rs bs)) /\ (dead = true <-> exists r, In (r, JAbort) (combine rs bs)).
Proof.
  intros Sh Hm.
  assert (X : forall js rs, Forall2 (shown d) js rs -> Forall2 about js rs /\ Forall2 (fun r b => if body then exists x, body_read r true x /\ shows_body inflate xattr parses r x b else b = JNull) rs (map (jitem body d) js)).
  { intros js rs F. induction F as [|i r js rs [A B] F [IH1 IH2]]; cbn [map]; (split; constructor); auto. unfold jitem. destruct body; [|reflexivity]. exists (open_doc_with_docinfo d i true). split; [apply B|now apply json_shows]. }
  destruct Hm as [-> | ->]; cbn [dump_once_json order].
  - destruct (@sc_changes E d v Sh 0 (EnumOpts false false false) eq_refl eq_refl) as (rs & js & H1 & H2 & H3 & H4). destruct (X js rs H3) as [F1 F2].
    exists rs, (map (jitem body d) js), (jpart body d js), (aborts body d js). split; [apply same_changes; rewrite H4, feed_json; reflexivity|]. split; [|split; [exact H2|split; [exact F2|split; [now apply jpart_shown|now apply aborts_in]]]].
    intros r. rewrite H1. unfold picked. cbn. split; [tauto|]. intros H. split; [exact H|]. split; [lia|]. split; discriminate.
  - destruct (@sc_all E d v Sh [] (EnumOpts false false false) eq_refl) as (rs & js & H1 & H2 & H3 & H4). destruct (X js rs H3) as [F1 F2].
    exists rs, (map (jitem body d) js), (jpart body d js), (aborts body d js). split; [apply same_all; rewrite H4, feed_json; reflexivity|]. split; [|split; [exact H2|split; [exact F2|split; [now apply jpart_shown|now apply aborts_in]]]].
    intros r. rewrite H1. unfold picked. cbn. split; [tauto|]. intros H. split; [exact H|]. split; [|split; discriminate]. unfold lex_le. destruct (rv_id r); [now left|right; constructor].
Qed.
End WithEnv.

(** ** C76 *)

(** Every document of a snapshot is considered once, in the order asked for. What is printed, up to the first document that makes the program abort, are those that can be inflated, each with its information
    and its body (null if there is none or it cannot be read, or with --no-body). The program aborts exactly if the attributes or the JSON text of some document are not well formed. *)
Theorem C76_json : forall (E : Env), EnvOk E -> forall key getkey, key_ok key getkey -> forall s h v, sessions key getkey s -> snapshot s h v ->
  forall p, fpos (dbf (ss_db s)) <= p <= size (dbf (ss_db s)) -> forall inflate xattr parses body m, m = BySequence \/ m = ById ->
  exists rs bs out dead, dump_once_json inflate xattr parses body m (reader s h p) = (Ok tt, JState out dead) /\ (forall r, In r rs <-> In r (v_docs v)) /\ StronglySorted (order m) rs /\
    Forall2 (fun r b => if body : bool then exists x, body_read r true x /\ shows_body inflate xattr parses r x b else b = JNull) rs bs /\
    Forall2 (fun o q => about (jp_info o) (fst q) /\ jp_body o = snd q) out (shown_part (combine rs bs)) /\ (dead = true <-> exists r, In (r, JAbort) (combine rs bs)).
Proof. intros E EO key getkey KO s h v H Sn p Hp inflate xattr parses body m Hm. exact (json_shown inflate xattr parses body (reader_shows EO KO H Sn Hp) Hm). Qed.
Print Assumptions C76_json.

(** If all documents can be inflated and are well formed, or with --no-body, all are listed. *)
Lemma shown_all l : (forall p, In p l -> snd p <> JAbort /\ snd p <> JSkip) -> shown_part l = l.
Proof. induction l as [|[r b] l IH]; intros H; cbn [shown_part]; [reflexivity|]. destruct (H (r, b) (or_introl eq_refl)) as [H1 H2]. cbn [snd] in *. rewrite IH; [|intros p Hp; apply H; now right]. destruct b; congruence. Qed.
Theorem C76_all : forall (E : Env), EnvOk E -> forall key getkey, key_ok key getkey -> forall s h v, sessions key getkey s -> snapshot s h v ->
  forall p, fpos (dbf (ss_db s)) <= p <= size (dbf (ss_db s)) -> forall inflate xattr parses body m, m = BySequence \/ m = ById ->
  (body = true -> forall r x b, In r (v_docs v) -> body_read r true x -> shows_body inflate xattr parses r x b -> b <> JAbort /\ b <> JSkip) ->
  exists rs out, dump_once_json inflate xattr parses body m (reader s h p) = (Ok tt, JState out false) /\ (forall r, In r rs <-> In r (v_docs v)) /\ StronglySorted (order m) rs /\
    Forall2 (fun o r => about (jp_info o) r /\ if body : bool then exists x, body_read r true x /\ shows_body inflate xattr parses r x (jp_body o) else jp_body o = JNull) out rs.
Proof.
  intros E EO key getkey KO s h v H Sn p Hp inflate xattr parses body m Hm Hok. destruct (C76_json EO KO H Sn Hp inflate xattr parses body Hm) as (rs & bs & out & dead & H1 & H2 & H3 & H4 & H5 & H6).
  assert (X : forall q, In q (combine rs bs) -> snd q <> JAbort /\ snd q <> JSkip).
  { intros [r b] Hq. cbn [snd]. assert (Hr : In r (v_docs v)) by (apply H2; exact (in_combine_l _ _ _ _ Hq)). clear - H4 Hq Hok Hr. revert Hq. induction H4 as [|r' b' rs bs Hb F IH]; [intros []|]. intros [Hq|Hq]; [|exact (IH Hq)].
    injection Hq as -> ->. destruct body; [destruct Hb as (x & B1 & B2); exact (Hok eq_refl r x b Hr B1 B2)|]. subst b. split; discriminate. }
  assert (D : dead = false). { destruct dead; [|reflexivity]. destruct (proj1 H6 eq_refl) as (r & Hr). destruct (X _ Hr) as [Y _]. exfalso. now apply Y. }
  subst dead. exists rs, out. split; [exact H1|]. split; [exact H2|]. split; [exact H3|]. rewrite (shown_all X) in H5. clear - H4 H5. revert out H5.
  induction H4 as [|r b rs bs Hb F IH]; intros out H5; cbn [combine] in H5; inversion H5 as [|o q out' l [A B] G]; subst; constructor; [|apply IH; exact G]. cbn [fst snd] in *. split; [exact A|]. rewrite B. exact Hb.
Qed.
Print Assumptions C76_all.

(** With --key: the document with this id, or a failure. *)
Theorem C76_key : forall (E : Env), EnvOk E -> forall key getkey, key_ok key getkey -> forall s h v, sessions key getkey s -> snapshot s h v ->
  forall p, fpos (dbf (ss_db s)) <= p <= size (dbf (ss_db s)) -> forall inflate xattr parses id,
  match find_doc id (v_docs v) with
  | Some r => exists i x b, about i r /\ body_read r true x /\ shows_body inflate xattr parses r x b /\
      dump_once_json inflate xattr parses true (OneKey id) (reader s h p) = (Ok tt, match b with JSkip => JState [] false | JAbort => JState [] true | _ => JState [JPrinted i b] false end)
  | None => dump_once_json inflate xattr parses true (OneKey id) (reader s h p) = (Err E_DOC_NOT_FOUND, JState [] false)
  end.
Proof.
  intros E EO key getkey KO s h v H Sn p Hp inflate xattr parses id. pose proof (sc_id (reader_shows EO KO H Sn Hp) id) as X. destruct (find_doc id (v_docs v)) as [r|].
  - destruct X as (i & H1 & [A B] & _). exists i, (open_doc_with_docinfo (reader s h p) i true), (json_body inflate xattr parses (reader s h p) i). split; [exact A|]. split; [apply B|]. split; [now apply json_shows|].
    cbn [dump_once_json]. rewrite H1. unfold foldprint_json. cbn [js_dead js_out app]. destruct (json_body inflate xattr parses (reader s h p) i); reflexivity.
  - destruct X as [H1 _]. cbn [dump_once_json]. rewrite H1. reflexivity.
Qed.
Print Assumptions C76_key.

(** The program on a file as a crash (or no crash) left it: the documents of the last acknowledged commit, or of one that was being made. *)
Theorem C76_file : forall (E : Env), EnvOk E -> forall key getkey, key_ok key getkey -> forall s v0, sessions key getkey s -> ss_ack s = Some v0 ->
  forall g gsz, crash_image (dbf (ss_db s)) g gsz -> forall pl inflate xattr parses body m, m = BySequence \/ m = ById ->
  exists w rs bs out dead, (w = v0 \/ In w (ss_pend s)) /\ dump_json_file inflate xattr parses (image g gsz pl) getkey None body m = (Ok tt, JState out dead) /\
    (forall r, In r rs <-> In r (v_docs (vn_contents w))) /\ StronglySorted (order m) rs /\
    Forall2 (fun r b => if body : bool then exists x, body_read r true x /\ shows_body inflate xattr parses r x b else b = JNull) rs bs /\
    Forall2 (fun o q => about (jp_info o) (fst q) /\ jp_body o = snd q) out (shown_part (combine rs bs)) /\ (dead = true <-> exists r, In (r, JAbort) (combine rs bs)).
Proof.
  intros E EO key getkey KO s v0 H Ha g gsz G pl inflate xattr parses body m Hm. destruct (sessions_linked EO KO H) as [t L]. destruct (link_open EO KO pl false L Ha G) as (d & w & s' & Ho & Hw & Hpos & Hs & Hre & _).
  assert (H' : sessions key getkey s') by exact (sess_reopen H Hre). destruct (sessions_stored EO KO H') as (G' & D' & _). assert (Hd : ss_db s' = d) by now rewrite Hs. rewrite Hd in G', D'.
  assert (Er : reader s' (dbh d) (fpos (dbf d)) = d) by (unfold reader; rewrite Hd; destruct d as [[] hh dd]; cbn [dropped] in D'; subst dd; reflexivity).
  destruct (@C76_json E EO key getkey KO s' (dbh d) (vn_contents w) H') with (p := fpos (dbf d)) (inflate := inflate) (xattr := xattr) (parses := parses) (body := body) (m := m) as (rs & bs & out & dead & H1 & H2);
    [left; rewrite Hs; split; reflexivity|rewrite Hd; split; [apply N.le_refl|exact (proj2 G')]|exact Hm|].
  rewrite Er in H1. exists w, rs, bs, out, dead. split; [exact Hw|]. split; [|exact H2]. unfold dump_json_file, open_at. rewrite Ho. cbn [bind]. exact H1.
Qed.
Print Assumptions C76_file.

(** In a file with damage that is noticed: the documents that are still found one by one are considered, and success is reported only if none is missing. *)
Theorem C76_damaged : forall (E : Env), EnvOk E -> forall key getkey, key_ok key getkey -> forall s h v, sessions key getkey s -> snapshot s h v ->
  forall p, fpos (dbf (ss_db s)) <= p <= size (dbf (ss_db s)) -> forall g, spoiled (dbf (reader s h p)) g -> forall inflate xattr parses body m, m = BySequence \/ m = ById ->
  let d := Db g h false in
  let there r := match m with BySequence => exists i, docinfo_by_sequence d (rv_seq r) = Ok i | _ => exists i, docinfo_by_id d (rv_id r) = Ok i end in
  exists y rs bs out dead, dump_once_json inflate xattr parses body m d = (y, JState out dead) /\ (forall r, In r rs <-> In r (v_docs v) /\ there r) /\ StronglySorted (order m) rs /\
    Forall2 (fun r b => exists i, about i r /\ if body : bool then shows_body inflate xattr parses r (open_doc_with_docinfo d i true) b else b = JNull) rs bs /\
    Forall2 (fun o q => about (jp_info o) (fst q) /\ jp_body o = snd q) out (shown_part (combine rs bs)) /\ (dead = true <-> exists r, In (r, JAbort) (combine rs bs)) /\
    (y = Ok tt -> forall r, In r (v_docs v) -> there r).
Proof.
  intros E EO key getkey KO s h v H Sn p Hp g Sp inflate xattr parses body m Hm. cbv zeta. set (d := Db g h false).
  assert (X : forall js rs, Forall2 about js rs -> Forall2 (fun r b => exists i, about i r /\ if body then shows_body inflate xattr parses r (open_doc_with_docinfo d i true) b else b = JNull) rs (map (jitem inflate xattr parses body d) js)).
  { intros js rs F. induction F as [|i r js rs A F IH]; cbn [map]; constructor; [|exact IH]. exists i. split; [exact A|]. unfold jitem. destruct body; [now apply json_shows|reflexivity]. }
  destruct Hm as [-> | ->]; cbn [dump_once_json order].
  - destruct (@C70_changes E EO key getkey KO s h v H Sn p Hp g Sp 0 (EnumOpts false false true) eq_refl eq_refl) as (rs & js & H1 & H2 & H3 & H4). specialize (H4 _ (foldprint_json inflate xattr parses body d) (JState [] false)). fold d in H4, H1.
    rewrite feed_on_json in H4. cbn [fst snd app] in H4. destruct H4 as (H4 & H5 & _). destruct (changes_since d 0 (EnumOpts false false true) (foldprint_json inflate xattr parses body d) (JState [] false)) as [y u]. cbn [fst snd] in *. subst u.
    exists y, rs, (map (jitem inflate xattr parses body d) js), (jpart inflate xattr parses body d js), (aborts inflate xattr parses body d js). split; [reflexivity|].
    split; [|split; [exact H2|split; [now apply X|split; [now apply jpart_shown|split; [now apply aborts_in|]]]]].
    + intros r. rewrite H1. unfold picked. cbn. split; [tauto|]. intros [A B]. split; [exact A|]. split; [exact B|]. split; [lia|]. split; discriminate.
    + intros Hx r Hr. apply (H5 Hx); [exact Hr|lia].
  - destruct (@C70_all E EO key getkey KO s h v H Sn p Hp g Sp [] (EnumOpts false false true) eq_refl) as (rs & js & H1 & H2 & H3 & H4). specialize (H4 _ (foldprint_json inflate xattr parses body d) (JState [] false)). fold d in H4, H1.
    rewrite feed_on_json in H4. cbn [fst snd app] in H4. destruct H4 as (H4 & H5 & _). destruct (all_docs d [] (EnumOpts false false true) (foldprint_json inflate xattr parses body d) (JState [] false)) as [y u]. cbn [fst snd] in *. subst u.
    assert (Ln : forall r, lex_le [] (rv_id r)) by (intros r; unfold lex_le; destruct (rv_id r); [now left|right; constructor]).
    exists y, rs, (map (jitem inflate xattr parses body d) js), (jpart inflate xattr parses body d js), (aborts inflate xattr parses body d js). split; [reflexivity|].
    split; [|split; [exact H2|split; [now apply X|split; [now apply jpart_shown|split; [now apply aborts_in|]]]]].
    + intros r. rewrite H1. unfold picked. cbn. split; [tauto|]. intros [A B]. split; [exact A|]. split; [exact B|]. split; [apply Ln|]. split; discriminate.
    + intros Hx r Hr. apply (H5 Hx); [exact Hr|apply Ln].
Qed.
Print Assumptions C76_damaged.

(** *** What does not hold *)

Definition jmeta (t : N) : bytes := repeat 0 17 ++ [t].
Definition jdoc (id t : N) (body : bytes) : submit := Submit (Some body) (DocInfo [id] 0 1 (jmeta t) false 0 0 0) 1.
(** Three documents: "a" is said to be snappy, "b" to be JSON, "c" neither. *)
Definition js1 : session := @after_docs env0 sx0 cf so false [jdoc 97 2 [1;2]; jdoc 98 1 [3]; jdoc 99 0 [4;5;6]].
Lemma js1_session : @sessions env0 None gks js1.
Proof. apply (sess_write sx0_session). apply docs_write; [discriminate| |vm_compute; reflexivity]. apply batch_check; vm_compute; reflexivity. Qed.
Definition j_src : db := reader js1 (dbh (ss_db js1)) (fpos (dbf (ss_db js1))).
Definition jview (x : res unit * jstate) : res unit * list (bytes * jbody) * bool := (fst x, map (fun o => (di_id (jp_info o), jp_body o)) (js_out (snd x)), js_dead (snd x)).
Definition no_attrs (b : bytes) : option (bytes * bytes) := Some ([], b).

(** A document that cannot be inflated is left out, and the program reports success; without --json its information is listed. *)
Theorem C76_inflate_refuted : exists (E : Env) s inflate xattr parses, EnvOk E /\ sessions None gks s /\ map rv_id (v_docs (ss_now s)) = [[99]; [98]; [97]] /\
  jview (dump_once_json inflate xattr parses true ById (reader s (dbh (ss_db s)) (fpos (dbf (ss_db s))))) = (Ok tt, [([98], JBody 1 [] [3]); ([99], JBody 3 [] [4;5;6])], false).
Proof. exists env0, js1, (fun _ => None), no_attrs, (fun _ => true). split; [exact env0_ok|]. split; [exact js1_session|]. split; vm_compute; reflexivity. Qed.
Print Assumptions C76_inflate_refuted.
(** A document that is said to be JSON and is not ends the program: documents after it are not listed. *)
Theorem C76_abort_refuted : exists (E : Env) s inflate xattr parses, EnvOk E /\ sessions None gks s /\ map rv_id (v_docs (ss_now s)) = [[99]; [98]; [97]] /\
  jview (dump_once_json inflate xattr parses true ById (reader s (dbh (ss_db s)) (fpos (dbf (ss_db s))))) = (Ok tt, [([97], JBody 2 [] [1;2])], true).
Proof. exists env0, js1, Some, no_attrs, (fun _ => false). split; [exact env0_ok|]. split; [exact js1_session|]. split; vm_compute; reflexivity. Qed.
Print Assumptions C76_abort_refuted.

Example C76_ex : key_ok None gks /\ @sessions env0 None gks js1 /\ @snapshot env0 js1 (dbh (ss_db js1)) (ss_now js1) /\ (fpos (dbf (ss_db js1)) <=? size (dbf (ss_db js1))) = true /\
  jview (@dump_once_json (fun b => Some (b ++ b)) no_attrs (fun _ => true) env0 true BySequence j_src) = (Ok tt, [([97], JBody 2 [] [1;2;1;2]); ([98], JBody 1 [] [3]); ([99], JBody 3 [] [4;5;6])], false) /\
  jview (@dump_once_json (fun _ => None) no_attrs (fun _ => false) env0 false ById j_src) = (Ok tt, [([97], JNull); ([98], JNull); ([99], JNull)], false) /\
  jview (@dump_once_json (fun _ => None) no_attrs (fun _ => false) env0 true (OneKey [98]) j_src) = (Ok tt, [], true) /\
  jview (@dump_once_json (fun _ => None) no_attrs (fun _ => false) env0 true (OneKey [100]) j_src) = (Err E_DOC_NOT_FOUND, [], false).
Proof. split; [exact sx_key|]. split; [exact js1_session|]. split; [left; split; reflexivity|]. split; [vm_compute; reflexivity|]. repeat split; vm_compute; reflexivity. Qed.
Example C76_damaged_ex : jview (@dump_once_json Some no_attrs (fun _ => true) env0 true BySequence seq_hit) = (Err E_CHECKSUM, [([97], JNull); ([99], JBody 1 [] [7]); ([100], JNull); ([101], JNull)], false).
Proof. vm_compute. reflexivity. Qed.
Example C76_file_ex : ss_ack zs4 = Some z_x /\ @crash_image (dbf (ss_db zs4)) (File.cur (dbf (ss_db zs4))) (size (dbf (ss_db zs4))) /\
  jview (@dump_json_file Some no_attrs (fun _ => true) env0 (image (File.cur (dbf (ss_db zs4))) (size (dbf (ss_db zs4))) []) gks None true ById) = (Ok tt, [([97], JBody 3 [] [4;5;6]); ([98], JNull)], false).
Proof.
  split; [exact z_x_ack|]. split; [|vm_compute; reflexivity]. apply image_now. destruct (@sessions_stored env0 env0_ok None gks sx_key zs4 zs4_session) as (G & _). exact (proj1 G).
Qed.
