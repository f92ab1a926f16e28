(** Property C68: the program that checks a file. *)
From Verif Require Import Base Codec File Header Btree BtreeRead SpecMap Db SpecDb SpecSession Walk SpecWalk Check CheckFacts EnvExample SessionExample
  History SpecCrash PropertiesDb PropertiesWalk PropertiesSave.
Local Open Scope N_scope.
Unset Strict Implicit.

(** The body can be read, or there is none because the document is deleted. *)
Definition readable {E : Env} (d : db) (i : doc_info) : Prop :=
  (exists b, open_doc_with_docinfo d i true = Ok b) \/ di_deleted i = true /\ open_doc_with_docinfo d i true = Err E_DOC_NOT_FOUND.
(** The local document can be read, or is not found. *)
Definition local_readable {E : Env} (d : db) (id : bytes) : Prop :=
  (exists x, open_local_document d id = Ok x) \/ open_local_document d id = Err E_DOC_NOT_FOUND.

Section Any.
Context {E : Env}.
Definition skip {U} : node_fn U := fun _ u => (Ok tt, u).

Lemma enum_list (read : bytes -> bytes -> res doc_info) (cb0 : doc_info -> N -> res unit * N) (P : doc_info -> Prop) :
  (forall i n u, cb0 i n = (Ok tt, u) -> P i) ->
  forall L u u', feed (fire (lookup_callback no_options read cb0) skip) L u = (Ok tt, u') ->
  exists is, Forall P is /\ forall U cb (u : U), feed (fire (lookup_callback no_options read cb) skip) L u = feed cb is u.
Proof.
  intros Hcb. induction L as [|[k v|a] L IH]; intros u u' H; cbn [feed fire] in H.
  - now exists [].
  - destruct v as [b|]; cbn [lookup_callback] in H.
    + destruct (read k b) as [i|e] eqn:Er.
      * cbn [no_options eo_deletes_only eo_no_deletes andb] in H. destruct (cb0 i u) as [[[]|e] u1] eqn:Ec; [|discriminate].
        destruct (IH _ _ H) as (is & H1 & H2). exists (i :: is). split; [constructor; [exact (Hcb _ _ _ Ec)|exact H1]|].
        intros U cb x. cbn [feed fire lookup_callback]. rewrite Er. cbn [no_options eo_deletes_only eo_no_deletes andb].
        destruct (cb i x) as [[?|e] x']; [apply H2|reflexivity].
      * destruct e; discriminate.
    + destruct (IH _ _ H) as (is & H1 & H2). exists is. split; [exact H1|]. intros U cb x. cbn [feed fire lookup_callback]. apply H2.
  - unfold skip in H at 1. destruct (IH _ _ H) as (is & H1 & H2). exists is. split; [exact H1|]. intros U cb x. cbn [feed fire skip]. apply H2.
Qed.

Lemma enum_all f pos ks (cmp : bytes -> bytes -> comparison) read (cb0 : doc_info -> N -> res unit * N) (P : doc_info -> Prop) u u' :
  (forall i n u, cb0 i n = (Ok tt, u) -> P i) ->
  btree_lookup (enum_request cmp no_options false read cb0) f pos ks true u = (Ok tt, u') ->
  exists is, Forall P is /\ forall U cb (u : U), btree_lookup (enum_request cmp no_options false read cb) f pos ks true u = feed cb is u.
Proof.
  intros Hcb H. destruct (lookup_calls cmp false f pos ks true) as (L & r & HL).
  assert (H0 := HL N (lookup_callback no_options read cb0) skip u). unfold enum_request in H. unfold rq_of in H0. rewrite H in H0.
  destruct (feed (fire (lookup_callback no_options read cb0) skip) L u) as [[[]|e] u1] eqn:Ef; [|discriminate].
  assert (r = Ok tt) as -> by congruence.
  destruct (enum_list Hcb Ef) as (is & H1 & H2). exists is. split; [exact H1|]. intros U cb x.
  assert (H3 := HL U (lookup_callback no_options read cb) skip x). unfold rq_of in H3. unfold enum_request. rewrite H3, H2.
  destruct (feed cb is x) as [[[]|e] x']; reflexivity.
Qed.

Lemma walk_list (cb0 : walk_fn unit) (P : item -> Prop) : (forall n x u u', cb0 n x u = (Ok tt, u') -> P x) ->
  forall L n u c', feed (fire (walk_fetch no_options local_read_docinfo cb0) (walk_node_callback cb0)) L (n, u) = (Ok tt, c') ->
  exists vs, Forall (fun v => P (snd v)) vs /\ forall U (cb : walk_fn U) (u : U),
    let '(x, c) := feed (fire (walk_fetch no_options local_read_docinfo cb) (walk_node_callback cb)) L (n, u) in (x, snd c) = feed (fun v => cb (fst v) (snd v)) vs u.
Proof.
  intros Hcb. induction L as [|[k v|a] L IH]; intros n u c' H; cbn [feed fire] in H.
  - exists []. split; [constructor|]. intros. reflexivity.
  - unfold walk_fetch in H at 1. cbn [fst snd] in H. destruct v as [b|]; cbn [lookup_callback] in H.
    + unfold local_read_docinfo in H at 1. cbn [no_options eo_deletes_only eo_no_deletes andb] in H.
      set (i := DocInfo k 0 0 [] false 0 0 (lenN b)) in *.
      destruct (cb0 n (IDoc i) u) as [[[]|e] u1] eqn:Ec; [|discriminate].
      destruct (IH _ _ _ H) as (vs & H1 & H2). exists ((n, IDoc i) :: vs). split; [constructor; [exact (Hcb _ _ _ _ Ec)|exact H1]|].
      intros U cb x. cbn [feed fire]. unfold walk_fetch at 1. cbn [fst snd lookup_callback]. unfold local_read_docinfo at 1.
      cbn [no_options eo_deletes_only eo_no_deletes andb]. fold i. destruct (cb n (IDoc i) x) as [[?|e] x']; [apply H2|reflexivity].
    + destruct (IH _ _ _ H) as (vs & H1 & H2). exists vs. split; [exact H1|]. intros U cb x. cbn [feed fire]. unfold walk_fetch at 1. cbn [fst snd lookup_callback]. apply H2.
  - unfold walk_node_callback in H at 1. cbn [fst snd] in H. destruct a as [[sz red]|].
    + destruct (cb0 n (INode sz red) u) as [[[]|e] u1] eqn:Ec; [|discriminate].
      destruct (IH _ _ _ H) as (vs & H1 & H2). exists ((n, INode sz red) :: vs). split; [constructor; [exact (Hcb _ _ _ _ Ec)|exact H1]|].
      intros U cb x. cbn [feed fire]. unfold walk_node_callback at 1. cbn [fst snd]. destruct (cb n (INode sz red) x) as [[?|e] x']; [apply H2|reflexivity].
    + destruct (IH _ _ _ H) as (vs & H1 & H2). exists vs. split; [exact H1|]. intros U cb x. cbn [feed fire]. unfold walk_node_callback at 1. cbn [fst snd]. apply H2.
Qed.
End Any.

(** ** C68: for every file *)

(** If the program finds nothing then every enumeration from the beginning delivers a list of documents and ends without an error, whatever is done with the documents;
    every document of the sequence index, and every local document, can be read. *)
Theorem C68_readable : forall (E : Env) (d : db), check d = 0 ->
  (exists is, Forall (readable d) is /\ forall U cb (u : U), changes_since d 0 no_options cb u = feed cb is u) /\
  (exists is, forall U cb (u : U), all_docs d [] no_options cb u = feed cb is u) /\
  (exists vs, Forall (fun v => match snd v with IDoc i => local_readable d (di_id i) | INode _ _ => True end) vs /\
    forall U (cb : walk_fn U) u, walk_local_tree d [] no_options cb u = feed (fun v => cb (fst v) (snd v)) vs u).
Proof.
  intros E d H. unfold check in H.
  destruct (walk_local_tree d [] no_options (access_local d) tt) as [[[]|e1] u1] eqn:E1; [|discriminate].
  destruct (changes_since d 0 no_options (access_document d) 0) as [[[]|e2] u2] eqn:E2; [|discriminate].
  destruct (all_docs d [] no_options look_at 0) as [[[]|e3] u3] eqn:E3; [|discriminate]. clear H.
  split; [|split].
  - unfold changes_since in *. destruct (dropped d); [discriminate|]. destruct (h_by_seq (dbh d)) as [p|]; [|now exists []].
    refine (enum_all _ E2). intros i n u Hi. unfold access_document in Hi. unfold readable.
    destruct (open_doc_with_docinfo d i true) as [b|e]; [left; now exists b|].
    destruct (di_deleted i); [|discriminate]. right. split; [reflexivity|]. destruct e; try discriminate. reflexivity.
  - unfold all_docs in *. destruct (dropped d); [discriminate|]. destruct (h_by_id (dbh d)) as [p|]; [|now exists []].
    destruct (@enum_all E _ _ _ _ _ look_at (fun _ => True) _ _ (fun _ _ _ _ => I) E3) as (is & _ & H). now exists is.
  - unfold walk_local_tree, walk_tree in *. destruct (dropped d); [discriminate|]. destruct (h_local (dbh d)) as [p|]; [|exists []; split; [constructor|reflexivity]].
    change (access_local d 0 (INode (np_subtree p) (np_reduce p)) tt) with (@Ok unit tt, tt) in E1. cbv iota beta in E1.
    destruct (lookup_calls ebin_cmp true (dbf d) (np_pointer p) [[]] true) as (L & r & HL).
    set (P := fun x => match x with IDoc i => local_readable d (di_id i) | INode _ _ => True end).
    assert (H0 := HL (N * unit)%type (walk_fetch no_options local_read_docinfo (access_local d)) (walk_node_callback (access_local d)) (1, tt)).
    match type of H0 with _ = ?r => assert (E1' : (let '(y, c) := r in (y, snd c)) = (Ok tt, u1)) by (rewrite <- H0; exact E1) end. clear E1 H0. rename E1' into E1.
    destruct (feed _ L (1, tt)) as [[[]|e] c] eqn:Ef; [|discriminate].
    assert (r = Ok tt) as -> by congruence.
    assert (HP : forall n x u u', access_local d n x u = (Ok tt, u') -> P x).
    { intros n [sz red|i] u u' Hx; [exact I|]. cbn [access_local] in Hx. unfold P, local_readable.
      destruct (open_local_document d (di_id i)) as [x|e]; [left; now exists x|]. right. destruct e; try discriminate. reflexivity. }
    destruct (walk_list HP Ef) as (vs & H1 & H2). exists ((0, INode (np_subtree p) (np_reduce p)) :: vs). split; [constructor; [exact I|exact H1]|].
    intros U cb u. cbn [feed fst snd]. destruct (cb 0 (INode (np_subtree p) (np_reduce p)) u) as [[[]|e] u']; [|reflexivity].
    assert (H3 := HL (N * U)%type (walk_fetch no_options local_read_docinfo cb) (walk_node_callback cb) (1, u')).
    etransitivity; [exact (f_equal (fun z => let '(y, c) := z in (y, snd c)) H3)|]. clear H3. cbv beta.
    specialize (H2 U cb u'). destruct (feed _ L (1, u')) as [[[]|e] c2]; cbn [snd] in *; exact H2.
Qed.
Print Assumptions C68_readable.
Example C68_readable_case : @check env0 (ss_db sx5) = 0 /\ @changes_since env0 _ (ss_db sx5) 0 no_options (fun i n => (@Ok unit tt, n + 1)) 0 = (Ok tt, 4).
Proof. vm_compute. now split. Qed.

(** ** C68: for every session *)

(** The stored body is not marked as compressed without being so, and only deleted documents have none. *)
Definition checkable {E : Env} (r : revision) : Prop :=
  match rv_body r with
  | None => rv_deleted r = true
  | Some (Packed _) => True
  | Some (Raw b) => N.land (rv_content_meta r) DOC_IS_COMPRESSED <> 0 -> uncompress b <> None
  end.

Lemma feed_ok A U (cb : A -> U -> res unit * U) (c : A -> bool) : (forall x u, c x = true -> cb x u = (Ok tt, u)) ->
  (forall x u, c x = false -> exists e u', cb x u = (Err e, u')) -> forall l u,
  if forallb c l then feed cb l u = (Ok tt, u) else exists e u', feed cb l u = (Err e, u').
Proof.
  intros H1 H2. induction l as [|x l IH]; intros u; [reflexivity|]. cbn [forallb feed]. destruct (c x) eqn:Ec; cbn [andb].
  - rewrite (H1 x u Ec). apply IH.
  - destruct (H2 x u Ec) as (e & u' & ->). now exists e, u'.
Qed.

(** In every session the program succeeds exactly if every body that is marked as compressed can be uncompressed: it raises no false alarm. *)
Theorem C68_sessions : forall (E : Env), EnvOk E -> forall key getkey, key_ok key getkey -> forall s, sessions key getkey s ->
  check (ss_db s) = 0 <-> Forall checkable (v_docs (ss_now s)).
Proof.
  intros E EO key getkey KO s Hs. assert (SC := C06_contents EO KO Hs). set (d := ss_db s) in *. unfold check.
  assert (HL : walk_local_tree d [] no_options (access_local d) tt = (Ok tt, tt)).
  { assert (A : forall n x u, access_local d n x u = (Ok tt, u)).
    { intros n [sz red|i] u; [reflexivity|]. cbn [access_local]. rewrite (sc_local SC). now destruct (find_local (di_id i) (v_locals (ss_now s))). }
    assert (HW := C62_locals EO KO Hs). fold d in HW. destruct (h_local (dbh d)) as [p|].
    - destruct HW as (t & k & lk & n & _ & _ & _ & _ & _ & HW). rewrite (HW unit [] no_options (access_local d) tt eq_refl).
      generalize ((0, INode n []) :: visits (fun x => not_before (fst x) []) (wanted no_options) local_info (fun _ => []) 0 t). intros l.
      induction l as [|x l IH]; [reflexivity|]. cbn [feed]. rewrite A. exact IH.
    - apply HW. }
  rewrite HL.
  destruct (@sc_changes E _ _ SC 0 no_options eq_refl) as (rs & is & Hrs & _ & Hsh & Hrun); [reflexivity|].
  rewrite (Hrun N (access_document d) 0).
  destruct (@sc_all E _ _ SC [] no_options eq_refl) as (rs' & is' & _ & _ & _ & Hrun'). rewrite (Hrun' N look_at 0).
  assert (HA : feed look_at is' 0 = (Ok tt, 0)). { clear. induction is' as [|x l IH]; [reflexivity|]. cbn [feed look_at]. exact IH. }
  rewrite HA.
  set (c := fun i => match open_doc_with_docinfo d i true with Ok _ => true | Err e => di_deleted i && match e with E_DOC_NOT_FOUND => true | _ => false end end).
  assert (HF := @feed_ok doc_info N (access_document d) c).
  assert (HF' : if forallb c is then feed (access_document d) is 0 = (Ok tt, 0) else exists e u', feed (access_document d) is 0 = (Err e, u')).
  { apply HF; clear HF; intros i u; unfold access_document, c; destruct (open_doc_with_docinfo d i true) as [b|e]; try reflexivity; try discriminate.
    - now intros ->.
    - intros ->. now exists e, u. }
  assert (HC : Forall2 (fun i r => c i = true <-> checkable r) is rs).
  { clear - Hsh. induction Hsh as [|i r is rs [Hab Hb] H IH]; [constructor|]. constructor; [|exact IH]. clear IH H.
    unfold c, checkable. specialize (Hb true). unfold body_read in Hb. cbn [andb] in Hb. destruct (rv_body r) as [[b|b]|].
    - destruct (N.eqb_spec (N.land (rv_content_meta r) DOC_IS_COMPRESSED) 0) as [Hz|Hz]; cbn [negb] in Hb.
      + destruct Hb as (z & _ & ->). split; [intros _ Hn; now destruct Hn|reflexivity].
      + destruct (uncompress b) as [y|]; rewrite Hb.
        * split; [intros _ _; discriminate|reflexivity].
        * rewrite andb_false_r. split; [discriminate|]. intros Hn. now destruct (Hn Hz).
    - destruct (negb (N.land (rv_content_meta r) DOC_IS_COMPRESSED =? 0)); [rewrite Hb|destruct Hb as (z & _ & ->)]; split; auto.
    - rewrite Hb, andb_true_r, (ab_deleted Hab). reflexivity. }
  assert (HFA : forallb c is = true <-> Forall checkable rs).
  { clear - HC. induction HC as [|i r is rs H _ IH]; [split; [constructor|reflexivity]|]. cbn [forallb]. rewrite andb_true_iff, IH, H. split.
    - intros [X Y]. now constructor.
    - intros X. inversion X; now split. }
  assert (HV : Forall checkable rs <-> Forall checkable (v_docs (ss_now s))).
  { rewrite !Forall_forall. split; intros H r Hr; apply H.
    - apply Hrs. split; [exact Hr|]. split; [apply N.le_0_l|]. split; discriminate.
    - now apply Hrs in Hr. }
  rewrite <- HV, <- HFA. destruct (forallb c is).
  - rewrite HF'. cbn. split; reflexivity.
  - destruct HF' as (e & u' & ->). split; discriminate.
Qed.
Print Assumptions C68_sessions.
Example C68_sessions_case : @sessions env0 None gks sx5 /\ @check env0 (ss_db sx5) = 0.
Proof. split; [exact sx5_session|]. vm_compute. reflexivity. Qed.

(** ** C68: refuted *)

(** The numbers of documents in the two indexes are meant to be compared, but nothing is counted: after a document has been saved with the sequence number of
    another one, the indexes have different numbers of documents and the program succeeds. *)
Theorem C68_counts_refuted : exists (E : Env) key getkey s c o l R a b,
  EnvOk E /\ key_ok key getkey /\ sessions key getkey s /\ save_documents c o true l (ss_db s) = R /\ sv_res R = Ok tt /\
  changes_since (sv_db R) 0 no_options (fun _ n => (Ok tt, n + 1)) 0 = (Ok tt, a) /\ all_docs (sv_db R) [] no_options (fun _ n => (Ok tt, n + 1)) 0 = (Ok tt, b) /\
  a <> b /\ check (sv_db R) = 0.
Proof.
  exists env0, None, gks, sx1, cf, as_is, clash, (@save_documents env0 cf as_is true clash (ss_db sx1)), 3, 4.
  split; [exact env0_ok|]. split; [exact Logic.I|]. split; [exact sx1_session|]. split; [reflexivity|].
  split; [vm_compute; reflexivity|]. split; [vm_compute; reflexivity|]. split; [vm_compute; reflexivity|]. split; [discriminate|]. vm_compute. reflexivity.
Qed.
Print Assumptions C68_counts_refuted.

(** When the file cannot be opened the error is printed with the help of the database that has not been opened. *)
Theorem C68_open_refuted : exists (E : Env) (f : file) getkey e, open_existing f getkey false false = Err e /\ check_main (open_existing f getkey false false) = Err E_UB.
Proof. exists env0, (empty_file []), (fun _ _ _ => Err E_ENCRYPT), E_NO_HEADER. vm_compute. now split. Qed.
Print Assumptions C68_open_refuted.
