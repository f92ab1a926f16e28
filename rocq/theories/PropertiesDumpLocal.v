(** Property C75: what couch_dbdump --local lists. *)
From Coq Require Import Sorting.Sorted.
From Verif Require Import Base SpecOrder Codec CodecFacts File FileFacts ChunkFacts Header HeaderFacts History CrashFacts DataFacts SpecCrash NavFacts ReachNav OpenFacts CommitFacts SpecFile PropertiesCrash PropertiesNav
  Btree BtreeRead TreeStore SpecMap MergeFacts ModifyFacts LookupFacts Db SpecDb SortFacts ReduceFacts DbFacts DbSave DbRead TreeWriter Compact SpecCompact CompactFacts Replay SpecReplay
  SpecSession ShowFacts SessionFacts ReadFacts SaveFacts EnvExample SessionExample PropertiesDb SpecRecover RecoverFacts RecoverCopy PropertiesRecover PropertiesTolerate Dbinfo Dbdump DbdumpFacts PropertiesDump DbdumpLocal DbdumpLocalFacts.
Local Open Scope N_scope.
Unset Strict Implicit.

Section Shown.
Variable decode : bytes -> bytes -> option bytes.
Variable parses : bytes -> bool.
(** What is to be printed of a value: the decoded value if there was something to decode, else the value as it is stored. [None]: it cannot be decoded. *)
Definition readable_value (l : kv) : option bytes := match decode (fst l) (snd l) with Some [] => Some (snd l) | x => x end.
(** Nothing is wrong with the local document. *)
Definition sound_local (json : bool) (l : kv) : Prop := exists b, readable_value l = Some b /\ (json = true -> parses b = true).
(** What is printed stands for the local document. Without --json: its key, and its value with the stored size unless it cannot be decoded. *)
Definition prints_local (json : bool) (o : lprinted) (l : kv) : Prop :=
  lp_key o = fst l /\ lp_value o = option_map (fun b => (b, if json then 0 else lenN (snd l))) (readable_value l).
(** With --json a local document is left out if something is wrong with it. *)
Definition listed (json : bool) (l : kv) : Prop := json = true -> sound_local true l.
End Shown.
(** The local document is found through the handle. *)
Definition local_there {E : Env} (d : db) (l : kv) : Prop := exists y, open_local_document d (fst l) = Ok y.

(** ** The callbacks *)

Section Callback.
Variable decode : bytes -> bytes -> option bytes.
Variable parses : bytes -> bool.
Variable json : bool.
Definition cbl : bytes -> option bytes -> list lprinted -> res unit * list lprinted := if json then local_doc_print_json decode parses else local_doc_print decode.
Definition rql : lreq (list lprinted) := LReq ebin_cmp cbl None true.
Definition fineb (l : kv) : bool := match readable_value decode l with None => false | Some b => if json then parses b else true end.
Definition listedb (l : kv) : bool := negb json || fineb l.
Definition litem (l : kv) : lprinted := LPrinted (fst l) (option_map (fun b => (b, if json then 0 else lenN (snd l))) (readable_value decode l)).
Lemma fineb_fine l : fineb l = true <-> sound_local decode parses json l.
Proof.
  unfold fineb, sound_local. destruct (readable_value decode l) as [b|]; [|split; [discriminate|intros (b & H & _); discriminate]]. destruct json.
  - split; [intros H; exists b; auto|intros (c & H & H'); injection H as <-; auto].
  - split; [intros _; exists b; split; [reflexivity|discriminate]|reflexivity].
Qed.
Lemma listedb_listed l : listedb l = true <-> listed decode parses json l.
Proof.
  unfold listedb, listed. pose proof (fineb_fine l) as F. destruct json; cbn [negb orb].
  - rewrite F. split; auto.
  - split; [intros _ H; discriminate H|reflexivity].
Qed.
Lemma cbl_some l u : cbl (fst l) (Some (snd l)) u = (if fineb l then Ok tt else Err E_CORRUPT, u ++ (if listedb l then [litem l] else [])).
Proof.
  unfold cbl, listedb, litem, fineb, local_doc_print_json, local_doc_print, readable_value. destruct json; cbn [negb orb]; destruct (decode (fst l) (snd l)) as [[|x b]|]; cbn [local_value option_map].
  - destruct (parses (snd l)); [reflexivity|now rewrite app_nil_r].
  - destruct (parses (x :: b)); [reflexivity|now rewrite app_nil_r].
  - now rewrite app_nil_r.
  - reflexivity.
  - reflexivity.
  - reflexivity.
Qed.
Lemma cbl_none k u : cbl k None u = (Err E_DOC_NOT_FOUND, u).
Proof. unfold cbl. destruct json; reflexivity. Qed.
Lemma run_locals ls : forall u, run_tol rql ls u = (forallb fineb ls, u ++ map litem (filter listedb ls)).
Proof.
  induction ls as [|l r IH]; intros u; cbn [run_tol forallb filter map]; [now rewrite app_nil_r|]. cbn [rql l_fetch]. rewrite cbl_some, IH.
  destruct (listedb l); cbn [map]; rewrite <- app_assoc; destruct (fineb l); reflexivity.
Qed.
Lemma prints_locals ls : (forall l, In l ls -> listedb l = true) -> Forall2 (prints_local decode json) (map litem ls) ls.
Proof.
  induction ls as [|l r IH]; intros H; cbn [map]; constructor; [|apply IH; intros l' H'; apply H; now right]. split; reflexivity.
Qed.
Lemma from_all (ls : list kv) : from rql [] ls = ls.
Proof.
  unfold from. apply filter_all. intros l _. cbn [rql l_cmp]. rewrite lookup_ebin. apply ge_lex. unfold lex_le. destruct (fst l); [now left|right; constructor].
Qed.
End Callback.

Section WithEnv.
Context {E : Env}.
Hypothesis EO : EnvOk E.
Variables src : db.
Variable g : file.
Variable v : contents.
Variable ps : list (doc_info * revision).
Hypothesis Gs : good (dbf src).
Hypothesis Sp : spoiled (dbf src) g.
Hypothesis S : stored (dbf src) (dbh src) v ps.
Notation d := (Db g (dbh src) false).

Lemma loc_sorted : sorted (lookup_compare ebin_cmp) (by_key (v_locals v)).
Proof. apply sorted_lookup_ebin, by_key_sorted. exact (sd_lids S). Qed.
Lemma loc_none : h_local (dbh src) = None -> v_locals v = [].
Proof.
  intros Hp. pose proof (sd_loc S) as T. rewrite Hp in T. destruct (v_locals v) as [|i l] eqn:He; [reflexivity|]. exfalso. assert (Hi : In i (by_key (i :: l))) by (rewrite in_by_key; now left). rewrite T in Hi. destruct Hi.
Qed.
Lemma loc_some p : h_local (dbh src) = Some p -> by_key (v_locals v) <> [].
Proof. intros Hp. pose proof (sd_loc S) as T. rewrite Hp in T. destruct T as (n & p' & T & _). exact (tree_nonempty T). Qed.
Lemma loc_left p : h_local (dbh src) = Some p -> exists q : kv -> bool, leaves ebin_cmp (dbf src) g (depth_fuel g) (np_pointer p) (by_key (v_locals v)) (filter q (by_key (v_locals v))).
Proof.
  intros Hp. pose proof (sd_loc S) as T. rewrite Hp in T. destruct T as (n & p' & T & Hp' & _).
  assert (Hdp : (n < depth_fuel g)%nat) by (rewrite (same_depth Sp); exact (@depth_ok unit (LReq ebin_cmp (fun _ _ u => (Ok tt, u)) None false) E _ _ _ _ _ _ _ T)).
  destruct (@left_over E EO (local_request cfg0) kv_ok loc_redP (fun _ H => H) Hloc_red ebin_cmp (ord_lookup ord_ebin) (dbf src) g Gs Sp n _ Hdp p' _ T loc_sorted) as [k' L]. rewrite Hp' in L.
  assert (Hn : NoDup (by_key (v_locals v))) by (apply (NoDup_map_inv fst); eapply Permutation_NoDup; [apply Permutation_map; apply isort_perm|exact (sd_lids S)]).
  destruct (part_filter (lv_part L) Hn) as [q Hq]. exists q. rewrite Hq in L. exact L.
Qed.
Lemma loc_there p q : h_local (dbh src) = Some p -> leaves ebin_cmp (dbf src) g (depth_fuel g) (np_pointer p) (by_key (v_locals v)) (filter q (by_key (v_locals v))) ->
  forall l, In l (v_locals v) -> (q l = true <-> local_there d l).
Proof.
  intros Hp L l Hl. rewrite <- in_by_key in Hl. unfold local_there, open_local_document. cbn [dropped dbh dbf]. rewrite Hp. unfold btree_lookup.
  destruct (lv_find L (rq := LReq ebin_cmp local_doc_fetch None false) eq_refl eq_refl eq_refl Hl None) as [[Hi Hf]|[Hi (e & Hf)]]; rewrite Hf; rewrite filter_In in Hi.
  - split; [|intros _; apply Hi]. intros _. unfold out. cbn [run_calls found l_fetch local_doc_fetch fst snd l_u]. eexists. reflexivity.
  - split; [intros H; exfalso; apply Hi; auto|intros [y H]; discriminate].
Qed.

Variable decode : bytes -> bytes -> option bytes.
Variable parses : bytes -> bool.
Variable json : bool.

Lemma locals_left : exists x out ls, print_local_docs decode parses json None d = (x, out) /\
  (forall l, In l ls <-> In l (v_locals v) /\ local_there d l /\ listed decode parses json l) /\ StronglySorted (fun a b => lex (fst a) (fst b)) ls /\ Forall2 (prints_local decode json) out ls /\
  (x = Ok tt <-> forall l, In l (v_locals v) -> local_there d l /\ sound_local decode parses json l).
Proof.
  unfold print_local_docs. cbn [dbh dbf]. destruct (h_local (dbh src)) as [p|] eqn:Hp.
  2:{ exists (Ok tt), [], []. rewrite (loc_none Hp). split; [reflexivity|]. split; [intros l; cbn; tauto|]. split; [constructor|]. split; [constructor|]. split; [intros _ l []|reflexivity]. }
  destruct (loc_left Hp) as [q L]. pose proof (loc_there Hp L) as Ht. set (ls := filter q (by_key (v_locals v))) in *.
  cbv zeta. change (LReq ebin_cmp (if json then local_doc_print_json decode parses else local_doc_print decode) None true) with (rql decode parses json).
  destruct (lv_from L (rq := rql decode parses json) eq_refl eq_refl eq_refl [] [] false) as (r & i' & H1 & _ & H3 & H4). apply (f_equal (fun z => let '(x, s) := z in (x, l_u s))) in H1. cbn [l_u] in H1. rewrite !from_all in *. rewrite run_locals in *. cbn [fst snd app] in *.
  exists r, (map (litem decode json) (filter (listedb decode parses json) ls)), (filter (listedb decode parses json) ls). split; [exact H1|].
  assert (Hin : forall l, In l ls <-> In l (v_locals v) /\ local_there d l).
  { intros l. unfold ls. rewrite filter_In, in_by_key. split; intros [A B]; (split; [exact A|]); now apply (Ht l A). }
  split; [|split; [|split]].
  - intros l. rewrite filter_In, Hin, listedb_listed. tauto.
  - assert (Hs : sorted ebin_cmp (by_key (v_locals v))) by (apply by_key_sorted; exact (sd_lids S)).
    assert (Hf : forall (f : kv -> bool) m, StronglySorted (fun a b : kv => ebin_cmp (fst a) (fst b) = Lt) m -> StronglySorted (fun a b : kv => ebin_cmp (fst a) (fst b) = Lt) (filter f m)).
    { intros f m H. induction H as [|a m H IH Hall]; cbn [filter]; [constructor|]. destruct (f a); [|exact IH]. constructor; [exact IH|]. rewrite Forall_forall in *. intros b Hb. apply filter_In in Hb. apply Hall, Hb. }
    assert (Hx : StronglySorted (fun a b : kv => ebin_cmp (fst a) (fst b) = Lt) (filter (listedb decode parses json) ls)) by (apply Hf, Hf; exact Hs).
    revert Hx. generalize (filter (listedb decode parses json) ls). intros m Hx. induction Hx as [|a m Hm IH Hall]; constructor; [exact IH|]. revert Hall. apply Forall_impl. intros b. apply ebin_lex.
  - apply prints_locals with (parses := parses). intros l Hl. apply filter_In in Hl. apply Hl.
  - split.
    + intros Hr l Hl. destruct (H3 Hr) as [A B]. assert (Hl' : In l ls) by (rewrite A, in_by_key; exact Hl). split; [apply (Hin l), Hl'|]. rewrite forallb_forall in B. apply fineb_fine, B, Hl'.
    + intros H. assert (A : ls = by_key (v_locals v)) by (apply filter_all; intros l Hl; rewrite in_by_key in Hl; apply (Ht l Hl), (H l Hl)). apply H4; [exact A| |exact (loc_some Hp)].
      apply forallb_forall. intros l Hl. apply fineb_fine, (H l). apply (Hin l), Hl.
Qed.

Lemma local_key l : In l (v_locals v) -> exists x out, print_local_docs decode parses json (Some (fst l)) d = (x, out) /\
  (local_there d l -> (x = Ok tt <-> sound_local decode parses json l) /\ (listed decode parses json l -> exists o, out = [o] /\ prints_local decode json o l) /\ (~ listed decode parses json l -> out = [])) /\
  (~ local_there d l -> (exists e, x = Err e) /\ out = []).
Proof.
  intros Hl. unfold print_local_docs. cbn [dbh dbf]. destruct (h_local (dbh src)) as [p|] eqn:Hp; [|exfalso; rewrite (loc_none Hp) in Hl; destruct Hl].
  destruct (loc_left Hp) as [q L]. pose proof (loc_there Hp L Hl) as Ht.
  cbv zeta. change (LReq ebin_cmp (if json then local_doc_print_json decode parses else local_doc_print decode) None true) with (rql decode parses json).
  rewrite (@one_btree _ (LReq ebin_cmp (cbl decode parses json) None false) (rql decode parses json) eq_refl eq_refl eq_refl eq_refl eq_refl eq_refl). unfold btree_lookup.
  assert (Hl' : In l (by_key (v_locals v))) by (rewrite in_by_key; exact Hl).
  destruct (lv_find L (rq := LReq ebin_cmp (cbl decode parses json) None false) eq_refl eq_refl eq_refl Hl' []) as [[Hi Hf]|[Hi (e & Hf)]]; rewrite Hf; rewrite filter_In in Hi.
  - unfold LookupFacts.out. cbn [run_calls found l_fetch]. rewrite cbl_some. cbn [app]. exists (if fineb decode parses json l then Ok tt else Err E_CORRUPT), (if listedb decode parses json l then [litem decode json l] else []).
    split; [destruct (fineb decode parses json l); reflexivity|]. split; [|intros H; exfalso; apply H, Ht, Hi]. intros _. split.
    + rewrite <- fineb_fine. destruct (fineb decode parses json l); split; auto; discriminate.
    + rewrite <- listedb_listed. destruct (listedb decode parses json l); (split; [|congruence]); [|discriminate]. intros _. eexists. split; [reflexivity|]. split; reflexivity.
  - cbn [l_u]. exists (Err e), []. split; [reflexivity|]. split; [intros H; exfalso; apply Hi; split; [exact Hl'|apply Ht, H]|]. intros _. split; [exists e; reflexivity|reflexivity].
Qed.
End WithEnv.

Lemma local_missing {E : Env} (EO : EnvOk E) d v ps (G : good (dbf d)) (S : stored (dbf d) (dbh d) v ps) decode parses json id :
  ~ In id (map fst (v_locals v)) -> print_local_docs decode parses json (Some id) d = (Err E_DOC_NOT_FOUND, []).
Proof.
  intros Hi. unfold print_local_docs. destruct (h_local (dbh d)) as [p|] eqn:Hp; [|reflexivity].
  cbv zeta. change (LReq ebin_cmp (if json then local_doc_print_json decode parses else local_doc_print decode) None true) with (rql decode parses json).
  rewrite (@one_btree _ (LReq ebin_cmp (cbl decode parses json) None false) (rql decode parses json) eq_refl eq_refl eq_refl eq_refl eq_refl eq_refl).
  set (rq := LReq ebin_cmp (cbl decode parses json) None false).
  rewrite (@loc_lookup_keys E EO d v ps G S _ rq p [id] [] eq_refl eq_refl eq_refl Hp (one_sorted rq id)).
  rewrite nf_one; [|apply ord_lookup, ord_ebin|apply sorted_lookup_ebin, by_key_sorted; exact (sd_lids S)]. cbn [rq l_cmp].
  destruct (find (fun x => match lookup_compare ebin_cmp (fst x) id with Eq => true | _ => false end) (by_key (v_locals v))) as [y|] eqn:Hy.
  - exfalso. apply find_some in Hy. destruct Hy as [Hy He]. rewrite in_by_key in Hy. rewrite lookup_ebin in He. destruct (ebin_cmp (fst y) id) eqn:Hc; try discriminate. apply ebin_eq in Hc. apply Hi. rewrite <- Hc. now apply in_map.
  - unfold absent, rq. cbn [run_calls l_fetch]. rewrite cbl_none. reflexivity.
Qed.

Lemma spoiled_same {E : Env} f : spoiled f f.
Proof. split; [reflexivity|]. intros pos. now left. Qed.

(** ** C75 *)

(** A snapshot (header [h], contents [v]) of a database is listed from a file [g] that is the file of the database, or that file with damage that is noticed when it is read.
    Exactly the local documents that are found when looked up one by one are listed, each once, in the order of their ids, with their values; with --json, those are left out
    that cannot be decoded or parsed. The program reports success exactly if no local document is missing and nothing is wrong with any of them. *)
Theorem C75_locals : forall (E : Env), EnvOk E -> forall key getkey, key_ok key getkey -> forall s h v, sessions key getkey s -> snapshot s h v ->
  forall p, fpos (dbf (ss_db s)) <= p <= size (dbf (ss_db s)) -> forall g, spoiled (dbf (reader s h p)) g -> forall decode parses json,
  let d := Db g h false in
  exists x out ls, print_local_docs decode parses json None d = (x, out) /\
    (forall l, In l ls <-> In l (v_locals v) /\ local_there d l /\ listed decode parses json l) /\ StronglySorted (fun a b => lex (fst a) (fst b)) ls /\ Forall2 (prints_local decode json) out ls /\
    (x = Ok tt <-> forall l, In l (v_locals v) -> local_there d l /\ sound_local decode parses json l).
Proof.
  intros E EO key getkey KO s h v H Sn p Hp g Sp decode parses json. destruct (sessions_linked EO KO H) as [t L]. destruct (linked_snapshot EO KO L Sn) as [ps S]. destruct (sessions_stored EO KO H) as (G & _).
  assert (G' : good (dbf (reader s h p))) by (apply good_fpos; [exact G|apply Hp]).
  assert (S' : stored (dbf (reader s h p)) (dbh (reader s h p)) v ps) by (eapply stored_keeps; [apply set_fpos_keeps; apply Hp|exact S]).
  exact (@locals_left E EO (reader s h p) g v ps G' Sp S' decode parses json).
Qed.
Print Assumptions C75_locals.

(** In a file without damage nothing is missing. *)
Theorem C75_all : forall (E : Env), EnvOk E -> forall key getkey, key_ok key getkey -> forall s h v, sessions key getkey s -> snapshot s h v ->
  forall p, fpos (dbf (ss_db s)) <= p <= size (dbf (ss_db s)) -> forall decode parses json,
  exists x out ls, print_local_docs decode parses json None (reader s h p) = (x, out) /\
    (forall l, In l ls <-> In l (v_locals v) /\ listed decode parses json l) /\ StronglySorted (fun a b => lex (fst a) (fst b)) ls /\ Forall2 (prints_local decode json) out ls /\
    (x = Ok tt <-> forall l, In l (v_locals v) -> sound_local decode parses json l).
Proof.
  intros E EO key getkey KO s h v H Sn p Hp decode parses json.
  assert (T : forall l, In l (v_locals v) -> local_there (reader s h p) l).
  { intros l Hl. pose proof (sc_local (reader_shows EO KO H Sn Hp) (fst l)) as X. unfold local_there. rewrite X. unfold find_local.
    destruct (find (fun x => same (fst x) (fst l)) (v_locals v)) as [y|] eqn:Hy; [eexists; reflexivity|]. exfalso. eapply List.find_none in Hy; [|exact Hl]. cbn beta in Hy. apply same_false in Hy. now apply Hy. }
  destruct (@C75_locals E EO key getkey KO s h v H Sn p Hp (dbf (reader s h p)) (spoiled_same _) decode parses json) as (x & out & ls & H1 & H2 & H3 & H4 & H5).
  exists x, out, ls. split; [exact H1|]. split; [|split; [exact H3|split; [exact H4|]]].
  - intros l. rewrite H2. split; [tauto|]. intros [A B]. split; [exact A|]. split; [exact (T l A)|exact B].
  - rewrite H5. split; [intros X l Hl; apply X, Hl|intros X l Hl; split; [exact (T l Hl)|exact (X l Hl)]].
Qed.
Print Assumptions C75_all.

(** With --key, in a file that may be damaged: a local document that is found is printed; one that is not found makes the program fail and nothing is printed. *)
Theorem C75_key : forall (E : Env), EnvOk E -> forall key getkey, key_ok key getkey -> forall s h v, sessions key getkey s -> snapshot s h v ->
  forall p, fpos (dbf (ss_db s)) <= p <= size (dbf (ss_db s)) -> forall g, spoiled (dbf (reader s h p)) g -> forall decode parses json,
  let d := Db g h false in
  forall l, In l (v_locals v) -> exists x out, print_local_docs decode parses json (Some (fst l)) d = (x, out) /\
    (local_there d l -> (x = Ok tt <-> sound_local decode parses json l) /\ (listed decode parses json l -> exists o, out = [o] /\ prints_local decode json o l) /\ (~ listed decode parses json l -> out = [])) /\
    (~ local_there d l -> (exists e, x = Err e) /\ out = []).
Proof.
  intros E EO key getkey KO s h v H Sn p Hp g Sp decode parses json. destruct (sessions_linked EO KO H) as [t L]. destruct (linked_snapshot EO KO L Sn) as [ps S]. destruct (sessions_stored EO KO H) as (G & _).
  assert (G' : good (dbf (reader s h p))) by (apply good_fpos; [exact G|apply Hp]).
  assert (S' : stored (dbf (reader s h p)) (dbh (reader s h p)) v ps) by (eapply stored_keeps; [apply set_fpos_keeps; apply Hp|exact S]).
  intros d l Hl. exact (@local_key E EO (reader s h p) g v ps G' Sp S' decode parses json l Hl).
Qed.
Print Assumptions C75_key.

(** With the id of no local document it fails. *)
Theorem C75_missing : forall (E : Env), EnvOk E -> forall key getkey, key_ok key getkey -> forall s h v, sessions key getkey s -> snapshot s h v ->
  forall p, fpos (dbf (ss_db s)) <= p <= size (dbf (ss_db s)) -> forall decode parses json id, ~ In id (map fst (v_locals v)) ->
  print_local_docs decode parses json (Some id) (reader s h p) = (Err E_DOC_NOT_FOUND, []).
Proof.
  intros E EO key getkey KO s h v H Sn p Hp decode parses json id Hi. destruct (sessions_linked EO KO H) as [t L]. destruct (linked_snapshot EO KO L Sn) as [ps S]. destruct (sessions_stored EO KO H) as (G & _).
  assert (G' : good (dbf (reader s h p))) by (apply good_fpos; [exact G|apply Hp]).
  assert (S' : stored (dbf (reader s h p)) (dbh (reader s h p)) v ps) by (eapply stored_keeps; [apply set_fpos_keeps; apply Hp|exact S]).
  exact (@local_missing E EO (reader s h p) v ps G' S' decode parses json id Hi).
Qed.
Print Assumptions C75_missing.

(** The program on a file as a crash (or no crash) left it: it lists the local documents of the last acknowledged commit, or of one that was being made. *)
Theorem C75_file : forall (E : Env), EnvOk E -> forall key getkey, key_ok key getkey -> forall s v0, sessions key getkey s -> ss_ack s = Some v0 ->
  forall g gsz, crash_image (dbf (ss_db s)) g gsz -> forall pl decode parses json,
  exists w x out ls, (w = v0 \/ In w (ss_pend s)) /\ dump_locals_file decode parses (image g gsz pl) getkey None json None = (x, out) /\
    (forall l, In l ls <-> In l (v_locals (vn_contents w)) /\ listed decode parses json l) /\ StronglySorted (fun a b => lex (fst a) (fst b)) ls /\ Forall2 (prints_local decode json) out ls /\
    (x = Ok tt <-> forall l, In l (v_locals (vn_contents w)) -> sound_local decode parses json l).
Proof.
  intros E EO key getkey KO s v0 H Ha g gsz G pl decode parses json. destruct (sessions_linked EO KO H) as [t L]. destruct (link_open EO KO pl false L Ha G) as (d & w & s' & Ho & Hw & Hpos & Hs & Hre & _).
  assert (H' : sessions key getkey s') by exact (sess_reopen H Hre). destruct (sessions_stored EO KO H') as (G' & D' & _). assert (Hd : ss_db s' = d) by now rewrite Hs. rewrite Hd in G', D'.
  assert (Er : reader s' (dbh d) (fpos (dbf d)) = d) by (unfold reader; rewrite Hd; destruct d as [[] hh dd]; cbn [dropped] in D'; subst dd; reflexivity).
  destruct (@C75_all E EO key getkey KO s' (dbh d) (vn_contents w) H') with (p := fpos (dbf d)) (decode := decode) (parses := parses) (json := json) as (x & out & ls & H1 & H2); [left; rewrite Hs; split; reflexivity|rewrite Hd; split; [apply N.le_refl|exact (proj2 G')]|].
  rewrite Er in H1. exists w, x, out, ls. split; [exact Hw|]. split; [|exact H2]. unfold dump_locals_file, open_at. rewrite Ho. cbn [bind]. exact H1.
Qed.
Print Assumptions C75_file.

(** The same with --key. *)
Theorem C75_file_key : forall (E : Env), EnvOk E -> forall key getkey, key_ok key getkey -> forall s v0, sessions key getkey s -> ss_ack s = Some v0 ->
  forall g gsz, crash_image (dbf (ss_db s)) g gsz -> forall pl decode parses json,
  exists w, (w = v0 \/ In w (ss_pend s)) /\ forall id,
    match find_local id (v_locals (vn_contents w)) with
    | Some l => exists x out, dump_locals_file decode parses (image g gsz pl) getkey None json (Some id) = (x, out) /\ (x = Ok tt <-> sound_local decode parses json l) /\
                  (listed decode parses json l -> exists o, out = [o] /\ prints_local decode json o l) /\ (~ listed decode parses json l -> out = [])
    | None => dump_locals_file decode parses (image g gsz pl) getkey None json (Some id) = (Err E_DOC_NOT_FOUND, [])
    end.
Proof.
  intros E EO key getkey KO s v0 H Ha g gsz G pl decode parses json. destruct (sessions_linked EO KO H) as [t L]. destruct (link_open EO KO pl false L Ha G) as (d & w & s' & Ho & Hw & Hpos & Hs & Hre & _).
  assert (H' : sessions key getkey s') by exact (sess_reopen H Hre). destruct (sessions_stored EO KO H') as (G' & D' & _). assert (Hd : ss_db s' = d) by now rewrite Hs. rewrite Hd in G', D'.
  assert (Er : reader s' (dbh d) (fpos (dbf d)) = d) by (unfold reader; rewrite Hd; destruct d as [[] hh dd]; cbn [dropped] in D'; subst dd; reflexivity).
  assert (Sn : snapshot s' (dbh d) (vn_contents w)) by (left; rewrite Hs; split; reflexivity).
  assert (Hp : fpos (dbf (ss_db s')) <= fpos (dbf d) <= size (dbf (ss_db s'))) by (rewrite Hd; split; [apply N.le_refl|exact (proj2 G')]).
  assert (Hf : forall k, dump_locals_file decode parses (image g gsz pl) getkey None json k = print_local_docs decode parses json k (reader s' (dbh d) (fpos (dbf d)))) by (intros k; rewrite Er; unfold dump_locals_file, open_at; rewrite Ho; reflexivity).
  exists w. split; [exact Hw|]. intros id. rewrite Hf. pose proof (sc_local (reader_shows EO KO H' Sn Hp) id) as X. unfold find_local in *.
  destruct (find (fun x => same (fst x) id) (v_locals (vn_contents w))) as [l|] eqn:Hl.
  - apply find_some in Hl. destruct Hl as [Hl He]. apply same_true in He. subst id.
    destruct (@C75_key E EO key getkey KO s' (dbh d) (vn_contents w) H' Sn (fpos (dbf d)) Hp (dbf (reader s' (dbh d) (fpos (dbf d)))) (spoiled_same _) decode parses json l Hl) as (x & out & H1 & H2 & _).
    exists x, out. split; [exact H1|]. apply H2. eexists. exact X.
  - apply (@C75_missing E EO key getkey KO s' (dbh d) (vn_contents w) H' Sn (fpos (dbf d)) Hp). intros Hi. apply in_map_iff in Hi. destruct Hi as (y & He & Hy). eapply List.find_none in Hl; [|exact Hy]. cbn beta in Hl. apply same_false in Hl. exact (Hl He).
Qed.
Print Assumptions C75_file_key.

(** *** Four local documents in an index of several nodes *)

Definition lx (s : session) (id : N) (b : bytes) : session := @after_local env0 s (Cfg 30 30) (LocalDoc [id] b false).
Definition lv (n : N) : bytes := n :: repeat 7 19.
Definition ls1 : session := lx sx0 66 (lv 1).
Definition ls2 : session := lx ls1 65 (lv 2).
Definition ls3 : session := lx ls2 67 (lv 3).
Definition ls4 : session := lx ls3 68 (lv 4).
Definition ls5 : session := @after_commit_ex env0 ls4 1000 0.
Lemma ls1_session : @sessions env0 None gks ls1. Proof. apply (sess_write sx0_session). apply local_write; [discriminate|split; vm_compute; reflexivity|vm_compute; reflexivity]. Qed.
Lemma ls2_session : @sessions env0 None gks ls2. Proof. apply (sess_write ls1_session). apply local_write; [discriminate|split; vm_compute; reflexivity|vm_compute; reflexivity]. Qed.
Lemma ls3_session : @sessions env0 None gks ls3. Proof. apply (sess_write ls2_session). apply local_write; [discriminate|split; vm_compute; reflexivity|vm_compute; reflexivity]. Qed.
Lemma ls4_session : @sessions env0 None gks ls4. Proof. apply (sess_write ls3_session). apply local_write; [discriminate|split; vm_compute; reflexivity|vm_compute; reflexivity]. Qed.
Lemma ls5_session : @sessions env0 None gks ls5. Proof. apply (sess_write ls4_session). apply commit_write; vm_compute; reflexivity. Qed.
Definition l_src : db := reader ls5 (dbh (ss_db ls5)) (fpos (dbf (ss_db ls5))).
(** The node with "A" is damaged. *)
Definition l_hit : db := Db (hit (dbf l_src) 243) (dbh (ss_db ls5)) false.
(** A decoder that fails on the local document "B" and has something to decode in "C". *)
Definition dec (k b : bytes) : option bytes := match k with [66] => None | [67] => Some [1] | _ => Some [] end.
Definition l_text (b : bytes) : bool := match b with 4 :: _ => false | _ => true end.
Example C75_ex : key_ok None gks /\ @sessions env0 None gks ls5 /\ @snapshot env0 ls5 (dbh (ss_db ls5)) (ss_now ls5) /\ (fpos (dbf (ss_db ls5)) <=? size (dbf (ss_db ls5))) = true /\
  map fst (v_locals (ss_now ls5)) = [[68]; [67]; [65]; [66]] /\ @spoiled env0 (dbf l_src) (dbf l_hit) /\
  @print_local_docs dec l_text env0 false None l_src = (Err E_CORRUPT, [LPrinted [65] (Some (lv 2, 20)); LPrinted [66] None; LPrinted [67] (Some ([1], 20)); LPrinted [68] (Some (lv 4, 20))]) /\
  @print_local_docs dec l_text env0 true None l_src = (Err E_CORRUPT, [LPrinted [65] (Some (lv 2, 0)); LPrinted [67] (Some ([1], 0))]) /\
  @print_local_docs (fun _ _ => Some []) l_text env0 false None l_src = (Ok tt, [LPrinted [65] (Some (lv 2, 20)); LPrinted [66] (Some (lv 1, 20)); LPrinted [67] (Some (lv 3, 20)); LPrinted [68] (Some (lv 4, 20))]) /\
  @print_local_docs (fun _ _ => Some []) l_text env0 false None l_hit = (Err E_CHECKSUM, [LPrinted [66] (Some (lv 1, 20)); LPrinted [67] (Some (lv 3, 20)); LPrinted [68] (Some (lv 4, 20))]) /\
  @open_local_document env0 l_hit [65] = Err E_CHECKSUM /\ @print_local_docs dec l_text env0 false (Some [65]) l_hit = (Err E_CHECKSUM, []) /\
  @print_local_docs dec l_text env0 false (Some [67]) l_hit = (Ok tt, [LPrinted [67] (Some ([1], 20))]) /\ @print_local_docs dec l_text env0 false (Some [69]) l_src = (Err E_DOC_NOT_FOUND, []).
Proof.
  split; [exact sx_key|]. split; [exact ls5_session|]. split; [left; split; reflexivity|]. split; [vm_compute; reflexivity|]. split; [vm_compute; reflexivity|].
  split; [apply spoiled_check; vm_compute; reflexivity|]. repeat split; vm_compute; reflexivity.
Qed.
Example C75_file_ex : match ss_ack ls5 with Some x => length (v_locals (vn_contents x)) | None => O end = 4%nat /\ @crash_image (dbf (ss_db ls5)) (File.cur (dbf (ss_db ls5))) (size (dbf (ss_db ls5))) /\
  @dump_locals_file dec l_text env0 (image (File.cur (dbf (ss_db ls5))) (size (dbf (ss_db ls5))) []) gks None true None = (Err E_CORRUPT, [LPrinted [65] (Some (lv 2, 0)); LPrinted [67] (Some ([1], 0))]) /\
  @dump_locals_file dec l_text env0 (image (File.cur (dbf (ss_db ls5))) (size (dbf (ss_db ls5))) []) gks None true (Some [67]) = (Ok tt, [LPrinted [67] (Some ([1], 0))]).
Proof.
  split; [vm_compute; reflexivity|]. split; [|split; vm_compute; reflexivity]. apply image_now. destruct (@sessions_stored env0 env0_ok None gks sx_key ls5 ls5_session) as (G & _). exact (proj1 G).
Qed.
