(** Properties C05 to C11 and C13 to C15: what a handle shows of the documents, in every session. *)
From Verif Require Import Base SpecOrder Codec CodecFacts File FileFacts ChunkFacts Header HeaderFacts History CrashFacts DataFacts Btree BtreeRead TreeStore SpecMap MergeFacts ModifyFacts
  Db SpecDb SortFacts ReduceFacts DbFacts DbSave DbRead SpecSession ShowFacts SessionFacts ReadFacts SaveFacts EnvExample SessionExample.
Local Open Scope N_scope.
Unset Strict Implicit.

Definition every : enumopts := EnumOpts false false false.

(** ** C05 *)

(** [h] is the header of the handle or of a commit in effect, [s'] is any later state of the file. A reader on [h] reads the same in both:
    all document lookups, enumerations, ranges and counts, local documents, and the database information. *)
Theorem C05_snapshot : forall (E : Env), EnvOk E -> forall key getkey, key_ok key getkey ->
  forall s h v s' p, sessions key getkey s -> snapshot s h v -> lenN (v_docs v) < 2^40 -> writing s s' ->
  fpos (dbf (ss_db s)) <= p <= size (dbf (ss_db s)) ->
  same_reads (reader s h p) (reader s' h p) /\ shows_contents (reader s' h p) v.
Proof. intros. eapply snapshot_reads; eauto. Qed.
Print Assumptions C05_snapshot.

(** A reader on the first commit, before and after a save and another commit. *)
Example C05_ex :
  @sessions env0 None gks sx3 /\ @snapshot env0 sx3 (dbh (ss_db sx3)) (ss_now sx3) /\ @writing env0 sx3 sx5 /\
  lenN (v_docs (ss_now sx3)) < 2^40 /\ fpos (dbf (ss_db sx3)) <= fpos (dbf (ss_db sx3)) <= size (dbf (ss_db sx3)) /\
  (let see s := @all_docs env0 (list (bytes * N)) (reader s (dbh (ss_db sx3)) (fpos (dbf (ss_db sx3)))) [] every
                  (fun i u => (Ok tt, (di_id i, di_db_seq i) :: u)) [] in
   see sx5 = see sx3 /\ see sx3 = (Ok tt, [([99;1], 3); ([98], 1); ([97], 2)])).
Proof.
  split; [exact sx3_session|]. split; [left; auto|]. split; [exact (wg_step (wg_step (wg_refl sx3) sx34) sx45)|]. split; [vm_compute; reflexivity|].
  split; [vm_compute; split; discriminate|]. vm_compute. auto.
Qed.

(** ** C06 *)

(** In every session the handle shows the contents that the specification computes from the history of saves. *)
Theorem C06_contents : forall (E : Env), EnvOk E -> forall key getkey, key_ok key getkey ->
  forall s, sessions key getkey s -> shows_contents (ss_db s) (ss_now s).
Proof.
  intros E EO key getkey KO s H. destruct (sessions_stored EO KO H) as (G & D & P & ps & S). exact (stored_shows EO G D S).
Qed.
Print Assumptions C06_contents.

(** In terms of one save: every saved document is found with what was saved, everything else is found as before. *)
Theorem C06_saved : forall (E : Env), EnvOk E -> forall key getkey, key_ok key getkey ->
  forall s c o cb l R, sessions key getkey s -> 2 <= c_kv c -> save_documents c o cb l (ss_db s) = R -> batch_ok o l (ss_now s) -> room (sv_db R) ->
  sv_res R = Ok tt ->
  (forall x, In x l -> exists i, docinfo_by_id (sv_db R) (di_id (sb_info x)) = Ok i /\
     di_id i = di_id (sb_info x) /\ di_rev_seq i = di_rev_seq (sb_info x) /\ di_rev_meta i = di_rev_meta (sb_info x) /\
     di_content_meta i = di_content_meta (sb_info x) /\
     match sb_body x with
     | None => di_deleted i = true /\ forall dec, open_document (sv_db R) (di_id (sb_info x)) dec = Err E_DOC_NOT_FOUND
     | Some b => di_deleted i = di_deleted (sb_info x) /\
         if so_compress o && flagged (sb_info x)
         then open_document (sv_db R) (di_id (sb_info x)) true = Ok b
         else open_document (sv_db R) (di_id (sb_info x)) false = Ok b
     end) /\
  (forall id, ~ In id (map (fun x => di_id (sb_info x)) l) ->
     docinfo_by_id (sv_db R) id = docinfo_by_id (ss_db s) id /\ forall dec, open_document (sv_db R) id dec = open_document (ss_db s) id dec).
Proof.
  intros E EO key getkey KO s c o cb l R H Hc HR Hb Rm Hok. destruct (sessions_stored EO KO H) as (G & D & P & ps & S).
  assert (F : fin47 (dbf (sv_db R))) by (split; [exact (rm_big Rm)|exact (rm_pos Rm)]).
  pose proof (sess_write H (@write_docs E s c o cb l R Hc HR Hb Rm)) as H'. pose proof (C06_contents EO KO H') as Sh. cbn [ss_db ss_now] in Sh. rewrite Hok in Sh. cbn [outcome] in Sh.
  split.
  - intros x Hx.
    assert (Hr : exists n, In (new_rev o x n) (new_revs o (v_seq (ss_now s)) l)).
    { clear - Hx. generalize (v_seq (ss_now s)). induction l as [|y l IH]; [destruct Hx|]. intros n. rewrite new_revs_cons. destruct Hx as [->|Hx]; [eexists; now left|].
      destruct (IH Hx (if so_as_is o then N.max n (di_db_seq (sb_info y)) else n + 1)) as [m Hm]. exists m. now right. }
    destruct Hr as [n Hr].
    assert (Nd : NoDup (map rv_id (v_docs (ss_now s)))).
    { rewrite <- (sd_docs S), map_map. erewrite map_ext_in; [exact (sd_ids S)|]. intros p Hp. pose proof (sd_rep S) as Q. rewrite Forall_forall in Q.
      symmetry. exact (ab_id (proj1 (Q p Hp))). }
    pose proof (find_new (bt_ids Hb) Nd Hr) as Hf. change (rv_id (new_rev o x n)) with (di_id (sb_info x)) in Hf.
    pose proof (sc_id Sh (di_id (sb_info x))) as Hs. rewrite Hf in Hs. destruct Hs as (i & Hi & [Ab Bd] & Op). exists i. split; [exact Hi|].
    destruct Ab as [A1 A2 A3 A4 A5 A6]. cbn [new_rev rv_id rv_rev_seq rv_rev_meta rv_content_meta rv_deleted] in *. repeat (split; [assumption|]).
    unfold body_read in Bd. cbn [new_rev rv_body rv_content_meta] in Bd. destruct (sb_body x) as [b|].
    + split; [assumption|]. fold (flagged (sb_info x)) in Bd. destruct (so_compress o && flagged (sb_info x)) eqn:Ec.
      * apply andb_true_iff in Ec. destruct Ec as [_ Ec]. specialize (Bd true). rewrite Ec in Bd. cbn [andb] in Bd. rewrite Op. exact Bd.
      * specialize (Bd false). cbn [andb] in Bd. destruct Bd as (z & Hz & Bd). cbn [stored_as] in Hz. subst z. rewrite Op. exact Bd.
    + split; [assumption|]. intros dec. rewrite Op. apply Bd.
  - intros id Hn.
    pose proof (save_other EO Hc HR G P D S Hb F Hn) as He. split; [exact He|]. intros dec.
    assert (HD : dropped (sv_db R) = false) by (destruct (sessions_stored EO KO H') as (_ & HD & _); exact HD).
    unfold open_document. rewrite He, HD, D. destruct (docinfo_by_id (ss_db s) id) as [i|e] eqn:Hi; [|reflexivity]. cbn [bind].
    assert (Hin : In i (map fst ps)).
    { rewrite (docinfo_by_id_eq EO G D S) in Hi. destruct (old_of (map fst ps) id) as [j|] eqn:Ho; [|discriminate]. injection Hi as ->.
      apply (@old_of_some _ (ids_nodup S)) in Ho. apply Ho. }
    destruct (@save_documents_ok E EO anyf anye any_okerr c Hc cb o l _ _ ps R HR G Logic.I P D S Hb F) as (_ & Le & _).
    symmetry. exact (@same_open E EO (ss_db s) (sv_db R) (dbf (ss_db s)) (dbh (ss_db s)) (ss_now s) ps G (le_good Le) D HD (keeps_refl _) (le_keeps Le) S i dec Hin).
Qed.
Print Assumptions C06_saved.

(** Three documents, one of them compressed and one deleted, then one new and one changed document. *)
Example C06_ex :
  @sessions env0 None gks sx5 /\ @sessions env0 None gks sx3 /\ 2 <= c_kv cf /\ @batch_ok env0 so batch2 (ss_now sx3) /\
  (let R := @save_documents env0 cf so true batch2 (ss_db sx3) in roomb (sv_db R) = true /\ sv_res R = Ok tt) /\
  (let look := @open_document env0 (ss_db sx5) in
   look [97] false = Ok [6;7;8;9] /\ look [98] false = Ok [1;2;3] /\ look [99] true = Ok [] /\ look [99;1] true = Err E_DOC_NOT_FOUND /\ look [100] true = Err E_DOC_NOT_FOUND) /\
  @open_document env0 (ss_db sx3) [97] true = Ok [4;5].
Proof.
  split; [exact sx5_session|]. split; [exact sx3_session|]. split; [discriminate|]. split; [apply batch_check; vm_compute; reflexivity|]. vm_compute. repeat split.
Qed.

(** ** C07 *)

(** The two enumerations deliver the same documents with the same information, each id and each sequence number once; and these are the
    ones that the lookups by id and by sequence number find. *)
Theorem C07_same : forall (E : Env), EnvOk E -> forall key getkey, key_ok key getkey ->
  forall s, sessions key getkey s -> exists is js,
  (forall U cb (u : U), all_docs (ss_db s) [] every cb u = feed cb is u) /\
  (forall U cb (u : U), changes_since (ss_db s) 0 every cb u = feed cb js u) /\
  Permutation is js /\ NoDup (map di_id is) /\ NoDup (map di_db_seq js) /\
  (forall i, In i is <-> docinfo_by_id (ss_db s) (di_id i) = Ok i) /\
  (forall i, In i js <-> di_db_seq i < 2^48 /\ docinfo_by_sequence (ss_db s) (di_db_seq i) = Ok i).
Proof.
  intros E EO key getkey KO s H. destruct (sessions_stored EO KO H) as (G & D & P & ps & S).
  exists (by_id (map fst ps)), (by_seq (map fst ps)).
  assert (Fl : forall (b : doc_info -> bool) l, (forall i, b i = true) -> filter b l = l).
  { intros b l Hb. induction l as [|x l IH]; [reflexivity|]. cbn [filter]. rewrite Hb. now f_equal. }
  split; [|split; [|split; [|split; [|split; [|split]]]]].
  - intros U cb u. rewrite (@all_docs_eq E EO _ _ _ G D S U [] every cb u eq_refl). rewrite Fl; [reflexivity|]. intros i. destruct (di_id i); reflexivity.
  - intros U cb u. assert (L0 : 0 < 2^48) by reflexivity. rewrite (@changes_since_eq E EO _ _ _ G D S U 0 every cb u eq_refl L0). rewrite Fl; [reflexivity|]. intros i. unfold chosen; cbn [every eo_deletes_only eo_no_deletes]. rewrite andb_true_iff. split; [apply N.leb_le; lia|reflexivity].
  - transitivity (map fst ps); [symmetry|]; apply isort_perm.
  - apply (@perm_nodup_map _ _ _ (map fst ps)); [apply isort_perm|exact (ids_nodup S)].
  - apply (@perm_nodup_map _ _ _ (map fst ps)); [apply isort_perm|exact (sd_seqs S)].
  - intros i. rewrite in_by_id, (docinfo_by_id_eq EO G D S). split.
    + intros Hi. assert (Ho : old_of (map fst ps) (di_id i) = Some i) by (apply (@old_of_some _ (ids_nodup S)); auto). now rewrite Ho.
    + destruct (old_of (map fst ps) (di_id i)) as [j|] eqn:Ho; [|discriminate]. injection 1 as ->. apply (@old_of_some _ (ids_nodup S)) in Ho. apply Ho.
  - intros i. rewrite in_by_seq. split.
    + intros Hi. assert (Hn : di_db_seq i < 2^48) by (apply dok_seq; pose proof (sd_ok S) as Q; rewrite Forall_forall in Q; auto). split; [exact Hn|].
      rewrite (docinfo_by_sequence_eq EO G D S Hn).
      destruct (find (fun j => di_db_seq j =? di_db_seq i) (map fst ps)) as [j|] eqn:Hf.
      * apply find_some in Hf. destruct Hf as [Hj He]. apply N.eqb_eq in He. f_equal. exact (@nodup_map_eq _ _ di_db_seq _ _ _ (sd_seqs S) Hj Hi He).
      * pose proof (List.find_none _ _ Hf _ Hi) as He. cbn in He. rewrite N.eqb_refl in He. discriminate.
    + intros [Hn Hi]. rewrite (docinfo_by_sequence_eq EO G D S Hn) in Hi.
      destruct (find (fun j => di_db_seq j =? di_db_seq i) (map fst ps)) as [j|] eqn:Hf; [|discriminate]. injection Hi as ->. apply find_some in Hf. apply Hf.
Qed.
Print Assumptions C07_same.

Example C07_ex : @sessions env0 None gks sx5 /\
  (let cb := fun i (u : list (bytes * N)) => (@Ok unit tt, (di_id i, di_db_seq i) :: u) in
   @all_docs env0 _ (ss_db sx5) [] every cb [] = (Ok tt, [([99;1], 3); ([99], 4); ([98], 1); ([97], 5)]) /\
   @changes_since env0 _ (ss_db sx5) 0 every cb [] = (Ok tt, [([97], 5); ([99], 4); ([99;1], 3); ([98], 1)])).
Proof. split; [exact sx5_session|]. vm_compute. auto. Qed.

(** ** C08, C09 *)

(** The changes since [n]: exactly the documents at or above it that the options select, in ascending order; [feed] stops when the user's
    function fails. *)
Theorem C08_changes : forall (E : Env), EnvOk E -> forall key getkey, key_ok key getkey ->
  forall s, sessions key getkey s -> forall n o, n < 2^48 -> eo_tolerate o = false ->
  delivers (ss_db s) (ss_now s) seq_before (fun r => n <= rv_seq r /\ picked o r) (fun U cb u => changes_since (ss_db s) n o cb u).
Proof. intros E EO key getkey KO s H n o Hn Ho. apply (sc_changes (C06_contents EO KO H)); assumption. Qed.
Print Assumptions C08_changes.

Theorem C09_all_docs : forall (E : Env), EnvOk E -> forall key getkey, key_ok key getkey ->
  forall s, sessions key getkey s -> forall start o, eo_tolerate o = false ->
  delivers (ss_db s) (ss_now s) id_before (fun r => lex_le start (rv_id r) /\ picked o r) (fun U cb u => all_docs (ss_db s) start o cb u).
Proof. intros E EO key getkey KO s H n o Ho. apply (sc_all (C06_contents EO KO H)); assumption. Qed.
Print Assumptions C09_all_docs.

Example C08_ex : @sessions env0 None gks sx5 /\
  (let cb := fun i (u : list (bytes * N)) => (@Ok unit tt, (di_id i, di_db_seq i) :: u) in
   @changes_since env0 _ (ss_db sx5) 2 every cb [] = (Ok tt, [([97], 5); ([99], 4); ([99;1], 3)]) /\
   @changes_since env0 _ (ss_db sx5) 2 (EnumOpts false true false) cb [] = (Ok tt, [([97], 5); ([99], 4)]) /\
   @changes_since env0 _ (ss_db sx5) 2 (EnumOpts true false false) cb [] = (Ok tt, [([99;1], 3)]) /\
   @all_docs env0 _ (ss_db sx5) [97;0] (EnumOpts false true false) cb [] = (Ok tt, [([99], 4); ([98], 1)])).
Proof. split; [exact sx5_session|]. vm_compute. auto. Qed.

(** ** C10 *)

Section Lists.
Context {E : Env} (EO : EnvOk E).
Lemma rev_of (ps : list (doc_info * revision)) f i r : Forall (fun p => rep f (fst p) (snd p)) ps -> In (i, r) ps -> about i r.
Proof. intros Q Hi. rewrite Forall_forall in Q. exact (proj1 (Q _ Hi)). Qed.
Lemma exists_same x l : existsb (same x) l = true <-> In x l.
Proof.
  rewrite existsb_exists. split; [intros (y & Hy & He); apply same_true in He; now subst|]. intros Hx. exists x. split; [auto|]. now apply same_true.
Qed.
Lemma exists_eqb x l : existsb (N.eqb x) l = true <-> In x l.
Proof.
  rewrite existsb_exists. split; [intros (y & Hy & He); apply N.eqb_eq in He; now subst|]. intros Hx. exists x. split; [auto|]. apply N.eqb_refl.
Qed.
Lemma lt_lex a b : ebin_cmp a b = Lt -> lex a b.
Proof. intros H. now apply ebin_lex. Qed.
End Lists.

(** A list of ids (in any order, with or without repetitions) delivers each requested document that exists once, in ascending order. *)
Theorem C10_ids : forall (E : Env), EnvOk E -> forall key getkey, key_ok key getkey ->
  forall s, sessions key getkey s -> forall ids, ids <> [] ->
  delivers (ss_db s) (ss_now s) id_before (fun r => In (rv_id r) ids) (fun U cb u => docinfos_by_id (ss_db s) ids false false cb u).
Proof.
  intros E EO key getkey KO s H ids Hne. destruct (sessions_stored EO KO H) as (G & D & P & ps & S).
  apply (@deliver E EO (ss_db s) (ss_now s) ps G D S by_id id_before _ (fun i => existsb (same (di_id i)) ids) (fun a b => ebin_cmp (di_id a) (di_id b) = Lt)).
  - intros l i. apply in_by_id.
  - exact (id_strict S).
  - intros i i' r r' Hi Hi' Hlt. pose proof (rev_of (sd_rep S) Hi) as A. pose proof (rev_of (sd_rep S) Hi') as A'. unfold id_before.
    rewrite <- (ab_id A), <- (ab_id A'). now apply lt_lex.
  - intros i r Hi. rewrite exists_same, (ab_id (rev_of (sd_rep S) Hi)). reflexivity.
  - intros U cb u. apply (docinfos_by_id_eq EO G D S). now left.
Qed.
Print Assumptions C10_ids.

Theorem C10_sequences : forall (E : Env), EnvOk E -> forall key getkey, key_ok key getkey ->
  forall s, sessions key getkey s -> forall ns, ns <> [] -> Forall (fun n => n < 2^48) ns ->
  delivers (ss_db s) (ss_now s) seq_before (fun r => In (rv_seq r) ns) (fun U cb u => docinfos_by_sequence (ss_db s) ns false false cb u).
Proof.
  intros E EO key getkey KO s H ns Hne Hns. destruct (sessions_stored EO KO H) as (G & D & P & ps & S).
  apply (@deliver E EO (ss_db s) (ss_now s) ps G D S by_seq seq_before _ (fun i => existsb (N.eqb (di_db_seq i)) ns) (fun a b => di_db_seq a < di_db_seq b)).
  - intros l i. apply in_by_seq.
  - exact (seq_strict S).
  - intros i i' r r' Hi Hi' Hlt. pose proof (rev_of (sd_rep S) Hi) as A. pose proof (rev_of (sd_rep S) Hi') as A'. unfold seq_before.
    now rewrite <- (ab_seq A), <- (ab_seq A').
  - intros i r Hi. rewrite exists_eqb, (ab_seq (rev_of (sd_rep S) Hi)). reflexivity.
  - intros U cb u. apply (docinfos_by_sequence_eq EO G D S); [now left|exact Hns].
Qed.
Print Assumptions C10_sequences.

Example C10_ex : @sessions env0 None gks sx5 /\
  (let cb := fun i (u : list (bytes * N)) => (@Ok unit tt, (di_id i, di_db_seq i) :: u) in
   @docinfos_by_id env0 _ (ss_db sx5) [[99]; [100]; [97]; [99]] false false cb [] = (Ok tt, [([99], 4); ([97], 5)]) /\
   @docinfos_by_sequence env0 _ (ss_db sx5) [5; 2; 1] false false cb [] = (Ok tt, [([97], 5); ([98], 1)])).
Proof. split; [exact sx5_session|]. vm_compute. auto. Qed.

(** ** C11 *)

(** The closed range between two keys; nothing when the first is above the second. *)
Theorem C11_ids : forall (E : Env), EnvOk E -> forall key getkey, key_ok key getkey ->
  forall s, sessions key getkey s -> forall lo hi,
  delivers (ss_db s) (ss_now s) id_before (fun r => lex_le lo (rv_id r) /\ lex_le (rv_id r) hi) (fun U cb u => docinfos_by_id (ss_db s) [lo; hi] true false cb u).
Proof.
  intros E EO key getkey KO s H lo hi. destruct (sessions_stored EO KO H) as (G & D & P & ps & S).
  apply (@deliver E EO (ss_db s) (ss_now s) ps G D S by_id id_before _ (fun i => ge (ebin_cmp (di_id i) lo) && negb (gtc (ebin_cmp (di_id i) hi)))
    (fun a b => ebin_cmp (di_id a) (di_id b) = Lt)).
  - intros l i. apply in_by_id.
  - exact (id_strict S).
  - intros i i' r r' Hi Hi' Hlt. pose proof (rev_of (sd_rep S) Hi) as A. pose proof (rev_of (sd_rep S) Hi') as A'. unfold id_before.
    rewrite <- (ab_id A), <- (ab_id A'). now apply lt_lex.
  - intros i r Hi. rewrite andb_true_iff, ge_lex, le_lex, (ab_id (rev_of (sd_rep S) Hi)). reflexivity.
  - intros U cb u. apply (docinfos_range_id_eq EO G D S). cbn. lia.
Qed.
Print Assumptions C11_ids.

Theorem C11_sequences : forall (E : Env), EnvOk E -> forall key getkey, key_ok key getkey ->
  forall s, sessions key getkey s -> forall lo hi, lo < 2^48 -> hi < 2^48 ->
  delivers (ss_db s) (ss_now s) seq_before (fun r => lo <= rv_seq r <= hi) (fun U cb u => docinfos_by_sequence (ss_db s) [lo; hi] true false cb u).
Proof.
  intros E EO key getkey KO s H lo hi Hlo Hhi. destruct (sessions_stored EO KO H) as (G & D & P & ps & S).
  apply (@deliver E EO (ss_db s) (ss_now s) ps G D S by_seq seq_before _ (fun i => (lo <=? di_db_seq i) && (di_db_seq i <=? hi)) (fun a b => di_db_seq a < di_db_seq b)).
  - intros l i. apply in_by_seq.
  - exact (seq_strict S).
  - intros i i' r r' Hi Hi' Hlt. pose proof (rev_of (sd_rep S) Hi) as A. pose proof (rev_of (sd_rep S) Hi') as A'. unfold seq_before.
    now rewrite <- (ab_seq A), <- (ab_seq A').
  - intros i r Hi. rewrite andb_true_iff, !N.leb_le, (ab_seq (rev_of (sd_rep S) Hi)). reflexivity.
  - intros U cb u. apply (docinfos_range_seq_eq EO G D S); [cbn; lia|exact Hlo|constructor; [exact Hhi|constructor]].
Qed.
Print Assumptions C11_sequences.

Example C11_ex : @sessions env0 None gks sx5 /\
  (let cb := fun i (u : list (bytes * N)) => (@Ok unit tt, (di_id i, di_db_seq i) :: u) in
   @docinfos_by_id env0 _ (ss_db sx5) [[97;5]; [99]] true false cb [] = (Ok tt, [([99], 4); ([98], 1)]) /\
   @docinfos_by_id env0 _ (ss_db sx5) [[99]; [97]] true false cb [] = (Ok tt, []) /\
   @docinfos_by_sequence env0 _ (ss_db sx5) [2; 4] true false cb [] = (Ok tt, [([99], 4); ([99;1], 3)])).
Proof. split; [exact sx5_session|]. vm_compute. auto. Qed.

(** ** C49 *)

(** Several ranges: the lookup ends with the first one. The ranges are 1 to 1 and 3 to 5; only the first document is delivered. *)
Theorem C49_ranges_refuted : exists (E : Env) key getkey s r,
  EnvOk E /\ key_ok key getkey /\ sessions key getkey s /\ In r (v_docs (ss_now s)) /\ 3 <= rv_seq r <= 5 /\
  docinfos_by_sequence (ss_db s) [1; 1; 3; 5] true false (fun i u => (@Ok unit tt, di_db_seq i :: u)) [] = (Ok tt, [1]).
Proof.
  assert (Hr : exists r, In r (v_docs (ss_now sx5)) /\ rv_seq r = 4).
  { assert (Hx : match find (fun r => rv_seq r =? 4) (v_docs (ss_now sx5)) with Some _ => True | None => False end) by (vm_compute; exact Logic.I).
    destruct (find (fun r => rv_seq r =? 4) (v_docs (ss_now sx5))) as [r|] eqn:Hf; [|destruct Hx]. apply find_some in Hf. destruct Hf as [H1 H2].
    exists r. split; [exact H1|]. apply N.eqb_eq. exact H2. }
  destruct Hr as (r & H1 & H2). exists env0, None, gks, sx5, r. split; [exact env0_ok|]. split; [exact Logic.I|]. split; [exact sx5_session|]. split; [exact H1|].
  split; [rewrite H2; lia|]. vm_compute. reflexivity.
Qed.
Print Assumptions C49_ranges_refuted.

(** ** C13 *)

Theorem C13_counts : forall (E : Env), EnvOk E -> forall key getkey, key_ok key getkey ->
  forall s, sessions key getkey s -> lenN (v_docs (ss_now s)) < 2^40 ->
  exists i, db_info (ss_db s) = Ok i /\
    in_docs i = lenN (filter (fun r => negb (rv_deleted r)) (v_docs (ss_now s))) /\
    in_deleted i = lenN (filter rv_deleted (v_docs (ss_now s))) /\
    in_seq i = v_seq (ss_now s).
Proof.
  intros E EO key getkey KO s H Hl. destruct (sessions_stored EO KO H) as (G & D & P & ps & S).
  eexists. split; [exact (db_info_eq S)|]. cbn [in_docs in_deleted in_seq].
  assert (Q : forall (b : bool -> bool), lenN (filter (fun d => b (di_deleted d)) (map fst ps)) = lenN (filter (fun r => b (rv_deleted r)) (v_docs (ss_now s)))).
  { intros b. rewrite <- (sd_docs S). pose proof (sd_rep S) as Rp. clear - Rp. induction Rp as [|p ps Hp Rp IH]; [reflexivity|]. cbn [map filter].
    rewrite (ab_deleted (proj1 Hp)). destruct (b (rv_deleted (snd p))); [|exact IH]. rewrite !lenN_cons. now rewrite IH. }
  assert (Le : forall (b : bool -> bool), lenN (filter (fun r => b (rv_deleted r)) (v_docs (ss_now s))) < 2^40).
  { intros b. eapply N.le_lt_trans; [|exact Hl]. clear. induction (v_docs (ss_now s)) as [|r l IH]; [apply N.le_refl|]. cbn [filter].
    destruct (b (rv_deleted r)); rewrite ?lenN_cons; lia. }
  split; [|split; [|reflexivity]].
  - unfold alive. rewrite (Q negb). apply N.mod_small, (Le negb).
  - unfold gone. pose proof (Q (fun x => x)) as Q1. pose proof (Le (fun x => x)) as L1. cbn beta in Q1, L1. etransitivity; [apply (f_equal (fun n => n mod 2^40)); exact Q1|]. apply N.mod_small, L1.
Qed.
Print Assumptions C13_counts.

Example C13_ex : @sessions env0 None gks sx5 /\ lenN (v_docs (ss_now sx5)) < 2^40 /\
  match db_info (ss_db sx5) with Ok i => (in_docs i, in_deleted i, in_seq i) = (3, 1, 5) | Err _ => False end.
Proof. split; [exact sx5_session|]. vm_compute. auto. Qed.

(** ** C14 *)

(** The reported space, up to the width of the field: the space of the bodies of all documents and of all nodes of the three indexes. The size
    reported for a document is the space its body takes. *)
Theorem C14_space : forall (E : Env), EnvOk E -> forall key getkey, key_ok key getkey ->
  forall s, sessions key getkey s -> exists is i k1 a k2 b k3 c,
  (forall U cb (u : U), all_docs (ss_db s) [] every cb u = feed cb is u) /\
  Forall (fun x => di_physical_size x = body_size (ss_db s) x) is /\
  index (dbf (ss_db s)) (h_by_id (dbh (ss_db s))) k1 a /\
  index (dbf (ss_db s)) (h_by_seq (dbh (ss_db s))) k2 b /\
  index (dbf (ss_db s)) (h_local (dbh (ss_db s))) k3 c /\
  db_info (ss_db s) = Ok i /\ in_space i mod 2^48 = (total (body_size (ss_db s)) is + a + b + c) mod 2^48.
Proof.
  intros E EO key getkey KO s H. destruct (sessions_stored EO KO H) as (G & D & P & ps & S).
  destruct (stored_indexes EO G S) as (a & b & c & [A1 A2] & [B1 B2] & [C1 C2]).
  exists (by_id (map fst ps)). eexists. exists (map id_entry (by_id (map fst ps))), a, (map seq_entry (by_seq (map fst ps))), b, (by_key (v_locals (ss_now s))), c.
  assert (Bs : forall x, In x (map fst ps) -> di_physical_size x = body_size (ss_db s) x).
  { intros x Hx. apply in_map_iff in Hx. destruct Hx as (p & <- & Hp). pose proof (sd_rep S) as Rp. rewrite Forall_forall in Rp. destruct (Rp _ Hp) as [_ Hr].
    unfold body_size. destruct (rv_body (snd p)) as [z0|].
    - destruct Hr as (Hn & z & Hz & _ & ->). rewrite (proj2 (N.eqb_neq _ _) Hn), (@has_read E EO _ _ _ G Hz). apply csize_overhead.
    - destruct Hr as [-> ->]. reflexivity. }
  split; [|split; [|split; [exact A1|split; [exact B1|split; [exact C1|split; [exact (db_info_eq S)|]]]]]].
  - intros U cb u. rewrite (@all_docs_eq E EO _ _ _ G D S U [] every cb u eq_refl). f_equal.
    clear - G. induction (by_id (map fst ps)) as [|x l IH]; [reflexivity|]. cbn [filter]. replace (ge (ebin_cmp (di_id x) []) && chosen every x) with true; [exact (f_equal (cons x) IH)|].
    destruct (di_id x); reflexivity.
  - apply Forall_forall. intros x Hx. apply Bs. now apply in_by_id.
  - cbn [in_space].
    assert (T : total (body_size (ss_db s)) (by_id (map fst ps)) = sizes (map fst ps)).
    { assert (Pm : sizes (map fst ps) = sizes (by_id (map fst ps))) by (generalize (isort_perm (fun a b => gtc (ebin_cmp (di_id a) (di_id b))) (map fst ps)); fold (by_id (map fst ps)); clear; induction 1; cbn [sizes]; lia). rewrite Pm. clear Pm.
      assert (Bs' : forall x, In x (by_id (map fst ps)) -> di_physical_size x = body_size (ss_db s) x) by (intros x Hx; apply Bs; now apply in_by_id).
      clear - Bs'. induction (by_id (map fst ps)) as [|x l IH]; [reflexivity|]. unfold total in *. cbn [fold_right sizes].
      rewrite (Bs' x (or_introl eq_refl)), IH; [reflexivity|]. intros y Hy. apply Bs'. now right. }
    rewrite T. set (z := sizes (map fst ps)). set (x := sub (h_by_id (dbh (ss_db s)))) in *. set (y := sub (h_by_seq (dbh (ss_db s)))) in *.
    set (w := sub (h_local (dbh (ss_db s)))) in *. clearbody x y w z. clear - A2 B2 C2.
    change (2^64) with (2^48 * 2^16). rewrite N.mod_mul_r by discriminate. rewrite N.add_mod, (N.mul_comm (2^48)), N.mod_mul, N.add_0_r, !N.mod_mod by discriminate.
    rewrite (N.add_mod (z mod 2^48 + x + y) w), (N.add_mod (z mod 2^48 + x) y), (N.add_mod (z mod 2^48) x), N.mod_mod by discriminate. rewrite A2, B2, C2.
    rewrite (N.add_mod (z + a + b) c), (N.add_mod (z + a) b), (N.add_mod z a) by discriminate. reflexivity.
Qed.
Print Assumptions C14_space.

Example C14_ex : @sessions env0 None gks sx5 /\
  match db_info (ss_db sx5) with Ok i => in_space i = 323 | Err _ => False end /\
  @all_docs env0 _ (ss_db sx5) [] every (fun i u => (@Ok unit tt, (di_physical_size i, @body_size env0 (ss_db sx5) i) :: u)) [] = (Ok tt, [(0, 0); (8, 8); (11, 11); (12, 12)]).
Proof. split; [exact sx5_session|]. vm_compute. auto. Qed.

(** ** C15 *)

Theorem C15_count : forall (E : Env), EnvOk E -> forall key getkey, key_ok key getkey ->
  forall s, sessions key getkey s -> lenN (v_docs (ss_now s)) < 2^40 -> forall lo hi, lo < 2^48 -> hi < 2^48 ->
  changes_count (ss_db s) lo hi = Ok (lenN (filter (fun r => (lo <=? rv_seq r) && (rv_seq r <=? hi)) (v_docs (ss_now s)))).
Proof.
  intros E EO key getkey KO s H Hl lo hi Hlo Hhi. destruct (sessions_stored EO KO H) as (G & D & P & ps & S).
  assert (Hp : lenN ps < 2^40) by (rewrite <- (sd_docs S) in Hl; rewrite lenN_map in Hl; exact Hl).
  rewrite (changes_count_eq EO G S Hlo Hhi Hp). f_equal. rewrite <- (sd_docs S). pose proof (sd_rep S) as Rp. clear - Rp.
  induction Rp as [|p ps Hp Rp IH]; [reflexivity|]. cbn [map filter]. rewrite (ab_seq (proj1 Hp)).
  destruct ((lo <=? rv_seq (snd p)) && (rv_seq (snd p) <=? hi)); [|exact IH]. rewrite !lenN_cons. now rewrite IH.
Qed.
Print Assumptions C15_count.

Example C15_ex : @sessions env0 None gks sx5 /\ @changes_count env0 (ss_db sx5) 2 4 = Ok 2 /\ @changes_count env0 (ss_db sx5) 0 (2^48 - 1) = Ok 4 /\
  @changes_count env0 (ss_db sx5) 3 1 = Ok 0.
Proof. split; [exact sx5_session|]. vm_compute. auto. Qed.
