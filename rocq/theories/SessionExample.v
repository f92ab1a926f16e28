(** A concrete session for the examples of the property files. *)
From Verif Require Import Base SpecOrder Codec File Header History Btree BtreeRead SpecMap Db SpecDb DbFacts SpecSession EnvExample.
Local Open Scope N_scope.

(** Checks that compute. *)
Definition smallb (r : option node_pointer) : bool := match r with Some p => np_subtree p <? 2^48 | None => true end.
Definition roomb (d : db) : bool :=
  negb (big (dbf d)) && negb (lost (dbf d)) && (fpos (dbf d) <? 2^47) && smallb (h_by_id (dbh d)) && smallb (h_by_seq (dbh d)) && smallb (h_local (dbh d)).
Lemma room_check d : roomb d = true -> room d.
Proof.
  unfold roomb. rewrite !andb_true_iff, !negb_true_iff. intros (((((H1 & H2) & H3) & H4) & H5) & H6). apply N.ltb_lt in H3.
  constructor; auto; unfold smallb, small_root in *; match goal with |- match ?r with _ => _ end => destruct r end; auto; now apply N.ltb_lt.
Qed.
Section WithEnv.
Context {E : Env}.
Definition sizeb (c : option content) : bool :=
  match c with
  | None => true
  | Some (Raw b) => lenN b + mac_size + 8 <? 2^28
  | Some (Packed b) => match compress b with Some z => lenN z + mac_size + 8 <? 2^28 | None => true end
  end.
Definition fitsb (o : saveopts) (x : submit) : bool :=
  let i := sb_info x in
  (lenN (di_id i) <? 2^12) && (di_rev_seq i <? 2^48) && (lenN (di_rev_meta i) <? 2^27) && (di_content_meta i <? 2^8) && (negb (so_as_is o) || (di_db_seq i <? 2^48)) &&
  sizeb (rv_body (new_rev o x 0)).
Lemma fits_check o x : fitsb o x = true -> fits o x.
Proof.
  unfold fitsb, fits. rewrite !andb_true_iff, !N.ltb_lt. intros (((((H1 & H2) & H3) & H4) & H5) & H6). repeat (split; [assumption|]). split.
  - intros Ho. rewrite Ho in H5. cbn [negb orb] in H5. now apply N.ltb_lt.
  - unfold sizeb in H6. destruct (rv_body (new_rev o x 0)) as [[b|b]|]; [| |exact Logic.I]; cbn [stored_as].
    + intros z ->. now apply N.ltb_lt.
    + intros z Hz. rewrite Hz in H6. now apply N.ltb_lt.
Qed.
Fixpoint nodupb (l : list bytes) : bool := match l with [] => true | x :: r => negb (existsb (same x) r) && nodupb r end.
Lemma nodup_check l : nodupb l = true -> NoDup l.
Proof.
  induction l as [|x l IH]; cbn [nodupb]; [constructor|]. rewrite andb_true_iff, negb_true_iff. intros [H1 H2]. constructor; [|auto].
  intros Hi. assert (Hx : existsb (same x) l = true) by (apply existsb_exists; exists x; split; [exact Hi|now apply same_true]). congruence.
Qed.
Lemma batch_check o l v : so_as_is o = false -> forallb (fitsb o) l = true -> nodupb (map (fun x => di_id (sb_info x)) l) = true -> last_seq o (v_seq v) l <? 2^48 = true ->
  batch_ok o l v.
Proof.
  intros Ho H1 H2 H3. constructor.
  - rewrite forallb_forall in H1. apply Forall_forall. intros x Hx. now apply fits_check, H1.
  - now apply nodup_check.
  - now apply N.ltb_lt.
  - congruence.
Qed.

(** Sessions by doing one thing after the other. *)
Definition after_docs (s : session) (c : cfg) (o : saveopts) (cb : bool) (l : list submit) : session :=
  let R := save_documents c o cb l (ss_db s) in
  Session (sv_db R) (outcome (sv_res R) (save o l (ss_now s)) (ss_now s)) (ss_ack s) (ss_old s) (ss_pend s).
Definition after_local (s : session) (c : cfg) (x : local_doc) : session :=
  let R := save_local_document c (ss_db s) x in
  Session (snd R) (outcome (fst R) (save_locals [x] (ss_now s)) (ss_now s)) (ss_ack s) (ss_old s) (ss_pend s).
Definition after_commit_ex (s : session) (ts : N) (n : nat) : session :=
  let R := commit_ex (ss_db s) ts n in
  let v := Version (align (fpos (dbf (ss_db s)))) (ss_now s) in
  match fst R with
  | Ok _ => Session (snd R) (ss_now s) (Some v) (opt_list (ss_ack s) ++ ss_old s) []
  | Err _ =>
      if fpos (dbf (snd R)) =? fpos (dbf (ss_db s)) then Session (snd R) (ss_now s) (ss_ack s) (ss_old s) (ss_pend s)
      else Session (snd R) (ss_now s) (ss_ack s) (ss_old s) (v :: ss_pend s)
  end.
Lemma docs_write s c o cb l : 2 <= c_kv c -> batch_ok o l (ss_now s) -> roomb (ss_db (after_docs s c o cb l)) = true -> write s (after_docs s c o cb l).
Proof. intros H1 H2 H3. eapply write_docs; eauto. apply room_check. exact H3. Qed.
Lemma local_write s c x : 2 <= c_kv c -> local_fits x -> roomb (ss_db (after_local s c x)) = true -> write s (after_local s c x).
Proof.
  intros H1 H2 H3. apply room_check in H3. unfold after_local in *. destruct (save_local_document c (ss_db s) x) as [r d] eqn:Hs. eapply write_local; eauto.
Qed.
Lemma commit_write s ts n : ts < 2^64 -> fpos (dbf (ss_db s)) + BLOCK < 2^47 -> lost (dbf (ss_db (after_commit_ex s ts n))) = false ->
  write s (after_commit_ex s ts n).
Proof.
  intros H1 H2 H3. unfold after_commit_ex in *. destruct (commit_ex (ss_db s) ts n) as [r d] eqn:Hc. cbn [fst snd] in *.
  apply (@write_commit E s ts n r d H1 H2 Hc). destruct r; [exact H3|]. destruct (_ =? _); exact H3.
Qed.
End WithEnv.

(** An unencrypted database with several saves, a local document and two commits, on a disk whose writes are
    sometimes short. *)
Definition gks : N -> bytes -> bytes -> res N := fun _ _ _ => Err E_DECRYPT.
Definition cf : cfg := Cfg 1279 1279.
Definition so : saveopts := SaveOpts true false.
Definition mk (id : bytes) (rev_seq : N) (deleted : bool) (meta : N) (body : option bytes) (req : N) : submit :=
  Submit body (DocInfo id 0 rev_seq [9; rev_seq] deleted meta 0 0) req.
Definition batch1 : list submit := [mk [98] 1 false 0 (Some [1;2;3]) 11; mk [97] 1 false 128 (Some [4;5]) 12; mk [99;1] 1 true 0 None 13].
Definition batch2 : list submit := [mk [99] 5 false 0 (Some []) 21; mk [97] 2 false 0 (Some [6;7;8;9]) 22].
Definition short : wstep := WStep 2 false None false false.
Definition fine : wstep := WStep 100000 false None false false.
Definition sx_plan : list wstep := repeat fine 3 ++ repeat short 4.

Definition sx_db0 : db := snd (@open_new env0 (empty_file sx_plan) None false false).
Definition sx0 : session := Session sx_db0 no_contents None [Version (h_position (dbh sx_db0)) no_contents] [].
Definition sx1 : session := @after_docs env0 sx0 cf so true batch1.
Definition sx2 : session := @after_local env0 sx1 cf (LocalDoc [76] [1;1] false).
Definition sx3 : session := @after_commit_ex env0 sx2 1000 0.
Definition sx4 : session := @after_docs env0 sx3 cf so true batch2.
Definition sx5 : session := @after_commit_ex env0 sx4 2000 0.

Lemma sx0_session : @sessions env0 None gks sx0.
Proof.
  apply (@sess_new env0 None gks sx_plan false false sx_db0); [now left| |vm_compute; reflexivity].
  unfold sx_db0. assert (H : fst (@open_new env0 (empty_file sx_plan) None false false) = Ok tt) by (vm_compute; reflexivity).
  destruct (@open_new env0 (empty_file sx_plan) None false false) as [r d]. cbn [fst snd] in *. now subst r.
Qed.
Lemma sx01 : @write env0 sx0 sx1.
Proof. apply docs_write; [discriminate| |vm_compute; reflexivity]. apply batch_check; vm_compute; reflexivity. Qed.
Lemma sx12 : @write env0 sx1 sx2.
Proof. apply local_write; [discriminate|split; vm_compute; reflexivity|vm_compute; reflexivity]. Qed.
Lemma sx23 : @write env0 sx2 sx3.
Proof. apply commit_write; vm_compute; reflexivity. Qed.
Lemma sx34 : @write env0 sx3 sx4.
Proof. apply docs_write; [discriminate| |vm_compute; reflexivity]. apply batch_check; vm_compute; reflexivity. Qed.
Lemma sx45 : @write env0 sx4 sx5.
Proof. apply commit_write; vm_compute; reflexivity. Qed.
Lemma sx1_session : @sessions env0 None gks sx1. Proof. exact (sess_write sx0_session sx01). Qed.
Lemma sx2_session : @sessions env0 None gks sx2. Proof. exact (sess_write sx1_session sx12). Qed.
Lemma sx3_session : @sessions env0 None gks sx3. Proof. exact (sess_write sx2_session sx23). Qed.
Lemma sx4_session : @sessions env0 None gks sx4. Proof. exact (sess_write sx3_session sx34). Qed.
Lemma sx5_session : @sessions env0 None gks sx5. Proof. exact (sess_write sx4_session sx45). Qed.
Lemma sx_key : key_ok None gks. Proof. exact Logic.I. Qed.
