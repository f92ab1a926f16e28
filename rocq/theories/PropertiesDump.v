(** Property C74: what couch_dbdump lists. *)
From Coq Require Import Sorting.Sorted.
From Verif Require Import Base SpecOrder Codec CodecFacts File FileFacts ChunkFacts Header HeaderFacts History CrashFacts DataFacts SpecCrash NavFacts ReachNav OpenFacts CommitFacts SpecFile PropertiesCrash PropertiesNav
  Btree BtreeRead TreeStore SpecMap MergeFacts ModifyFacts LookupFacts Db SpecDb SortFacts ReduceFacts DbFacts DbSave DbRead TreeWriter Compact SpecCompact CompactFacts Replay SpecReplay
  SpecSession ShowFacts SessionFacts ReadFacts SaveFacts EnvExample SessionExample PropertiesDb SpecRecover PropertiesRecover PropertiesTolerate SpecDbck Dbinfo DbckFacts PropertiesDbck PropertiesDbckVersions PropertiesNonce Dbdump DbdumpFacts.
Local Open Scope N_scope.
Unset Strict Implicit.

(** What is printed stands for the revision: its information, and its body (decompressed) or that it has none. A live document without a body is reported as a corrupt node. *)
Definition prints {E : Env} (p : printed) (r : revision) : Prop :=
  about (pr_info p) r /\
  ((pr_bad p = true /\ pr_body p = None /\ rv_body r = None /\ rv_deleted r = false) \/
   (pr_bad p = false /\ exists x, pr_body p = Some x /\ body_read r true x)).
(** The order in which the documents are to be listed. *)
Definition order (m : dump_mode) : revision -> revision -> Prop := match m with BySequence => seq_before | _ => id_before end.
(** The list stands for all documents of the contents, each once, in order. *)
Definition complete {E : Env} (m : dump_mode) (v : contents) (out : list printed) : Prop :=
  exists rs, (forall r, In r rs <-> In r (v_docs v)) /\ StronglySorted (order m) rs /\ Forall2 prints out rs.

(** Not part of the code: the entry that is printed for a document. *)
Definition item {E : Env} (body : bool) (d : db) (i : doc_info) : printed :=
  if (di_bp i =? 0) && negb (di_deleted i) then Printed i true None else Printed i false (if body then Some (open_doc_with_docinfo d i true) else None).

Lemma last_cons {T} (l : list T) : forall u w, last (u :: l) w = last l u.
Proof. induction l as [|z l IH]; intros u w; [reflexivity|]. change (last (u :: z :: l) w) with (last (z :: l) w). rewrite !IH. reflexivity. Qed.

Section WithEnv.
Context {E : Env} (EO : EnvOk E).
Lemma fold_item body d i u : foldprint body d i u = (Ok tt, u ++ [item body d i]).
Proof. unfold foldprint, item. destruct ((di_bp i =? 0) && negb (di_deleted i)); reflexivity. Qed.
Lemma feed_print body d l : forall u, SpecDb.feed (foldprint body d) l u = (Ok tt, u ++ map (item body d) l).
Proof. induction l as [|i l IH]; intros u; cbn [SpecDb.feed map]; [now rewrite app_nil_r|]. rewrite fold_item, IH, <- app_assoc. reflexivity. Qed.
Lemma feed_on_print body d l : forall u, feed_on (foldprint body d) l u = (true, u ++ map (item body d) l).
Proof. induction l as [|i l IH]; intros u; cbn [feed_on map]; [now rewrite app_nil_r|]. rewrite fold_item, IH, <- app_assoc. reflexivity. Qed.
Lemma item_prints d i r : shown d i r -> prints (item true d i) r.
Proof.
  intros [A B]. unfold item. destruct (N.eqb_spec (di_bp i) 0) as [Hb|Hb]; [destruct (di_deleted i) eqn:Hd|]; cbn [andb negb]; (split; [exact A|]); cbn [pr_bad pr_body]; [right; eauto|left|right; eauto].
  split; [reflexivity|]. split; [reflexivity|]. pose proof (B false) as X. unfold open_doc_with_docinfo in X. rewrite Hb in X. cbn [N.eqb] in X. unfold body_read in X. cbn [andb] in X.
  destruct (rv_body r); [destruct X as (z & _ & X); discriminate X|]. split; [reflexivity|]. now rewrite <- (ab_deleted A).
Qed.
Lemma items_print d js rs : Forall2 (shown d) js rs -> Forall2 prints (map (item true d) js) rs.
Proof. induction 1 as [|i r js rs H F IH]; constructor; [now apply item_prints|exact IH]. Qed.

Lemma dump_shown d v m : shows_contents d v -> m = BySequence \/ m = ById -> exists out, dump_once true m d = (Ok tt, out) /\ complete m v out.
Proof.
  intros Sh [-> | ->]; cbn [dump_once].
  - destruct (@sc_changes E d v Sh 0 (EnumOpts false false false) eq_refl eq_refl) as (rs & js & H1 & H2 & H3 & H4).
    exists (map (item true d) js). split.
    + apply same_changes. rewrite H4, feed_print. reflexivity.
    + exists rs. split; [|split; [exact H2|now apply items_print]]. intros r. rewrite H1. unfold picked. cbn. split; [tauto|]. intros H. split; [exact H|]. split; [lia|]. split; discriminate.
  - destruct (@sc_all E d v Sh [] (EnumOpts false false false) eq_refl) as (rs & js & H1 & H2 & H3 & H4).
    exists (map (item true d) js). split.
    + apply same_all. rewrite H4, feed_print. reflexivity.
    + exists rs. split; [|split; [exact H2|now apply items_print]]. intros r. rewrite H1. unfold picked. cbn. split; [tauto|]. intros H. split; [exact H|].
      split; [|split; discriminate]. unfold lex_le. destruct (rv_id r); [now left|right; constructor].
Qed.

Lemma seek_back d d' : dropped d = false -> rewind_db_header d = Ok d' -> seek_dir d DBackward = (Ok tt, d').
Proof.
  intros Hd Hr. destruct (rewind_lower Hr) as (_ & _ & Hp). unfold seek_dir. rewrite Hd. destruct (N.eqb_spec (h_position (dbh d)) 0) as [H0|_]; [lia|].
  unfold rewind_db_header in Hr. destruct (rewind_impl d) as [[[]|e] d1]; [|discriminate Hr]. now injection Hr as ->.
Qed.
Lemma seek_end d e : dropped d = false -> rewind_db_header d = Err e -> exists e' d', seek_dir d DBackward = (Err e', d').
Proof.
  intros Hd Hr. unfold seek_dir. rewrite Hd. destruct (h_position (dbh d) =? 0); [eauto|]. unfold rewind_db_header in Hr. destruct (rewind_impl d) as [[[]|x] d1]; [discriminate Hr|].
  assert (R : forall dd p q, exists e' d', reopen_current dd p q = (Err e', d')) by (intros dd p q; unfold reopen_current; destruct (find_header_at_pos _ _ _) as [[[]|] hh]; eauto).
  destruct x; eauto.
Qed.
Lemma seek_first f h : h_version h = 14 -> h_prev h = NO_PREV -> exists d', seek_dir (Db f h false) DBackward = (Err (if h_position h =? 0 then E_NO_HEADER else E_DB_NO_LONGER_VALID), d').
Proof.
  intros Hv Hp. unfold seek_dir. cbn [dropped dbh dbf]. destruct (h_position h =? 0); [eauto|]. unfold rewind_impl. cbn [dropped dbh dbf reset_roots set_roots h_version h_prev]. rewrite Hv, Hp.
  change (14 <=? 14) with true. change (NO_PREV =? NO_PREV) with true. cbv iota. cbn [dbf dbh dropped]. unfold reopen_current. cbn [dbf dbh dropped]. destruct (find_header_at_pos _ _ _) as [[[]|] hh]; eauto.
Qed.

Lemma dump_older fuel body m : forall f h hs, older (Db f h false) hs -> (N.to_nat (h_position h) < fuel)%nat ->
  exists e d', seek_dir (Db f (last hs h) false) DBackward = (Err e, d') /\
    dump_loop fuel body m true (Db f h false) = (match e with E_NO_HEADER => Ok tt | _ => Err e end, map (fun k => (h_position k, snd (dump_once body m (Db f k false)))) (h :: hs)).
Proof.
  induction fuel as [|n IH]; intros f h hs Ho Hf; [lia|]. cbn [dump_loop]. destruct (dump_once body m (Db f h false)) as [x out] eqn:Eo. inversion Ho as [d e Hr|d d1 hs1 Hr Ho1]; subst.
  - destruct (@seek_end (Db f h false) e eq_refl Hr) as (e' & d' & Hs). exists e', d'. cbn [last map]. rewrite Hs, Eo. split; [reflexivity|]. destruct e'; reflexivity.
  - rewrite (@seek_back (Db f h false) d1 eq_refl Hr). destruct (rewind_lower Hr) as (H1 & H2 & H3). destruct d1 as [f1 h1 b1]. cbn [dbf dropped dbh] in *. subst f1 b1.
    destruct (IH f h1 hs1 Ho1 ltac:(lia)) as (e & d' & Hs & Hd). exists e, d'. split; [|rewrite Hd; cbn [map]; rewrite Eo; reflexivity].
    rewrite last_cons. exact Hs.
Qed.
End WithEnv.

Section Sess.
Context {E : Env} (EO : EnvOk E) {key : option keyinfo} {getkey : N -> bytes -> bytes -> res N} (KO : key_ok key getkey).
Lemma reader_shows s h v p : sessions key getkey s -> snapshot s h v -> fpos (dbf (ss_db s)) <= p <= size (dbf (ss_db s)) -> shows_contents (reader s h p) v.
Proof.
  intros H Sn Hp. destruct (sessions_linked EO KO H) as [t L]. destruct (linked_snapshot EO KO L Sn) as [ps S]. destruct (sessions_stored EO KO H) as (G & _).
  assert (G' : good (dbf (reader s h p))) by (apply good_fpos; [exact G|apply Hp]).
  assert (S' : stored (dbf (reader s h p)) (dbh (reader s h p)) v ps) by (eapply stored_keeps; [apply set_fpos_keeps; apply Hp|exact S]).
  exact (@stored_shows E EO (reader s h p) v ps G' eq_refl S').
Qed.
Lemma version_at s y hy : sessions key getkey s -> In y (opt_list (ss_ack s) ++ ss_old s) -> find_header_at_pos (dbf (ss_db s)) header0 (vn_pos y) = (Ok tt, hy) ->
  h_version hy = h_version (dbh (ss_db s)).
Proof.
  intros H Hy Hf. destruct (sessions_linked EO KO H) as [t L]. destruct (link_inv EO KO L) as [B I].
  assert (V : reads t (ss_db s)) by (rewrite <- (lk_db L); constructor; auto; [|exact (i_dropped I)]; pose proof (proj2 (i_good I)); lia).
  assert (F : Forall2 (ver key) (effective t) (opt_list (ss_ack s) ++ ss_old s)) by (apply Forall2_app; [exact (lk_ack L)|exact (lk_old L)]).
  assert (X : exists c, In c (effective t) /\ ver key c y).
  { clear - F Hy. induction F as [|c y' l l' Hv F IH]; [destruct Hy|]. destruct Hy as [->|Hy]; [exists c; split; [now left|exact Hv]|]. destruct (IH Hy) as (c' & H1 & H2). exists c'. split; [now right|exact H2]. }
  destruct X as (c & Hc & Vc). pose proof (chain_header I c V Hc) as A. apply header_at_find with (h0 := header0) in A. unfold cpos in A. rewrite (proj1 Vc), Hf in A. injection A as ->.
  rewrite (sh_version (strip_same (c_hdr c))), <- (lk_db L). apply (i_ver I). unfold all_coms. unfold effective in Hc. rewrite in_app_iff in Hc. rewrite !in_app_iff. tauto.
Qed.
Lemma header_reader s y p : sessions key getkey s -> In y (opt_list (ss_ack s) ++ ss_old s) -> fpos (dbf (ss_db s)) <= p <= size (dbf (ss_db s)) ->
  find_header_at_pos (set_fpos (dbf (ss_db s)) p) header0 (vn_pos y) = find_header_at_pos (dbf (ss_db s)) header0 (vn_pos y).
Proof.
  intros H Hy Hp. destruct (sessions_linked EO KO H) as [t L]. destruct (link_inv EO KO L) as [B I].
  assert (V : reads t (ss_db s)) by (rewrite <- (lk_db L); constructor; auto; [|exact (i_dropped I)]; pose proof (proj2 (i_good I)); lia).
  assert (V' : reads t (reader s header0 p)) by (rewrite <- (lk_db L) in Hp; constructor; unfold reader; cbn [dbf set_fpos File.cur size crcm fkey fpos dropped]; rewrite <- ?(lk_db L); auto).
  assert (F : Forall2 (ver key) (effective t) (opt_list (ss_ack s) ++ ss_old s)) by (apply Forall2_app; [exact (lk_ack L)|exact (lk_old L)]).
  assert (X : exists c, In c (effective t) /\ ver key c y).
  { clear - F Hy. induction F as [|c y' l l' Hv F IH]; [destruct Hy|]. destruct Hy as [->|Hy]; [exists c; split; [now left|exact Hv]|]. destruct (IH Hy) as (c' & H1 & H2). exists c'. split; [now right|exact H2]. }
  destruct X as (c & Hc & Vc). pose proof (chain_header I c V Hc) as A. pose proof (chain_header I c V' Hc) as A'. apply header_at_find with (h0 := header0) in A, A'. unfold cpos in A, A'. rewrite (proj1 Vc) in A, A'.
  rewrite A. exact A'.
Qed.
End Sess.

(** Without --iterate-headers: every document of the snapshot is listed once, in the order asked for, with its body, and success is reported. *)
Theorem C74_dump : forall (E : Env), EnvOk E -> forall key getkey, key_ok key getkey -> forall s h v, sessions key getkey s -> snapshot s h v ->
  forall p, fpos (dbf (ss_db s)) <= p <= size (dbf (ss_db s)) -> forall m, m = BySequence \/ m = ById -> forall fuel,
  exists out, dump_loop (S fuel) true m false (reader s h p) = (Ok tt, [(h_position h, out)]) /\ complete m v out.
Proof.
  intros E EO key getkey KO s h v H Sn p Hp m Hm fuel. destruct (dump_shown (reader_shows EO KO H Sn Hp) Hm) as (out & H1 & H2).
  exists out. cbn [dump_loop]. rewrite H1. split; [reflexivity|exact H2].
Qed.
Print Assumptions C74_dump.

(** The program on a file as a crash (or no crash) left it: it lists the documents of the last acknowledged commit, or of one that was being made. *)
Theorem C74_file : forall (E : Env), EnvOk E -> forall key getkey, key_ok key getkey -> forall s v0, sessions key getkey s -> ss_ack s = Some v0 ->
  forall g gsz, crash_image (dbf (ss_db s)) g gsz -> forall pl m, m = BySequence \/ m = ById ->
  exists w out, (w = v0 \/ In w (ss_pend s)) /\ dump_file (image g gsz pl) getkey None true m false = (Ok tt, [(vn_pos w, out)]) /\ complete m (vn_contents w) out.
Proof.
  intros E EO key getkey KO s v0 H Ha g gsz G pl m Hm. destruct (sessions_linked EO KO H) as [t L]. destruct (link_open EO KO pl false L Ha G) as (d & w & s' & Ho & Hw & Hpos & Hs & Hre & _).
  assert (H' : sessions key getkey s') by exact (sess_reopen H Hre). destruct (sessions_stored EO KO H') as (G' & D' & _). assert (Hd : ss_db s' = d) by now rewrite Hs. rewrite Hd in G', D'.
  assert (Er : reader s' (dbh d) (fpos (dbf d)) = d) by (unfold reader; rewrite Hd; destruct d as [[] hh dd]; cbn [dropped] in D'; subst dd; reflexivity).
  destruct (@C74_dump E EO key getkey KO s' (dbh d) (vn_contents w) H') with (p := fpos (dbf d)) (m := m) (fuel := N.to_nat (size (image g gsz pl))) as (out & H1 & H2); [left; rewrite Hs; split; reflexivity|rewrite Hd; split; [apply N.le_refl|exact (proj2 G')]|exact Hm|].
  rewrite Er in H1. exists w, out. split; [exact Hw|]. split; [|exact H2]. unfold dump_file, open_at. rewrite Ho. cbn [bind]. rewrite Hpos. exact H1.
Qed.
Print Assumptions C74_file.

(** With --key: the document with this id is listed, deleted or not; if there is none, the program fails. *)
Theorem C74_key : forall (E : Env), EnvOk E -> forall key getkey, key_ok key getkey -> forall s h v, sessions key getkey s -> snapshot s h v ->
  forall p, fpos (dbf (ss_db s)) <= p <= size (dbf (ss_db s)) -> forall id fuel,
  match find_doc id (v_docs v) with
  | Some r => exists x, dump_loop (S fuel) true (OneKey id) false (reader s h p) = (Ok tt, [(h_position h, [x])]) /\ prints x r
  | None => dump_loop (S fuel) true (OneKey id) false (reader s h p) = (Err E_DOC_NOT_FOUND, [(h_position h, [])])
  end.
Proof.
  intros E EO key getkey KO s h v H Sn p Hp id fuel. pose proof (sc_id (reader_shows EO KO H Sn Hp) id) as X. destruct (find_doc id (v_docs v)) as [r|].
  - destruct X as (i & H1 & H2 & _). exists (item true (reader s h p) i). cbn [dump_loop dump_once]. rewrite H1, fold_item. split; [reflexivity|now apply item_prints].
  - destruct X as [H1 _]. cbn [dump_loop dump_once]. rewrite H1. reflexivity.
Qed.
Print Assumptions C74_key.

(** With --iterate-headers, from the commit [x] on: it and all older commits in effect are listed, each with its own documents. The program then reports success if the oldest header
    is at the beginning of the file, and otherwise the error of the last seek. *)
Theorem C74_commits : forall (E : Env), EnvOk E -> forall key getkey, key_ok key getkey -> forall s, sessions key getkey s -> h_version (dbh (ss_db s)) = 14 ->
  (forall pre y hy, opt_list (ss_ack s) ++ ss_old s = pre ++ [y] -> find_header_at_pos (dbf (ss_db s)) header0 (vn_pos y) = (Ok tt, hy) -> h_prev hy = NO_PREV) ->
  forall pre x old h, opt_list (ss_ack s) ++ ss_old s = pre ++ x :: old -> find_header_at_pos (dbf (ss_db s)) header0 (vn_pos x) = (Ok tt, h) ->
  forall p, fpos (dbf (ss_db s)) <= p <= size (dbf (ss_db s)) -> forall m, m = BySequence \/ m = ById -> forall fuel, (N.to_nat (vn_pos x) < fuel)%nat ->
  exists l, dump_loop fuel true m true (reader s h p) = ((if vn_pos (last old x) =? 0 then Ok tt else Err E_DB_NO_LONGER_VALID), l) /\
    Forall2 (fun o y => fst o = vn_pos y /\ complete m (vn_contents y) (snd o)) l (x :: old).
Proof.
  intros E EO key getkey KO s H H14 Hend pre x old h Hx Hh p Hp m Hm fuel Hf.
  destruct (@C71_versions E EO key getkey KO s H H14 Hend pre x old h Hx Hh (set_fpos (dbf (ss_db s)) p)) as (hvs & Ho & F).
  { intros y Hy. apply (header_reader EO KO H); [|exact Hp]. rewrite Hx, in_app_iff. right. now right. }
  assert (Hpos : forall y hy, find_header_at_pos (dbf (ss_db s)) header0 (vn_pos y) = (Ok tt, hy) -> h_position hy = vn_pos y) by (intros y hy Hy; exact (find_pos _ _ _ Hy)).
  destruct (@dump_older E fuel true m (set_fpos (dbf (ss_db s)) p) h (map fst hvs) Ho) as (e & d' & He & Hd); [rewrite (Hpos x h Hh); exact Hf|].
  assert (F2 : Forall2 (fun k y => In y (x :: old) /\ find_header_at_pos (dbf (ss_db s)) header0 (vn_pos y) = (Ok tt, k)) (h :: map fst hvs) (x :: old)).
  { constructor; [split; [now left|exact Hh]|]. assert (A : forall y, In y old -> In y (x :: old)) by (intros y Hy; now right). clear - F A. revert A. generalize (x :: old). intros big A. induction F as [|y hv old hvs [H1 _] F IH]; cbn [map]; constructor.
    - split; [apply A; now left|exact H1].
    - apply IH. intros y' Hy'. apply A. now right. }
  assert (Hlast : find_header_at_pos (dbf (ss_db s)) header0 (vn_pos (last old x)) = (Ok tt, last (map fst hvs) h)).
  { clear - F2. assert (G : Forall2 (fun k y => find_header_at_pos (dbf (ss_db s)) header0 (vn_pos y) = (Ok tt, k)) (h :: map fst hvs) (x :: old)) by (eapply Forall2_impl; [|exact F2]; intros a b [_ X]; exact X).
    clear F2. inversion G as [|a b la lb Hab Gab]; subst. clear G. revert h x Hab. induction Gab as [|a b la lb H G IH]; intros h x Hab; [exact Hab|].
    rewrite !last_cons. exact (IH a b H). }
  assert (Hin : In (last old x) (opt_list (ss_ack s) ++ ss_old s) /\ exists q, opt_list (ss_ack s) ++ ss_old s = q ++ [last old x]).
  { assert (A : exists q, x :: old = q ++ [last old x]).
    { clear. revert x. induction old as [|a l IH]; intros x; [exists []; reflexivity|]. destruct (IH a) as (q & Hq). exists (x :: q). cbn [app]. rewrite last_cons. f_equal. exact Hq. }
    destruct A as (q & Hq). rewrite Hq, app_assoc in Hx. split; [rewrite Hx, in_app_iff; right; now left|eexists; exact Hx]. }
  destruct Hin as (Hin & q & Hq). pose proof (version_at EO KO H Hin Hlast) as Hv. rewrite H14 in Hv. pose proof (Hend q _ _ Hq Hlast) as Hpv.
  destruct (@seek_first E (set_fpos (dbf (ss_db s)) p) _ Hv Hpv) as (d2 & Hs). rewrite He in Hs. injection Hs as -> _. rewrite (Hpos _ _ Hlast) in Hd.
  change (Db (set_fpos (dbf (ss_db s)) p) h false) with (reader s h p) in Hd. rewrite Hd.
  eexists. split; [destruct (vn_pos (last old x) =? 0); reflexivity|].
  assert (Sn : forall y hy, In y (x :: old) -> find_header_at_pos (dbf (ss_db s)) header0 (vn_pos y) = (Ok tt, hy) -> snapshot s hy (vn_contents y)).
  { intros y hy Hy Hfy. right. exists y. split; [rewrite Hx, in_app_iff; now right|]. split; [exact Hfy|reflexivity]. }
  clear - F2 Sn Hpos EO KO H Hp Hm. revert F2 Sn. generalize (x :: old) at 1 3. intros big. generalize (h :: map fst hvs), (x :: old). intros hs ys F Sn.
  induction F as [|k y hs ys [H1 H2] F IH]; cbn [map]; constructor; [|exact IH]. cbn [fst snd]. split; [exact (Hpos y k H2)|].
  destruct (dump_shown (reader_shows EO KO H (Sn y k H1 H2) Hp) Hm) as (out & Ho & Hc). unfold reader in Ho. rewrite Ho. exact Hc.
Qed.
Print Assumptions C74_commits.

(** In a file with damage that is noticed: exactly the documents are listed that are still found one by one, and without --iterate-headers the program reports success only if none is missing. *)
Theorem C74_damaged : forall (E : Env), EnvOk E -> forall key getkey, key_ok key getkey -> forall s h v, sessions key getkey s -> snapshot s h v ->
  forall p, fpos (dbf (ss_db s)) <= p <= size (dbf (ss_db s)) -> forall g, spoiled (dbf (reader s h p)) g -> forall m, m = BySequence \/ m = ById -> forall body fuel,
  let d := Db g h false in
  let there r := match m with BySequence => exists i, docinfo_by_sequence d (rv_seq r) = Ok i | _ => exists i, docinfo_by_id d (rv_id r) = Ok i end in
  exists x out rs, dump_loop (S fuel) body m false d = (x, [(h_position h, out)]) /\ (forall r, In r rs <-> In r (v_docs v) /\ there r) /\ StronglySorted (order m) rs /\
    Forall2 (fun o r => about (pr_info o) r /\ (pr_bad o = false -> body = true -> pr_body o = Some (open_doc_with_docinfo d (pr_info o) true))) out rs /\
    (x = Ok tt -> forall r, In r (v_docs v) -> there r).
Proof.
  intros E EO key getkey KO s h v H Sn p Hp g Sp m Hm body fuel. cbv zeta. set (d := Db g h false).
  assert (It : forall js rs, Forall2 about js rs -> Forall2 (fun o r => about (pr_info o) r /\ (pr_bad o = false -> body = true -> pr_body o = Some (open_doc_with_docinfo d (pr_info o) true))) (map (item body d) js) rs).
  { intros js rs F. induction F as [|i r js rs A F IH]; cbn [map]; constructor; [|exact IH]. unfold item. destruct ((di_bp i =? 0) && negb (di_deleted i)); cbn [pr_info pr_bad pr_body]; (split; [exact A|]); [discriminate|]. intros _ ->. reflexivity. }
  cbn [dump_loop]. destruct Hm as [-> | ->]; cbn [dump_once order].
  - destruct (@C70_changes E EO key getkey KO s h v H Sn p Hp g Sp 0 (EnumOpts false false true) eq_refl eq_refl) as (rs & js & H1 & H2 & H3 & H4). specialize (H4 _ (foldprint body d) []). fold d in H4, H1.
    rewrite feed_on_print in H4. cbn [fst snd app] in H4. destruct H4 as (H4 & H5 & _). destruct (changes_since d 0 (EnumOpts false false true) (foldprint body d) []) as [x out]. cbn [fst snd] in *. subst out.
    exists x, (map (item body d) js), rs. split; [reflexivity|]. split; [|split; [exact H2|split; [now apply It|]]].
    + intros r. rewrite H1. unfold picked. cbn. split; [tauto|]. intros [A B]. split; [exact A|]. split; [exact B|]. split; [lia|]. split; discriminate.
    + intros Hx r Hr. apply (H5 Hx); [exact Hr|lia].
  - destruct (@C70_all E EO key getkey KO s h v H Sn p Hp g Sp [] (EnumOpts false false true) eq_refl) as (rs & js & H1 & H2 & H3 & H4). specialize (H4 _ (foldprint body d) []). fold d in H4, H1.
    rewrite feed_on_print in H4. cbn [fst snd app] in H4. destruct H4 as (H4 & H5 & _). destruct (all_docs d [] (EnumOpts false false true) (foldprint body d) []) as [x out]. cbn [fst snd] in *. subst out.
    assert (Ln : forall r, lex_le [] (rv_id r)) by (intros r; unfold lex_le; destruct (rv_id r); [now left|right; constructor]).
    exists x, (map (item body d) js), rs. split; [reflexivity|]. split; [|split; [exact H2|split; [now apply It|]]].
    + intros r. rewrite H1. unfold picked. cbn. split; [tauto|]. intros [A B]. split; [exact A|]. split; [exact B|]. split; [apply Ln|]. split; discriminate.
    + intros Hx r Hr. apply (H5 Hx); [exact Hr|apply Ln].
Qed.
Print Assumptions C74_damaged.

(** *** What does not hold *)

(** "--iterate-headers" on an encrypted database, just created: its first header is not at the beginning of the file. Everything is listed, and the program reports a failure. *)
Definition es0 : session := Session n_db0 no_contents None [Version (h_position (dbh n_db0)) no_contents] [].
Lemma es0_session : @sessions env0 (Some nk) ngk es0.
Proof. apply (@sess_new env0 (Some nk) ngk (repeat ok_step 30) false false n_db0); [now right| |vm_compute; reflexivity]. unfold n_db0. apply pair_of. vm_compute. reflexivity. Qed.
Theorem C74_encrypted_refuted : exists (E : Env) key getkey s, EnvOk E /\ key_ok key getkey /\ sessions key getkey s /\ length (ss_old s) = 1%nat /\ v_docs (ss_now s) = [] /\
  dump_loop (S (N.to_nat (h_position (dbh (ss_db s))))) true BySequence true (reader s (dbh (ss_db s)) (fpos (dbf (ss_db s)))) = (Err E_DB_NO_LONGER_VALID, [(4096, [])]).
Proof.
  exists env0, (Some nk), ngk, es0. split; [exact env0_ok|]. split; [exact n_key_ok|]. split; [exact es0_session|]. split; [reflexivity|]. split; [reflexivity|]. vm_compute. reflexivity.
Qed.
Print Assumptions C74_encrypted_refuted.

Lemma ack_snapshot {E : Env} s x h : ss_ack s = Some x -> find_header_at_pos (dbf (ss_db s)) header0 (vn_pos x) = (Ok tt, h) -> snapshot s h (vn_contents x).
Proof. intros Ha Hf. right. exists x. rewrite Ha. split; [now left|]. split; [exact Hf|reflexivity]. Qed.
(** With --iterate-headers the program reports success though a document of the newest commit could not be listed; without, it fails. *)
Definition z_seq_hit : file := hit (set_fpos (dbf (ss_db zs4)) (fpos (dbf (ss_db zs4)))) (match h_by_seq z_h with Some q => np_pointer q + 9 | None => 0 end).
Theorem C74_iterate_refuted : exists (E : Env) s h v g l, EnvOk E /\ sessions None gks s /\ snapshot s h v /\ spoiled (dbf (reader s h (fpos (dbf (ss_db s))))) g /\ length (v_docs v) = 2%nat /\
  dump_loop (S (N.to_nat (h_position h))) true BySequence true (Db g h false) = (Ok tt, l) /\ hd_error l = Some (h_position h, []) /\
  dump_loop (S (N.to_nat (h_position h))) true BySequence false (Db g h false) = (Err E_CHECKSUM, [(h_position h, [])]).
Proof.
  exists env0, zs4, z_h, (vn_contents z_x), z_seq_hit, (snd (@dump_loop env0 (S (N.to_nat (h_position z_h))) true BySequence true (Db z_seq_hit z_h false))). split; [exact env0_ok|]. split; [exact zs4_session|].
  split; [exact (@ack_snapshot env0 zs4 z_x z_h z_x_ack z_x_header)|]. split; [apply spoiled_check; vm_compute; reflexivity|]. split; [vm_compute; reflexivity|].
  split; [apply pair_of; vm_compute; reflexivity|]. split; vm_compute; reflexivity.
Qed.
Print Assumptions C74_iterate_refuted.

(** *** The examples satisfy the hypotheses *)
Definition summary (x : res unit * list (N * list printed)) : res unit * list (list (N * bytes * option (res bytes))) :=
  (fst x, map (fun o => map (fun q => (di_db_seq (pr_info q), di_id (pr_info q), pr_body q)) (snd o)) (snd x)).
Definition z_r : db := reader zs4 (dbh (ss_db zs4)) (fpos (dbf (ss_db zs4))).
Example C74_ex : key_ok None gks /\ @sessions env0 None gks zs4 /\ @snapshot env0 zs4 (dbh (ss_db zs4)) (ss_now zs4) /\ (fpos (dbf (ss_db zs4)) <=? size (dbf (ss_db zs4))) = true /\
  summary (@dump_loop env0 1 true BySequence false z_r) = (Ok tt, [[(3, [97], Some (Ok [4;5;6])); (4, [98], Some (Err E_DOC_NOT_FOUND))]]) /\
  summary (@dump_loop env0 1 true ById false z_r) = (Ok tt, [[(3, [97], Some (Ok [4;5;6])); (4, [98], Some (Err E_DOC_NOT_FOUND))]]) /\
  summary (@dump_loop env0 1 true (OneKey [97]) false z_r) = (Ok tt, [[(3, [97], Some (Ok [4;5;6]))]]) /\ fst (@dump_loop env0 1 true (OneKey [99]) false z_r) = Err E_DOC_NOT_FOUND.
Proof. split; [exact sx_key|]. split; [exact zs4_session|]. split; [left; split; reflexivity|]. repeat split; vm_compute; reflexivity. Qed.
Example C74_file_ex : ss_ack zs4 = Some z_x /\ @crash_image (dbf (ss_db zs4)) (File.cur (dbf (ss_db zs4))) (size (dbf (ss_db zs4))) /\
  summary (@dump_file env0 (image (File.cur (dbf (ss_db zs4))) (size (dbf (ss_db zs4))) []) gks None true ById false) = (Ok tt, [[(3, [97], Some (Ok [4;5;6])); (4, [98], Some (Err E_DOC_NOT_FOUND))]]).
Proof.
  split; [exact z_x_ack|]. split; [|vm_compute; reflexivity]. apply image_now. destruct (@sessions_stored env0 env0_ok None gks sx_key zs4 zs4_session) as (G & _). exact (proj1 G).
Qed.
(** Three commits, the newest first: the oldest has no documents. The encrypted database of [C74_encrypted_refuted] is the other case. *)
Example C74_commits_ex : h_version (dbh (ss_db zs4)) = 14 /\
  (forall pre y hy, opt_list (ss_ack zs4) ++ ss_old zs4 = pre ++ [y] -> @find_header_at_pos env0 (dbf (ss_db zs4)) header0 (vn_pos y) = (Ok tt, hy) -> h_prev hy = NO_PREV) /\
  @find_header_at_pos env0 (dbf (ss_db zs4)) header0 (vn_pos z_x) = (Ok tt, z_h) /\
  summary (@dump_loop env0 (S (N.to_nat (vn_pos z_x))) true ById true (reader zs4 z_h (fpos (dbf (ss_db zs4))))) =
    (Ok tt, [[(3, [97], Some (Ok [4;5;6])); (4, [98], Some (Err E_DOC_NOT_FOUND))]; [(1, [97], Some (Ok [1;2;3])); (2, [98], Some (Ok [9]))]; []]).
Proof. split; [vm_compute; reflexivity|]. split; [apply (@first_check env0); vm_compute; reflexivity|]. split; [exact z_x_header|]. vm_compute. reflexivity. Qed.
(** A database of five documents with one damaged leaf (see [C70_ex] for the hypotheses). *)
Example C74_damaged_ex : summary (@dump_loop env0 1 false BySequence false seq_hit) = (Err E_CHECKSUM, [[(1, [97], None); (3, [99], None); (4, [100], None); (5, [101], None)]]).
Proof. vm_compute. reflexivity. Qed.
