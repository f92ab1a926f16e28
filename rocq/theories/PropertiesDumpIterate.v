(** Property C78: couch_dbdump --iterate-headers with --tree and with --local. *)
From Coq Require Import Sorting.Sorted.
From Verif Require Import Base SpecOrder Codec CodecFacts File FileFacts ChunkFacts Header HeaderFacts History CrashFacts DataFacts SpecCrash NavFacts ReachNav OpenFacts CommitFacts SpecFile PropertiesCrash PropertiesNav
  Btree BtreeRead TreeStore SpecMap MergeFacts ModifyFacts LookupFacts Db SpecDb SortFacts ReduceFacts DbFacts DbSave DbRead TreeWriter Compact SpecCompact CompactFacts Replay SpecReplay
  SpecSession ShowFacts SessionFacts ReadFacts SaveFacts EnvExample SessionExample PropertiesDb SpecRecover PropertiesRecover PropertiesTolerate SpecDbck Dbinfo DbckFacts PropertiesDbck PropertiesDbckVersions PropertiesNonce DbdumpFacts Dbdump PropertiesDump DbdumpLocal PropertiesDumpLocal Walk DbdumpTree PropertiesDumpTree DbdumpIterate.
Local Open Scope N_scope.
Unset Strict Implicit.

Lemma draws_ok {E : Env} m d v x : draws m d v x -> fst x = Ok tt.
Proof.
  intros T. destruct m; unfold draws in T.
  - destruct (h_by_seq (dbh d)); [destruct T as (t' & k & lk & n' & rs & _ & _ & _ & _ & _ & _ & T)|destruct T as [_ T]]; rewrite T; reflexivity.
  - destruct (h_by_id (dbh d)); [destruct T as (t' & k & lk & n' & rs & _ & _ & _ & _ & _ & _ & T)|destruct T as [_ T]]; rewrite T; reflexivity.
  - destruct (h_local (dbh d)); [destruct T as (t' & k & lk & n' & _ & _ & _ & _ & _ & T)|destruct T as [_ T]]; rewrite T; reflexivity.
Qed.

Section Loop.
Context {E : Env} (EO : EnvOk E).
Variable T : Type.
Variable pass : db -> res unit * T.
Lemma pass_older fuel : forall f h hs, older (Db f h false) hs -> (N.to_nat (h_position h) < fuel)%nat ->
  exists e d', seek_dir (Db f (last hs h) false) DBackward = (Err e, d') /\
    pass_loop pass fuel (Db f h false) = (match e with E_NO_HEADER => Ok tt | _ => Err e end, map (fun k => (h_position k, snd (pass (Db f k false)))) (h :: hs)).
Proof.
  induction fuel as [|n IH]; intros f h hs Ho Hf; [lia|]. cbn [pass_loop]. inversion Ho as [d e Hr|d d1 hs1 Hr Ho1]; subst.
  - destruct (@seek_end E (Db f h false) e eq_refl Hr) as (e' & d' & Hs). exists e', d'. cbn [last map]. rewrite Hs. split; [reflexivity|]. destruct e'; reflexivity.
  - rewrite (@seek_back E (Db f h false) d1 eq_refl Hr). destruct (rewind_lower Hr) as (H1 & H2 & H3). destruct d1 as [f1 h1 b1]. cbn [dbf dropped dbh] in *. subst f1 b1.
    destruct (IH f h1 hs1 Ho1 ltac:(lia)) as (e & d' & Hs & Hd). exists e, d'. split; [|rewrite Hd; reflexivity].
    rewrite last_cons. exact Hs.
Qed.
Context {key : option keyinfo} {getkey : N -> bytes -> bytes -> res N} (KO : key_ok key getkey).
Lemma pass_commits s : sessions key getkey s -> h_version (dbh (ss_db s)) = 14 ->
  (forall pre y hy, opt_list (ss_ack s) ++ ss_old s = pre ++ [y] -> find_header_at_pos (dbf (ss_db s)) header0 (vn_pos y) = (Ok tt, hy) -> h_prev hy = NO_PREV) ->
  forall pre x old h, opt_list (ss_ack s) ++ ss_old s = pre ++ x :: old -> find_header_at_pos (dbf (ss_db s)) header0 (vn_pos x) = (Ok tt, h) ->
  forall p, fpos (dbf (ss_db s)) <= p <= size (dbf (ss_db s)) -> forall fuel, (N.to_nat (vn_pos x) < fuel)%nat ->
  exists l, pass_loop pass fuel (reader s h p) = ((if vn_pos (last old x) =? 0 then Ok tt else Err E_DB_NO_LONGER_VALID), l) /\
    Forall2 (fun o y => fst o = vn_pos y /\ exists hy, snapshot s hy (vn_contents y) /\ snd o = snd (pass (reader s hy p))) l (x :: old).
Proof.
  intros H H14 Hend pre x old h Hx Hh p Hp fuel Hf.
  destruct (@C71_versions E EO key getkey KO s H H14 Hend pre x old h Hx Hh (set_fpos (dbf (ss_db s)) p)) as (hvs & Ho & F).
  { intros y Hy. apply (header_reader EO KO H); [|exact Hp]. rewrite Hx, in_app_iff. right. now right. }
  assert (Hpos : forall y hy, find_header_at_pos (dbf (ss_db s)) header0 (vn_pos y) = (Ok tt, hy) -> h_position hy = vn_pos y) by (intros y hy Hy; exact (find_pos _ _ _ Hy)).
  destruct (@pass_older fuel (set_fpos (dbf (ss_db s)) p) h (map fst hvs) Ho) as (e & d' & He & Hd); [rewrite (Hpos x h Hh); exact Hf|].
  assert (F2 : Forall2 (fun k y => In y (x :: old) /\ find_header_at_pos (dbf (ss_db s)) header0 (vn_pos y) = (Ok tt, k)) (h :: map fst hvs) (x :: old)).
  { constructor; [split; [now left|exact Hh]|]. assert (A : forall y, In y old -> In y (x :: old)) by (intros y Hy; now right). clear - F A. revert A. generalize (x :: old). intros big A. induction F as [|y hv old hvs [H1 _] F IH]; cbn [map]; constructor.
    - split; [apply A; now left|exact H1].
    - apply IH. intros y' Hy'. apply A. now right. }
  assert (Hlast : find_header_at_pos (dbf (ss_db s)) header0 (vn_pos (last old x)) = (Ok tt, last (map fst hvs) h)).
  { clear - F2. assert (G : Forall2 (fun k y => find_header_at_pos (dbf (ss_db s)) header0 (vn_pos y) = (Ok tt, k)) (h :: map fst hvs) (x :: old)) by (eapply Forall2_impl; [|exact F2]; intros a b [_ X]; exact X).
    clear F2. inversion G as [|a b la lb Hab Gab]; subst. clear G. revert h x Hab. induction Gab as [|a b la lb H G IH]; intros h x Hab; [exact Hab|].
    rewrite !last_cons. exact (IH a b H). }
  assert (Hin : In (last old x) (opt_list (ss_ack s) ++ ss_old s) /\ exists q, opt_list (ss_ack s) ++ ss_old s = q ++ [last old x]).
  { assert (A : exists q, x :: old = q ++ [last old x]).
    { clear. revert x. induction old as [|a l IH]; intros x; [exists []; reflexivity|]. destruct (IH a) as (q & Hq). exists (x :: q). cbn [app]. rewrite last_cons. f_equal. exact Hq. }
    destruct A as (q & Hq). rewrite Hq, app_assoc in Hx. split; [rewrite Hx, in_app_iff; right; now left|eexists; exact Hx]. }
  destruct Hin as (Hin & q & Hq). pose proof (version_at EO KO H Hin Hlast) as Hv. rewrite H14 in Hv. pose proof (Hend q _ _ Hq Hlast) as Hpv.
  destruct (@seek_first E (set_fpos (dbf (ss_db s)) p) _ Hv Hpv) as (d2 & Hs). rewrite He in Hs. injection Hs as -> _. rewrite (Hpos _ _ Hlast) in Hd.
  change (Db (set_fpos (dbf (ss_db s)) p) h false) with (reader s h p) in Hd. rewrite Hd.
  eexists. split; [destruct (vn_pos (last old x) =? 0); reflexivity|].
  assert (Sn : forall y hy, In y (x :: old) -> find_header_at_pos (dbf (ss_db s)) header0 (vn_pos y) = (Ok tt, hy) -> snapshot s hy (vn_contents y)).
  { intros y hy Hy Hfy. right. exists y. split; [rewrite Hx, in_app_iff; now right|]. split; [exact Hfy|reflexivity]. }
  clear - F2 Sn Hpos. revert F2 Sn. generalize (x :: old) at 1 3. intros big. generalize (h :: map fst hvs), (x :: old). intros hs ys F Sn.
  induction F as [|k y hs ys [H1 H2] F IH]; cbn [map]; constructor; [|exact IH]. cbn [fst snd]. split; [exact (Hpos y k H2)|]. exists k. split; [exact (Sn y k H1 H2)|]. reflexivity.
Qed.
End Loop.

(** ** C78 *)

(** From the commit [x] on: the index of this commit and those of all older commits in effect are drawn in full. The program then reports success if the oldest header is at the beginning of the file, and
    otherwise the error of the last seek. *)
Theorem C78_tree : forall (E : Env), EnvOk E -> forall key getkey, key_ok key getkey -> forall s, sessions key getkey s -> h_version (dbh (ss_db s)) = 14 ->
  (forall pre y hy, opt_list (ss_ack s) ++ ss_old s = pre ++ [y] -> find_header_at_pos (dbf (ss_db s)) header0 (vn_pos y) = (Ok tt, hy) -> h_prev hy = NO_PREV) ->
  forall pre x old h, opt_list (ss_ack s) ++ ss_old s = pre ++ x :: old -> find_header_at_pos (dbf (ss_db s)) header0 (vn_pos x) = (Ok tt, h) ->
  forall p, fpos (dbf (ss_db s)) <= p <= size (dbf (ss_db s)) -> forall fuel, (N.to_nat (vn_pos x) < fuel)%nat ->
  forall m, exists l, tree_loop m fuel (reader s h p) = ((if vn_pos (last old x) =? 0 then Ok tt else Err E_DB_NO_LONGER_VALID), l) /\
    Forall2 (fun o y => fst o = vn_pos y /\ exists hy, snapshot s hy (vn_contents y) /\ draws m (reader s hy p) (vn_contents y) (Ok tt, snd o)) l (x :: old).
Proof.
  intros E EO key getkey KO s H H14 Hend pre x old h Hx Hh p Hp fuel Hf m. destruct (@pass_commits E EO _ (dump_tree m) key getkey KO s H H14 Hend pre x old h Hx Hh p Hp fuel Hf) as (l & H1 & F).
  exists l. split; [exact H1|]. eapply Forall2_impl; [|exact F]. intros o y (Ho & hy & Sn & Hy). split; [exact Ho|]. exists hy. split; [exact Sn|]. rewrite Hy.
  pose proof (@C77_tree E EO key getkey KO s hy (vn_contents y) H Sn p Hp m) as T. pose proof (draws_ok T) as Hk. destruct (dump_tree m (reader s hy p)) as [z u]. cbn [fst snd] in *. subst z. exact T.
Qed.
Print Assumptions C78_tree.

(** The same for the local documents: for each commit those are listed that it had (with --json, those that can be decoded and are JSON). *)
Theorem C78_locals : forall (E : Env), EnvOk E -> forall key getkey, key_ok key getkey -> forall s, sessions key getkey s -> h_version (dbh (ss_db s)) = 14 ->
  (forall pre y hy, opt_list (ss_ack s) ++ ss_old s = pre ++ [y] -> find_header_at_pos (dbf (ss_db s)) header0 (vn_pos y) = (Ok tt, hy) -> h_prev hy = NO_PREV) ->
  forall pre x old h, opt_list (ss_ack s) ++ ss_old s = pre ++ x :: old -> find_header_at_pos (dbf (ss_db s)) header0 (vn_pos x) = (Ok tt, h) ->
  forall p, fpos (dbf (ss_db s)) <= p <= size (dbf (ss_db s)) -> forall fuel, (N.to_nat (vn_pos x) < fuel)%nat ->
  forall decode parses json, exists l, local_loop decode parses json fuel (reader s h p) = ((if vn_pos (last old x) =? 0 then Ok tt else Err E_DB_NO_LONGER_VALID), l) /\
    Forall2 (fun o y => fst o = vn_pos y /\ exists ls, (forall q, In q ls <-> In q (v_locals (vn_contents y)) /\ listed decode parses json q) /\
      StronglySorted (fun a b => lex (fst a) (fst b)) ls /\ Forall2 (prints_local decode json) (snd o) ls) l (x :: old).
Proof.
  intros E EO key getkey KO s H H14 Hend pre x old h Hx Hh p Hp fuel Hf decode parses json.
  destruct (@pass_commits E EO _ (print_local_docs decode parses json None) key getkey KO s H H14 Hend pre x old h Hx Hh p Hp fuel Hf) as (l & H1 & F).
  exists l. split; [exact H1|]. eapply Forall2_impl; [|exact F]. intros o y (Ho & hy & Sn & Hy). split; [exact Ho|].
  destruct (@C75_all E EO key getkey KO s hy (vn_contents y) H Sn p Hp decode parses json) as (r & out & ls & L1 & L2 & L3 & L4 & _). rewrite L1 in Hy. cbn [snd] in Hy. exists ls. rewrite Hy. auto.
Qed.
Print Assumptions C78_locals.

(** The three commits of [C74_commits_ex]: lines and numbers of documents for each. *)
Example C78_ex : @sessions env0 None gks zs4 /\ h_version (dbh (ss_db zs4)) = 14 /\
  (forall pre y hy, opt_list (ss_ack zs4) ++ ss_old zs4 = pre ++ [y] -> @find_header_at_pos env0 (dbf (ss_db zs4)) header0 (vn_pos y) = (Ok tt, hy) -> h_prev hy = NO_PREV) /\
  @find_header_at_pos env0 (dbf (ss_db zs4)) header0 (vn_pos z_x) = (Ok tt, z_h) /\
  (let '(x, l) := @tree_loop env0 TreeSeq (S (N.to_nat (vn_pos z_x))) (reader zs4 z_h (fpos (dbf (ss_db zs4)))) in (x, map (fun o => (length (fst (snd o)), snd (snd o))) l)) = (Ok tt, [(3%nat, 2); (3%nat, 2); (0%nat, 0)]) /\
  (let '(x, l) := @local_loop env0 (fun _ _ => Some []) (fun _ => true) false (S (N.to_nat (vn_pos z_x))) (reader zs4 z_h (fpos (dbf (ss_db zs4)))) in (x, length l)) = (Ok tt, 3%nat).
Proof. split; [exact zs4_session|]. split; [vm_compute; reflexivity|]. split; [apply (@first_check env0); vm_compute; reflexivity|]. split; [exact z_x_header|]. split; vm_compute; reflexivity. Qed.

(** *** What does not hold *)

(** With --iterate-headers the program reports success though the newest index cannot be drawn at all; without, it fails. *)
Theorem C78_iterate_refuted : exists (E : Env) s h v g, EnvOk E /\ sessions None gks s /\ snapshot s h v /\ spoiled (dbf (reader s h (fpos (dbf (ss_db s))))) g /\ length (v_docs v) = 2%nat /\
  fst (tree_loop TreeSeq (S (N.to_nat (h_position h))) (Db g h false)) = Ok tt /\ fst (dump_tree TreeSeq (Db g h false)) = Err E_CHECKSUM /\ snd (snd (dump_tree TreeSeq (Db g h false))) = 0.
Proof.
  exists env0, zs4, z_h, (vn_contents z_x), z_seq_hit. split; [exact env0_ok|]. split; [exact zs4_session|].
  split; [exact (@ack_snapshot env0 zs4 z_x z_h z_x_ack z_x_header)|]. split; [apply spoiled_check; vm_compute; reflexivity|]. repeat split; vm_compute; reflexivity.
Qed.
Print Assumptions C78_iterate_refuted.
