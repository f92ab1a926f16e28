(** Property C71: the versions that the recovery program goes back to. *)
From Verif Require Import Base SpecOrder Codec CodecFacts File FileFacts ChunkFacts Header HeaderFacts History CrashFacts DataFacts SpecCrash NavFacts ReachNav OpenFacts CommitFacts SpecFile PropertiesCrash
  Btree BtreeRead TreeStore SpecMap MergeFacts ModifyFacts LookupFacts Db SpecDb SortFacts ReduceFacts DbFacts DbSave DbRead TreeWriter Compact SpecCompact CompactFacts Replay SpecReplay
  SpecSession ShowFacts SessionFacts ReadFacts SaveFacts ErrorFacts EnvExample SessionExample Walk PropertiesDb PropertiesCompact
  SpecRecover RecoverFacts RecoverCopy RecoverLink PropertiesRecover PropertiesTolerate Dbck SpecDbck DbckFacts DbckLink PropertiesDbck.
Local Open Scope N_scope.
Unset Strict Implicit.

Section WithEnv.
Context {E : Env} (EO : EnvOk E).

Lemma older_chain key B s g d0 : inv key B s -> reads s d0 -> (forall c, In c (effective s) -> h_version (c_hdr c) = 14) -> (forall pre c, effective s = pre ++ [c] -> h_prev (c_hdr c) = NO_PREV) ->
  forall r pre c h, effective s = pre ++ c :: r -> same_header h (c_hdr c) -> (forall c', In c' r -> header_at g (cpos c') (strip (c_hdr c'))) -> older (Db g h false) (map (fun c => strip (c_hdr c)) r).
Proof.
  intros I V H14 Hend. induction r as [|c1 r IH]; intros pre c h Hc Hs Hg; cbn [map]; (assert (V14 : h_version (c_hdr c) = 14) by (apply H14; rewrite Hc, in_app_iff; right; now left)).
  - apply (@older_end E _ E_DB_NO_LONGER_VALID). unfold rewind_db_header, rewind_impl. cbn [dropped dbh reset_roots set_roots h_version h_prev]. rewrite (sh_version Hs), V14, (sh_prev Hs), (Hend pre c Hc). reflexivity.
  - assert (Hin' : In c1 (effective s)) by (rewrite Hc, in_app_iff; right; right; now left). destruct (@chain_size E key B s I c1 Hin') as (_ & _ & Hm').
    destruct (@chain_link E key B s I pre c (c1 :: r) Hc) as (L1 & L2 & L3).
    change (strip (c_hdr c1)) with (dbh (Db g (strip (c_hdr c1)) false)) at 1. apply older_step.
    + unfold rewind_db_header, rewind_impl. cbn [dropped dbf dbh reset_roots set_roots h_version h_prev h_position]. rewrite (sh_version Hs), V14, (sh_prev Hs), (L3 V14), (sh_position Hs).
      assert (N1 : cpos c1 =? NO_PREV = false) by (apply N.eqb_neq; intros X; rewrite X in Hm'; vm_compute in Hm'; discriminate).
      assert (N2 : cpos c1 =? UNKNOWN_PREV = false) by (apply N.eqb_neq; intros X; rewrite X in Hm'; vm_compute in Hm'; discriminate).
      unfold cpos in *. rewrite N1, N2. cbn [negb andb]. destruct (N.ltb_spec (h_position (c_hdr c1)) (h_position (c_hdr c))) as [_|]; [|lia]. change (14 <=? 14) with true. cbv iota.
      rewrite (header_at_find _ (Hg c1 (or_introl eq_refl))). reflexivity.
    + apply (IH (pre ++ [c]) c1); [rewrite <- app_assoc; exact Hc|apply strip_same|]. intros c' Hc'. apply Hg. now right.
Qed.
End WithEnv.

(** In a database of the current format whose oldest commit is the first one of the file, and whose headers are undamaged, going back from a commit leads to exactly the older commits, from the latest
    to the oldest. *)
Theorem C71_versions : forall (E : Env), EnvOk E -> forall key getkey, key_ok key getkey -> forall s, sessions key getkey s -> h_version (dbh (ss_db s)) = 14 ->
  (forall pre y hy, opt_list (ss_ack s) ++ ss_old s = pre ++ [y] -> find_header_at_pos (dbf (ss_db s)) header0 (vn_pos y) = (Ok tt, hy) -> h_prev hy = NO_PREV) ->
  forall pre x old h, opt_list (ss_ack s) ++ ss_old s = pre ++ x :: old -> find_header_at_pos (dbf (ss_db s)) header0 (vn_pos x) = (Ok tt, h) ->
  forall g, (forall y, In y old -> find_header_at_pos g header0 (vn_pos y) = find_header_at_pos (dbf (ss_db s)) header0 (vn_pos y)) ->
  exists hvs, older (Db g h false) (map fst hvs) /\ Forall2 (fun y hv => find_header_at_pos (dbf (ss_db s)) header0 (vn_pos y) = (Ok tt, fst hv) /\ snd hv = vn_contents y) old hvs.
Proof.
  intros E EO key getkey KO s H H14 Hend pre x old h Hx Hh g Hg. destruct (sessions_linked EO KO H) as [t L]. destruct (link_inv EO KO L) as [B I].
  assert (V : reads t (ss_db s)) by (rewrite <- (lk_db L); constructor; auto; [|exact (i_dropped I)]; pose proof (proj2 (i_good I)); lia).
  assert (F : Forall2 (ver key) (effective t) (opt_list (ss_ack s) ++ ss_old s)) by (apply Forall2_app; [exact (lk_ack L)|exact (lk_old L)]).
  assert (Hat : forall c y, In c (effective t) -> ver key c y -> find_header_at_pos (dbf (ss_db s)) header0 (vn_pos y) = (Ok tt, strip (c_hdr c))).
  { intros c y Hc Vc. pose proof (chain_header I c V Hc) as A. apply header_at_find with (h0 := header0) in A. unfold cpos in A. rewrite (proj1 Vc) in A. exact A. }
  pose proof F as F0. rewrite Hx in F. destruct (Forall2_app_inv_r _ _ F) as (cp & cr & F1 & F2 & Ec). inversion F2 as [|c x' r old' Vc F3 Ea Eb]. subst x' old' cr. clear F2 F.
  assert (Hin : In c (effective t)) by (rewrite Ec, in_app_iff; right; now left).
  assert (Hr : Forall2 (fun c y => In c (effective t) /\ ver key c y) r old).
  { clear - F3 Ec. assert (A : forall c', In c' r -> In c' (effective t)) by (intros c' Hc'; rewrite Ec, in_app_iff; right; now right).
    clear Ec. induction F3 as [|c' y r old Vy F IH]; constructor; [split; [apply A; now left|exact Vy]|]. apply IH; intros c2 H2; apply A; now right. }
  exists (combine (map (fun c => strip (c_hdr c)) r) (map vn_contents old)).
  assert (M1 : map fst (combine (map (fun c => strip (c_hdr c)) r) (map vn_contents old)) = map (fun c => strip (c_hdr c)) r) by (clear - F3; induction F3; cbn [map combine fst]; congruence).
  split.
  - rewrite M1. apply (@older_chain E key B t g (ss_db s) I V) with (pre := cp) (c := c); [| |exact Ec| |].
    + intros c' Hc'. rewrite <- H14, <- (lk_db L). apply (i_ver I). unfold all_coms. unfold effective in Hc'. rewrite in_app_iff in Hc'. rewrite !in_app_iff. tauto.
    + intros pre' c' Hc'. rewrite Hc' in F0. destruct (Forall2_app_inv_l _ _ F0) as (vp & vr & G1 & G2 & Ev). inversion G2 as [|c2 y r2 l2 Vy G3 E1 E2]. subst. inversion G3. subst.
      assert (Hc2 : In c' (effective t)) by (rewrite Hc', in_app_iff; right; now left).
      exact (Hend vp y _ Ev (Hat c' y Hc2 Vy)).
    + rewrite (Hat c x Hin Vc) in Hh. injection Hh as <-. apply strip_same.
    + clear - Hr Hg Hat. induction Hr as [|c y r old (A1 & A2) F IH]; [intros c' []|]. intros c' [<-|Hc'].
      * unfold header_at, cpos. rewrite (proj1 A2), (Hg y (or_introl eq_refl)). exact (Hat c y A1 A2).
      * apply IH; [|exact Hc']. intros y' Hy'. apply Hg. now right.
  - clear - Hr Hat. induction Hr as [|c y r old (A1 & A2) F IH]; cbn [map combine]; constructor; [|exact IH]. split; [exact (Hat c y A1 A2)|reflexivity].
Qed.
Print Assumptions C71_versions.

(** The run of the recovery program on such a database: what it finds in the older commits is told by their documents. *)
Theorem C71_recovers_all : forall (E : Env), EnvOk E -> (forall b, compress b <> None) -> forall getkey, key_ok None getkey ->
  forall s, sessions None getkey s -> h_version (dbh (ss_db s)) = 14 ->
  (forall pre y hy, opt_list (ss_ack s) ++ ss_old s = pre ++ [y] -> find_header_at_pos (dbf (ss_db s)) header0 (vn_pos y) = (Ok tt, hy) -> h_prev hy = NO_PREV) ->
  forall x h, ss_ack s = Some x -> find_header_at_pos (dbf (ss_db s)) header0 (vn_pos x) = (Ok tt, h) -> h_purge_ptr h = 0 -> h_purge_seq h + 1 < 2^48 -> h_timestamp h < 2^64 ->
  (forall y, In y (ss_old s) -> Forall storable (v_docs (vn_contents y))) ->
  (forall y1 y2 a b, In y1 (x :: ss_old s) -> In y2 (x :: ss_old s) -> In a (v_docs (vn_contents y1)) -> In b (v_docs (vn_contents y2)) -> rv_seq a = rv_seq b -> rv_id a = rv_id b) ->
  forall p, fpos (dbf (ss_db s)) <= p <= size (dbf (ss_db s)) -> forall g, spoiled (dbf (reader s h p)) g ->
  (forall y, In y (ss_old s) -> find_header_at_pos g header0 (vn_pos y) = find_header_at_pos (dbf (ss_db s)) header0 (vn_pos y)) ->
  (forall id, In id (map fst (v_locals (vn_contents x))) -> exists l, open_local_document (Db g h false) id = Ok l) ->
  forall c pl pl2, 2 <= c_kv c -> calm (empty_file pl) -> calm (empty_file pl2) ->
  forall r t, compact c dbck_options (Db g h false) (empty_file pl) None = (r, t) -> room t -> fpos (dbf t) + BLOCK < 2^47 ->
  exists b rss, (forall rv, In rv (v_docs (vn_contents x)) -> (b rv = true <-> readable_doc (Db g h false) rv)) /\
    Forall2 (fun y rs => forall hy, find_header_at_pos (dbf (ss_db s)) header0 (vn_pos y) = (Ok tt, hy) ->
      forall rv, In rv rs <-> In rv (v_docs (vn_contents y)) /\ SpecDbck.rescued (Db g hy false) rv) (ss_old s) rss /\
    forall stale ts retries, ts < 2^64 ->
    exists k, recover_file c getkey (Db g h false) pl pl2 stale ts retries = Ok k /\
      (dk_detected k = false -> forall rv, In rv (v_docs (vn_contents x)) -> readable_doc (Db g h false) rv) /\
      (room (dk_db k) -> fpos (dbf (dk_db k)) + BLOCK < 2^47 ->
       let w := Contents (filter b (v_docs (vn_contents x))) (v_locals (vn_contents x)) (v_seq (vn_contents x)) in
       let w' := if dk_detected k && stale then fold_left add_missing (concat rss) w else w in
       dk_res k = Ok tt /\ lenN (v_docs w') = lenN (v_docs w) + dk_stale k /\ shows_contents (dk_db k) w' /\
       forall gi gsz, crash_image (dbf (dk_db k)) gi gsz -> forall pl' recovery, exists d', open_existing (image gi gsz pl') getkey recovery false = Ok d' /\ shows_contents d' w').
Proof.
  intros E EO Hcomp getkey KO s H H14 Hend x h Hack Hh Hpp Hps Hts Hst Huniq p Hp g Sp Hg Hloc c pl pl2 Hc Hcalm Hcalm2 r t Hcmp Rm Ht.
  assert (Hx : opt_list (ss_ack s) ++ ss_old s = [] ++ x :: ss_old s) by (rewrite Hack; reflexivity).
  assert (Sn : forall y hy, In y (x :: ss_old s) -> find_header_at_pos (dbf (ss_db s)) header0 (vn_pos y) = (Ok tt, hy) -> snapshot s hy (vn_contents y)).
  { intros y hy Hy Hf. right. exists y. split; [rewrite Hx; exact Hy|]. split; [exact Hf|reflexivity]. }
  destruct (@C71_versions E EO None getkey KO s H H14 Hend [] x (ss_old s) h Hx Hh g Hg) as (hvs & Hold & F).
  assert (Hm : forall w, In w (vn_contents x :: map snd hvs) -> exists y, In y (x :: ss_old s) /\ w = vn_contents y).
  { intros w [<-|Hw]; [exists x; split; [now left|reflexivity]|]. clear - F Hw. induction F as [|y hv old hvs [_ A] F IH]; [destruct Hw|]. destruct Hw as [<-|Hw]; [exists y; split; [right; now left|exact A]|].
    destruct (IH Hw) as (y' & [Hy|Hy] & ->); [exists y'; split; [now left|reflexivity]|exists y'; split; [right; now right|reflexivity]]. }
  destruct (@C71_recovers E EO Hcomp getkey KO s h (vn_contents x) H (Sn x h (or_introl eq_refl) Hh) Hpp Hps Hts p Hp g Sp Hloc c pl pl2 Hc Hcalm Hcalm2 r t Hcmp Rm Ht hvs Hold) as (b & rss & Hb & Hrss & Hrun).
  - assert (Sn' : forall y hy, In y (ss_old s) -> find_header_at_pos (dbf (ss_db s)) header0 (vn_pos y) = (Ok tt, hy) -> snapshot s hy (vn_contents y)) by (intros y hy Hy; apply Sn; now right).
    clear - F Sn' Hst. induction F as [|y hv old hvs [A1 A2] F IH]; constructor.
    + rewrite A2. split; [apply Sn'; [now left|exact A1]|apply Hst; now left].
    + apply IH; [intros y' Hy'; apply Hst; now right|intros y' hy' Hy'; apply Sn'; now right].
  - cbv zeta. intros v1 v2 a b H1 H2. destruct (Hm v1 H1) as (y1 & Y1 & ->). destruct (Hm v2 H2) as (y2 & Y2 & ->). exact (@Huniq y1 y2 a b Y1 Y2).
  - exists b, rss. split; [exact Hb|]. split; [|exact Hrun]. clear - F Hrss. revert rss Hrss. induction F as [|y hv old hvs [A1 A2] F IH]; intros rss Hrss; inversion Hrss as [|hv' rs hvs' rss' Hrs Hrss' X1 X2]; subst; constructor; [|apply IH; exact Hrss'].
    intros hy Hhy. rewrite A1 in Hhy. injection Hhy as <-. rewrite <- A2. exact Hrs.
Qed.
Print Assumptions C71_recovers_all.

(** *** The example satisfies the hypotheses *)
Definition firstb {E : Env} (s : session) : bool :=
  match rev (opt_list (ss_ack s) ++ ss_old s) with [] => true | y :: _ => match find_header_at_pos (dbf (ss_db s)) header0 (vn_pos y) with (Ok _, hy) => h_prev hy =? NO_PREV | _ => true end end.
Lemma first_check {E : Env} s : firstb s = true -> forall pre y hy, opt_list (ss_ack s) ++ ss_old s = pre ++ [y] -> find_header_at_pos (dbf (ss_db s)) header0 (vn_pos y) = (Ok tt, hy) -> h_prev hy = NO_PREV.
Proof. unfold firstb. intros H pre y hy Hl Hf. rewrite Hl, rev_app_distr in H. cbn [rev app] in H. rewrite Hf in H. now apply N.eqb_eq. Qed.
Lemma old_check {E : Env} s g : map (fun y => find_header_at_pos g header0 (vn_pos y)) (ss_old s) = map (fun y => find_header_at_pos (dbf (ss_db s)) header0 (vn_pos y)) (ss_old s) ->
  forall y, In y (ss_old s) -> find_header_at_pos g header0 (vn_pos y) = find_header_at_pos (dbf (ss_db s)) header0 (vn_pos y).
Proof. intros H y Hy. induction (ss_old s) as [|a l IH]; [destruct Hy|]. cbn [map] in H. injection H as H1 H2. destruct Hy as [->|Hy]; [exact H1|auto]. Qed.
Lemma old_storable {E : Env} s : forallb (fun y => forallb (fun r => sizeb (rv_body r)) (v_docs (vn_contents y))) (ss_old s) = true -> forall y, In y (ss_old s) -> Forall storable (v_docs (vn_contents y)).
Proof. rewrite forallb_forall. intros H y Hy. apply storable_check. exact (H y Hy). Qed.
Definition z_x : version := nth_version zs4 0.
Definition z_h : header := snd (@find_header_at_pos env0 (dbf (ss_db zs4)) header0 (vn_pos z_x)).
Definition z_compacted : res unit * db := @compact env0 cf dbck_options (Db z_body z_h false) (empty_file []) None.
Lemma uniq_versions l : uniqb (map vn_contents l) = true ->
  forall y1 y2 a b, In y1 l -> In y2 l -> In a (v_docs (vn_contents y1)) -> In b (v_docs (vn_contents y2)) -> rv_seq a = rv_seq b -> rv_id a = rv_id b.
Proof. intros H y1 y2 a b H1 H2. exact (@uniq_check _ H (vn_contents y1) (vn_contents y2) a b (in_map vn_contents l y1 H1) (in_map vn_contents l y2 H2)). Qed.
Lemma z_headers : map (fun y => @find_header_at_pos env0 z_body header0 (vn_pos y)) (ss_old zs4) = map (fun y => @find_header_at_pos env0 (dbf (ss_db zs4)) header0 (vn_pos y)) (ss_old zs4).
Proof. vm_compute. reflexivity. Qed.
Lemma z_x_ack : ss_ack zs4 = Some z_x. Proof. vm_compute. reflexivity. Qed.
Lemma z_x_header : @find_header_at_pos env0 (dbf (ss_db zs4)) header0 (vn_pos z_x) = (Ok tt, z_h). Proof. vm_compute. reflexivity. Qed.

(** Two older commits (the database was empty, then had two documents); the latest body of "a" is damaged. *)
Example C71_all_ex : @sessions env0 None gks zs4 /\ h_version (dbh (ss_db zs4)) = 14 /\
  (forall pre y hy, opt_list (ss_ack zs4) ++ ss_old zs4 = pre ++ [y] -> @find_header_at_pos env0 (dbf (ss_db zs4)) header0 (vn_pos y) = (Ok tt, hy) -> h_prev hy = NO_PREV) /\
  ss_ack zs4 = Some z_x /\ @find_header_at_pos env0 (dbf (ss_db zs4)) header0 (vn_pos z_x) = (Ok tt, z_h) /\
  (h_purge_ptr z_h =? 0) && (h_purge_seq z_h + 1 <? 2^48) && (h_timestamp z_h <? 2^64) && (fpos (dbf (ss_db zs4)) <=? size (dbf (ss_db zs4))) = true /\
  (forall y, In y (ss_old zs4) -> Forall (@storable env0) (v_docs (vn_contents y))) /\
  (forall y1 y2 a b, In y1 (z_x :: ss_old zs4) -> In y2 (z_x :: ss_old zs4) -> In a (v_docs (vn_contents y1)) -> In b (v_docs (vn_contents y2)) -> rv_seq a = rv_seq b -> rv_id a = rv_id b) /\
  (forall y, In y (ss_old zs4) -> @find_header_at_pos env0 z_body header0 (vn_pos y) = @find_header_at_pos env0 (dbf (ss_db zs4)) header0 (vn_pos y)) /\
  v_locals (vn_contents z_x) = [] /\ room (snd z_compacted) /\ (fpos (dbf (snd z_compacted)) + BLOCK <? 2^47) = true /\ map (fun y => lenN (v_docs (vn_contents y))) (z_x :: ss_old zs4) = [2; 2; 0].
Proof.
  split; [exact zs4_session|]. split; [vm_compute; reflexivity|]. split; [apply (@first_check env0); vm_compute; reflexivity|]. split; [exact z_x_ack|]. split; [exact z_x_header|].
  split; [vm_compute; reflexivity|]. split; [apply (@old_storable env0); vm_compute; reflexivity|]. split; [apply uniq_versions; vm_compute; reflexivity|]. split; [apply (@old_check env0); exact z_headers|].
  split; [vm_compute; reflexivity|]. split; [apply room_check; vm_compute; reflexivity|]. split; [vm_compute; reflexivity|]. vm_compute. reflexivity.
Qed.
