(** Property C73: what couch_dbinfo prints. *)
From Coq Require Import Sorting.Sorted.
From Verif Require Import Base SpecOrder Codec CodecFacts File FileFacts ChunkFacts Header HeaderFacts History CrashFacts DataFacts SpecCrash NavFacts ReachNav OpenFacts CommitFacts SpecFile PropertiesCrash PropertiesNav
  Btree BtreeRead TreeStore SpecMap MergeFacts ModifyFacts LookupFacts Db SpecDb SortFacts ReduceFacts DbFacts DbSave DbRead TreeWriter Compact SpecCompact CompactFacts Replay SpecReplay
  SpecSession ShowFacts SessionFacts ReadFacts SaveFacts EnvExample SessionExample PropertiesDb Dbinfo DbinfoFacts PropertiesDbck PropertiesDbckVersions.
Local Open Scope N_scope.
Unset Strict Implicit.

(** The size that a header records for an index: 0 if the index is empty. *)
Definition index_size (r : option node_pointer) : N := match r with Some p => np_subtree p | None => 0 end.
(** The printed report is about the commit. *)
Record tells (r : report) (c : commit) : Prop := {
  tl_pos : rp_pos r = h_position (c_hdr c);
  tl_version : rp_version r = h_version (c_hdr c);
  tl_seq : rp_seq r = h_update_seq (c_hdr c);
  tl_purge : rp_purge r = h_purge_seq (c_hdr c);
  tl_time : rp_time r = (if 13 <=? h_version (c_hdr c) then Some (h_timestamp (c_hdr c)) else None);
  tl_by_id : rp_by_id r = index_size (h_by_id (c_hdr c));
  tl_by_seq : rp_by_seq r = index_size (h_by_seq (c_hdr c));
  tl_local : rp_local r = index_size (h_local (c_hdr c));
  tl_index : rp_index r = (rp_by_id r + rp_by_seq r + rp_local r) mod 2^64
}.

Lemma chain_tells s l : Forall2 tells (chain_reports (s := s) l) l.
Proof.
  induction l as [|c l IH]; cbn [chain_reports map]; constructor; [|exact IH]. unfold report_header. cbn [dbh].
  destruct (match db_info _ with Ok i => _ | Err _ => _ end) as [[a b] z]. split; try reflexivity; unfold index_size; cbn [rp_by_id rp_by_seq rp_local strip set_roots h_by_id h_by_seq h_local].
  - destruct (h_by_id (c_hdr c)); reflexivity.
  - destruct (h_by_seq (c_hdr c)); reflexivity.
  - destruct (h_local (c_hdr c)); reflexivity.
Qed.

Section Order.
Context {E : Env}.
Lemma list_first fuel d dir l : list_headers fuel d dir = Ok l -> exists r, l = report_header d :: r.
Proof. destruct fuel as [|n]; cbn [list_headers]; [discriminate|]. destruct (seek_dir d dir) as [[u|e] d']; [|intros X; injection X as <-; eauto]. destruct (list_headers n d' dir); [|discriminate]. cbn [bind]. intros X. injection X as <-. eauto. Qed.
Lemma rp_position d : rp_pos (report_header d) = h_position (dbh d).
Proof. unfold report_header. destruct (match db_info d with Ok i => _ | Err _ => _ end) as [[a b] z]. reflexivity. Qed.
Lemma list_sorted fuel (R : N -> N -> Prop) dir : (forall d u d', seek_dir d dir = (Ok u, d') -> R (h_position (dbh d)) (h_position (dbh d'))) ->
  forall d l, list_headers fuel d dir = Ok l -> Sorted R (map rp_pos l).
Proof.
  intros HR. induction fuel as [|n IH]; intros d l; cbn [list_headers]; [discriminate|]. destruct (seek_dir d dir) as [[u|e] d'] eqn:Es.
  - destruct (list_headers n d' dir) as [l'|] eqn:El; [|discriminate]. cbn [bind]. intros X. injection X as <-. cbn [map]. constructor; [exact (IH _ _ El)|].
    destruct (list_first El) as [r ->]. cbn [map]. constructor. rewrite !rp_position. exact (HR _ _ _ Es).
  - intros X. injection X as <-. cbn [map]. repeat constructor.
Qed.
End Order.

(** Any file whatsoever: once it has been opened, the program ends and prints a list of headers, from the current one on, with falling or rising positions. *)
Theorem C73_ends : forall (E : Env) f getkey offset dir, dir <> DEnd -> forall d, open_at f getkey offset = Ok d ->
  exists l, process_file f getkey offset (Some dir) = Ok l /\ hd_error (map rp_pos l) = Some (h_position (dbh d)) /\
    StronglySorted (match dir with DForward => fun a b => a < b | _ => fun a b => b < a end) (map rp_pos l).
Proof.
  intros E f getkey offset dir Hdir d Ho. destruct (@process_ends E f getkey offset (Some dir) (ex_intro _ d Ho)) as [l Hl]; [congruence|]. exists l. split; [exact Hl|].
  unfold process_file in Hl. rewrite Ho in Hl. cbn [bind] in Hl. split.
  - destruct (list_first Hl) as [r ->]. cbn [map hd_error]. now rewrite rp_position.
  - destruct dir; [destruct (Hdir eq_refl)| |]; apply Sorted_StronglySorted.
    + intros a b c. apply N.lt_trans.
    + eapply list_sorted; [|exact Hl]. intros d1 u d2 Hs. exact (proj1 (proj1 (forward_higher Hs))).
    + intros a b c H1 H2. exact (N.lt_trans _ _ _ H2 H1).
    + eapply list_sorted; [|exact Hl]. intros d1 u d2 Hs. exact (back_lower Hs).
Qed.
Print Assumptions C73_ends.

(** The file as it is now. *)
Definition now {E : Env} (d : db) (pl : list wstep) : file := image (File.cur (dbf d)) (size (dbf d)) pl.

Section Handle.
Context {E : Env} (EO : EnvOk E) {key : option keyinfo} {getkey : N -> bytes -> bytes -> res N} (KO : key_ok key getkey).
Lemma open_now B s c0 pl : inv key B s -> s_ack s = Some c0 -> s_pend s = [] ->
  exists d, open_existing (now (s_db s) pl) getkey false false = Ok d /\ reads s d /\ dbh d = strip (c_hdr c0).
Proof.
  intros I Ha Hp. pose proof (image_now (proj1 (i_good I))) as G. pose proof (proj2 (i_good I)) as Hg.
  destruct (@open_image E key getkey KO B s c0 _ _ pl false I Ha G) as (c & H1 & H2 & H3 & _). rewrite Hp in H1. destruct H1 as [->|[]].
  eexists. split; [exact H2|]. split; [|reflexivity]. constructor; cbn; auto. lia.
Qed.
End Handle.

(** Files built by any operations: going backward prints all commits in effect, from the latest to the oldest. In files of the current version whose first header is in
    place, also after failed commits; in others without failed commits. *)
Theorem C73_backward : forall (E : Env), EnvOk E -> forall key getkey, key_ok key getkey -> forall s, reach key getkey s ->
  (h_version (dbh (s_db s)) = 14 /\ (forall pre c, effective s = pre ++ [c] -> h_prev (c_hdr c) = NO_PREV)) \/ s_fail s = [] ->
  forall c0 pl, s_ack s = Some c0 -> s_pend s = [] ->
  exists l, process_file (now (s_db s) pl) getkey None (Some DBackward) = Ok l /\ Forall2 tells l (effective s).
Proof.
  intros E EO key getkey KO s R HF c0 pl Ha Hp. destruct (@reach_inv E EO key getkey KO s R) as [B I]. destruct (open_now KO pl I Ha Hp) as (d & Ho & V & Hh).
  assert (Oa : open_at (now (s_db s) pl) getkey None = Ok d) by (unfold open_at; rewrite Ho; reflexivity).
  destruct (@process_ends E (now (s_db s) pl) getkey None (Some DBackward) (ex_intro _ d Oa)) as [l Hl]; [discriminate|]. exists l. split; [exact Hl|].
  unfold process_file in Hl. rewrite Oa in Hl. cbn [bind] in Hl. assert (Hc : effective s = [] ++ c0 :: s_old s) by (unfold effective; rewrite Ha; reflexivity).
  rewrite (list_back I Hc V Hh HF Hl), Hc. apply chain_tells.
Qed.
Print Assumptions C73_backward.

(** Going forward from the offset of a commit prints it and all later ones; without going on, the program prints the one at the offset, or the latest one. *)
Theorem C73_forward : forall (E : Env), EnvOk E -> forall key getkey, key_ok key getkey -> forall s, reach key getkey s -> s_fail s = [] ->
  forall c0 pl, s_ack s = Some c0 -> s_pend s = [] -> forall newer c older, effective s = rev newer ++ c :: older ->
  exists l r r0, process_file (now (s_db s) pl) getkey (Some (h_position (c_hdr c))) (Some DForward) = Ok l /\ Forall2 tells l (c :: newer) /\
    process_file (now (s_db s) pl) getkey (Some (h_position (c_hdr c))) None = Ok [r] /\ tells r c /\
    process_file (now (s_db s) pl) getkey None None = Ok [r0] /\ tells r0 c0.
Proof.
  intros E EO key getkey KO s R HF c0 pl Ha Hp newer c older Hc. destruct (@reach_inv E EO key getkey KO s R) as [B I]. destruct (open_now KO pl I Ha Hp) as (d & Ho & V & Hh).
  assert (Hin : In c (effective s)) by (rewrite Hc, in_app_iff; right; now left). destruct (chain_size I c Hin) as (P1 & P2 & P3). pose proof (chain_header I c V Hin) as Hat.
  set (d1 := Db (dbf d) (strip (c_hdr c)) false).
  assert (Oa : open_at (now (s_db s) pl) getkey (Some (h_position (c_hdr c))) = Ok d1).
  { unfold open_at. rewrite Ho. cbn [bind]. fold (cpos c). rewrite (@seek_header E d (cpos c) (strip (c_hdr c))); auto; [exact (r_open V)|]. pose proof (r_fpos V). lia. }
  destruct (@process_ends E (now (s_db s) pl) getkey _ (Some DForward) (ex_intro _ d1 Oa)) as [l Hl]; [discriminate|].
  assert (One : forall dd cc, dbh dd = strip (c_hdr cc) -> tells (report_header dd) cc).
  { intros [f h b] cc Hd. cbn [dbh] in Hd. subst h. pose proof (@chain_tells s [cc]) as T. inversion T as [|r1 c1 l1 l2 T1 T2]. subst. rewrite (report_file _ (dbf (s_db s)) _ _ false). exact T1. }
  exists l, (report_header d1), (report_header d). split; [exact Hl|].
  split; [|split; [unfold process_file; rewrite Oa; reflexivity|split; [apply One; reflexivity|split; [unfold process_file, open_at; rewrite Ho; reflexivity|apply One; exact Hh]]]].
  unfold process_file in Hl. rewrite Oa in Hl. cbn [bind] in Hl. assert (V1 : reads s d1) by (apply reads_hdr; exact V).
  rewrite (@list_forward E key B s I _ HF newer older c d1 l Hc V1 eq_refl Hl). apply chain_tells.
Qed.
Print Assumptions C73_forward.

Lemma counts_of {E : Env} d v ps : stored (dbf d) (dbh d) v ps -> lenN (v_docs v) < 2^40 ->
  exists i, db_info d = Ok i /\ in_docs i = lenN (filter (fun r => negb (rv_deleted r)) (v_docs v)) /\ in_deleted i = lenN (filter rv_deleted (v_docs v)).
Proof.
  intros S Hl. eexists. split; [exact (db_info_eq S)|]. cbn [in_docs in_deleted].
  assert (Q : forall (b : bool -> bool), lenN (filter (fun d => b (di_deleted d)) (map fst ps)) = lenN (filter (fun r => b (rv_deleted r)) (v_docs v))).
  { intros b. rewrite <- (sd_docs S). pose proof (sd_rep S) as Rp. clear - Rp. induction Rp as [|p ps Hp Rp IH]; [reflexivity|]. cbn [map filter].
    rewrite (ab_deleted (proj1 Hp)). destruct (b (rv_deleted (snd p))); [|exact IH]. rewrite !lenN_cons. now rewrite IH. }
  assert (Le : forall (b : bool -> bool), lenN (filter (fun r => b (rv_deleted r)) (v_docs v)) < 2^40).
  { intros b. eapply N.le_lt_trans; [|exact Hl]. clear. induction (v_docs v) as [|r l IH]; [apply N.le_refl|]. cbn [filter]. destruct (b (rv_deleted r)); rewrite ?lenN_cons; lia. }
  split.
  - unfold alive. rewrite (Q negb). apply N.mod_small, (Le negb).
  - unfold gone. pose proof (Q (fun x => x)) as Q1. pose proof (Le (fun x => x)) as L1. cbn beta in Q1, L1. etransitivity; [apply (f_equal (fun n => n mod 2^40)); exact Q1|]. apply N.mod_small, L1.
Qed.

Lemma forall2_map {A B C} (P : A -> B -> Prop) (Q : C -> B -> Prop) (g : A -> C) l m : Forall2 P l m -> (forall a b, In a l -> P a b -> In b m -> Q (g a) b) -> Forall2 Q (map g l) m.
Proof. intros F. induction F as [|a b l m H F IH]; intros HQ; cbn [map]; constructor; [apply HQ; [now left|exact H|now left]|]. apply IH. intros a' b' H1 H2 H3. apply HQ; [now right|exact H2|now right]. Qed.

(** With documents: the counts printed for a commit are those of the documents it had. *)
Theorem C73_counts : forall (E : Env), EnvOk E -> forall key getkey, key_ok key getkey -> forall s, sessions key getkey s -> h_version (dbh (ss_db s)) = 14 ->
  (forall pre y hy, opt_list (ss_ack s) ++ ss_old s = pre ++ [y] -> find_header_at_pos (dbf (ss_db s)) header0 (vn_pos y) = (Ok tt, hy) -> h_prev hy = NO_PREV) ->
  forall x pl, ss_ack s = Some x -> ss_pend s = [] -> (forall y, In y (x :: ss_old s) -> lenN (v_docs (vn_contents y)) < 2^40) ->
  exists l, process_file (now (ss_db s) pl) getkey None (Some DBackward) = Ok l /\
    Forall2 (fun r y => rp_pos r = vn_pos y /\ rp_seq r = v_seq (vn_contents y) /\ rp_docs r = lenN (filter (fun d => negb (rv_deleted d)) (v_docs (vn_contents y))) /\
      rp_deleted r = lenN (filter rv_deleted (v_docs (vn_contents y)))) l (x :: ss_old s).
Proof.
  intros E EO key getkey KO s H H14 Hend x pl Ha Hp Hsmall. destruct (sessions_linked EO KO H) as [t L]. destruct (link_inv EO KO L) as [B I].
  assert (V : reads t (ss_db s)) by (rewrite <- (lk_db L); constructor; auto; [|exact (i_dropped I)]; pose proof (proj2 (i_good I)); lia).
  assert (F : Forall2 (ver key) (effective t) (x :: ss_old s)).
  { change (x :: ss_old s) with (opt_list (Some x) ++ ss_old s). rewrite <- Ha. apply Forall2_app; [exact (lk_ack L)|exact (lk_old L)]. }
  assert (Hat : forall c y, In c (effective t) -> ver key c y -> find_header_at_pos (dbf (ss_db s)) header0 (vn_pos y) = (Ok tt, strip (c_hdr c))).
  { intros c y Hc Vc. pose proof (chain_header I c V Hc) as A. apply header_at_find with (h0 := header0) in A. unfold cpos in A. rewrite (proj1 Vc) in A. exact A. }
  assert (Hpt : s_pend t = []) by (pose proof (lk_pend L) as X; rewrite Hp in X; inversion X; reflexivity).
  assert (Hat' : exists c0, s_ack t = Some c0).
  { pose proof (lk_ack L) as X. rewrite Ha in X. cbn [opt_list] in X. destruct (s_ack t) as [c0|]; [eauto|]. cbn [opt_list] in X. inversion X. }
  destruct Hat' as [c0 Hc0]. destruct (open_now KO pl I Hc0 Hpt) as (d & Ho & Vd & Hh). rewrite (lk_db L) in Ho.
  assert (Oa : open_at (now (ss_db s) pl) getkey None = Ok d) by (unfold open_at; rewrite Ho; reflexivity).
  destruct (@process_ends E (now (ss_db s) pl) getkey None (Some DBackward) (ex_intro _ d Oa)) as [l Hl]; [discriminate|]. exists l. split; [exact Hl|].
  unfold process_file in Hl. rewrite Oa in Hl. cbn [bind] in Hl. assert (Hc : effective t = [] ++ c0 :: s_old t) by (unfold effective; rewrite Hc0; reflexivity).
  assert (HF : (h_version (dbh (s_db t)) = 14 /\ (forall pre c, effective t = pre ++ [c] -> h_prev (c_hdr c) = NO_PREV)) \/ s_fail t = []).
  { left. split; [rewrite (lk_db L); exact H14|]. intros pre' c' Hc'. pose proof F as F0. rewrite Hc' in F0.
    destruct (Forall2_app_inv_l _ _ F0) as (vp & vr & G1 & G2 & Ev). inversion G2 as [|c2 y r2 l2 Vy G3 E1 E2]. subst. inversion G3. subst.
    assert (Hc2 : In c' (effective t)) by (rewrite Hc', in_app_iff; right; now left). change (x :: ss_old s) with (opt_list (Some x) ++ ss_old s) in Ev. rewrite <- Ha in Ev.
    exact (Hend vp y _ Ev (Hat c' y Hc2 Vy)). }
  rewrite (list_back I Hc Vd Hh HF Hl). cbn [app] in Hc. rewrite <- Hc.
  assert (Hstep : forall c y, In c (effective t) -> ver key c y -> In y (x :: ss_old s) ->
    let r := report_header (Db (dbf (s_db t)) (strip (c_hdr c)) false) in
    rp_pos r = vn_pos y /\ rp_seq r = v_seq (vn_contents y) /\ rp_docs r = lenN (filter (fun d => negb (rv_deleted d)) (v_docs (vn_contents y))) /\ rp_deleted r = lenN (filter rv_deleted (v_docs (vn_contents y)))).
  { intros c y Hc1 Vy Hy. cbv zeta. assert (Sn : snapshot s (strip (c_hdr c)) (vn_contents y)).
    { right. exists y. split; [rewrite Ha; exact Hy|]. split; [exact (Hat c y Hc1 Vy)|reflexivity]. }
    destruct (linked_snapshot EO KO L Sn) as [ps S]. rewrite <- (lk_db L) in S.
    destruct (@counts_of E (Db (dbf (s_db t)) (strip (c_hdr c)) false) (vn_contents y) ps S (Hsmall y Hy)) as (i & Hi & N1 & N2).
    unfold report_header. rewrite Hi. cbn [rp_pos rp_seq rp_docs rp_deleted dbh]. split; [exact (proj1 Vy)|]. split; [exact (sd_seq S)|]. split; [exact N1|exact N2]. }
  unfold chain_reports. exact (forall2_map F Hstep).
Qed.
Print Assumptions C73_counts.

(** *** Two things the program does not do *)

Lemma list_eq {A} (x : res (list A)) n : match x with Ok l => Nat.eqb (length l) n | Err _ => false end = true -> exists l, x = Ok l /\ length l = n.
Proof. destruct x as [l|]; [|discriminate]. intros H. apply Nat.eqb_eq in H. eauto. Qed.

(** "--iterate-headers forward" is documented as printing all headers, the oldest first. Without an offset it starts at the latest header, and prints nothing else. *)
Theorem C73_oldest_first_refuted : exists (E : Env) key getkey s c0 l, EnvOk E /\ key_ok key getkey /\ reach key getkey s /\ s_fail s = [] /\ s_pend s = [] /\ s_ack s = Some c0 /\
  length (effective s) = 3%nat /\ process_file (now (s_db s) []) getkey None (Some DForward) = Ok l /\ length l = 1%nat.
Proof.
  assert (X : match s_ack ex_n5 with Some c => cpos c =? 40960 | None => false end = true) by (vm_compute; reflexivity). destruct (s_ack ex_n5) as [c0|] eqn:Ea; [|discriminate X].
  destruct (@list_eq report (@process_file env0 (@now env0 (s_db ex_n5) []) gk0 None (Some DForward)) 1) as (l & Hl & Hn); [vm_compute; reflexivity|].
  exists env0, None, gk0, ex_n5, c0, l. split; [exact env0_ok|]. split; [exact Logic.I|]. split; [exact ex_n_reach|]. split; [vm_compute; reflexivity|]. split; [vm_compute; reflexivity|].
  split; [exact Ea|]. split; [vm_compute; reflexivity|]. split; [exact Hl|exact Hn].
Qed.
Print Assumptions C73_oldest_first_refuted.

(** If one header is damaged, the list ends there and the program reports success, though the file has an older valid header. *)
Definition n_damaged (f : file) : file := image (fun i => if i =? 4120 then 255 else File.cur f i) (size f) [].
Theorem C73_damage_refuted : exists (E : Env) key getkey s c0 c1 c2 l, EnvOk E /\ key_ok key getkey /\ reach key getkey s /\ s_fail s = [] /\ s_pend s = [] /\ effective s = [c0; c1; c2] /\
  (exists h, valid_header (n_damaged (dbf (s_db s))) (cpos c2) h) /\ process_file (n_damaged (dbf (s_db s))) getkey None (Some DBackward) = Ok l /\ length l = 1%nat.
Proof.
  assert (X : match effective ex_n5 with [a; b; c] => cpos c =? 0 | _ => false end = true) by (vm_compute; reflexivity).
  destruct (effective ex_n5) as [|c0 [|c1 [|c2 [|]]]] eqn:Ee; try discriminate X. apply N.eqb_eq in X.
  destruct (@list_eq report (@process_file env0 (n_damaged (dbf (s_db ex_n5))) gk0 None (Some DBackward)) 1) as (l & Hl & Hn); [vm_compute; reflexivity|].
  exists env0, None, gk0, ex_n5, c0, c1, c2, l. split; [exact env0_ok|]. split; [exact Logic.I|]. split; [exact ex_n_reach|]. split; [vm_compute; reflexivity|]. split; [vm_compute; reflexivity|].
  split; [exact Ee|]. split; [rewrite X|split; [exact Hl|exact Hn]].
  destruct (@find_header_at_pos env0 (n_damaged (dbf (s_db ex_n5))) header0 0) as [r h] eqn:Ef. exists h.
  assert (Y : match fst (@find_header_at_pos env0 (n_damaged (dbf (s_db ex_n5))) header0 0) with Ok _ => true | Err _ => false end = true) by (vm_compute; reflexivity).
  rewrite Ef in Y. destruct r as [[]|]; [exact Ef|discriminate Y].
Qed.
Print Assumptions C73_damage_refuted.

(** *** The examples satisfy the hypotheses *)

Definition positions (x : res (list report)) : list (N * N * N) := match x with Ok l => map (fun r => (rp_pos r, rp_seq r, rp_docs r)) l | Err _ => [] end.

Example C73_ex : @reach env0 None gk0 ex_n5 /\ s_fail ex_n5 = [] /\ s_pend ex_n5 = [] /\ map cpos (opt_list (s_ack ex_n5)) = [40960] /\ map cpos (effective ex_n5) = [40960; 4096; 0] /\
  positions (@process_file env0 (@now env0 (s_db ex_n5) []) gk0 None (Some DBackward)) = [(40960, 2, 0); (4096, 1, 0); (0, 0, 0)] /\
  positions (@process_file env0 (@now env0 (s_db ex_n5) []) gk0 (Some 4096) (Some DForward)) = [(4096, 1, 0); (40960, 2, 0)] /\
  positions (@process_file env0 (@now env0 (s_db ex_n5) []) gk0 (Some 4096) None) = [(4096, 1, 0)].
Proof. split; [exact ex_n_reach|]. vm_compute. auto 10. Qed.

Example C73_counts_ex : @sessions env0 None gks zs4 /\ h_version (dbh (ss_db zs4)) = 14 /\
  (forall pre y hy, opt_list (ss_ack zs4) ++ ss_old zs4 = pre ++ [y] -> @find_header_at_pos env0 (dbf (ss_db zs4)) header0 (vn_pos y) = (Ok tt, hy) -> h_prev hy = NO_PREV) /\
  ss_ack zs4 = Some z_x /\ ss_pend zs4 = [] /\ forallb (fun y => lenN (v_docs (vn_contents y)) <? 2^40) (z_x :: ss_old zs4) = true /\
  map snd (positions (@process_file env0 (@now env0 (ss_db zs4) []) gks None (Some DBackward))) = [1; 2; 0].
Proof.
  split; [exact zs4_session|]. split; [vm_compute; reflexivity|]. split; [apply (@first_check env0); vm_compute; reflexivity|]. split; [exact z_x_ack|].
  split; [vm_compute; reflexivity|]. split; vm_compute; reflexivity.
Qed.
