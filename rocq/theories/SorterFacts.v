(** Proofs about the sorting of files of records. *)
From Coq Require Import Permutation Sorted.
From Verif Require Import Base Codec Reducers FileMerger MergerFacts FileSorter.
Unset Strict Implicit.
Local Open Scope N_scope.

Lemma digits_length : forall f n acc k, (1 <= k)%nat -> n < 10 ^ N.of_nat k -> (length (digits f n acc) <= k + length acc)%nat.
Proof.
  induction f as [|f IH]; intros n acc k Hk Hn; cbn [digits]; [lia|]. destruct (N.eqb_spec (n / 10) 0) as [H|H]; [cbn [length]; lia|].
  destruct k as [|[|k]]; [lia| |].
  - change (10 ^ N.of_nat 1) with 10 in Hn. exfalso. apply H. apply N.div_small. exact Hn.
  - eapply Nat.le_trans; [apply (IH _ _ (S k)); [lia|]|cbn [length]; lia]. apply N.div_lt_upper_bound; [lia|]. rewrite <- N.pow_succ_r'. rewrite Nnat.Nat2N.inj_succ in Hn. exact Hn.
Qed.
Lemma name_ok v : v < 100000 -> sorter_random_name v = Some (v, v + 1).
Proof.
  intros H. unfold sorter_random_name. assert (L : (length (print_u64 v) <= 5)%nat).
  { unfold print_u64. eapply Nat.le_trans; [apply (@digits_length 20 v [] 5); [lia|exact H]|cbn [length]; lia]. }
  unfold lenN. destruct (N.ltb_spec (1 + N.of_nat (length (print_u64 v))) 7); [|lia]. destruct (N.ltb_spec (2 * 2 ^ 18) (v + 1)); [change (2 * 2 ^ 18) with 524288 in *; lia|reflexivity].
Qed.
Lemma perm_filter A (p : A -> bool) l l' : Permutation l l' -> Permutation (filter p l) (filter p l').
Proof.
  induction 1 as [|x l l' H IH|x y l|l l' l'' H1 IH1 H2 IH2]; cbn [filter].
  - constructor.
  - destruct (p x); [apply perm_skip|]; exact IH.
  - destruct (p x), (p y); try reflexivity. apply perm_swap.
  - eapply perm_trans; eauto.
Qed.
Lemma filter_all A (p : A -> bool) l : Forall (fun x => p x = true) l -> filter p l = l.
Proof. induction 1 as [|x l H _ IH]; [reflexivity|]. cbn [filter]. rewrite H, IH. reflexivity. Qed.
Lemma filter_none A (p : A -> bool) l : Forall (fun x => p x = false) l -> filter p l = [].
Proof. induction 1 as [|x l H _ IH]; [reflexivity|]. cbn [filter]. rewrite H. exact IH. Qed.

Section SF.
Variable A : Type.
Variable cmp : A -> A -> comparison.
Hypothesis csym : forall x y, cmp y x = CompOpp (cmp x y).
Hypothesis ctrans : forall x y z, cmp x y <> Gt -> cmp y z <> Gt -> cmp x z <> Gt.
Variable wr : A -> bytes.
Variable rd : bytes -> rdres A.
Variable ok : A -> Prop.
Hypothesis rd_nil : rd [] = R_eof.
Hypothesis rd_wr : forall a rest, ok a -> rd (wr a ++ rest) = R_rec a rest.
Variable sz : A -> N.
Hypothesis sz_ok : forall a, ok a -> 0 < sz a < 2^31.
Variable sort_recs : list A -> list A.
Notation srt := (StronglySorted (fun x y : A => cmp x y <> Gt)).
Hypothesis recs_ok : forall l, Permutation l (sort_recs l) /\ srt (sort_recs l).
Variable sort_tmp : list tmp -> list tmp.
Hypothesis tmp_ok : forall l, Permutation l (sort_tmp l) /\ StronglySorted tmp_le (sort_tmp l).
Variable num : nat.
Hypothesis num2 : (2 <= num)%nat.
Variable max_buffer : N.
Hypothesis max_ok : max_buffer <= 2^31.
Notation done := (fun _ : nat => J_done).
Notation ser := (ser wr).

Definition ent (t : tmp) (l : list A) : Prop := (exists n, t_name t = Some n) /\ 1 <= t_level t /\ t_data t = ser l /\ Forall ok l /\ srt l.
Definition free (t : tmp) : Prop := t_name t = None /\ t_level t = 0.
Definition sinv (v0 : N) (R : list A) (s : sstate) : Prop :=
  exists acts zs G, s_tmp s = acts ++ zs /\ length acts = s_active s /\ length (acts ++ zs) = num /\ Forall2 ent acts G /\ Forall free zs /\ Permutation (concat G) R /\
    s_workers s = 2%nat /\ s_value s + N.of_nat (s_active s) <= v0 + 2 * lenN R.

Lemma firstn_app_len B (a b : list B) : firstn (length a) (a ++ b) = a.
Proof. rewrite firstn_app, Nat.sub_diag, firstn_all, firstn_O, app_nil_r. reflexivity. Qed.
Lemma skipn_app_len B (a b : list B) : skipn (length a) (a ++ b) = b.
Proof. rewrite skipn_app, Nat.sub_diag, skipn_all. reflexivity. Qed.
Lemma skipn_app_S B (a : list B) x b : skipn (S (length a)) (a ++ x :: b) = b.
Proof. induction a as [|y a IH]; [reflexivity|]. cbn [length app]. exact IH. Qed.
Lemma nth_app_len B (a : list B) x b : nth_error (a ++ x :: b) (length a) = Some x.
Proof. rewrite nth_error_app2, Nat.sub_diag by lia. reflexivity. Qed.

Lemma add_job_ok v0 R s records : sinv v0 R s -> (s_active s < num)%nat -> records <> [] -> Forall ok records -> v0 + 2 * lenN R < 100000 ->
  exists s', add_job wr sort_recs done num records s = Good s' /\ sinv v0 (R ++ records) s' /\ s_active s' = S (s_active s).
Proof.
  intros (acts & zs & G & Et & Ea & En & FG & Fz & P & W & V) Hlt Hne Hok Hv. destruct s as [tm act val jobs wk]. cbn [s_tmp s_active s_value s_jobs s_workers] in *. subst tm act wk.
  destruct zs as [|z zs]; [rewrite app_nil_r in En; lia|]. inversion Fz as [|? ? [Z1 Z2] Fz']; subst.
  unfold add_job, create_tmp_file. cbn [s_tmp s_active s_value s_jobs s_workers]. destruct (Nat.ltb_spec (length acts) num); [|lia]. cbn [negb].
  rewrite nth_app_len, Z1, Z2. cbn [N.eqb negb]. rewrite N.eqb_refl. cbn [negb]. rewrite name_ok by lia. cbn [fbind s_tmp s_active s_value s_jobs s_workers].
  rewrite firstn_app_len, skipn_app_S, nth_app_len. cbn [t_name t_level]. eexists. split; [reflexivity|]. split; [|reflexivity].
  destruct (recs_ok records) as [Pr Sr].
  exists (acts ++ [Tmp (Some val) 1 (ser (sort_recs records))]), zs, (G ++ [sort_recs records]). cbn [s_tmp s_active s_value s_jobs s_workers].
  split; [rewrite firstn_app_len, skipn_app_S, <- app_assoc; reflexivity|]. split; [rewrite app_length; cbn [length]; lia|]. split; [rewrite !app_length in *; cbn [length] in *; lia|].
  split; [apply Forall2_app; [exact FG|]; constructor; [|constructor]; split; [eexists; reflexivity|]; cbn [t_level t_data]; split; [lia|]; split; [reflexivity|]; split; [|exact Sr]|].
  { rewrite Forall_forall in *. intros a Ha. apply Hok. eapply Permutation_in; [apply Permutation_sym; exact Pr|exact Ha]. }
  split; [exact Fz'|]. split.
  { rewrite concat_app. cbn [concat]. rewrite app_nil_r. apply Permutation_app; [exact P|]. apply Permutation_sym. exact Pr. }
  split; [reflexivity|]. rewrite lenN_app. destruct records as [|r0 records]; [contradiction|]. rewrite lenN_cons. lia.
Qed.

Lemma same_level_le lv l : (same_level lv l <= length l)%nat.
Proof. induction l as [|t l IH]; cbn [same_level length]; [lia|]. destruct (t_level t =? lv); lia. Qed.
Lemma no_zero l k : Forall (fun t => 1 <= t_level t) l -> existsb (fun t => t_level t =? 0) (firstn k l) = false.
Proof.
  intros H. revert k. induction H as [|t l Ht _ IH]; intros [|k]; cbn [firstn existsb]; auto. rewrite IH, orb_false_r. apply N.eqb_neq. lia.
Qed.
Lemma pick_ok : forall f i l, (length l < f)%nat -> Forall (fun t => 1 <= t_level t) l ->
  exists o, pick f i l = Good o /\ (forall p q lv, o = Some (p, q, lv) -> (i <= p)%nat /\ (S p < q)%nat /\ (q <= i + length l)%nat /\ 2 <= lv).
Proof.
  induction f as [|f IH]; intros i l Hf Hl; [lia|]. cbn [pick]. destruct l as [|t r].
  - eexists. split; [reflexivity|]. intros p q lv H. discriminate.
  - change (t :: firstn (S (same_level (t_level t) r)) r) with (firstn (S (S (same_level (t_level t) r))) (t :: r)). rewrite no_zero by exact Hl.
    pose proof (same_level_le (t_level t) r) as Hle. inversion Hl as [|? ? Ht Hr]; subst. cbn [length] in Hf. destruct (Nat.ltb_spec 1 (S (same_level (t_level t) r))) as [H1|H1].
    + eexists. split; [reflexivity|]. intros p q lv E. injection E as <- <- <-. cbn [length]. split; [lia|]. split; [lia|]. split; [lia|].
      assert (2 <= N.of_nat (S (same_level (t_level t) r))) by lia. 
      pose proof (@N.mul_le_mono 2 (N.of_nat (S (same_level (t_level t) r))) 1 (t_level t) ltac:(assumption) Ht) as X. rewrite N.mul_1_r in X. exact X.
    + assert (same_level (t_level t) r = 0)%nat as -> by lia. cbn [skipn]. destruct (IH (i + 1)%nat r) as (o & E & Ho); [lia|exact Hr|]. exists o. split; [exact E|].
      intros p q lv Hp. specialize (Ho p q lv Hp). cbn [length]. lia.
Qed.
Lemma ent_levels acts G : Forall2 ent acts G -> Forall (fun t => 1 <= t_level t) acts.
Proof. induction 1 as [|t l acts G H _ IH]; constructor; auto. apply H. Qed.
Lemma ent_names acts G : Forall2 ent acts G -> existsb (fun t => match t_name t with None => true | Some _ => false end) acts = false.
Proof. induction 1 as [|t l acts G H _ IH]; [reflexivity|]. cbn [existsb]. destruct H as ((n & ->) & _). exact IH. Qed.
Lemma ent_data acts G : Forall2 ent acts G -> map t_data acts = map ser G /\ Forall (Forall ok) G /\ Forall srt G.
Proof. induction 1 as [|t l acts G H _ (IH1 & IH2 & IH3)]; [repeat split; constructor|]. destruct H as (_ & _ & E & Ho & Hs). cbn [map]. rewrite E, IH1. repeat split; constructor; auto. Qed.
Lemma zeros_last l : StronglySorted tmp_le l -> exists nz z, l = nz ++ z /\ Forall (fun t => negb (t_level t =? 0) = true) nz /\ Forall (fun t => negb (t_level t =? 0) = false) z.
Proof.
  induction 1 as [|t l S (nz & z & -> & Hn & Hz) F].
  - exists [], []. repeat split; constructor.
  - destruct (N.eqb_spec (t_level t) 0) as [E|E].
    + exists [], (t :: nz ++ z). split; [reflexivity|]. split; [constructor|]. constructor; [rewrite E; reflexivity|]. eapply Forall_impl; [|exact F]. intros u [H|[H _]]; [rewrite H; reflexivity|contradiction].
    + exists (t :: nz), z. split; [reflexivity|]. split; [|exact Hz]. constructor; [|exact Hn]. destruct (N.eqb_spec (t_level t) 0); [contradiction|reflexivity].
Qed.

Lemma merge_tmp_ok v0 R s first last lv : sinv v0 R s -> (S first < last)%nat -> (last <= s_active s)%nat -> 2 <= lv -> v0 + 2 * lenN R < 100000 ->
  exists s', merge_tmp_files cmp wr rd sort_tmp first last lv s = Good s' /\ sinv v0 R s' /\ (s_active s' < s_active s)%nat.
Proof.
  intros (acts & zs & G & Et & Ea & En & FG & Fz & P & W & V) H1 H2 H3 Hv. destruct s as [tm act val jobs wk]. cbn [s_tmp s_active s_value s_jobs s_workers] in *. subst tm act wk.
  (* the three parts of the active files *)
  assert (Hs : exists a1 a2 a3, acts = a1 ++ a2 ++ a3 /\ length a1 = first /\ length a2 = (last - first)%nat).
  { exists (firstn first acts), (firstn (last - first) (skipn first acts)), (skipn (last - first) (skipn first acts)). rewrite !firstn_skipn. split; [reflexivity|]. rewrite !firstn_length, skipn_length. lia. }
  destruct Hs as (a1 & a2 & a3 & -> & L1 & L2).
  apply Forall2_app_inv_l in FG. destruct FG as (g1 & g23 & F1 & FG & ->). apply Forall2_app_inv_l in FG. destruct FG as (g2 & g3 & F2 & F3 & ->).
  unfold merge_tmp_files. cbn [s_tmp s_active s_value s_jobs s_workers].
  assert (Ef : firstn (last - first) (skipn first ((a1 ++ a2 ++ a3) ++ zs)) = a2). { rewrite <- !app_assoc, <- L1, skipn_app_len, L1, <- L2. apply firstn_app_len. }
  assert (El : skipn last ((a1 ++ a2 ++ a3) ++ zs) = a3 ++ zs). { replace last with (length (a1 ++ a2)) by (rewrite app_length; lia). rewrite <- !app_assoc. rewrite (app_assoc a1 a2). apply skipn_app_len. }
  assert (E1 : firstn first ((a1 ++ a2 ++ a3) ++ zs) = a1). { rewrite <- !app_assoc, <- L1. apply firstn_app_len. }
  rewrite Ef, El, E1, (ent_names F2), name_ok by lia. destruct (ent_data F2) as (D2 & O2 & S2). rewrite D2.
  destruct (@merge_plain A cmp csym ctrans wr rd ok rd_nil rd_wr None ltac:(intros ? ? X; discriminate) g2 eq_refl) as (out & -> & Po & So).
  { intros ->. inversion F2; subst. cbn [length] in L2. lia. }
  { exact O2. }
  { exact S2. }
  cbn [fbind]. destruct (tmp_ok (map (fun _ => no_tmp) a2 ++ a3 ++ zs)) as [Pt St]. destruct (zeros_last St) as (nz & z & Ez & Hnz & Hz). rewrite Ez in *.
  assert (Pn : Permutation a3 nz).
  { pose proof (perm_filter (fun t => negb (t_level t =? 0)) Pt) as X. rewrite !filter_app in X. rewrite (filter_none (l := map _ a2)) in X.
    2: { apply Forall_forall. intros t Ht. apply in_map_iff in Ht. destruct Ht as (? & <- & _). reflexivity. }
    rewrite (filter_all (l := a3)) in X.
    2: { apply ent_levels in F3. eapply Forall_impl; [|exact F3]. intros t Ht. cbn beta in *. destruct (N.eqb_spec (t_level t) 0); [lia|reflexivity]. }
    rewrite (filter_none (l := zs)) in X.
    2: { eapply Forall_impl; [|exact Fz]. intros t [_ ->]. reflexivity. }
    rewrite (filter_all Hnz), (filter_none Hz) in X. rewrite !app_nil_r in X. exact X. }
  assert (Pz : Forall free z).
  { apply Forall_forall. intros t Ht. assert (X : In t (map (fun _ => no_tmp) a2 ++ a3 ++ zs)) by (apply (Permutation_in _ (Permutation_sym Pt)); apply in_or_app; auto).
    apply in_app_or in X. destruct X as [X|X]; [apply in_map_iff in X; destruct X as (? & <- & _); split; reflexivity|]. apply in_app_or in X. destruct X as [X|X].
    - exfalso. rewrite Forall_forall in Hz. specialize (Hz t Ht). pose proof (ent_levels F3) as Y. rewrite Forall_forall in Y. specialize (Y t X). apply negb_false_iff, N.eqb_eq in Hz. lia.
    - rewrite Forall_forall in Fz. apply Fz, X. }
  pose proof (Permutation_length Pt) as Lt. rewrite !app_length, map_length in Lt. pose proof (Permutation_length Pn) as Ln.
  destruct z as [|z0 z]; [cbn [length] in Lt; lia|].
  assert (Hact : (length (a1 ++ a2 ++ a3) - (last - first))%nat = length (a1 ++ nz)). { rewrite !app_length. lia. }
  rewrite Hact. rewrite (app_assoc a1 nz). rewrite nth_app_len, firstn_app_len, skipn_app_S. eexists. split; [reflexivity|]. split.
  - destruct (Permutation_Forall2 Pn F3) as (g3' & Pg3 & F3').
    exists ((a1 ++ nz) ++ [Tmp (Some val) lv (ser out)]), z, ((g1 ++ g3') ++ [out]). cbn [s_tmp s_active s_value s_jobs s_workers].
    split; [rewrite <- !app_assoc; reflexivity|]. split; [rewrite (app_length (a1 ++ nz)); cbn [length]; lia|].
    split; [rewrite !app_length in *; cbn [length] in *; lia|].
    split.
    { apply Forall2_app; [apply Forall2_app; assumption|]. constructor; [|constructor]. split; [eexists; reflexivity|]. cbn [t_level t_data]. split; [lia|]. split; [reflexivity|]. split; [|exact So].
      rewrite Forall_forall. intros a Ha. apply (Permutation_in _ Po) in Ha. apply in_concat in Ha. destruct Ha as (l & Hl & Ha). rewrite Forall_forall in O2. specialize (O2 l Hl). rewrite Forall_forall in O2. apply O2, Ha. }
    split; [inversion Pz; assumption|]. split.
    { eapply perm_trans; [|exact P]. rewrite !concat_app. cbn [concat]. rewrite app_nil_r, <- app_assoc. apply Permutation_app_head. eapply perm_trans; [apply Permutation_app_comm|].
      apply Permutation_app; [exact Po|]. apply Permutation_sym. clear - Pg3. induction Pg3 as [|x l l' H IH|x y l|l l' l'' H1 IH1 H2 IH2]; cbn [concat].
      - constructor.
      - apply Permutation_app_head. exact IH.
      - rewrite !app_assoc. apply Permutation_app_tail. apply Permutation_app_comm.
      - eapply perm_trans; eauto. }
    split; [reflexivity|]. rewrite !app_length in *. lia.
  - cbn [s_active]. rewrite !app_length in *. lia.
Qed.

Lemma reduce_ok v0 R s : sinv v0 R s -> (s_active s <= num)%nat -> v0 + 2 * lenN R < 100000 ->
  exists s', (if Nat.leb num (s_active s)
     then fbind (wait 2 s) (fun s1 => fbind (pick_merge_files sort_tmp num s1) (fun q => let '(first, last, level, s2) := q in
                      if negb (1 <? level) then Bad F_ASSERT else merge_tmp_files cmp wr rd sort_tmp first last level s2))
     else Good s) = Good s' /\ sinv v0 R s' /\ (s_active s' < num)%nat.
Proof.
  intros I Hle Hv. destruct (Nat.leb_spec num (s_active s)) as [H|H]; [|exists s; auto].
  pose proof I as (acts & zs & G & Et & Ea & En & FG & Fz & P & W & V). unfold wait. rewrite W. cbn [Nat.ltb Nat.leb fbind]. unfold pick_merge_files. rewrite Et, <- Ea, firstn_app_len, skipn_app_len.
  destruct (tmp_ok acts) as [Pa _]. destruct (Permutation_Forall2 Pa FG) as (G' & PG & FG'). pose proof (Permutation_length Pa) as La.
  assert (I' : sinv v0 R (SState (sort_tmp acts ++ zs) (length acts) (s_value s) (s_jobs s) (s_workers s))).
  { exists (sort_tmp acts), zs, G'. cbn [s_tmp s_active s_value s_jobs s_workers]. split; [reflexivity|]. split; [lia|]. split; [rewrite app_length in *; lia|]. split; [exact FG'|]. split; [exact Fz|]. split.
    - eapply perm_trans; [|exact P]. apply Permutation_sym. clear - PG. induction PG as [|x l l' H IH|x y l|l l' l'' H1 IH1 H2 IH2]; cbn [concat].
      + constructor.
      + apply Permutation_app_head. exact IH.
      + rewrite !app_assoc. apply Permutation_app_tail. apply Permutation_app_comm.
      + eapply perm_trans; eauto.
    - split; [exact W|]. rewrite Ea. exact V. }
  destruct (@pick_ok (S (length (sort_tmp acts))) 0 (sort_tmp acts)) as (o & -> & Ho); [lia|eapply ent_levels; eauto|]. cbn [fbind].
  destruct o as [[[p q] lv]|].
  - destruct (Ho p q lv eq_refl) as (B1 & B2 & B3 & B4). cbn [fbind]. destruct (N.ltb_spec 1 lv); [|lia]. cbn [negb].
    destruct (@merge_tmp_ok v0 R _ p q lv I') as (s' & E & I2 & D2); cbn [s_active]; auto; try lia. exists s'. split; [exact E|]. split; [exact I2|]. cbn [s_active] in D2. lia.
  - rewrite W in I'. destruct (Nat.eqb_spec (length acts) num); [|lia]. cbn [negb]. pose proof (ent_levels FG') as Lv. destruct (sort_tmp acts) as [|t0 [|t1 r]] eqn:Es; [cbn [length] in La; lia|cbn [length] in La; lia|].
    cbn [fbind]. inversion Lv as [|? ? V0 Lv']; subst. inversion Lv' as [|? ? V1 _]; subst. destruct (N.ltb_spec 1 (t_level t0 + t_level t1)); [|lia]. cbn [negb]. rewrite W.
    match goal with |- context [merge_tmp_files _ _ _ _ _ _ _ ?x] => destruct (@merge_tmp_ok v0 R x 0 2 (t_level t0 + t_level t1)) as (s' & E & I2 & D2); cbn [s_active]; auto; try lia end.
    exists s'. split; [exact E|]. split; [exact I2|]. cbn [s_active] in D2. lia.
Qed.

Lemma read_loop_ok v0 : forall l f acc size R s, Forall ok l -> Forall ok acc -> (length l < f)%nat -> sinv v0 R s -> (s_active s < num)%nat ->
  size <= 2^31 -> (acc = [] -> size = 0) -> (acc <> [] -> 0 < size) -> v0 + 2 * (lenN R + lenN acc + lenN l) < 100000 ->
  exists recs size' s' R', read_loop cmp wr rd sz sort_recs sort_tmp done num max_buffer f (ser l) acc size s = Good (recs, size', s') /\
    sinv v0 R' s' /\ (s_active s' < num)%nat /\ Permutation (R' ++ recs) (R ++ rev acc ++ l) /\ (recs = [] -> size' = 0) /\ (recs <> [] -> 0 < size') /\ Forall ok recs.
Proof.
  induction l as [|a l IH]; intros f acc size R s Hok Hacc Hf I Hact Hsz H0 H1 Hv; (destruct f as [|f]; [cbn [length] in Hf; lia|]); cbn [read_loop].
  - change (ser []) with (@nil N). rewrite rd_nil. exists (rev acc), size, s, R. split; [reflexivity|]. split; [exact I|]. split; [exact Hact|]. split; [rewrite app_nil_r; reflexivity|].
    split; [intros E; apply H0; destruct acc; [reflexivity|]; apply (f_equal (@length A)) in E; rewrite rev_length in E; discriminate|].
    split; [intros E; apply H1; intros ->; apply E; reflexivity|]. apply Forall_forall. intros x Hx. apply in_rev in Hx. rewrite Forall_forall in Hacc. apply Hacc, Hx.
  - inversion Hok as [|? ? Ha Hl]; subst. change (ser (a :: l)) with (wr a ++ ser l). rewrite rd_wr by exact Ha. pose proof (sz_ok Ha) as Sz. cbn [length] in Hf. rewrite lenN_cons in Hv.
    rewrite N.mod_small by (change (2^32) with (2^31 + 2^31); lia). destruct (N.leb_spec max_buffer (size + sz a)) as [Hm|Hm].
    + destruct (@add_job_ok v0 R s (rev (a :: acc)) I Hact) as (s1 & E1 & I1 & A1).
      { intros E. apply (f_equal (@length A)) in E. rewrite rev_length in E. discriminate. }
      { apply Forall_forall. intros x Hx. apply in_rev in Hx. destruct Hx as [<-|Hx]; [exact Ha|]. rewrite Forall_forall in Hacc. apply Hacc, Hx. }
      { lia. }
      rewrite E1. cbn [fbind]. assert (W : s_workers s1 = 2%nat) by (destruct I1 as (? & ? & ? & _ & _ & _ & _ & _ & _ & W & _); exact W). unfold wait at 1. rewrite W. cbn [Nat.ltb Nat.leb fbind].
      assert (Lr : lenN (R ++ rev (a :: acc)) = lenN R + 1 + lenN acc) by (rewrite lenN_app, lenN_rev, lenN_cons; lia).
      destruct (@reduce_ok v0 (R ++ rev (a :: acc)) s1 I1) as (s2 & E2 & I2 & A2); [lia|lia|]. rewrite E2. cbn [fbind].
      destruct (@IH f [] 0 (R ++ rev (a :: acc)) s2 Hl (Forall_nil _)) as (recs & size' & s' & R' & E & I' & A' & P' & X); [lia|exact I2|exact A2|lia|auto|intros X; contradiction|change (lenN (@nil A)) with 0; lia|].
      exists recs, size', s', R'. split; [exact E|]. split; [exact I'|]. split; [exact A'|]. split; [|exact X]. eapply perm_trans; [exact P'|]. cbn [rev app]. rewrite <- !app_assoc. cbn [app]. reflexivity.
    + cbn [fbind]. destruct (@reduce_ok v0 R s I) as (s2 & E2 & I2 & A2); [lia|lia|]. rewrite E2. cbn [fbind].
      destruct (@IH f (a :: acc) (size + sz a) R s2 Hl) as (recs & size' & s' & R' & E & I' & A' & P' & X); [constructor; auto|lia|exact I2|exact A2|lia|intros X; discriminate|lia|rewrite lenN_cons; lia|].
      exists recs, size', s', R'. split; [exact E|]. split; [exact I'|]. split; [exact A'|]. split; [|exact X]. eapply perm_trans; [exact P'|]. cbn [rev]. rewrite <- !app_assoc. cbn [app]. reflexivity.
Qed.
Lemma iterate_ok : forall l f, Forall ok l -> (length l < f)%nat -> iterate rd f (ser l) = Good l.
Proof.
  induction l as [|a l IH]; intros f Hok Hf; (destruct f as [|f]; [cbn [length] in Hf; lia|]); cbn [iterate].
  - change (ser []) with (@nil N). rewrite rd_nil. reflexivity.
  - inversion Hok as [|? ? Ha Hl]; subst. change (ser (a :: l)) with (wr a ++ ser l). rewrite rd_wr by exact Ha. rewrite IH; [reflexivity|exact Hl|cbn [length] in Hf; lia].
Qed.
Theorem sort_file_ok l feed skip v0 : Forall ok l -> v0 + 2 * lenN l < 100000 -> (skip = true -> feed = true) ->
  exists out, Permutation out l /\ srt out /\ sort_file cmp wr rd sz sort_recs sort_tmp done num max_buffer (ser l) feed skip v0 = Good (if skip then ser l else ser out, if feed then out else []).
Proof.
  intros Hok Hv Hfs. unfold sort_file. destruct (Nat.leb_spec num 1); [lia|]. assert (skip && negb feed = false) as -> by (destruct skip, feed; auto; specialize (Hfs eq_refl); discriminate).
  assert (I0 : sinv v0 [] (SState (repeat no_tmp num) O v0 O 2%nat)).
  { exists [], (repeat no_tmp num), []. cbn [s_tmp s_active s_value s_jobs s_workers app length concat]. split; [reflexivity|]. split; [reflexivity|]. split; [apply repeat_length|]. split; [constructor|]. split.
    - apply Forall_forall. intros t Ht. apply repeat_spec in Ht. subst t. split; reflexivity.
    - split; [constructor|]. split; [reflexivity|]. change (lenN (@nil A)) with 0. lia. }
  pose proof (ser_length csym ctrans rd_nil rd_wr Hok) as Ls.
  destruct (@read_loop_ok v0 l (S (length (ser l))) [] 0 [] _ Hok (Forall_nil _) ltac:(lia) I0) as (recs & size & s & R & E & I & Act & P & Z0 & Z1 & Hr); cbn [s_active]; auto; try lia; try (intros X; contradiction).
  rewrite E. cbn [fbind]. cbn [rev app] in P.
  assert (Hlen : lenN R + lenN recs = lenN l). { rewrite <- lenN_app. unfold lenN. rewrite (Permutation_length P). reflexivity. }
  destruct (Nat.eqb (s_active s) 0 && (size =? 0)) eqn:E0.
  - apply andb_true_iff in E0. destruct E0 as [Ea Es]. apply Nat.eqb_eq in Ea. apply N.eqb_eq in Es.
    assert (recs = []) as -> by (destruct recs; [reflexivity|]; exfalso; assert (0 < size) by (apply Z1; discriminate); lia).
    destruct I as (acts & zs & G & _ & La & _ & FG & _ & PG & _). rewrite Ea in La. destruct acts; [|discriminate]. inversion FG; subst. cbn [concat] in PG. apply Permutation_nil in PG. subst R.
    cbn [app] in P. apply Permutation_nil in P. subst l. exists []. split; [constructor|]. split; [constructor|]. destruct skip, feed; reflexivity.
  - assert (K : exists s2 R2, (if 0 <? size then add_job wr sort_recs done num recs s else Good s) = Good s2 /\ sinv v0 R2 s2 /\ (s_active s2 <= num)%nat /\ (s_active s2 <> 0)%nat /\ Permutation R2 l).
    { destruct (N.ltb_spec 0 size) as [Hs|Hs].
      - destruct (@add_job_ok v0 R s recs I Act) as (s2 & E2 & I2 & A2); [intros X; specialize (Z0 X); lia|exact Hr|lia|]. exists s2, (R ++ recs). split; [exact E2|]. split; [exact I2|]. split; [lia|]. split; [lia|exact P].
      - assert (recs = []) as -> by (destruct recs; [reflexivity|]; exfalso; assert (0 < size) by (apply Z1; discriminate); lia). exists s, R. split; [reflexivity|]. split; [exact I|]. split; [lia|]. split.
        + intros X. rewrite X in E0. destruct (N.eqb_spec size 0); [discriminate|lia].
        + rewrite app_nil_r in P. exact P. }
    destruct K as (s2 & R2 & -> & I2 & L2 & N2 & P2). cbn [fbind]. destruct I2 as (acts & zs & G & Et & Ea & En & FG & Fz & PG & W & V). rewrite Et, <- Ea. destruct (ent_data FG) as (D & Og & Sg).
    destruct acts as [|t [|t' acts]]; [cbn [length] in Ea; lia| |].
    + inversion FG as [|? g ? G' Hent FG']; subst. inversion FG'; subst. cbn [app length]. destruct Hent as (_ & _ & Ed & Ho & Hs). cbn [concat] in PG. rewrite app_nil_r in PG.
      exists g. split; [eapply perm_trans; eauto|]. split; [exact Hs|]. rewrite Ed. destruct feed.
      * rewrite iterate_ok; [|exact Ho|pose proof (ser_length csym ctrans rd_nil rd_wr Ho); lia]. cbn [fbind]. destruct skip; reflexivity.
      * cbn [fbind]. destruct skip; reflexivity.
    + cbn [length]. change (S (S (length acts))) with (length (t :: t' :: acts)). rewrite firstn_app_len, (ent_names FG), D.
      destruct (@merge_plain A cmp csym ctrans wr rd ok rd_nil rd_wr None ltac:(intros ? ? X; discriminate) G eq_refl) as (out & -> & Po & So); [intros ->; inversion FG|exact Og|exact Sg|].
      cbn [fbind]. exists out. split; [eapply perm_trans; [exact Po|]; eapply perm_trans; eauto|]. split; [exact So|]. destruct skip, feed; reflexivity.
Qed.
End SF.
