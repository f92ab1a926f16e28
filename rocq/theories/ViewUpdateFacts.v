(** Incremental updates of view indexes. *)
From Coq Require Import Permutation Sorted.
From Verif Require Import Base Codec CodecFacts File FileFacts ChunkFacts Btree BtreeRead LookupFacts TreeStore SpecMap MergeFacts ModifyFacts SpecFile DataFacts SpecSession DbFacts SessionFacts SaveFacts ReadFacts DbRead
  Bitmap SpecUtil UtilFacts ViewCodec SpecView ViewFacts Reducers IndexHeader Cleanup ViewGroup SpecCleanup SortFacts PurgeFacts BulkFacts ModifyPurgeFacts CleanupFacts GroupFacts FileMerger SpecSorter RecordFacts PropertiesView SpecGroup ViewGroupFacts.
Local Open Scope N_scope.
Unset Strict Implicit.

(** ** Records *)
Lemma read_record_ok record r rest : op_ok record r -> read_record (record_bytes true r ++ rest) = Ok (Some (v_op r, v_key r, v_val r, rest)).
Proof.
  intros (H1 & H2 & _). destruct r as [op k v]. cbn [v_op v_key v_val] in *. unfold record_bytes. cbn [v_op v_key v_val].
  set (body := [op] ++ be 2 (lenN k) ++ k ++ v).
  assert (Lb : lenN body = 1 + 2 + lenN k + lenN v).
  { unfold body. rewrite !lenN_app. change (lenN (be 2 (lenN k))) with 2. change (lenN [op]) with 1. lia. }
  unfold read_record. assert (L4 : lenN (rev (be 4 (lenN body))) = 4) by (rewrite lenN_rev; reflexivity).
  rewrite <- app_assoc. rewrite take_app_exact, drop_app_exact by (symmetry; exact L4). rewrite rev_involutive, unbe_be_small by (rewrite Lb; change (256 ^ N.of_nat 4) with (2^32); lia).
  destruct (N.ltb_spec (lenN (rev (be 4 (lenN body)) ++ body ++ rest)) 4) as [X|_]; [rewrite lenN_app in X; lia|].
  destruct (N.ltb_spec (lenN (body ++ rest)) 1) as [X|_]; [rewrite lenN_app in X; lia|].
  assert (E2 : drop 1 (body ++ rest) = be 2 (lenN k) ++ k ++ v ++ rest).
  { unfold body. rewrite <- !app_assoc; apply (@drop_app_exact N 1 [op]); reflexivity. }
  rewrite E2. rewrite take_app_exact, drop_app_exact by reflexivity. rewrite unbe_be_small by (change (256 ^ N.of_nat 2) with (2^16); lia).
  destruct (N.ltb_spec (lenN (be 2 (lenN k) ++ k ++ v ++ rest)) 2) as [X|_]; [rewrite lenN_app in X; change (lenN (be 2 (lenN k))) with 2 in X; lia|].
  assert (Ev : (lenN body + 2 ^ 32 - 2 - lenN k - 1 + 2 ^ 32) mod 2 ^ 32 = lenN v).
  { replace (lenN body + 2 ^ 32 - 2 - lenN k - 1 + 2 ^ 32) with (lenN v + 2 * 2^32) by (rewrite Lb; lia). rewrite N.mod_add by lia. apply N.mod_small. lia. }
  rewrite Ev. destruct (N.eqb_spec (lenN k) 0); [lia|]. destruct (N.ltb_spec (lenN (k ++ v ++ rest)) (lenN k)) as [X|_]; [rewrite lenN_app in X; lia|]. cbn [orb].
  rewrite (@take_app_exact N (lenN k) k (v ++ rest) eq_refl), (@drop_app_exact N (lenN k) k (v ++ rest) eq_refl).
  destruct (N.ltb_spec (lenN (v ++ rest)) (lenN v)) as [X|_]; [rewrite lenN_app in X; lia|]. destruct (N.eqb_spec (lenN body) 0); [lia|]. destruct (N.leb_spec (2^31) (lenN body)); [lia|].
  rewrite (@take_app_exact N (lenN v) v rest eq_refl), (@drop_app_exact N (lenN v) v rest eq_refl). reflexivity.
Qed.
Lemma records_cons incr r l : records_file incr (r :: l) = record_bytes incr r ++ records_file incr l.
Proof. reflexivity. Qed.
Lemma records_long l : (length l <= length (records_file true l))%nat.
Proof. induction l as [|r l IH]; [cbn; lia|]. rewrite records_cons, app_length. unfold record_bytes. cbn [length app]. rewrite app_length. cbn [length app]. lia. Qed.

(** ** Merging, row by row *)
Section Order.
Variable cmp : bytes -> bytes -> comparison.
Hypothesis OC : ord cmp.
Lemma eq_flip a b : cmp a b = Eq -> cmp b a = Eq.
Proof. exact (@c_eq_sym cmp OC a b). Qed.
Lemma gt_lt a b : cmp a b = Gt -> cmp b a = Lt.
Proof. apply (@c_gt cmp OC). Qed.
Definition astrict (acts : list action) : Prop := StronglySorted (fun a b => cmp (a_key a) (a_key b) = Lt) acts /\ Forall (fun a => a_type a = A_REMOVE \/ a_type a = A_INSERT) acts.
Lemma merge_member l : forall acts x, sorted cmp l -> astrict acts ->
  (In x (merge cmp l acts) <-> (In x l /\ forall a, In a acts -> cmp (a_key a) (fst x) <> Eq) \/ from acts x).
Proof.
  induction l as [|[k v] l IH]; intros acts x Hl Ha.
  - cbn [merge]. rewrite in_flat_map. split.
    + intros (a & Hi & Hx). right. unfold new in Hx. destruct (inserts a) eqn:Hn; [|destruct Hx]. destruct Hx as [<-|[]]. exists a. auto.
    + intros [[[] _]|(a & Hi & Hn & ->)]. exists a. split; [exact Hi|]. unfold new. rewrite Hn. now left.
  - inversion Hl as [|? ? Hl' Hf]; subst. rewrite Forall_forall in Hf. cbn [fst] in Hf. induction acts as [|a acts IHa].
    { rewrite merge_nil. split; [intros H; left; split; [exact H|intros b []]|intros [[H _]|(b & [] & _)]; exact H]. }
    destruct Ha as [Ha Ht]. inversion Ha as [|? ? Ha' Hall]; inversion Ht as [|? ? Hta Ht']; subst. rewrite Forall_forall in Hall. specialize (IHa (conj Ha' Ht')).
    assert (Hfrom : from (a :: acts) x <-> In x (new a) \/ from acts x).
    { split; [intros (b & [<-|Hb] & Hi & ->); [left; unfold new; rewrite Hi; now left|right; exists b; auto]|intros [H|H]; [now apply from_new|now apply from_cons]]. }
    cbn [merge m_entry]. destruct (cmp k (a_key a)) eqn:Hc.
    + assert (Hm : In x (new a ++ merge cmp l acts) <-> (In x ((k, v) :: l) /\ (forall b, In b (a :: acts) -> cmp (a_key b) (fst x) <> Eq)) \/ from (a :: acts) x).
      { rewrite in_app_iff, (IH acts x Hl' (conj Ha' Ht')), Hfrom. split.
        - intros [H|[[H1 H2]|H]]; [auto| |auto]. left. split; [now right|]. intros b [<-|Hb]; [|now apply H2]. rewrite (o_eq OC _ _ (fst x) (eq_flip Hc)). rewrite (Hf x H1). discriminate.
        - intros [[[<-|H1] H2]|[H|H]]; [|right; left; split; [exact H1|intros b Hb; apply H2; now right]|auto|auto]. exfalso. apply (H2 a (or_introl eq_refl)). cbn [fst]. now apply eq_flip. }
      destruct Hta as [-> | ->]; exact Hm.
    + cbn [app]. split.
      * intros [<-|H]; [|apply (IH (a :: acts) x Hl' (conj Ha Ht)) in H; destruct H as [[H1 H2]|H]; [left; split; [now right|exact H2]|now right]].
        left. split; [now left|]. cbn [fst]. intros b [<-|Hb] He; apply eq_flip in He; [congruence|]. specialize (Hall b Hb). pose proof (o_lt OC _ _ _ Hc Hall). congruence.
      * intros [[[<-|H1] H2]|H]; [now left| |]; right; apply (IH (a :: acts) x Hl' (conj Ha Ht)); auto.
    + cbn [merge] in IHa. destruct (m_entry cmp k v acts) as [a' o]. rewrite <- app_assoc, in_app_iff, IHa, Hfrom. split.
      * intros [H|[[H1 H2]|H]]; [auto| |auto]. left. split; [exact H1|]. intros b [<-|Hb]; [|now apply H2]. assert (cmp (a_key a) (fst x) = Lt); [|congruence].
        destruct H1 as [<-|H1]; [now apply gt_lt|]. exact (o_lt OC _ _ _ (gt_lt Hc) (Hf x H1)).
      * intros [[H1 H2]|[H|H]]; [right; left; split; [exact H1|intros b Hb; apply H2; now right]|auto|auto].
Qed.
Lemma merge_sum w l : forall acts, sum_of w (merge cmp l acts) <= sum_of w l + sum_of w (flat_map new acts).
Proof.
  induction l as [|[k v] l IH]; intros acts; [cbn [merge]; lia|]. induction acts as [|a acts IHa]; [rewrite merge_nil; lia|]. cbn [merge m_entry flat_map] in *. rewrite !sum_of_cons, !sum_of_app in *.
  destruct (cmp k (a_key a)).
  - destruct (a_type a).
    + destruct (m_entry cmp k v acts). lia.
    + rewrite sum_of_app. specialize (IH acts). lia.
    + rewrite sum_of_app. specialize (IH acts). lia.
    + rewrite sum_of_app. specialize (IH acts). lia.
  - cbn [app]. rewrite sum_of_cons. specialize (IH (a :: acts)). cbn [flat_map] in IH. rewrite sum_of_app in IH. lia.
  - destruct (m_entry cmp k v acts) as [a' o]. rewrite <- app_assoc, sum_of_app. lia.
Qed.

(** The action for a record. *)
Definition act (r : vrec) : action := Action (if v_op r =? 1 then A_REMOVE else A_INSERT) (v_key r) (v_val r) 0.
Variable record : kv -> Prop.
Lemma acts_strict l : strictly cmp l -> astrict (map act l).
Proof.
  intros H. split.
  - induction H as [|r l H IH Hf]; cbn [map]; constructor; [exact IH|]. rewrite Forall_map. exact Hf.
  - apply Forall_forall. intros a Ha. apply in_map_iff in Ha. destruct Ha as (r & <- & _). unfold act. cbn [a_type]. destruct (v_op r =? 1); auto.
Qed.
Lemma acts_sorted l : strictly cmp l -> asorted cmp (map act l) /\ single cmp (map act l).
Proof.
  intros H. induction H as [|r l H [I1 I2] Hf]; cbn [map]; [split; constructor|]. rewrite Forall_forall in Hf. split.
  - constructor; [exact I1|]. apply Forall_forall. intros a Ha. apply in_map_iff in Ha. destruct Ha as (r' & <- & Hr). cbn [act a_key]. rewrite (Hf _ Hr). discriminate.
  - split; [|exact I2]. intros _. apply Forall_forall. intros a Ha. apply in_map_iff in Ha. destruct Ha as (r' & <- & Hr). cbn [act a_key]. rewrite (Hf _ Hr). discriminate.
Qed.
Lemma set_rows_cons r l : set_rows (r :: l) = (if v_op r =? 2 then [(v_key r, v_val r)] else []) ++ set_rows l.
Proof. unfold set_rows, rows_of. cbn [filter]. destruct (v_op r =? 2); reflexivity. Qed.
Lemma set_rows_app a b : set_rows (a ++ b) = set_rows a ++ set_rows b.
Proof. unfold set_rows, rows_of. now rewrite filter_app, map_app. Qed.
Lemma new_rows l : Forall (op_ok record) l -> flat_map new (map act l) = set_rows l.
Proof.
  induction 1 as [|r l (_ & _ & H) _ IH]; [reflexivity|]. rewrite set_rows_cons. cbn [map flat_map]. rewrite IH. f_equal. unfold new, act, inserts. cbn [a_type a_key a_data].
  destruct H as [-> | [-> _]]; reflexivity.
Qed.
Lemma from_rows l x : Forall (op_ok record) l -> (from (map act l) x <-> In x (set_rows l)).
Proof.
  intros H. rewrite <- (new_rows H). rewrite in_flat_map. unfold from, new. split.
  - intros (a & Ha & Hi & ->). exists a. rewrite Hi. split; [exact Ha|now left].
  - intros (a & Ha & Hx). destruct (inserts a) eqn:Hi; [|destruct Hx]. destruct Hx as [<-|[]]. exists a. auto.
Qed.
Lemma acts_record l : Forall (op_ok record) l -> Forall (fun a => inserts a = true -> record (a_key a, a_data a)) (map act l).
Proof.
  rewrite Forall_map. apply Forall_impl. intros r (_ & _ & H). unfold act, inserts. cbn [a_type a_key a_data]. destruct H as [-> | [-> H]]; [discriminate|]. intros _. exact H.
Qed.
Lemma named_acts l x : (forall a, In a (map act l) -> cmp (a_key a) (fst x) <> Eq) <-> ~ named cmp l x.
Proof.
  split; [intros H (r & Hr & He); exact (H (act r) (in_map act _ _ Hr) He)|]. intros H a Ha He. apply in_map_iff in Ha. destruct Ha as (r & <- & Hr). apply H. exists r. auto.
Qed.
Lemma named_app a b x : named cmp (a ++ b) x <-> named cmp a x \/ named cmp b x.
Proof. unfold named. setoid_rewrite in_app_iff. firstorder. Qed.
Lemma strictly_app a b : strictly cmp (a ++ b) -> strictly cmp a /\ strictly cmp b /\ forall x y, In x a -> In y b -> cmp (v_key x) (v_key y) = Lt.
Proof.
  unfold strictly. induction a as [|r a IH]; cbn [app]; intros H; [repeat split; [constructor|exact H|intros x y []]|]. inversion H as [|? ? H1 H2]; subst. destruct (IH H1) as (A & B & C).
  rewrite Forall_app in H2. destruct H2 as [H2 H3]. rewrite Forall_forall in H3. split; [constructor; assumption|]. split; [exact B|]. intros x y [<-|Hx] Hy; [now apply H3|now apply C].
Qed.

(** One more batch. *)
Lemma batch_updated mask done pend kvs cur : strictly cmp (done ++ pend) -> Forall (op_ok record) (done ++ pend) -> pend <> [] -> sorted cmp cur -> updated cmp mask done kvs cur ->
  updated cmp mask (done ++ pend) kvs (merge cmp (without mask cur) (map act pend)).
Proof.
  intros Hs Ho Hp Hc [U0 U1 U2 U3]. destruct (strictly_app Hs) as (S1 & S2 & S3). rewrite Forall_app in Ho. destruct Ho as [O1 O2].
  assert (Hw : sorted cmp (without mask cur)) by now apply filter_sorted.
  assert (Hmem : forall x, In x (merge cmp (without mask cur) (map act pend)) <-> (In x (without mask cur) /\ ~ named cmp pend x) \/ In x (set_rows pend)).
  { intros x. rewrite (merge_member _ Hw (acts_strict S2)). rewrite named_acts, from_rows by exact O2. reflexivity. }
  assert (Hin : forall x, In x (without mask cur) <-> In x cur /\ in_mask mask x = false) by (intros x; unfold without; rewrite filter_In, negb_true_iff; reflexivity).
  constructor.
  - intros H. apply app_eq_nil in H. destruct H as [_ H]. contradiction.
  - intros _ x Hx. rewrite Hmem, Hin in Hx. rewrite set_rows_app, in_app_iff. destruct Hx as [[[Hx Hm] Hn]|Hx]; [|auto].
    destruct done as [|r done]; [rewrite (U0 eq_refl) in Hx; right; auto|]. destruct (U1 ltac:(discriminate) x Hx) as [H|(H1 & H2 & H3)]; [auto|]. right. split; [exact H1|]. split; [|exact H3].
    rewrite named_app. tauto.
  - intros x Hx Hn Hm. rewrite named_app in Hn. apply Hmem. left. rewrite Hin. split; [split; [apply U2; tauto|exact Hm]|tauto].
  - intros x Hx Hm. rewrite set_rows_app, in_app_iff in Hx. apply Hmem. destruct Hx as [Hx|Hx]; [|now right]. left. rewrite Hin. split; [split; [now apply U3|exact Hm]|].
    intros (r & Hr & He). unfold set_rows, rows_of in Hx. apply in_map_iff in Hx. destruct Hx as (q & <- & Hq). apply filter_In in Hq. destruct Hq as [Hq _]. cbn [fst] in He. apply eq_flip in He. rewrite (S3 q r Hq Hr) in He. discriminate He.
Qed.
End Order.

(** ** The loop *)
Lemma filter_filter A (p q : A -> bool) l : (forall x, In x l -> p x = true -> q x = true) -> filter p (filter q l) = filter p l.
Proof.
  induction l as [|x l IH]; intros H; [reflexivity|]. cbn [filter]. assert (IH' := IH (fun y Hy => H y (or_intror Hy))). destruct (p x) eqn:Hp.
  - rewrite (H x (or_introl eq_refl) Hp). cbn [filter]. rewrite Hp, IH'. reflexivity.
  - destruct (q x); cbn [filter]; [rewrite Hp|]; exact IH'.
Qed.
Lemma filter_none A (p : A -> bool) l : (forall x, In x l -> p x = false) -> filter p l = [].
Proof. induction l as [|x l IH]; intros H; [reflexivity|]. cbn [filter]. rewrite (H x (or_introl eq_refl)). apply IH. intros y Hy. apply H. now right. Qed.
Lemma sum_rev A (g : A -> N) l : sum_of g (rev l) = sum_of g l.
Proof. induction l as [|x l IH]; [reflexivity|]. cbn [rev]. rewrite sum_of_app, !sum_of_cons, IH. change (sum_of g []) with 0. lia. Qed.
Lemma ow_flush_batch {E : Env} rq last batch u : ow (flush rq last batch u).
Proof. unfold flush. destruct (_ && _); [|apply ow_ret]. apply ow_bind; [apply ow_modify|intros; apply ow_ret]. Qed.
Lemma ow_update {E : Env} rq batch fuel : forall b u, ow (update_loop fuel rq batch b u).
Proof.
  induction fuel as [|fuel IH]; intros b u; cbn [update_loop]; [apply ow_fail|]. apply ow_bind; [apply ow_lift|]. intros [[[[op k] v] rest]|]; [|apply ow_flush_batch].
  apply ow_bind; [apply ow_lift|]. intros u1. apply ow_bind; [apply ow_flush_batch|]. intros u2. apply IH.
Qed.
Lemma run_step {E : Env} A B (x : M A) (k : A -> M B) s b s' : bindM x k s = (Ok b, s') -> exists a s1, x s = (Ok a, s1) /\ k a s1 = (Ok b, s').
Proof. unfold bindM. destruct (x s) as [[a|e] s1]; [|discriminate]. intros H. exists a, s1. auto. Qed.

Section Kind.
Context {E : Env} (EO : EnvOk E).
Variable cmp : bytes -> bytes -> comparison.
Variable red : list kv -> res bytes.
Variable rered : list bytes -> res bytes.
Variable w : kv -> N.
Variable record : kv -> Prop.
Variable R : N.
Variable pkv : bitmap -> bytes -> bytes -> res purge_action.
Variable pkp : bitmap -> node_pointer -> res purge_action.
Variable pw : event -> N.
Hypothesis K : kind_ok cmp red rered w record R pkv pkp pw.
Notation rqm := (rqm cmp red rered pkv pkp).
Notation redR := (redR R).
Notation rtree mask := (rtree (rqm mask) record redR).
Variable mask : bitmap.
Hypothesis Hmask : bitmap_ok mask.
Variable batch : N.
Variable kvs : list kv.
Variable L : list vrec.
Hypothesis HL : strictly cmp L.
Hypothesis HO : Forall (op_ok record) L.
Definition en : bool := negb (is_equal_bitmap empty_bitmap mask).
Lemma en_without l : (if en then without mask l else l) = without mask l.
Proof. unfold en. destruct (is_equal_bitmap empty_bitmap mask) eqn:H; cbn [negb]; [|reflexivity]. apply is_equal_eq in H. subst mask. now rewrite without_empty. Qed.
Definition counted (done : list vrec) : N := cleaned w mask done kvs.
Definition Inv (done pend : list vrec) (cur : list kv) (u : upd) (s : st) : Prop :=
  u_acts u = rev (map act pend) /\ made rqm record (st_f s) (u_root u) /\ rtree empty_bitmap (st_f s) (u_root u) cur /\ sorted cmp cur /\ st_en s = en /\
  updated cmp mask done kvs cur /\ sum_of w cur <= sum_of w kvs + sum_of w (set_rows done) /\
  exists ev, st_ev s = rev ev /\ (apart_from cmp mask L kvs -> sum_of w kvs + sum_of w (set_rows L) < 2^40 -> sum_of pw ev = counted done).

Lemma flush_inv last done pend rest cur u s u' s' : L = done ++ pend ++ rest -> Inv done pend cur u s -> flush (rqm mask) last batch u s = (Ok u', s') -> fits_file (st_f s') ->
  exists done' pend' cur', done' ++ pend' = done ++ pend /\ (last = true -> pend' = []) /\ Inv done' pend' cur' u' s' /\ u_ins u' = u_ins u /\ u_rem u' = u_rem u.
Proof.
  intros EL (I1 & I2 & I3 & I4 & I5 & I6 & I7 & ev & I8 & I9) Hf F. unfold flush in Hf.
  assert (Hnil : (match u_acts u with [] => true | _ => false end) = (match pend with [] => true | _ => false end)).
  { rewrite I1. destruct pend as [|r pend]; [reflexivity|]. cbn [map rev]. destruct (rev (map act pend)); reflexivity. }
  rewrite Hnil in Hf. destruct pend as [|r pend].
  { cbn [negb andb] in Hf. injection Hf as <- <-. exists done, [], cur. split; [reflexivity|]. split; [reflexivity|]. split; [|auto]. repeat split; auto; try apply I6; exists ev; auto. }
  cbn [negb andb] in Hf. destruct (last || (batch <? u_size u) || (lenN (u_acts u) =? MAX_ACTIONS)) eqn:Hl.
  2:{ injection Hf as <- <-. exists done, (r :: pend), cur. split; [reflexivity|]. split; [intros ->; discriminate Hl|]. split; [|auto]. repeat split; auto; try apply I6; exists ev; auto. }
  apply run_step in Hf. destruct Hf as (root' & s1 & Hm & Hr). injection Hr as <- <-. rewrite I1, rev_involutive in Hm. set (P := r :: pend) in *. destruct s as [f ev0 en0]. cbn [st_f st_ev st_en] in *. subst ev0 en0.
  assert (HS : strictly cmp (done ++ P) /\ Forall (op_ok record) (done ++ P)).
  { rewrite EL in HL, HO. rewrite app_assoc in HL, HO. rewrite Forall_app in HO. split; [exact (proj1 (strictly_app HL))|exact (proj1 HO)]. }
  destruct HS as [HS HOP]. pose proof (proj1 (proj2 (strictly_app HS))) as HSP. assert (HP : Forall (op_ok record) P) by (rewrite Forall_app in HOP; exact (proj2 HOP)).
  destruct (acts_sorted HSP) as [Ha1 Ha2]. pose proof (acts_record HP) as Ha3. destruct (K_tree EO K I2) as [G _].
  assert (Hne : map act P <> []) by discriminate.
  assert (M' : made rqm record (st_f s1) root') by exact (@made_update E rqm record f (u_root u) mask (rev ev) en (map act P) root' s1 I2 (fun _ => Hmask) Ha1 Ha2 Ha3 Hm).
  assert (UR : rtree mask (st_f s1) root' (merge cmp (if en then without mask cur else cur) (map act P)) /\ exists l, logged (St f (rev ev) en) s1 l /\
      (if en then sum_of w (untouched cmp (map act P) cur) < limit -> sum_of pw l = sum_of w (only mask (untouched cmp (map act P) cur)) else l = [])).
  { pose proof (fun OK => @update_run E EO cmp OK red rered w record R pkv pkp pw) as UR0. pose proof K as [K1 K2 K3 K4 K5 K6 K7 K8 K9 K10 K11 K12].
    specialize (UR0 K1 K2 K3 K4 K5 K6 K7 K8 K9 K10 mask f (rev ev) en (u_root u) cur (map act P) _ _ (fun _ => Hmask) G I3 I4 Ha1 Ha3 Hne Hm F). exact UR0. }
  destruct UR as [T' (l & [L1 L2] & L3)]. rewrite en_without in T'.
  exists (done ++ P), [], (merge cmp (without mask cur) (map act P)). split; [apply app_nil_r|]. split; [reflexivity|]. split; [|auto].
  pose proof (k_ord K) as OC. pose proof (@batch_updated cmp OC record mask done P kvs cur HS HOP ltac:(discriminate) I4 I6) as HU.
  split; [reflexivity|]. split; [exact M'|]. split; [exact T'|]. split; [apply merge_sorted; auto; now apply filter_sorted|]. split; [exact L2|]. split; [exact HU|]. split.
  { pose proof (@merge_sum cmp w (without mask cur) (map act P)) as HM. rewrite (new_rows HP) in HM. pose proof (@sum_filter _ w (fun x => negb (in_mask mask x)) cur) as HF. fold (without mask cur) in HF. rewrite set_rows_app, sum_of_app. lia. }
  exists (ev ++ l). cbn [st_ev] in L1. split; [rewrite L1, rev_app_distr; reflexivity|]. intros HA HB. rewrite sum_of_app, (I9 HA HB).
  assert (Hc : counted (done ++ P) = sum_of w (only mask kvs)) by (unfold counted, cleaned, P; destruct done; reflexivity). rewrite Hc.
  assert (Hset : sum_of w (set_rows done) <= sum_of w (set_rows L)) by (rewrite EL, set_rows_app, sum_of_app; lia).
  destruct en eqn:Hen.
  2:{ subst l. unfold en in Hen. apply negb_false_iff, is_equal_eq in Hen. assert (Hz : only mask kvs = []). { assert (Hm0 : mask = empty_bitmap) by congruence. unfold only. apply filter_none. intros x _. unfold in_mask. rewrite Hm0. change (number empty_bitmap) with 0. apply N.bits_0. }
      unfold counted, cleaned. rewrite Hz. destruct done; reflexivity. }
  assert (Hun : sum_of w (untouched cmp (map act P) cur) < limit).
  { pose proof (@sum_filter _ w (fun x => negb (existsb (touches cmp (fst x)) (map act P))) cur) as HF. fold (untouched cmp (map act P) cur) in HF. unfold limit. lia. }
  rewrite (L3 Hun). unfold only, untouched. destruct done as [|d done].
  - cbn [counted cleaned]. pose proof (up_none I6 eq_refl) as Hcur. rewrite Hcur. rewrite N.add_0_l. f_equal. apply filter_filter. intros x Hx Hm'. apply negb_true_iff. apply touches_none. intros a Hain He.
    apply in_map_iff in Hain. destruct Hain as (q & <- & Hq). cbn [act a_key] in He. apply (proj2 HA x Hx Hm'). exists q. split; [|exact (eq_flip OC He)]. rewrite EL. cbn [app]. apply in_or_app. now left.
  - cbn [counted cleaned]. rewrite filter_none; [change (sum_of w []) with 0; apply N.add_0_r|]. intros x Hx. apply filter_In in Hx. destruct Hx as [Hx _].
    destruct (up_only I6 ltac:(discriminate) Hx) as [Hx'|(_ & _ & Hx')]; [|exact Hx']. apply (proj1 HA). rewrite EL, set_rows_app. apply in_or_app. now left.
Qed.
Lemma loop_inv : forall todo fuel done pend cur u s u' s', L = done ++ pend ++ todo -> (length todo < fuel)%nat -> u_ins u < 2^64 -> u_rem u < 2^64 -> Inv done pend cur u s ->
  update_loop fuel (rqm mask) batch (records_file true todo) u s = (Ok u', s') -> fits_file (st_f s') ->
  exists cur', Inv L [] cur' u' s' /\ u_ins u' = (u_ins u + n_set todo) mod 2^64 /\ u_rem u' = (u_rem u + n_removed todo) mod 2^64.
Proof.
  induction todo as [|r todo IH]; intros [|fuel] done pend cur u s u' s' EL Hfu Hi Hr HI Hrun F; try (cbn [length] in Hfu; lia); cbn [update_loop] in Hrun.
  - apply run_step in Hrun. destruct Hrun as (x & s1 & H1 & H2). unfold lift in H1. injection H1 as <- <-.
    destruct (@flush_inv true done pend [] cur u s u' s' EL HI H2 F) as (done' & pend' & cur' & Ed & Hl & HI' & Hu1 & Hu2). rewrite (Hl eq_refl) in *. rewrite app_nil_r in *. subst done'. rewrite <- EL in HI'.
    exists cur'. split; [exact HI'|]. change (n_set []) with 0. change (n_removed []) with 0. rewrite !N.add_0_r, !N.mod_small by assumption. auto.
  - assert (Hop : op_ok record r) by (rewrite EL in HO; rewrite !Forall_app in HO; destruct HO as (_ & _ & H); now inversion H).
    rewrite records_cons in Hrun. apply run_step in Hrun. destruct Hrun as (x & s1 & H1 & H2). unfold lift in H1. rewrite (@read_record_ok record r (records_file true todo) Hop) in H1. injection H1 as <- <-.
    apply run_step in H2. destruct H2 as (u1 & s1 & H3 & H4). unfold lift in H3.
    assert (Hadd : add_action (v_op r) (v_key r) (v_val r) u = Ok (Upd (u_root u) (act r :: u_acts u) (u_size u + lenN (v_key r) + lenN (v_val r) + 1)
        (if v_op r =? 2 then (u_ins u + 1) mod 2^64 else u_ins u) (if v_op r =? 1 then (u_rem u + 1) mod 2^64 else u_rem u))).
    { unfold add_action, act. destruct Hop as (_ & _ & [-> | [-> _]]); reflexivity. }
    rewrite Hadd in H3. injection H3 as <- <-. apply run_step in H4. destruct H4 as (u2 & s2 & H5 & H6).
    destruct (@ow_update E _ _ _ _ _ _ _ _ H6) as [lg W]. assert (HI1 : Inv done (pend ++ [r]) cur (Upd (u_root u) (act r :: u_acts u) (u_size u + lenN (v_key r) + lenN (v_val r) + 1)
        (if v_op r =? 2 then (u_ins u + 1) mod 2^64 else u_ins u) (if v_op r =? 1 then (u_rem u + 1) mod 2^64 else u_rem u)) s).
    { destruct HI as (I1 & HI). split; [|exact HI]. cbn [u_acts]. rewrite I1, map_app, rev_app_distr. reflexivity. }
    assert (EL1 : L = done ++ (pend ++ [r]) ++ todo) by (rewrite EL, <- !app_assoc; reflexivity).
    assert (G2 : good (st_f s)) by (destruct HI as (_ & I2 & _); exact (proj1 (K_tree EO K I2))).
    destruct (@ow_flush_batch E _ _ _ _ _ _ _ H5) as [lg1 W1]. pose proof (writes_appends W1) as A1. pose proof (proj1 (appends_good EO A1 G2)) as G3. pose proof (fits_back EO G3 (writes_appends W) F) as F2.
    destruct (@flush_inv false done (pend ++ [r]) todo cur _ s u2 s2 EL1 HI1 H5 F2) as (done' & pend' & cur' & Ed & _ & HI' & Hu1 & Hu2). cbn [u_ins u_rem] in Hu1, Hu2.
    assert (M : forall a, (a + 1) mod 2^64 < 2^64) by (intros; apply N.mod_lt; discriminate).
    destruct (@IH fuel done' pend' cur' u2 s2 u' s') as (cur2 & J1 & J2 & J3).
    { rewrite app_assoc, Ed, <- app_assoc. exact EL1. }
    { cbn [length] in Hfu. lia. }
    { rewrite Hu1. destruct (v_op r =? 2); auto. }
    { rewrite Hu2. destruct (v_op r =? 1); auto. }
    { exact HI'. }
    { exact H6. }
    { exact F. }
    exists cur2. split; [exact J1|]. rewrite J2, J3, Hu1, Hu2. unfold n_set, n_removed. cbn [filter].
    split; [destruct (v_op r =? 2)|destruct (v_op r =? 1)]; try reflexivity; rewrite N.add_mod_idemp_l by discriminate; rewrite lenN_cons; f_equal; lia.
Qed.

Lemma update_one root ins rem count f root' ins' rem' count' f' : made rqm record f root -> holds f root kvs -> ins < 2^64 -> rem < 2^64 -> count < 2^64 ->
  update_btree (rqm mask) pw mask root batch (records_file true L) ins rem count f = (Ok (root', ins', rem', count'), f') -> fits_file f' ->
  appends f f' /\ made rqm record f' root' /\ exists kvs', holds f' root' kvs' /\ sorted cmp kvs' /\ Forall record kvs' /\ updated cmp mask L kvs kvs' /\
    ins' = (ins + n_set L) mod 2^64 /\ rem' = (rem + n_removed L) mod 2^64 /\ count' < 2^64 /\ match root' with Some p => exact w kvs' (np_reduce p) | None => kvs' = [] end /\
    (apart_from cmp mask L kvs -> sum_of w kvs + sum_of w (set_rows L) < 2^40 -> count + cleaned w mask L kvs < 2^64 -> count' = count + cleaned w mask L kvs).
Proof.
  intros M [z Hz] Hi Hr Hc0 Hu F. unfold update_btree in Hu. fold en in Hu.
  destruct (update_loop (S (length (records_file true L))) (rqm mask) batch (records_file true L) (Upd root [] 0 ins rem) (St f [] en)) as [[u|e] s'] eqn:Hrun; [|discriminate Hu].
  cbn [bind] in Hu. assert (Hall : root' = u_root u /\ ins' = u_ins u /\ rem' = u_rem u /\ count' = (count + purged pw (rev (st_ev s'))) mod 2 ^ 64 /\ f' = st_f s') by (injection Hu as <- <- <- <- <-; auto).
  destruct Hall as (-> & -> & -> & -> & ->). clear Hu. destruct (@ow_update E _ _ _ _ _ _ _ _ Hrun) as [lg W]. cbn [st_f] in W. pose proof (writes_appends W) as A.
  destruct (K_tree EO K M) as [G T]. pose proof (fits_back EO G A F) as F0. destruct (T F0) as (kvs0 & T0 & S0). destruct (rtree_idx EO K G T0) as (z0 & Hz0). destruct (index_det Hz Hz0) as [Hk _]. rewrite <- Hk in T0, S0.
  assert (HI : Inv [] [] kvs (Upd root [] 0 ins rem) (St f [] en)).
  { split; [reflexivity|]. split; [exact M|]. split; [exact T0|]. split; [exact S0|]. split; [reflexivity|]. split.
    { constructor; [reflexivity|intros H; now elim H|auto|intros x []]. }
    split; [change (sum_of w (set_rows [])) with 0; lia|]. exists []. split; reflexivity. }
  destruct (@loop_inv L (S (length (records_file true L))) [] [] kvs (Upd root [] 0 ins rem) (St f [] en) u s' eq_refl ltac:(pose proof (records_long L); lia) Hi Hr HI Hrun F) as (cur' & (_ & M' & T' & S' & _ & U' & _ & ev & Hev & Hsum) & Hins & Hrem). cbn [u_ins u_rem] in Hins, Hrem.
  destruct (K_tree EO K M') as [G' _]. split; [exact A|]. split; [exact M'|]. exists cur'. split; [exact (rtree_idx EO K G' T')|]. split; [exact S'|]. split; [exact (rtree_rec T')|]. split; [exact U'|].
  split; [exact Hins|]. split; [exact Hrem|]. split; [apply N.mod_lt; discriminate|]. split.
  { destruct (u_root u) as [p|]; [|exact T']. destruct T' as (d & p' & Ht & _ & Hred & _). rewrite <- Hred. pose proof K as [K1 K2 K3 K4 K5 K6 K7 K8 K9 K10 K11 K12]. eapply tree_exact; eassumption. }
  intros HA HB HC. rewrite Hev, rev_involutive. unfold purged. specialize (Hsum HA HB). unfold counted in Hsum. rewrite (fold_count (g := pw)) by (rewrite Hsum; lia). rewrite Hsum, N.add_0_l. apply N.mod_small. exact HC.
Qed.
End Kind.

(** ** The group *)
Definition seen (bm : bitmap) (P : N -> Prop) : Prop := bitmap_ok bm /\ forall q, q < 1024 -> (bit_of bm q = true <-> P q).
Lemma seen_union bm P w kvs r : seen bm P -> exact w kvs r -> exists c b t, read_count_bitmap r = Ok ((c, b), t) /\ seen (union_bitmaps bm b) (fun q => P q \/ exists x, In x kvs /\ part x = q).
Proof.
  intros [B1 B2] (c & b & t & -> & Hb & Hbit & Hc & _). exists c, b, t. split; [now apply head_dec|]. split; [now apply union_ok|]. intros q Hq. rewrite union_bit by assumption. rewrite orb_true_iff, (B2 q Hq), (Hbit q Hq).
  rewrite existsb_exists. setoid_rewrite N.eqb_eq. reflexivity.
Qed.
Lemma seen_ext bm P Q : seen bm P -> (forall q, P q <-> Q q) -> seen bm Q.
Proof. intros [B1 B2] H. split; [exact B1|]. intros q Hq. rewrite (B2 q Hq). apply H. Qed.

Lemma filter_perm A (p : A -> bool) l l' : Permutation l l' -> Permutation (filter p l) (filter p l').
Proof. induction 1; cbn [filter]; auto. - destruct (p x); auto. - destruct (p x), (p y); auto. apply perm_swap. - eapply perm_trans; eassumption. Qed.
Lemma set_perm l l' : Permutation l l' -> Permutation (set_rows l) (set_rows l').
Proof. intros H. apply Permutation_map, filter_perm, H. Qed.
Lemma lenN_perm A (l l' : list A) : Permutation l l' -> lenN l = lenN l'.
Proof. intros H. unfold lenN. now rewrite (Permutation_length H). Qed.
Lemma sum_perm A (g : A -> N) l l' : Permutation l l' -> sum_of g l = sum_of g l'.
Proof. induction 1; rewrite ?sum_of_cons; try lia; reflexivity. Qed.
Lemma named_perm cmp l l' x : Permutation l l' -> named cmp l x <-> named cmp l' x.
Proof. intros H. unfold named. split; intros (r & Hr & He); exists r; (split; [|exact He]); [eapply Permutation_in; eassumption|eapply Permutation_in; [apply Permutation_sym|]; eassumption]. Qed.
Lemma perm_nil A (l l' : list A) : Permutation l l' -> (l = [] <-> l' = []).
Proof. intros H. split; intros ->; [exact (Permutation_nil H)|exact (Permutation_nil (Permutation_sym H))]. Qed.
Lemma updated_perm cmp mask l l' kvs kvs' : Permutation l l' -> updated cmp mask l' kvs kvs' -> updated cmp mask l kvs kvs'.
Proof.
  intros H [U0 U1 U2 U3]. pose proof (perm_nil H) as Hn. pose proof (set_perm H) as Hs. constructor.
  - rewrite Hn. exact U0.
  - rewrite Hn. intros Hne x Hx. destruct (U1 Hne x Hx) as [Hx'|(A & B & C)]; [left; eapply Permutation_in; [apply Permutation_sym; exact Hs|exact Hx']|]. right. rewrite (named_perm cmp x H). auto.
  - intros x. rewrite (named_perm cmp x H). apply U2.
  - intros x Hx. apply U3. eapply Permutation_in; eassumption.
Qed.
Lemma apart_perm cmp mask l l' kvs : Permutation l l' -> apart_from cmp mask l kvs -> apart_from cmp mask l' kvs.
Proof.
  intros H [A B]. split; [intros x Hx; apply A; eapply Permutation_in; [apply Permutation_sym, set_perm; exact H|exact Hx]|]. intros x Hx Hm. rewrite <- (named_perm cmp x H). now apply B.
Qed.
Lemma cleaned_perm w mask l l' kvs : Permutation l l' -> cleaned w mask l kvs = cleaned w mask l' kvs.
Proof. intros H. pose proof (perm_nil H) as [H1 H2]. destruct l, l'; try reflexivity; [discriminate (H1 eq_refl)|discriminate (H2 eq_refl)]. Qed.

Section Group.
Context {E : Env} (EO : EnvOk E).
Lemma update_appends rq w mask root batch b ins rem count f r f' : update_btree rq w mask root batch b ins rem count f = (r, f') -> appends f f'.
Proof.
  unfold update_btree. destruct (update_loop _ rq batch b _ _) as [x s] eqn:H. intros Hc. injection Hc as <- <-. destruct (@ow_update E _ _ _ _ _ _ _ _ H) as [lg W]. exact (writes_appends W).
Qed.
Lemma views_update_appends collate mask batch sorter l : forall ins rem count bm f r f', update_views collate mask batch sorter l ins rem count bm f = (r, f') -> appends f f'.
Proof.
  induction l as [|[[rs root] b] l IH]; intros ins rem count bm f r f' H; cbn [update_views] in H; [injection H as <- <-; constructor|].
  destruct (ops_file sorter b) as [b'|e]; [|injection H as <- <-; constructor].
  destruct (update_btree (view_cleanup_request collate rs mask) view_purged mask root batch b' ins rem count f) as [[[[[root' i1] r1] c1]|e] f1] eqn:H1; pose proof (update_appends H1) as A1; [|injection H as <- <-; exact A1].
  destruct (view_bitmask root' bm) as [bm1|e]; [|injection H as <- <-; exact A1].
  destruct (update_views collate mask batch sorter l i1 r1 c1 bm1 f1) as [[[[[[roots i2] r2] c2] bm2]|e] f2] eqn:H2; injection H as <- <-; exact (appends_trans A1 (IH _ _ _ _ _ _ _ H2)).
Qed.

(** One index, with the records in any order. *)
Lemma update_kind cmp red rered w record R pkv pkp pw (K : kind_ok cmp red rered w record R pkv pkp pw) mask batch sorter b b' l root kvs ins rem count f root' ins' rem' count' f' :
  bitmap_ok mask -> prepared cmp sorter b l -> Forall (op_ok record) l -> ops_file sorter b = Ok b' -> made (rqm cmp red rered pkv pkp) record f root -> holds f root kvs -> ins < 2^64 -> rem < 2^64 -> count < 2^64 ->
  update_btree (rqm cmp red rered pkv pkp mask) pw mask root batch b' ins rem count f = (Ok (root', ins', rem', count'), f') -> fits_file f' ->
  made (rqm cmp red rered pkv pkp) record f' root' /\ exists kvs', holds f' root' kvs' /\ index_updated cmp mask l (kvs, kvs') /\
    ins' = (ins + n_set l) mod 2^64 /\ rem' = (rem + n_removed l) mod 2^64 /\ count' < 2^64 /\ match root' with Some p => exact w kvs' (np_reduce p) | None => kvs' = [] end /\
    (countable cmp w mask l (kvs, kvs') -> count + cleaned w mask l kvs < 2^64 -> count' = count + cleaned w mask l kvs).
Proof.
  intros Hm (l' & HP & HS & Hops) HO Hb M Hh Hi Hr Hc Hu F. rewrite Hops in Hb. injection Hb as <-. assert (HO' : Forall (op_ok record) l') by (rewrite Forall_forall in *; intros x Hx; apply HO; eapply Permutation_in; [apply Permutation_sym; exact HP|exact Hx]).
  destruct (@update_one E EO cmp red rered w record R pkv pkp pw K mask Hm batch kvs l' HS HO' root ins rem count f root' ins' rem' count' f' M Hh Hi Hr Hc Hu F) as (_ & M' & kvs' & H1 & H2 & H3 & H4 & H5 & H6 & H7 & H8 & H9).
  split; [exact M'|]. exists kvs'. split; [exact H1|]. split; [split; [exact H2|exact (updated_perm HP H4)]|]. unfold n_set, n_removed in *.
  rewrite (lenN_perm (filter_perm _ HP)), (lenN_perm (filter_perm (fun r => v_op r =? 1) HP)), (cleaned_perm w mask kvs HP). split; [exact H5|]. split; [exact H6|]. split; [exact H7|]. split; [exact H8|].
  intros [HA HB] HC. cbn [fst] in *. rewrite (sum_perm w (set_perm HP)) in HB. apply H9; [exact (apart_perm HP HA)|exact HB|exact HC].
Qed.
Lemma sum_combine_cons A B (g : A * B -> N) a b l l' : sum_of g (combine (a :: l) (b :: l')) = g (a, b) + sum_of g (combine l l').
Proof. cbn [combine]. apply sum_of_cons. Qed.
Lemma views_update collate mask batch sorter f0 : ord collate -> bitmap_ok mask -> good f0 -> forall reds roots bs recs ins rem count bm P f roots' ins' rem' count' bm' f',
  appends f0 f -> Forall2 (fun rs root => view_made collate rs f0 root) reds roots -> length bs = length reds -> Forall2 (prepared (view_key_cmp collate) sorter) bs recs -> Forall (Forall (op_ok view_record)) recs -> seen bm P ->
  ins < 2^64 -> rem < 2^64 -> count < 2^64 -> update_views collate mask batch sorter (combine (combine reds roots) bs) ins rem count bm f = (Ok (roots', ins', rem', count', bm'), f') -> fits_file f' ->
  appends f f' /\ Forall2 (fun rs root => view_made collate rs f' root) reds roots' /\ length roots' = length roots /\
  exists rows, Forall2 (fun root x => holds f0 root (fst x)) roots rows /\ Forall2 (fun root x => holds f' root (snd x)) roots' rows /\ Forall2 (index_updated (view_key_cmp collate) mask) recs rows /\
    seen bm' (fun q => P q \/ exists x y, In x rows /\ In y (snd x) /\ part y = q) /\ ins' = (ins + sum_of n_set recs) mod 2^64 /\ rem' = (rem + sum_of n_removed recs) mod 2^64 /\ count' < 2^64 /\
    (Forall2 (countable (view_key_cmp collate) num_values mask) recs rows -> count + sum_of (fun x => cleaned num_values mask (fst x) (fst (snd x))) (combine recs rows) < 2^64 ->
     count' = count + sum_of (fun x => cleaned num_values mask (fst x) (fst (snd x))) (combine recs rows)).
Proof.
  intros OC Hmask G0. induction reds as [|rs reds IH]; intros roots bs recs ins rem count bm P f roots' ins' rem' count' bm' f' A0 HM Hlen HP HO Hseen Hi Hr Hc Hu F.
  - inversion HM; subst. destruct bs as [|b bs]; [|discriminate Hlen]. inversion HP; subst. cbn [combine update_views] in Hu. injection Hu as <- <- <- <- <- <-. split; [constructor|]. split; [constructor|]. split; [reflexivity|]. exists [].
    split; [constructor|]. split; [constructor|]. split; [constructor|]. split; [eapply seen_ext; [exact Hseen|]; intros q; split; [auto|intros [H|(x & y & [] & _)]; exact H]|].
    change (sum_of n_set []) with 0. change (sum_of n_removed []) with 0. rewrite !N.add_0_r, !N.mod_small by assumption. split; [reflexivity|]. split; [reflexivity|]. split; [exact Hc|]. intros _ _. cbn [combine]. change (sum_of _ []) with 0. lia.
  - inversion HM as [|? root ? roots1 M1 M2]; subst. destruct bs as [|b bs]; [discriminate Hlen|]. inversion HP as [|? l ? recs1 P1 P2]; subst. inversion HO as [|? ? O1 O2]; subst. cbn [combine update_views] in Hu.
    destruct (ops_file sorter b) as [b'|e] eqn:Hops; [|discriminate Hu].
    destruct (update_btree (view_cleanup_request collate rs mask) view_purged mask root batch b' ins rem count f) as [[[[[root' i1] r1] c1]|e] f1] eqn:H1; [|discriminate Hu].
    destruct (view_bitmask root' bm) as [bm1|e] eqn:Hvb; [|discriminate Hu].
    destruct (update_views collate mask batch sorter (combine (combine reds roots1) bs) i1 r1 c1 bm1 f1) as [[[[[[roots2 i2] r2] c2] bm2]|e] f2] eqn:H2; [|discriminate Hu]. injection Hu as <- <- <- <- <- <-.
    destruct (max_bounded [rs]) as (Rs & HR & _). inversion HR as [|? R ? ? [HR1 HB] _]; subst. pose proof (view_kind OC HR1 HB) as KK.
    pose proof (proj1 (appends_good EO A0 G0)) as G. pose proof (update_appends H1) as A1. pose proof (proj1 (appends_good EO A1 G)) as G1. pose proof (views_update_appends H2) as A2. pose proof (fits_back EO G1 A2 F) as F1. pose proof (fits_back EO G A1 F1) as Ff.
    destruct (view_keep EO OC HR1 HB M1 A0 Ff) as (kvs & z0 & z1 & J1 & J2 & _).
    destruct (@update_kind _ _ _ _ _ _ _ _ _ KK mask batch sorter b b' l root kvs ins rem count f root' i1 r1 c1 f1 Hmask P1 O1 Hops (made_other M1 A0) (ex_intro _ z1 J2) Hi Hr Hc H1 F1) as (M' & kvs' & Q1 & Q2 & Q3 & Q4 & Q5 & Q6 & Q7).
    assert (Hseen1 : seen bm1 (fun q => P q \/ exists x, In x kvs' /\ part x = q)).
    { destruct root' as [p|]; cbn [view_bitmask] in Hvb.
      - destruct (seen_union Hseen Q6) as (c & bb & t & Hd & Hs). unfold decode_view_btree_reduction_partitions_bitmap in Hvb. rewrite Hd in Hvb. cbn [bind snd] in Hvb. injection Hvb as <-. exact Hs.
      - injection Hvb as <-. subst kvs'. eapply seen_ext; [exact Hseen|]. intros q. split; [auto|intros [H|(x & [] & _)]; exact H]. }
    assert (Hi1 : i1 < 2^64) by (subst i1; apply N.mod_lt; discriminate). assert (Hr1 : r1 < 2^64) by (subst r1; apply N.mod_lt; discriminate).
    destruct (IH roots1 bs recs1 i1 r1 c1 bm1 _ f1 roots2 i2 r2 c2 bm2 f2 (appends_trans A0 A1) M2 ltac:(cbn [length] in Hlen; lia) P2 O2 Hseen1 Hi1 Hr1 Q5 H2 F) as (_ & HM' & Hl' & rows & W1 & W2 & W3 & W4 & W5 & W6 & W7 & W8).
    split; [exact (appends_trans A1 A2)|]. split; [constructor; [exact (made_other M' A2)|exact HM']|]. split; [cbn [length]; lia|]. exists ((kvs, kvs') :: rows).
    split; [constructor; [exists z0; exact J1|exact W1]|]. split; [constructor; [exact (view_has_keep EO OC M' A2 F Q1)|exact W2]|]. split; [constructor; [exact Q2|exact W3]|]. split.
    { eapply seen_ext; [exact W4|]. intros q. split.
      - intros [[H|(x & Hx & Hp)]|(x & y & Hx & Hy & Hp)]; [auto|right; exists (kvs, kvs'), x; cbn [snd]; auto using in_eq|right; exists x, y; auto using in_cons].
      - intros [H|(x & y & [<-|Hx] & Hy & Hp)]; [auto|left; right; exists y; auto|right; exists x, y; auto]. }
    rewrite !sum_of_cons. split; [rewrite W5, Q3, N.add_mod_idemp_l by discriminate; f_equal; lia|]. split; [rewrite W6, Q4, N.add_mod_idemp_l by discriminate; f_equal; lia|]. split; [exact W7|].
    intros HC. inversion HC as [|? ? ? ? C1 C2]; subst. rewrite sum_combine_cons. cbn [fst snd]. intros Hlt. rewrite (W8 C2) by (rewrite (Q7 C1) by lia; lia). rewrite (Q7 C1) by lia. lia.
Qed.

Theorem group_update collate reds batch sid skv idb kvb ids recs h us f h' us' f' : ord collate -> group_made collate reds h f -> prepared ebin_cmp sid idb ids -> Forall (op_ok id_record) ids ->
  Forall2 (prepared (view_key_cmp collate) skv) kvb recs -> Forall (Forall (op_ok view_record)) recs -> length kvb = length reds ->
  us_ids_ins us < 2^64 -> us_ids_rem us < 2^64 -> us_kvs_ins us < 2^64 -> us_kvs_rem us < 2^64 ->
  update_header collate reds batch sid skv idb kvb h us f = (Ok (h', us'), f') -> fits_file f' ->
  appends f f' /\ group_made collate reds h' f' /\ h' = with_roots h (ih_cleanup h') (ih_id_state h') (ih_view_states h') /\ length (ih_view_states h') = length (ih_view_states h) /\
  exists idr rows, holds f (ih_id_state h) (fst idr) /\ holds f' (ih_id_state h') (snd idr) /\ index_updated ebin_cmp (ih_cleanup h) ids idr /\
    Forall2 (fun root x => holds f root (fst x)) (ih_view_states h) rows /\ Forall2 (fun root x => holds f' root (snd x)) (ih_view_states h') rows /\
    Forall2 (index_updated (view_key_cmp collate) (ih_cleanup h)) recs rows /\
    (forall q, q < 1024 -> (N.testbit (number (ih_cleanup h')) q = true <-> N.testbit (number (ih_cleanup h)) q = true /\ exists x y, In x (idr :: rows) /\ In y (snd x) /\ part y = q)) /\
    us_ids_ins us' = (us_ids_ins us + n_set ids) mod 2^64 /\ us_ids_rem us' = (us_ids_rem us + n_removed ids) mod 2^64 /\
    us_kvs_ins us' = (us_kvs_ins us + sum_of n_set recs) mod 2^64 /\ us_kvs_rem us' = (us_kvs_rem us + sum_of n_removed recs) mod 2^64 /\
    (countable ebin_cmp (fun _ => 1) (ih_cleanup h) ids idr -> Forall2 (countable (view_key_cmp collate) num_values (ih_cleanup h)) recs rows ->
     cleaned (fun _ => 1) (ih_cleanup h) ids (fst idr) + sum_of (fun x => cleaned num_values (ih_cleanup h) (fst x) (fst (snd x))) (combine recs rows) < 2^64 ->
     us_purged us' = cleaned (fun _ => 1) (ih_cleanup h) ids (fst idr) + sum_of (fun x => cleaned num_values (ih_cleanup h) (fst x) (fst (snd x))) (combine recs rows)).
Proof.
  intros OC (Hmask & M0 & MV) HPi HOi HPv HOv Hlen B1 B2 B3 B4 Hu F. unfold update_header in Hu. destruct (negb (lenN reds =? lenN (ih_view_states h))); [discriminate Hu|]. set (mask := ih_cleanup h) in *.
  destruct (ops_file sid idb) as [idb'|e] eqn:Hops; [|discriminate Hu].
  destruct (update_btree (id_cleanup_request mask) id_purged mask (ih_id_state h) batch idb' (us_ids_ins us) (us_ids_rem us) 0 f) as [[[[[id_root i1] r1] c1]|e] f1] eqn:H1; [|discriminate Hu].
  destruct (update_views collate mask batch skv (combine (combine reds (ih_view_states h)) kvb) (us_kvs_ins us) (us_kvs_rem us) c1 (view_id_bitmask id_root empty_bitmap) f1) as [[[[[[roots i2] r2] c2] bm]|e] f2] eqn:H2; [|discriminate Hu].
  injection Hu as <- <- <-. pose proof (good_made_id EO M0) as G. pose proof (update_appends H1) as A1. pose proof (proj1 (appends_good EO A1 G)) as G1. pose proof (views_update_appends H2) as A2. pose proof (fits_back EO G1 A2 F) as F1. pose proof (fits_back EO G A1 F1) as F0.
  destruct (id_keep EO M0 (app_refl f) F0) as (kvs & z & _ & Iz & _).
  destruct (@update_kind _ _ _ _ _ _ _ _ _ id_kind mask batch sid idb idb' ids (ih_id_state h) kvs _ _ 0 f id_root i1 r1 c1 f1 Hmask HPi HOi Hops M0 (ex_intro _ z Iz) B1 B2 eq_refl H1 F1) as (M' & kvs' & Q1 & Q2 & Q3 & Q4 & Q5 & Q6 & Q7).
  assert (Hseen : seen (view_id_bitmask id_root empty_bitmap) (fun q => exists x, In x kvs' /\ part x = q)).
  { assert (S0 : seen empty_bitmap (fun _ => False)) by (split; [exact empty_ok|intros q _; rewrite empty_bit; split; [discriminate|intros []]]). destruct id_root as [p|]; cbn [view_id_bitmask].
    - destruct (seen_union S0 Q6) as (c & bb & t & Hd & Hs). unfold decode_view_id_btree_reduction. rewrite Hd. cbn [bind ir_bitmap]. eapply seen_ext; [exact Hs|]. intros q. tauto.
    - subst kvs'. eapply seen_ext; [exact S0|]. intros q. split; [intros []|intros (x & [] & _)]. }
  destruct (@views_update collate mask batch skv f OC Hmask G reds (ih_view_states h) kvb recs _ _ c1 _ _ f1 roots i2 r2 c2 bm f2 A1 MV Hlen HPv HOv Hseen B3 B4 Q5 H2 F) as (_ & HM' & Hl' & rows & W1 & W2 & W3 & W4 & W5 & W6 & W7 & W8).
  destruct W4 as [Wb Wq]. cbn [with_roots ih_cleanup ih_id_state ih_view_states us_ids_ins us_ids_rem us_kvs_ins us_kvs_rem us_purged].
  split; [exact (appends_trans A1 A2)|]. split; [split; [exact (inter_ok Wb Hmask)|split; [exact (made_other M' A2)|exact HM']]|]. split; [reflexivity|]. split; [exact Hl'|].
  exists (kvs, kvs'), rows. cbn [fst snd]. split; [exists z; exact Iz|]. split; [exact (id_has_keep EO M' A2 F Q1)|]. split; [exact Q2|]. split; [exact W1|]. split; [exact W2|]. split; [exact W3|]. split.
  { intros q Hq. rewrite (mask_bit (inter_ok Wb Hmask) Hq), (mask_bit Hmask Hq), inter_bit, andb_true_iff, (Wq q Hq) by assumption. split.
    - intros [[(x & Hx & Hp)|(x & y & Hx & Hy & Hp)] Hm]; (split; [exact Hm|]); [exists (kvs, kvs'), x; auto using in_eq|exists x, y; auto using in_cons].
    - intros [Hm (x & y & [<-|Hx] & Hy & Hp)]; (split; [|exact Hm]); [left; exists y; auto|right; exists x, y; auto]. }
  split; [exact Q3|]. split; [exact Q4|]. split; [exact W5|]. split; [exact W6|]. intros C1 C2 Hlt. rewrite (W8 C2) by (rewrite (Q7 C1) by lia; lia). rewrite (Q7 C1) by lia. lia.
Qed.

Lemma id_has_back f root l f' : made id_cleanup_request id_record f root -> appends f f' -> fits_file f' -> holds f' root l -> holds f root l.
Proof. intros M A F [z Hz]. destruct (id_keep EO M A F) as (l0 & y0 & y1 & L1 & L2 & _). destruct (index_det Hz L2) as [-> _]. exists y0. exact L1. Qed.
Lemma view_has_back collate rs f root l f' : ord collate -> view_made collate rs f root -> appends f f' -> fits_file f' -> holds f' root l -> holds f root l.
Proof.
  intros OC M A F [z Hz]. destruct (max_bounded [rs]) as (Rs & HR & _). inversion HR as [|? R ? ? [HR1 HB] _]; subst. destruct (view_keep EO OC HR1 HB M A F) as (l0 & y0 & y1 & L1 & L2 & _).
  destruct (index_det Hz L2) as [-> _]. exists y0. exact L1.
Qed.
Lemma views_have_back collate reds f f' : ord collate -> appends f f' -> fits_file f' -> forall roots rows, Forall2 (fun rs root => view_made collate rs f root) reds roots ->
  Forall2 (fun root (x : list kv * list kv) => holds f' root (fst x)) roots rows -> Forall2 (fun root x => holds f root (fst x)) roots rows.
Proof.
  intros OC A F. induction reds as [|rs reds IH]; intros roots rows M H; inversion M; subst; inversion H; subst; constructor; [eapply view_has_back; eassumption|apply IH; assumption].
Qed.
Lemma holds_stored_snd f roots : forall rows : list (list kv * list kv), Forall2 (fun root x => holds f root (snd x)) roots rows -> Forall2 (fun root x => holds f root (snd x)) (map stored_root roots) rows.
Proof. induction roots; intros rows H; inversion H; subst; cbn [map]; constructor; [apply holds_stored; assumption|auto]. Qed.
Theorem file_update collate reds batch sid skv idb kvb ids recs hb h us f hb' us' f' : (forall x y, compress x = Some y -> y <> []) -> ord collate -> decode_index_header hb = Ok h -> header_fits h ->
  group_made collate reds h f -> prepared ebin_cmp sid idb ids -> Forall (op_ok id_record) ids ->
  Forall2 (prepared (view_key_cmp collate) skv) kvb recs -> Forall (Forall (op_ok view_record)) recs -> length kvb = length reds ->
  us_ids_ins us < 2^64 -> us_ids_rem us < 2^64 -> us_kvs_ins us < 2^64 -> us_kvs_rem us < 2^64 ->
  update_view_group collate reds batch sid skv idb kvb hb us f = (Ok (hb', us'), f') -> fits_file f' ->
  exists h', decode_index_header hb' = Ok h' /\ header_fits h' /\ group_made collate reds h' f' /\ appends f f' /\ h' = with_roots h (ih_cleanup h') (ih_id_state h') (ih_view_states h') /\
  exists idr rows, holds f (ih_id_state h) (fst idr) /\ holds f' (ih_id_state h') (snd idr) /\ index_updated ebin_cmp (ih_cleanup h) ids idr /\
    Forall2 (fun root x => holds f root (fst x)) (ih_view_states h) rows /\ Forall2 (fun root x => holds f' root (snd x)) (ih_view_states h') rows /\
    Forall2 (index_updated (view_key_cmp collate) (ih_cleanup h)) recs rows /\
    (forall q, q < 1024 -> (N.testbit (number (ih_cleanup h')) q = true <-> N.testbit (number (ih_cleanup h)) q = true /\ exists x y, In x (idr :: rows) /\ In y (snd x) /\ part y = q)) /\
    us_ids_ins us' = (us_ids_ins us + n_set ids) mod 2^64 /\ us_ids_rem us' = (us_ids_rem us + n_removed ids) mod 2^64 /\
    us_kvs_ins us' = (us_kvs_ins us + sum_of n_set recs) mod 2^64 /\ us_kvs_rem us' = (us_kvs_rem us + sum_of n_removed recs) mod 2^64 /\
    (countable ebin_cmp (fun _ => 1) (ih_cleanup h) ids idr -> Forall2 (countable (view_key_cmp collate) num_values (ih_cleanup h)) recs rows ->
     cleaned (fun _ => 1) (ih_cleanup h) ids (fst idr) + sum_of (fun x => cleaned num_values (ih_cleanup h) (fst x) (fst (snd x))) (combine recs rows) < 2^64 ->
     us_purged us' = cleaned (fun _ => 1) (ih_cleanup h) ids (fst idr) + sum_of (fun x => cleaned num_values (ih_cleanup h) (fst x) (fst (snd x))) (combine recs rows)).
Proof.
  intros HC OC Hd Hfit Hm HPi HOi HPv HOv Hlen B1 B2 B3 B4 Hu F. unfold update_view_group in Hu. rewrite Hd in Hu. assert (A0 : appends f (set_fpos f (size f))) by (apply app_end; constructor).
  destruct (update_header collate reds batch sid skv idb kvb h us (set_fpos f (size f))) as [[[h1 us1]|e] f1] eqn:Hch; [|discriminate Hu]. destruct (encode_index_header h1) as [b|e] eqn:Henc; [|discriminate Hu].
  cbn [bind] in Hu. injection Hu as <- <- <-. destruct Hm as (Hmask & M0 & MV).
  assert (Hm0 : group_made collate reds h (set_fpos f (size f))).
  { split; [exact Hmask|]. split; [exact (made_other M0 A0)|]. clear - MV A0. induction MV as [|rs root reds roots M MV IH]; constructor; [exact (made_other M A0)|exact IH]. }
  destruct (group_update OC Hm0 HPi HOi HPv HOv Hlen B1 B2 B3 B4 Hch F) as (A1 & Hm1 & Hh1 & Hl & idr & rows & W1 & W2 & W3 & W4 & W5 & W6 & W7 & W8).
  pose proof (fits_back EO (proj1 (appends_good EO A0 (good_made_id EO M0))) A1 F) as F0.
  destruct (header_again EO HC OC Hfit Hm1 F Hh1 Hl Henc) as (h' & D' & Hf' & Hm' & Hc' & Hh' & Hi' & Hv').
  exists h'. split; [exact D'|]. split; [exact Hf'|]. split; [exact Hm'|]. split; [exact (appends_trans A0 A1)|]. split; [exact Hh'|].
  exists idr, rows. split; [exact (id_has_back M0 A0 F0 W1)|]. split; [rewrite Hi'; now apply holds_stored|]. split; [exact W3|]. split; [exact (views_have_back OC A0 F0 MV W4)|].
  split; [rewrite Hv'; apply holds_stored_snd; exact W5|]. split; [exact W6|]. split; [rewrite Hc'; exact W7|]. exact W8.
Qed.
End Group.
