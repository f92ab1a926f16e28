(** Facts about sorting and about ordered lists. *)
From Coq Require Export Sorting.Permutation.
From Verif Require Import Base Codec CodecFacts SpecMap MergeFacts Btree Db.
Local Open Scope N_scope.

Section Sort.
Variable A : Type.
Variable gt : A -> A -> bool.
Hypothesis total : forall a b, gt a b = true -> gt b a = false.
Hypothesis trans : forall a b c, gt a b = false -> gt b c = false -> gt a c = false.

Lemma ins_perm x l : Permutation (x :: l) (ins gt x l).
Proof.
  induction l as [|y l IH]; cbn [ins]; [constructor; constructor|]. destruct (gt x y); [|apply Permutation_refl].
  eapply perm_trans; [apply perm_swap|]. now constructor.
Qed.
Lemma isort_perm l : Permutation l (isort gt l).
Proof.
  induction l as [|x l IH]; cbn [isort]; [constructor|]. eapply perm_trans; [|apply ins_perm]. now constructor.
Qed.
Lemma isort_in l x : In x (isort gt l) <-> In x l.
Proof. split; apply Permutation_in; [apply Permutation_sym|]; apply isort_perm. Qed.

Lemma ins_sorted x l : StronglySorted (fun a b => gt a b = false) l -> StronglySorted (fun a b => gt a b = false) (ins gt x l).
Proof.
  intros H. induction H as [|y l Hs IH Hall]; cbn [ins]; [constructor; constructor|]. destruct (gt x y) eqn:Hg.
  - constructor; [exact IH|]. rewrite Forall_forall in *. intros z Hz.
    apply Permutation_in with (1 := Permutation_sym (ins_perm x l)) in Hz. destruct Hz as [<-|Hz]; auto.
  - constructor; [constructor; assumption|]. constructor; [exact Hg|]. rewrite Forall_forall in *. intros z Hz. eapply trans; [exact Hg|auto].
Qed.
Lemma isort_sorted l : StronglySorted (fun a b => gt a b = false) (isort gt l).
Proof. induction l as [|x l IH]; cbn [isort]; [constructor|]. now apply ins_sorted. Qed.

Lemma isort_id l : StronglySorted (fun a b => gt a b = false) l -> isort gt l = l.
Proof.
  intros H. induction H as [|x l Hs IH Hall]; cbn [isort]; [reflexivity|]. rewrite IH. destruct l as [|y l]; [reflexivity|].
  cbn [ins]. inversion Hall as [|? ? Hxy]. now rewrite Hxy.
Qed.

Lemma ins_Forall2 B (gt' : B -> B -> bool) (R : A -> B -> Prop) :
  (forall a b a' b', R a b -> R a' b' -> gt a a' = gt' b b') ->
  forall l l' x x', Forall2 R l l' -> R x x' -> Forall2 R (ins gt x l) (ins gt' x' l').
Proof.
  intros Hg l l' x x' H. induction H as [|y y' l l' Hy H IH]; intros Hx; cbn [ins]; [repeat constructor; assumption|].
  rewrite (Hg _ _ _ _ Hx Hy). destruct (gt' x' y'); constructor; auto.
Qed.
Lemma isort_Forall2 B (gt' : B -> B -> bool) (R : A -> B -> Prop) :
  (forall a b a' b', R a b -> R a' b' -> gt a a' = gt' b b') ->
  forall l l', Forall2 R l l' -> Forall2 R (isort gt l) (isort gt' l').
Proof.
  intros Hg l l' H. induction H as [|y y' l l' Hy H IH]; cbn [isort]; [constructor|]. eapply ins_Forall2; eassumption.
Qed.
End Sort.

Lemma ss_impl A (P Q : A -> A -> Prop) l : (forall a b, In a l -> In b l -> P a b -> Q a b) -> StronglySorted P l -> StronglySorted Q l.
Proof.
  intros H Hs. induction Hs as [|x l Hs IH Hall]; [constructor|]. constructor.
  - apply IH. intros a b Ha Hb. apply H; now right.
  - rewrite Forall_forall in *. intros y Hy. apply H; [now left|now right|auto].
Qed.
Lemma ss_map A B (g : A -> B) (P : B -> B -> Prop) l : StronglySorted (fun a b => P (g a) (g b)) l <-> StronglySorted P (map g l).
Proof.
  split.
  - intros Hs. induction Hs as [|x l Hs IH Hall]; [constructor|]. cbn [map]. constructor; [exact IH|]. now rewrite Forall_map.
  - induction l as [|x l IH]; [constructor|]. cbn [map]. intros H. inversion H as [|? ? H1 H2]; subst. constructor; [auto|].
    now rewrite Forall_map in H2.
Qed.
(** Distinct keys make a sorted list strictly sorted. *)
Lemma ss_strict A (key : A -> bytes) cmp l : ord cmp -> StronglySorted (fun a b => gtc (cmp (key a) (key b)) = false) l ->
  (forall a b, In a l -> In b l -> cmp (key a) (key b) = Eq -> key a = key b) -> NoDup (map key l) ->
  StronglySorted (fun a b => cmp (key a) (key b) = Lt) l.
Proof.
  intros O Hs Hk Hn. induction Hs as [|x l Hs IH Hall]; [constructor|]. cbn [map] in Hn. inversion Hn as [|? ? Hn1 Hn2]; subst. constructor.
  - apply IH; [|exact Hn2]. intros a b Ha Hb. apply Hk; now right.
  - rewrite Forall_forall in *. intros y Hy. specialize (Hall y Hy). destruct (cmp (key x) (key y)) eqn:Hc; [|reflexivity|discriminate].
    exfalso. apply Hn1. rewrite (Hk x y (or_introl eq_refl) (or_intror Hy) Hc). now apply in_map.
Qed.

Section Cmp.
Variable cmp : bytes -> bytes -> comparison.
Hypothesis O : ord cmp.

Lemma gtc_total a b : gtc (cmp a b) = true -> gtc (cmp b a) = false.
Proof. rewrite (o_anti O a b). destruct (cmp a b); cbn; congruence. Qed.
Lemma gtc_trans a b c : gtc (cmp a b) = false -> gtc (cmp b c) = false -> gtc (cmp a c) = false.
Proof.
  intros H1 H2. assert (cmp a c <> Gt); [|destruct (cmp a c); cbn; congruence].
  eapply (c_le_trans O); [intros Hx; rewrite Hx in H1|intros Hx; rewrite Hx in H2]; discriminate.
Qed.

(** A strictly ordered list is determined by its members. *)
Lemma sorted_ext (l l' : list kv) : sorted cmp l -> sorted cmp l' -> (forall x, In x l <-> In x l') -> l = l'.
Proof.
  intros H. revert l'. induction H as [|x l Hs IH Hall]; intros l' H' He.
  - destruct l' as [|y l']; [reflexivity|]. destruct (proj2 (He y) (or_introl eq_refl)).
  - destruct H' as [|y l' Hs' Hall']; [destruct (proj1 (He x) (or_introl eq_refl))|]. rewrite Forall_forall in *.
    assert (Hirr : forall a, cmp a a <> Lt) by (intros a; rewrite (o_refl O); discriminate).
    assert (Hxy : x = y).
    { destruct (proj1 (He x) (or_introl eq_refl)) as [->|Hx]; [reflexivity|].
      destruct (proj2 (He y) (or_introl eq_refl)) as [->|Hy]; [reflexivity|].
      exfalso. apply (Hirr (fst x)). exact (o_lt O _ _ _ (Hall y Hy) (Hall' x Hx)). }
    subst y. f_equal. apply IH; [exact Hs'|]. intros z. split; intros Hz.
    + destruct (proj1 (He z) (or_intror Hz)) as [<-|H1]; [|exact H1]. exfalso. exact (Hirr _ (Hall _ Hz)).
    + destruct (proj2 (He z) (or_intror Hz)) as [<-|H1]; [|exact H1]. exfalso. exact (Hirr _ (Hall' _ Hz)).
Qed.

Variable dom : bytes -> Prop.
Hypothesis dom_eq : forall a b, dom a -> dom b -> cmp a b = Eq -> a = b.

Lemma lookup_in k v l : sorted cmp l -> dom k -> (forall x, In x l -> dom (fst x)) -> (In (k, v) l <-> lookup cmp k l = Some v).
Proof.
  intros Hs Hk Hd. induction Hs as [|[k0 v0] l Hs IH Hall]; cbn [lookup]; [split; [intros []|discriminate]|].
  assert (Hd0 : dom k0) by (apply (Hd (k0, v0)); now left).
  specialize (IH (fun x Hx => Hd x (or_intror Hx))). rewrite Forall_forall in Hall. destruct (cmp k0 k) eqn:Hc.
  - rewrite (dom_eq Hd0 Hk Hc) in *. split; [|intros [= ->]; now left]. intros [[= ->]|H]; [reflexivity|].
    specialize (Hall _ H). cbn [fst] in Hall. rewrite (o_refl O) in Hall. discriminate.
  - rewrite <- IH. split; [|now right]. intros [[= -> ->]|H]; [rewrite (o_refl O) in Hc; discriminate|exact H].
  - rewrite <- IH. split; [|now right]. intros [[= -> ->]|H]; [rewrite (o_refl O) in Hc; discriminate|exact H].
Qed.

(** What a batch leaves under a key. *)
Lemma fold_spec q acts : single cmp acts -> forall c,
  (forall a, In a acts -> inserts a = true -> cmp (a_key a) q = Eq -> fold_left (act_on cmp q) acts c = Some (a_data a)) /\
  ((forall a, In a acts -> inserts a = true -> cmp (a_key a) q <> Eq) ->
   (exists a, In a acts /\ a_type a = A_REMOVE /\ cmp (a_key a) q = Eq) -> fold_left (act_on cmp q) acts c = None) /\
  ((forall a, In a acts -> cmp (a_key a) q = Eq -> a_type a = A_FETCH) -> fold_left (act_on cmp q) acts c = c).
Proof.
  induction acts as [|b acts IH]; intros Hs c.
  { split; [intros a []|]. split; [intros _ (a & [] & _)|reflexivity]. }
  cbn [single] in Hs. destruct Hs as [Hb Hs]. cbn [fold_left]. specialize (IH Hs (act_on cmp q c b)). destruct IH as (I1 & I2 & I3).
  split; [|split].
  - intros a [<-|Ha] Hi Hc; [|now apply I1]. rewrite fold_noeq.
    + unfold act_on. rewrite Hc. unfold inserts in Hi. destruct (a_type b); try discriminate; reflexivity.
    + intros d Hd He. specialize (Hb Hi). rewrite Forall_forall in Hb. apply (Hb d Hd).
      rewrite (o_eq O _ _ (a_key d) Hc). now apply (c_eq_sym O).
  - intros Hn (a & [<-|Ha] & Ht & Hc).
    + destruct (List.existsb (fun a => match a_type a, cmp (a_key a) q with A_REMOVE, Eq => true | _, _ => false end) acts) eqn:Hex.
      * apply existsb_exists in Hex. destruct Hex as (a & Ha & Hx). apply I2; [intros; apply Hn; [now right|assumption]|].
        exists a. destruct (a_type a), (cmp (a_key a) q) eqn:Hq; try discriminate. auto.
      * transitivity (act_on cmp q c b); [|unfold act_on; now rewrite Hc, Ht]. apply I3. intros a Ha He.
        destruct (a_type a) eqn:Hta; [reflexivity| | |].
        -- exfalso. assert (Ht' : existsb (fun a => match a_type a, cmp (a_key a) q with A_REMOVE, Eq => true | _, _ => false end) acts = true).
           { apply existsb_exists. exists a. rewrite Hta, He. auto. } congruence.
        -- exfalso. apply (Hn a (or_intror Ha)); [unfold inserts; now rewrite Hta|exact He].
        -- exfalso. apply (Hn a (or_intror Ha)); [unfold inserts; now rewrite Hta|exact He].
    + apply I2; [intros; apply Hn; [now right|assumption]|]. exists a. auto.
  - intros H. rewrite I3 by (intros; apply H; [now right|assumption]). unfold act_on. destruct (cmp (a_key b) q) eqn:Hc; try reflexivity.
    now rewrite (H b (or_introl eq_refl) Hc).
Qed.

(** Members of the merged list. *)
Lemma merge_members l acts : sorted cmp l -> asorted cmp acts -> single cmp acts ->
  (forall x, In x l -> dom (fst x)) -> (forall a, In a acts -> dom (a_key a)) ->
  forall x, In x (merge cmp l acts) <->
    (exists a, In a acts /\ inserts a = true /\ x = (a_key a, a_data a)) \/
    (In x l /\ forall a, In a acts -> a_key a = fst x -> a_type a = A_FETCH).
Proof.
  intros Hs Ha Hsi Hd Hda [k v].
  assert (Hdm : forall x, In x (merge cmp l acts) -> dom (fst x)).
  { intros x Hx. apply merge_in in Hx. destruct Hx as [Hx|(a & H1 & _ & ->)]; [auto|cbn; auto]. }
  pose proof (merge_sorted O Hs Ha Hsi) as Hms.
  split.
  - intros H. pose proof (Hdm _ H) as Hk. cbn [fst] in Hk.
    pose proof (proj1 (@lookup_in k v _ Hms Hk Hdm) H) as Hl. rewrite (merge_lookup O _ Hs Ha Hsi) in Hl.
    destruct (@fold_spec k acts Hsi (lookup cmp k l)) as (I1 & I2 & I3).
    destruct (List.existsb (fun a => inserts a && match cmp (a_key a) k with Eq => true | _ => false end) acts) eqn:Hex.
    + left. apply existsb_exists in Hex. destruct Hex as (a & Hin & Hx). apply andb_true_iff in Hx. destruct Hx as [Hi Hx].
      destruct (cmp (a_key a) k) eqn:Hc; try discriminate. rewrite (I1 a Hin Hi Hc) in Hl. injection Hl as <-.
      exists a. rewrite (dom_eq (Hda a Hin) Hk Hc). auto.
    + assert (Hno : forall a, In a acts -> inserts a = true -> cmp (a_key a) k <> Eq).
      { intros a Hin Hi Hc. assert (Ht : existsb (fun a => inserts a && match cmp (a_key a) k with Eq => true | _ => false end) acts = true).
        { apply existsb_exists. exists a. rewrite Hi, Hc. auto. } congruence. }
      destruct (List.existsb (fun a => match a_type a, cmp (a_key a) k with A_REMOVE, Eq => true | _, _ => false end) acts) eqn:Her.
      * rewrite I2 in Hl; [discriminate|exact Hno|]. apply existsb_exists in Her. destruct Her as (a & Hin & Hx).
        exists a. destruct (a_type a), (cmp (a_key a) k) eqn:Hq; try discriminate. auto.
      * assert (Hf : forall a, In a acts -> cmp (a_key a) k = Eq -> a_type a = A_FETCH).
        { intros a Hin Hc. destruct (a_type a) eqn:Hta; [reflexivity| | |].
          - exfalso. assert (Ht' : existsb (fun a => match a_type a, cmp (a_key a) k with A_REMOVE, Eq => true | _, _ => false end) acts = true).
            { apply existsb_exists. exists a. rewrite Hta, Hc. auto. } congruence.
          - exfalso. apply (Hno a Hin); [unfold inserts; now rewrite Hta|exact Hc].
          - exfalso. apply (Hno a Hin); [unfold inserts; now rewrite Hta|exact Hc]. }
        right. rewrite I3 in Hl by exact Hf. split; [now apply (@lookup_in k v _ Hs Hk Hd)|]. cbn [fst].
        intros a Hin He. apply Hf; [exact Hin|]. rewrite He. apply (o_refl O).
  - intros [(a & Hin & Hi & [= -> ->])|[Hin Hf]].
    + assert (Hk : dom (a_key a)) by auto. apply (@lookup_in (a_key a) (a_data a) _ Hms Hk Hdm). rewrite (merge_lookup O _ Hs Ha Hsi).
      apply (proj1 (@fold_spec (a_key a) acts Hsi _)); [exact Hin|exact Hi|apply (o_refl O)].
    + assert (Hk : dom k) by (exact (Hd _ Hin)). apply (@lookup_in k v _ Hms Hk Hdm). rewrite (merge_lookup O _ Hs Ha Hsi).
      destruct (@fold_spec k acts Hsi (lookup cmp k l)) as (I1 & I2 & I3). rewrite I3; [now apply (@lookup_in k v _ Hs Hk Hd)|].
      intros a Ha' Hc. apply Hf; [exact Ha'|]. cbn [fst]. exact (dom_eq (Hda a Ha') Hk Hc).
Qed.

Lemma single_nodup (l : list action) :
  StronglySorted (fun a b => inserts a = true -> cmp (a_key a) (a_key b) = Eq -> inserts b = true) l ->
  (forall a, In a l -> dom (a_key a)) ->
  NoDup (map a_key (filter inserts l)) -> single cmp l.
Proof.
  intros H. induction H as [|a l Hs IH Hall]; intros Hd Hn; cbn [single]; [exact I|]. rewrite Forall_forall in Hall. split.
  - intros Hi. apply Forall_forall. intros b Hb Hc. cbn [filter] in Hn. rewrite Hi in Hn. cbn [map] in Hn. inversion Hn as [|? ? H1 H2]; subst.
    apply H1. rewrite (dom_eq (Hd a (or_introl eq_refl)) (Hd b (or_intror Hb)) Hc). apply in_map. apply filter_In. split; [exact Hb|]. now apply (Hall b Hb).
  - apply IH; [intros; apply Hd; now right|]. cbn [filter] in Hn. destruct (inserts a); [|exact Hn]. cbn [map] in Hn. now inversion Hn.
Qed.
End Cmp.

Lemma perm_filter A (p : A -> bool) l l' : Permutation l l' -> Permutation (filter p l) (filter p l').
Proof.
  intros H. induction H as [|x l l' H IH|x y l|l l1 l2 H1 IH1 H2 IH2]; cbn [filter]; [constructor| | |eapply perm_trans; eassumption].
  - destruct (p x); [now constructor|exact IH].
  - destruct (p x), (p y); try apply Permutation_refl. apply perm_swap.
Qed.
