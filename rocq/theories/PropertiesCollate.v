(** Properties of the order of the keys of views. *)
From Coq Require Import ZArith.
From Verif Require Import Base Codec SpecMap Collate SpecJson CollateFacts JsonOrder JsonParse.
Local Open Scope N_scope.
Unset Strict Implicit.

(** What is assumed of strtod: it reads the whole text of a number. *)
Definition reads_numbers {D} (strtod : bytes -> D * bytes) (dval : bytes -> D) : Prop := forall t r, number_text t -> ends_number r -> strtod (t ++ r) = (dval t, r).
(** The strings for which the comparison is right: without \f and without \u of code points from 128; in the modes without ICU only code points below 128. *)
Definition plain_strings (mode : collate_mode) (j : json) : Prop := strings simple j /\ (mode <> M_unicode -> strings ascii j).

(** ** C58: the order of the keys is that of the JSON values *)
(** Full statement: for all valid values. Missing: the escape sequences of [simple], and bytes from 128 in the other modes; these are refuted below. *)
Theorem C58_order_partial : forall D (d_cmp : D -> D -> comparison) strtod dval u_cmp mode a b, reads_numbers strtod dval -> valid a -> valid b -> plain_strings mode a -> plain_strings mode b ->
  collate_json d_cmp strtod u_cmp mode (show a) (show b) = Ok (json_order d_cmp dval u_cmp mode a b).
Proof. intros D d_cmp strtod dval u_cmp mode a b Hn Va Vb [Sa Aa] [Sb Ab]. apply collate_ok; [exact Hn|apply valid_good; assumption|apply valid_good; assumption]. Qed.
Print Assumptions C58_order_partial.
(** The order of JSON values is a total preorder, as searching in an index and sorting need. *)
Theorem C58_preorder : forall D (d_cmp : D -> D -> comparison) dval u_cmp mode, preorder d_cmp -> preorder u_cmp -> preorder (json_order d_cmp dval u_cmp mode).
Proof. intros D d_cmp dval u_cmp mode Pd Pu. apply json_preorder; assumption. Qed.
Print Assumptions C58_preorder.
(** Comparing the texts the other way round gives the opposite result, and the order of texts is transitive. *)
Theorem C58_collate_preorder_partial : forall D (d_cmp : D -> D -> comparison) strtod dval u_cmp mode, reads_numbers strtod dval -> preorder d_cmp -> preorder u_cmp ->
  (forall a b, valid a -> valid b -> plain_strings mode a -> plain_strings mode b -> exists c, collate_json d_cmp strtod u_cmp mode (show a) (show b) = Ok c /\ collate_json d_cmp strtod u_cmp mode (show b) (show a) = Ok (CompOpp c)) /\
  (forall a b z, valid a -> valid b -> valid z -> plain_strings mode a -> plain_strings mode b -> plain_strings mode z ->
    collate_json d_cmp strtod u_cmp mode (show a) (show b) <> Ok Gt -> collate_json d_cmp strtod u_cmp mode (show b) (show z) <> Ok Gt -> collate_json d_cmp strtod u_cmp mode (show a) (show z) <> Ok Gt).
Proof.
  intros D d_cmp strtod dval u_cmp mode Hn Pd Pu. destruct (C58_preorder dval mode Pd Pu) as [Sy T]. split.
  - intros a b Va Vb Sa Sb. eexists. rewrite (C58_order_partial d_cmp u_cmp Hn Va Vb Sa Sb), (C58_order_partial d_cmp u_cmp Hn Vb Va Sb Sa). split; [reflexivity|]. rewrite Sy. reflexivity.
  - intros a b z Va Vb Vz Sa Sb Sz. rewrite (C58_order_partial d_cmp u_cmp Hn Va Vb Sa Sb), (C58_order_partial d_cmp u_cmp Hn Vb Vz Sb Sz), (C58_order_partial d_cmp u_cmp Hn Va Vz Sa Sz).
    intros H1 H2 H3. injection H3 as H3. revert H3. apply (T a b z); congruence.
Qed.
Print Assumptions C58_collate_preorder_partial.
(** There is a total order of all byte strings, as the theorems about view indexes, merging and sorting assume, with which the comparison of the code agrees on every two such keys. *)
Theorem C58_total_partial : forall D (d_cmp : D -> D -> comparison) strtod dval u_cmp mode, reads_numbers strtod dval -> preorder d_cmp -> preorder u_cmp ->
  exists collate, ord collate /\
    forall a b, valid a -> valid b -> plain_strings mode a -> plain_strings mode b -> collate_json d_cmp strtod u_cmp mode (show a) (show b) = Ok (collate (show a) (show b)).
Proof.
  intros D d_cmp strtod dval u_cmp mode Hn Pd Pu. exists (total (json_order d_cmp dval u_cmp mode)). split; [apply total_ord, C58_preorder; assumption|].
  intros a b Va Vb Sa Sb. rewrite (total_show _ Va Vb). apply (C58_order_partial d_cmp u_cmp Hn Va Vb Sa Sb).
Qed.
Print Assumptions C58_total_partial.

(** A reading of numbers for the example: the characters of numbers are read, the value is the part before the point. *)
Fixpoint int_part (acc : Z) (t : bytes) : Z := match t with [] => acc | c :: r => if (48 <=? c) && (c <=? 57) then int_part (10 * acc + Z.of_N (c - 48)) r else acc end.
Definition ex_dval (t : bytes) : Z := match t with 45 :: r => Z.opp (int_part 0 r) | _ => int_part 0 t end.
Definition ex_strtod (s : bytes) : Z * bytes := let '(a, b) := number_end s in (ex_dval a, b).
Lemma ex_reads : reads_numbers ex_strtod ex_dval.
Proof. intros t r Ht Hr. unfold ex_strtod. rewrite (number_end_ok Ht Hr). reflexivity. Qed.
Lemma pre_Z : preorder Z.compare.
Proof. split; [intros x y; apply Z.compare_antisym|]. intros x y z H1 H2. change (x <= z)%Z. change (x <= y)%Z in H1. change (y <= z)%Z in H2. lia. Qed.
(** {"a":[1,null],"b\n":"x"} and {"a":[1,null,-2.5e1]} *)
Definition ex_a : json := JObj [([Plain 97], JArr [JNum [49]; JNull]); ([Plain 98; Esc 110], JStr [Plain 120])].
Definition ex_b : json := JObj [([Uni 48 48 54 49], JArr [JNum [49]; JNull; JNum [45; 50; 46; 53; 101; 49]])].
Example C58_example : reads_numbers ex_strtod ex_dval /\ preorder Z.compare /\ preorder (words N.compare) /\ valid ex_a /\ valid ex_b /\ plain_strings M_unicode ex_a /\ plain_strings M_unicode ex_b /\
  collate_json Z.compare ex_strtod (words N.compare) M_unicode (show ex_a) (show ex_b) = Ok Lt /\ collate_json Z.compare ex_strtod (words N.compare) M_unicode (show ex_b) (show ex_a) = Ok Gt.
Proof.
  split; [apply ex_reads|]. split; [apply pre_Z|]. split; [apply pre_words, pre_N|].
  assert (N1 : number_text [49]). { exists [], [49], [], []. split; [reflexivity|]. split; [auto|]. split; [right; exists 49, []; split; [reflexivity|]; split; [unfold digit; lia|]; split; [discriminate|constructor]|]. auto. }
  assert (N2 : number_text [45; 50; 46; 53; 101; 49]).
  { exists [45], [50], [46; 53], [101; 49]. split; [reflexivity|]. split; [auto|]. split; [right; exists 50, []; split; [reflexivity|]; split; [unfold digit; lia|]; split; [discriminate|constructor]|].
    split; right; [exists [53]; split; [reflexivity|]; split; [discriminate|repeat constructor; unfold digit; lia]|]. exists 101, [], [49]. split; [reflexivity|]. split; [auto|]. split; [auto|]. split; [discriminate|repeat constructor; unfold digit; lia]. }
  split; [|split; [|split; [|split]]].
  - apply valid_obj. repeat apply Forall_cons; [| |constructor]; cbn [fst snd]; split.
    + repeat constructor; lia.
    + apply valid_arr. repeat apply Forall_cons; [apply valid_num, N1|constructor|constructor].
    + repeat apply Forall_cons; [cbn; lia|cbn; auto 10|constructor].
    + apply valid_str. repeat apply Forall_cons; [cbn; lia|constructor].
  - apply valid_obj. repeat apply Forall_cons; [|constructor]; cbn [fst snd]; split.
    + repeat apply Forall_cons; [cbn; unfold hex, digit; lia|constructor].
    + apply valid_arr. repeat apply Forall_cons; [apply valid_num, N1|constructor|apply valid_num, N2|constructor].
  - split; [|intros X; contradiction X; reflexivity]. apply strings_obj. repeat apply Forall_cons; [| |constructor]; cbn [fst snd]; split.
    + repeat constructor.
    + apply strings_arr. repeat constructor.
    + repeat apply Forall_cons; [exact I|discriminate|constructor].
    + apply strings_str. repeat constructor.
  - split; [|intros X; contradiction X; reflexivity]. apply strings_obj. repeat apply Forall_cons; [|constructor]; cbn [fst snd]; split.
    + repeat apply Forall_cons; [vm_compute; reflexivity|constructor].
    + apply strings_arr. repeat constructor.
  - split; vm_compute; reflexivity.
Qed.

Lemma pre_refl A (c : A -> A -> comparison) x : preorder c -> c x x = Eq.
Proof. intros [Sy _]. specialize (Sy x x). destruct (c x x); [reflexivity|discriminate|discriminate]. Qed.
(** The keys "Ł" and "A" are different texts, but compare as equal: of an escaped code point only the low eight bits are used. *)
Theorem C58_unicode_refuted : exists a b, Forall valid_char a /\ Forall valid_char b /\ text_of a <> text_of b /\
  forall D (d_cmp : D -> D -> comparison) strtod u_cmp mode, preorder u_cmp -> collate_json d_cmp strtod u_cmp mode (show (JStr a)) (show (JStr b)) = Ok Eq.
Proof.
  exists [Uni 48 49 52 49], [Plain 65]. split; [repeat constructor; unfold hex, digit; lia|]. split; [repeat constructor; lia|]. split; [vm_compute; discriminate|].
  intros D d_cmp strtod u_cmp mode P. destruct mode; vm_compute; [|reflexivity|reflexivity]. rewrite (pre_refl [65] P). reflexivity.
Qed.
Print Assumptions C58_unicode_refuted.
(** The same for "\f" and "f". *)
Theorem C58_formfeed_refuted : exists a b, Forall valid_char a /\ Forall valid_char b /\ text_of a <> text_of b /\
  forall D (d_cmp : D -> D -> comparison) strtod u_cmp mode, preorder u_cmp -> collate_json d_cmp strtod u_cmp mode (show (JStr a)) (show (JStr b)) = Ok Eq.
Proof.
  exists [Esc 102], [Plain 102]. split; [repeat apply Forall_cons; [cbn; auto 10|constructor]|]. split; [repeat constructor; lia|]. split; [vm_compute; discriminate|].
  intros D d_cmp strtod u_cmp mode P. destruct mode; vm_compute; [|reflexivity|reflexivity]. rewrite (pre_refl [102] P). reflexivity.
Qed.
Print Assumptions C58_formfeed_refuted.
(** The mode that compares strings as binary UTF-8 puts bytes from 128 before all others, where char is signed. *)
Theorem C58_binary_refuted : exists a b, Forall valid_char a /\ Forall valid_char b /\ simple a /\ simple b /\ words N.compare (text_of a) (text_of b) = Gt /\
  forall D (d_cmp : D -> D -> comparison) strtod u_cmp, collate_json d_cmp strtod u_cmp M_ascii (show (JStr a)) (show (JStr b)) = Ok Lt.
Proof.
  exists [Plain 195; Plain 169], [Plain 122]. split; [repeat constructor; lia|]. split; [repeat constructor; lia|]. split; [repeat constructor|]. split; [repeat constructor|]. split; [reflexivity|]. intros D d_cmp strtod u_cmp. vm_compute. reflexivity.
Qed.
Print Assumptions C58_binary_refuted.
