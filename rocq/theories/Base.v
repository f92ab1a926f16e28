(** Common imports, error values and byte-list helpers.  *)
From Coq Require Export List NArith ZArith Lia Bool Arith.
From Coq Require Export ZifyBool ZifyNat ZifyN.
Export ListNotations.

#[export] Set Implicit Arguments.
#[export] Set Asymmetric Patterns.
#[export] Unset Printing Records.

Ltac Zify.zify_post_hook ::= Z.div_mod_to_equations.

Arguments N.add : simpl never.
Arguments N.sub : simpl never.
Arguments N.mul : simpl never.
Arguments N.div : simpl never.
Arguments N.modulo : simpl never.
Arguments N.pow : simpl never.
Arguments N.eqb : simpl never.
Arguments N.ltb : simpl never.
Arguments N.leb : simpl never.
Arguments N.min : simpl never.
Arguments N.max : simpl never.
Arguments N.of_nat : simpl never.
Arguments N.to_nat : simpl never.

(** Error codes: include/libcouchstore/couch_common.h and error.h (enum couchstore_error_t).
    [E_UB] (undefined behaviour) and [E_FUEL] (a bounded model loop ran out of
    steps) are outcomes of the model only. *)
Inductive err :=
| E_OPEN_FILE | E_CORRUPT | E_ALLOC | E_READ | E_DOC_NOT_FOUND | E_NO_HEADER
| E_WRITE | E_HEADER_VERSION | E_CHECKSUM | E_INVALID_ARGUMENTS | E_NO_SUCH_FILE
| E_CANCEL | E_REDUCTION_TOO_LARGE | E_REDUCER_FAILURE | E_FILE_CLOSED
| E_DB_NO_LONGER_VALID | E_NOT_SUPPORTED | E_ENCRYPT | E_DECRYPT
| E_UB | E_FUEL.

Inductive res (A : Type) : Type :=
| Ok : A -> res A
| Err : err -> res A.
Arguments Ok {A} _.
Arguments Err {A} _.

Definition bind {A B} (x : res A) (f : A -> res B) : res B :=
  match x with Ok a => f a | Err e => Err e end.

Notation "'let*' x ':=' e 'in' k" := (bind e (fun x => k))
  (at level 200, x name, e at level 100, k at level 200, right associativity).

Definition is_ok {A} (r : res A) : bool := match r with Ok _ => true | Err _ => false end.

(** Byte strings. Bytes are numbers; values above 255 cannot occur in a file and
    [is_bytes] says so where it matters. *)
Definition bytes := list N.
Definition is_byte (b : N) : Prop := (b < 256)%N.
Definition is_bytes (l : bytes) : Prop := Forall is_byte l.

Definition lenN {A} (l : list A) : N := N.of_nat (length l).

(** [take n l], [drop n l] with [N] counters. *)
Definition take {A} (n : N) (l : list A) : list A := firstn (N.to_nat n) l.
Definition drop {A} (n : N) (l : list A) : list A := skipn (N.to_nat n) l.

(** Bounds-checked sub-list of [len] bytes from [off]: what a C read of [len] bytes at
    [buf + off] gives when the buffer holds exactly [l]; outside of it: [E_UB]. *)
Definition getb (off len : N) (l : bytes) : res bytes :=
  if (off + len <=? lenN l)%N then Ok (take len (drop off l)) else Err E_UB.

Lemma lenN_nil A : lenN (@nil A) = 0%N. Proof. reflexivity. Qed.
Lemma lenN_cons A (a : A) l : lenN (a :: l) = (1 + lenN l)%N.
Proof. unfold lenN; cbn [length]; lia. Qed.
Lemma lenN_app A (l1 l2 : list A) : lenN (l1 ++ l2) = (lenN l1 + lenN l2)%N.
Proof. unfold lenN; rewrite app_length; lia. Qed.
Lemma lenN_map A B (f : A -> B) l : lenN (map f l) = lenN l.
Proof. unfold lenN; now rewrite map_length. Qed.
Lemma lenN_rev A (l : list A) : lenN (rev l) = lenN l.
Proof. unfold lenN; now rewrite rev_length. Qed.
Lemma lenN_0 A (l : list A) : lenN l = 0%N -> l = [].
Proof. destruct l; auto. rewrite lenN_cons; lia. Qed.

Lemma take_0 A (l : list A) : take 0 l = []. Proof. reflexivity. Qed.
Lemma drop_0 A (l : list A) : drop 0 l = l. Proof. reflexivity. Qed.
Lemma take_all A n (l : list A) : (lenN l <= n)%N -> take n l = l.
Proof. unfold take, lenN; intros; apply firstn_all2; lia. Qed.
Lemma drop_all A n (l : list A) : (lenN l <= n)%N -> drop n l = [].
Proof. unfold drop, lenN; intros; apply skipn_all2; lia. Qed.
Lemma take_app_exact A n (l1 l2 : list A) : n = lenN l1 -> take n (l1 ++ l2) = l1.
Proof.
  intros ->; unfold take, lenN; rewrite Nnat.Nat2N.id, firstn_app, Nat.sub_diag, firstn_all.
  apply app_nil_r.
Qed.
Lemma drop_app_exact A n (l1 l2 : list A) : n = lenN l1 -> drop n (l1 ++ l2) = l2.
Proof.
  intros ->; unfold drop, lenN; rewrite Nnat.Nat2N.id, skipn_app, Nat.sub_diag, skipn_all.
  reflexivity.
Qed.
Lemma take_app_le A n (l1 l2 : list A) : (n <= lenN l1)%N -> take n (l1 ++ l2) = take n l1.
Proof.
  unfold take, lenN; intros; rewrite firstn_app.
  replace (N.to_nat n - length l1) with 0 by lia. apply app_nil_r.
Qed.
Lemma take_app_ge A n (l1 l2 : list A) :
  (lenN l1 <= n)%N -> take n (l1 ++ l2) = l1 ++ take (n - lenN l1) l2.
Proof.
  unfold take, lenN; intros; rewrite firstn_app, firstn_all2 by lia.
  do 2 f_equal; lia.
Qed.
Lemma drop_app_le A n (l1 l2 : list A) :
  (n <= lenN l1)%N -> drop n (l1 ++ l2) = drop n l1 ++ l2.
Proof.
  unfold drop, lenN; intros; rewrite skipn_app.
  replace (N.to_nat n - length l1) with 0 by lia. reflexivity.
Qed.
Lemma drop_app_ge A n (l1 l2 : list A) :
  (lenN l1 <= n)%N -> drop n (l1 ++ l2) = drop (n - lenN l1) l2.
Proof.
  unfold drop, lenN; intros; rewrite skipn_app, skipn_all2 by lia.
  cbn; f_equal; lia.
Qed.
Lemma lenN_take A n (l : list A) : lenN (take n l) = N.min n (lenN l).
Proof. unfold take, lenN; rewrite firstn_length; lia. Qed.
Lemma lenN_drop A n (l : list A) : lenN (drop n l) = (lenN l - n)%N.
Proof. unfold drop, lenN; rewrite skipn_length; lia. Qed.
Lemma take_drop A n (l : list A) : take n l ++ drop n l = l.
Proof. apply firstn_skipn. Qed.
Lemma drop_drop A n m (l : list A) : drop n (drop m l) = drop (m + n) l.
Proof.
  unfold drop. rewrite Nnat.N2Nat.inj_add.
  generalize (N.to_nat m) as a; generalize (N.to_nat n) as b; intros b a; revert l.
  induction a as [|a IH]; intros l; cbn; auto.
  destruct l; cbn; auto. now rewrite skipn_nil.
Qed.
Lemma take_take A n m (l : list A) : take n (take m l) = take (N.min n m) l.
Proof.
  unfold take. rewrite firstn_firstn. f_equal; lia.
Qed.
Lemma take_nil A n : take n (@nil A) = []. Proof. unfold take; now rewrite firstn_nil. Qed.
Lemma drop_nil A n : drop n (@nil A) = []. Proof. unfold drop; now rewrite skipn_nil. Qed.

Lemma getb_app_mid (a b c : bytes) off len :
  off = lenN a -> len = lenN b -> getb off len (a ++ b ++ c) = Ok b.
Proof.
  intros -> ->; unfold getb. rewrite !lenN_app.
  destruct (N.leb_spec (lenN a + lenN b) (lenN a + (lenN b + lenN c))); [|lia].
  now rewrite drop_app_exact, take_app_exact by reflexivity.
Qed.
Lemma getb_app_end (a b : bytes) off len :
  off = lenN a -> len = lenN b -> getb off len (a ++ b) = Ok b.
Proof. intros; rewrite <- (app_nil_r b) at 1; now apply getb_app_mid. Qed.

Lemma Forall_app_iff A (P : A -> Prop) l1 l2 : Forall P (l1 ++ l2) <-> Forall P l1 /\ Forall P l2.
Proof. apply Forall_app. Qed.

Lemma bind_ok A B (x : res A) (f : A -> res B) b :
  bind x f = Ok b -> exists a, x = Ok a /\ f a = Ok b.
Proof. destruct x; cbn; intros H; [eauto | discriminate]. Qed.

Ltac inv H := inversion H; subst; clear H.
Ltac bind_inv H :=
  let a := fresh "a" in let E := fresh "E" in
  apply bind_ok in H; destruct H as [a [E H]].

Ltac dif :=
  match goal with
  | |- context [if ?b then _ else _] => let E := fresh "E" in destruct b eqn:E
  end.
Ltac difH H :=
  match type of H with
  | context [if ?b then _ else _] => let E := fresh "E" in destruct b eqn:E
  end.
