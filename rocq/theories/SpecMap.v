(** Specification vocabulary for indexes: ordered lists of entries, looking up a key, and what a batch of actions does to
    them. Independent of the tree and file representation. *)
From Coq Require Export Sorting.Sorted.
From Verif Require Import Base Codec Btree.
Local Open Scope N_scope.

Notation kv := (bytes * bytes)%type.

(** A comparison that is a total preorder. *)
Record ord (cmp : bytes -> bytes -> comparison) : Prop := {
  o_refl : forall a, cmp a a = Eq;
  o_anti : forall a b, cmp b a = CompOpp (cmp a b);
  o_lt : forall a b c, cmp a b = Lt -> cmp b c = Lt -> cmp a c = Lt;
  o_eq : forall a b c, cmp a b = Eq -> cmp a c = cmp b c
}.

(** src/util.cc:37-45 seq_cmp. Simplified for keys shorter than six bytes: the bytes that are there are compared,
    where the code reads out of bounds (see C32); keys written by couchstore have six bytes. *)
Definition seq_cmp (a b : bytes) : comparison := unbe (take 6 a) ?= unbe (take 6 b).

Section Cmp.
Variable cmp : bytes -> bytes -> comparison.

(** Entries in strictly ascending key order; actions in ascending key order. *)
Definition sorted (l : list kv) : Prop := StronglySorted (fun a b => cmp (fst a) (fst b) = Lt) l.
Definition asorted (l : list action) : Prop := StronglySorted (fun a b => cmp (a_key a) (a_key b) <> Gt) l.

(** The value stored for a key. *)
Fixpoint lookup (k : bytes) (l : list kv) : option bytes :=
  match l with
  | [] => None
  | (k', v) :: r => match cmp k' k with Eq => Some v | _ => lookup k r end
  end.

(** Does the action concern the key, and what does it leave there? *)
Definition act_on (k : bytes) (cur : option bytes) (a : action) : option bytes :=
  match cmp (a_key a) k with
  | Eq => match a_type a with
          | A_FETCH => cur
          | A_REMOVE => None
          | A_INSERT | A_FETCH_INSERT => Some (a_data a)
          end
  | _ => cur
  end.

(** No action for a key follows an insertion of the same key. *)
Definition inserts (a : action) : bool := match a_type a with A_INSERT | A_FETCH_INSERT => true | _ => false end.
Fixpoint single (l : list action) : Prop :=
  match l with
  | [] => True
  | a :: r => (inserts a = true -> Forall (fun b => cmp (a_key a) (a_key b) <> Eq) r) /\ single r
  end.
End Cmp.
