(** Model of src/views/sorted_list.cc: a linked list kept in order. *)
From Verif Require Import Base.
Local Open Scope N_scope.

Section List_.
Variable A : Type.
(** The comparison function given to sorted_list_create. *)
Variable cmp : A -> A -> comparison.

(** src/views/sorted_list.cc:32-36 sorted_list_t: the elements from head on, and length. Allocation is assumed to succeed. *)
Record slist := Slist { sl_elems : list A; sl_length : Z }.

(** src/views/sorted_list.cc:42-52 sorted_list_create. *)
Definition sorted_list_create : slist := Slist [] 0.

(** src/views/sorted_list.cc:79-101: the position is searched and the new node linked in; the flag tells whether a node was
    replaced. *)
Fixpoint add_elem (e : A) (l : list A) : list A * bool :=
  match l with
  | [] => ([e], false)
  | n :: r => match cmp n e with
              | Lt => let '(r', b) := add_elem e r in (n :: r', b)
              | Eq => (e :: r, true)
              | Gt => (e :: n :: r, false)
              end
  end.
(** src/views/sorted_list.cc:54-104 sorted_list_add. *)
Definition sorted_list_add (l : slist) (e : A) : slist :=
  let '(r, replaced) := add_elem e (sl_elems l) in
  Slist r (if replaced then sl_length l else sl_length l + 1)%Z.

(** src/views/sorted_list.cc:106-123 sorted_list_get. *)
Fixpoint get_elem (e : A) (l : list A) : option A :=
  match l with
  | [] => None
  | n :: r => match cmp n e with Eq => Some n | Gt => None | Lt => get_elem e r end
  end.
Definition sorted_list_get (l : slist) (e : A) : option A := get_elem e (sl_elems l).

(** src/views/sorted_list.cc:125-152 sorted_list_remove. *)
Fixpoint remove_elem (e : A) (l : list A) : list A * bool :=
  match l with
  | [] => ([], false)
  | n :: r => match cmp n e with
              | Eq => (r, true)
              | Gt => (l, false)
              | Lt => let '(r', b) := remove_elem e r in (n :: r', b)
              end
  end.
Definition sorted_list_remove (l : slist) (e : A) : slist :=
  let '(r, removed) := remove_elem e (sl_elems l) in
  Slist r (if removed then sl_length l - 1 else sl_length l)%Z.

(** src/views/sorted_list.cc:169-173 sorted_list_size. *)
Definition sorted_list_size (l : slist) : Z := sl_length l.

(** src/views/sorted_list.cc:38-40, 175-185 sorted_list_iterator: the rest of the list. *)
Definition sorted_list_iterator (l : slist) : list A := sl_elems l.
(** src/views/sorted_list.cc:187-197 sorted_list_next. *)
Definition sorted_list_next (it : list A) : option A * list A :=
  match it with [] => (None, []) | e :: r => (Some e, r) end.
(** Not part of the code: the elements that an iterator delivers until it gives none; the loop of every caller. *)
Fixpoint iterate (n : nat) (it : list A) : list A :=
  match n with
  | O => []
  | S m => match sorted_list_next it with (Some e, it') => e :: iterate m it' | (None, _) => [] end
  end.
End List_.
