(** Model of src/merge_sort.h: sorting with runs in memory and merging on two tapes. A stream is the list of the elements on it; reading from a
    rewound stream takes them from the front. Streams are assumed not to fail (a failing one throws an exception that ends the sort). *)
From Verif Require Import Base Db.
Local Open Scope N_scope.

Section Sort_.
Variable A : Type.
(** The comparison given to merge_sort. *)
Variable less : A -> A -> bool.

(** src/merge_sort.h:92-102 the inner loop that fills the list; [n] is list_size. Result: the list (push_front) and what is left of the source. *)
Fixpoint fill (block_size n : N) (acc source : list A) : list A * list A :=
  match source with
  | [] => (acc, [])
  | x :: r => if n + 1 =? block_size then (x :: acc, r) else fill block_size (n + 1) (x :: acc) r
  end.

(** The two tapes; [true] is the second one. *)
Definition tapes : Type := list A * list A.
(** Not part of the code: append to one of the tapes. *)
Definition append (i : bool) (l : list A) (t : tapes) : tapes := if i then (fst t, snd t ++ l) else (fst t ++ l, snd t).

(** src/merge_sort.h:88-115 the loop over the runs; forward_list::sort is stable, as [isort] is. [fuel] is at least the number of elements plus one. *)
Fixpoint runs (fuel : nat) (block_size : N) (source : list A) (i : bool) (count : N) (t : tapes) : res (N * tapes) :=
  match fuel with
  | O => Err E_FUEL
  | S fuel' =>
      let '(l, rest) := fill block_size 0 [] source in
      match l with
      | [] => Ok (count, t)
      | _ :: _ => runs fuel' block_size rest (negb i) (count + lenN l) (append i (isort (fun x y => less y x) l) t)
      end
  end.

(** The variables of one merging pass, src/merge_sort.h:131-148: what is left on the source tapes (with their sizes), left and right, block_rem, dest_block_rem,
    target_idx, the destination tapes. *)
Record pass := Pass {
  ps_s0 : list A; ps_s1 : list A; ps_left : option A; ps_right : option A; ps_b0 : N; ps_b1 : N; ps_rem : N; ps_idx : bool; ps_dst : tapes
}.

(** src/merge_sort.h:154-160: a new block. *)
Definition reload (bs : N) (p : pass) : pass :=
  if ps_rem p =? 0
  then Pass (ps_s0 p) (ps_s1 p) (ps_left p) (ps_right p) (N.min (lenN (ps_s0 p)) (bs / 2)) (N.min (lenN (ps_s1 p)) (bs / 2)) bs (negb (ps_idx p)) (ps_dst p)
  else p.
(** src/merge_sort.h:161-168 with Tape::pop (lines 66-72). *)
Definition pop (b : N) (x : option A) (s : list A) : N * option A * list A :=
  match x with
  | Some _ => (b, x, s)
  | None => if b =? 0 then (b, None, s) else match s with [] => (b - 1, None, []) | y :: r => (b - 1, Some y, r) end
  end.
(** src/merge_sort.h:153-191 one round of the inner loop. *)
Definition merge_step (bs : N) (p0 : pass) : res pass :=
  let p := reload bs p0 in
  let '(b0, l, s0) := pop (ps_b0 p) (ps_left p) (ps_s0 p) in
  let '(b1, r, s1) := pop (ps_b1 p) (ps_right p) (ps_s1 p) in
  let out (x : A) (l' r' : option A) := Ok (Pass s0 s1 l' r' b0 b1 (ps_rem p - 1) (ps_idx p) (append (ps_idx p) [x] (ps_dst p))) in
  match l, r with
  | Some x, Some y => if less y x then out y l None else out x None r
  | Some x, None => out x None None
  | None, Some y => out y None None
  | None, None => Err E_CANCEL
  end.
(** src/merge_sort.h:152-192 the inner loop for [n] = elems_rem elements. *)
Fixpoint merge_elems (n : nat) (bs : N) (p : pass) : res pass :=
  match n with
  | O => Ok p
  | S n' => let* p' := merge_step bs p in merge_elems n' bs p'
  end.

(** src/merge_sort.h:128-195 the outer loop; block sizes have 64 bits. *)
Fixpoint passes (fuel : nat) (bs count : N) (t : tapes) : res (list A) :=
  match fuel with
  | O => Err E_FUEL
  | S fuel' =>
      let bs' := (bs * 2) mod 2^64 in
      let* p := merge_elems (N.to_nat count) bs' (Pass (fst t) (snd t) None None 0 0 0 true ([], [])) in
      if bs' <? count then passes fuel' bs' count (ps_dst p)
      else Ok (if ps_idx p then snd (ps_dst p) else fst (ps_dst p))
  end.

(** src/merge_sort.h:44-201 merge_sort. *)
Definition merge_sort (block_size : N) (source : list A) : res (list A) :=
  let* x := runs (S (length source)) block_size source false 0 ([], []) in
  let '(count, t) := x in
  if count <=? block_size then Ok (fst t) else passes 65 block_size count t.
End Sort_.
