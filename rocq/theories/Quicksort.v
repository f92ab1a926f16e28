(** Model of src/quicksort.c, the sort of the record pointers in src/file_sorter.cc where the system has no qsort_r. The array is a list; positions are numbers of elements (pointers
    into the array divided by the size of an element). An access outside of the array is [F_ASSERT]. *)
From Verif Require Import Base FileMerger.
Unset Strict Implicit.
Local Open Scope nat_scope.

Section Qs.
Variable A : Type.
Variable cmp : A -> A -> comparison.

(** Not part of the code: the comparison of two elements of the array. *)
Definition cmpat (a : list A) (i j : nat) : fres comparison :=
  match nth_error a i, nth_error a j with Some x, Some y => Good (cmp x y) | _, _ => Bad F_ASSERT end.
(** Not part of the code: a[i] = x. *)
Fixpoint set_at (a : list A) (i : nat) (x : A) : list A :=
  match a, i with
  | [], _ => []
  | _ :: r, O => x :: r
  | y :: r, S k => y :: set_at r k x
  end.
(** src/quicksort.c:87-93 swap. *)
Definition swap (a : list A) (i j : nat) : fres (list A) :=
  match nth_error a i, nth_error a j with Some x, Some y => Good (set_at (set_at a i y) j x) | _, _ => Bad F_ASSERT end.
(** src/quicksort.c:95 vecswap with 78-85 swapfunc: exchange [n] elements. *)
Fixpoint vecswap (a : list A) (i j n : nat) : fres (list A) :=
  match n with
  | O => Good a
  | S k => fbind (swap a i j) (fun a' => vecswap a' (S i) (S j) k)
  end.
(** src/quicksort.c:99-104 med3. *)
Definition med3 (a : list A) (x y z : nat) : fres nat :=
  fbind (cmpat a x y) (fun xy => fbind (cmpat a y z) (fun yz => fbind (cmpat a x z) (fun xz =>
  Good (match xy with
        | Lt => match yz with Lt => y | _ => match xz with Lt => z | _ => x end end
        | _ => match yz with Gt => y | _ => match xz with Lt => x | _ => z end end
        end)))).

(** src/quicksort.c:117-120 the inner loop of the insertion sort of the elements from [lo]: the element at [pl] moves down. *)
Fixpoint sift (pl lo : nat) (a : list A) : fres (list A) :=
  match pl with
  | O => Good a
  | S p => if Nat.ltb lo pl then fbind (cmpat a p pl) (fun c => match c with Gt => fbind (swap a pl p) (sift p lo) | _ => Good a end) else Good a
  end.
(** src/quicksort.c:116-121 the insertion sort: [k] elements from [pm]. *)
Fixpoint insertion (k pm lo : nat) (a : list A) : fres (list A) :=
  match k with
  | O => Good a
  | S k' => fbind (sift pm lo a) (insertion k' (S pm) lo)
  end.

(** src/quicksort.c:123-134 the choice of the pivot for the [n] elements from [lo]. *)
Definition pivot (a : list A) (lo n : nat) : fres nat :=
  let pm := lo + n / 2 in
  if Nat.ltb 7 n then
    let pl := lo in
    let pn := lo + (n - 1) in
    if Nat.ltb 40 n then
      let d := n / 8 in
      fbind (med3 a pl (pl + d) (pl + 2 * d)) (fun pl' =>
      fbind (med3 a (pm - d) pm (pm + d)) (fun pm' =>
      fbind (med3 a (pn - 2 * d) (pn - d) pn) (fun pn' => med3 a pl' pm' pn')))
    else med3 a pl pm pn
  else Good pm.

(** The variables of the partition: the array, pa, pb, and one more than pc and pd (pc may be below the first element compared). *)
Record part := Part { q_a : list A; q_pa : nat; q_pb : nat; q_pc : nat; q_pd : nat }.
(** src/quicksort.c:140-146 the scan from below. *)
Fixpoint scan_up (fuel lo : nat) (p : part) : fres part :=
  match fuel with
  | O => Bad F_FUEL
  | S k =>
      if Nat.ltb (q_pb p) (q_pc p) then
        fbind (cmpat (q_a p) (q_pb p) lo) (fun c =>
        match c with
        | Gt => Good p
        | Lt => scan_up k lo (Part (q_a p) (q_pa p) (S (q_pb p)) (q_pc p) (q_pd p))
        | Eq => fbind (swap (q_a p) (q_pa p) (q_pb p)) (fun a' => scan_up k lo (Part a' (S (q_pa p)) (S (q_pb p)) (q_pc p) (q_pd p)))
        end)
      else Good p
  end.
(** src/quicksort.c:147-153 the scan from above. *)
Fixpoint scan_down (fuel lo : nat) (p : part) : fres part :=
  match fuel with
  | O => Bad F_FUEL
  | S k =>
      if Nat.ltb (q_pb p) (q_pc p) then
        fbind (cmpat (q_a p) (q_pc p - 1) lo) (fun c =>
        match c with
        | Lt => Good p
        | Gt => scan_down k lo (Part (q_a p) (q_pa p) (q_pb p) (q_pc p - 1) (q_pd p))
        | Eq => fbind (swap (q_a p) (q_pc p - 1) (q_pd p - 1)) (fun a' => scan_down k lo (Part a' (q_pa p) (q_pb p) (q_pc p - 1) (q_pd p - 1)))
        end)
      else Good p
  end.
(** src/quicksort.c:139-159 the partition. *)
Fixpoint partition (fuel lo : nat) (p : part) : fres part :=
  match fuel with
  | O => Bad F_FUEL
  | S k =>
      fbind (scan_up fuel lo p) (fun p1 =>
      fbind (scan_down fuel lo p1) (fun p2 =>
      if Nat.ltb (q_pb p2) (q_pc p2)
      then fbind (swap (q_a p2) (q_pb p2) (q_pc p2 - 1)) (fun a' => partition k lo (Part a' (q_pa p2) (S (q_pb p2)) (q_pc p2 - 1) (q_pd p2)))
      else Good p2))
  end.

(** src/quicksort.c:106-175 qsort_fallback for the [n] elements from [lo]; the jump back to the beginning is a call. *)
Fixpoint qsort_fallback (fuel : nat) (a : list A) (lo n : nat) : fres (list A) :=
  match fuel with
  | O => Bad F_FUEL
  | S k =>
      if Nat.ltb n 7 then insertion (n - 1) (S lo) lo a
      else
        fbind (pivot a lo n) (fun pm =>
        fbind (swap a lo pm) (fun a1 =>
        fbind (partition (S n) lo (Part a1 (S lo) (S lo) (lo + n) (lo + n))) (fun p =>
        let pn := lo + n in
        let r := Nat.min (q_pa p - lo) (q_pb p - q_pa p) in
        fbind (vecswap (q_a p) lo (q_pb p - r) r) (fun a2 =>
        let r := Nat.min (q_pd p - q_pc p) (pn - q_pd p) in
        fbind (vecswap a2 (q_pb p) (pn - r) r) (fun a3 =>
        let r := q_pb p - q_pa p in
        fbind (if Nat.ltb 1 r then qsort_fallback k a3 lo r else Good a3) (fun a4 =>
        let r := q_pd p - q_pc p in
        if Nat.ltb 1 r then qsort_fallback k a4 (pn - r) r else Good a4))))))
  end.
(** src/quicksort.c:179-195 quicksort. *)
Definition quicksort (a : list A) : fres (list A) := qsort_fallback (S (length a)) a 0 (length a).
End Qs.
