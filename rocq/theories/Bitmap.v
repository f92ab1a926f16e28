(** Model of src/views/bitmap.cc: partition bitmaps. *)
From Verif Require Import Base.
Local Open Scope N_scope.

(** src/views/bitmap.h:26-31 bitmap_t: 128 bytes. *)
Definition bitmap := bytes.
Definition CHUNKS : N := 128.
Definition empty_bitmap : bitmap := repeat 0 128.

(** src/views/bitmap.cc:28 CHUNK_INDEX; [None]: an index outside the array. *)
Definition chunk_index (bit : N) : option nat :=
  if bit / 8 <? CHUNKS then Some (N.to_nat (CHUNKS - 1 - bit / 8)) else None.
(** src/views/bitmap.cc:30 CHUNK_OFFSET. *)
Definition chunk_offset (bit : N) : N := bit mod 8.

(** Not part of the code: change one element. *)
Fixpoint upd (i : nat) (v : N) (l : bytes) : bytes :=
  match l, i with
  | [], _ => []
  | _ :: r, O => v :: r
  | x :: r, S j => x :: upd j v r
  end.

(** src/views/bitmap.cc:32-34 is_bit_set. *)
Definition is_bit_set (bm : bitmap) (bit : N) : res bool :=
  match chunk_index bit with
  | Some i => Ok (negb (N.land (nth i bm 0) (N.shiftl 1 (chunk_offset bit)) =? 0))
  | None => Err E_UB
  end.

(** src/views/bitmap.cc:36-38 set_bit. *)
Definition set_bit (bm : bitmap) (bit : N) : res bitmap :=
  match chunk_index bit with
  | Some i => Ok (upd i (N.lor (nth i bm 0) (N.shiftl 1 (chunk_offset bit))) bm)
  | None => Err E_UB
  end.

(** src/views/bitmap.cc:40-42 unset_bit; ~ and & on a byte. *)
Definition unset_bit (bm : bitmap) (bit : N) : res bitmap :=
  match chunk_index bit with
  | Some i => Ok (upd i (N.land (nth i bm 0) (255 - N.shiftl 1 (chunk_offset bit))) bm)
  | None => Err E_UB
  end.

(** Not part of the code: both arrays in step. *)
Fixpoint zip (f : N -> N -> N) (a b : bytes) : bytes :=
  match a, b with x :: a', y :: b' => f x y :: zip f a' b' | _, _ => [] end.

(** src/views/bitmap.cc:44-49 union_bitmaps. *)
Definition union_bitmaps (dst src : bitmap) : bitmap := zip N.lor dst src.
(** src/views/bitmap.cc:51-56 intersect_bitmaps. *)
Definition intersect_bitmaps (dst src : bitmap) : bitmap := zip N.land dst src.
(** src/views/bitmap.cc:58-60 is_equal_bitmap. *)
Fixpoint is_equal_bitmap (a b : bitmap) : bool :=
  match a, b with
  | [], [] => true
  | x :: a', y :: b' => (x =? y) && is_equal_bitmap a' b'
  | _, _ => false
  end.
