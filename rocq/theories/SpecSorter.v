(** Specification of the sorting and merging of the files of a view. *)
From Coq Require Import Permutation Sorted.
From Verif Require Import Base Codec FileMerger.
Local Open Scope N_scope.
Unset Strict Implicit.

(** The bytes of a record: the length of what follows (four bytes, lowest first), for incremental updates the operation, the length of the key (two bytes), the key and the value. *)
Definition record_bytes (incr : bool) (r : vrec) : bytes :=
  let body := (if incr then [v_op r] else []) ++ be 2 (lenN (v_key r)) ++ v_key r ++ v_val r in
  rev (be 4 (lenN body)) ++ body.
Definition records_file (incr : bool) (l : list vrec) : bytes := concat (map (record_bytes incr) l).
(** The records that can be represented: the length of the key fits in 16 bits, key and value are not both empty and have less than 2 GiB; there is an operation only in incremental updates. *)
Definition record_ok (incr : bool) (r : vrec) : Prop :=
  lenN (v_key r) < 2^16 /\ 0 < lenN (v_key r) + lenN (v_val r) < 2^31 /\ (incr = false -> v_op r = 0).
(** No record comes after one with a higher key; with [strictly], the keys are also different. *)
Definition in_key_order (cmp : bytes -> bytes -> comparison) (l : list vrec) : Prop := StronglySorted (fun x y => cmp (v_key x) (v_key y) <> Gt) l.
Definition strictly (cmp : bytes -> bytes -> comparison) (l : list vrec) : Prop := StronglySorted (fun x y => cmp (v_key x) (v_key y) = Lt) l.
(** The record comes from one of the files, and no later file has its key. *)
Definition from_latest (cmp : bytes -> bytes -> comparison) (files : list (list vrec)) (r : vrec) : Prop :=
  exists older l newer, files = older ++ l :: newer /\ In r l /\ forall l' r', In l' newer -> In r' l' -> cmp (v_key r) (v_key r') <> Eq.
