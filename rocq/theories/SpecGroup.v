(** Specification vocabulary for building, updating and compacting the indexes of a view group. *)
From Coq Require Import Permutation.
From Verif Require Import Base Codec File Btree Bitmap SpecFile SpecMap SpecUtil ViewCodec SpecView Reducers IndexHeader Cleanup ViewGroup SpecCleanup FileMerger SpecSession SpecSorter.
Local Open Scope N_scope.
Unset Strict Implicit.

(** The rows that are left when those of the partitions of a mask are left out, if there is a mask. *)
Definition kept_rows (mask : option bitmap) (l : list kv) : list kv := match mask with Some m => without m l | None => l end.

(** The rows of records: keys and values. *)
Definition rows_of (l : list vrec) : list kv := map (fun x => (v_key x, v_val x)) l.
(** The records have different keys. *)
Definition distinct_keys (cmp : bytes -> bytes -> comparison) (l : list vrec) : Prop :=
  NoDup l /\ forall x y, In x l -> In y l -> cmp (v_key x) (v_key y) = Eq -> x = y.

(** The sorter passes the records [l] in the order of their keys, and the keys are different. *)
Definition passed (cmp : bytes -> bytes -> comparison) (s : fres (list vrec)) (l : list vrec) : Prop := exists out, s = Good out /\ Permutation l out /\ strictly cmp out.

(** ** Updates *)

(** A record of an incremental update: an operation (1: remove the key, 2: set the key), a key that is not empty, and the value. *)
Definition op_ok (record : kv -> Prop) (r : vrec) : Prop :=
  0 < lenN (v_key r) < 2^16 /\ lenN (v_key r) + lenN (v_val r) + 3 < 2^31 /\ (v_op r = 1 \/ v_op r = 2 /\ record (v_key r, v_val r)).
(** The rows that the records set. *)
Definition set_rows (l : list vrec) : list kv := rows_of (filter (fun r => v_op r =? 2) l).
(** One of the records has the key of the row. *)
Definition named (cmp : bytes -> bytes -> comparison) (l : list vrec) (x : kv) : Prop := exists r, In r l /\ cmp (v_key r) (fst x) = Eq.
(** What an update of an index with the rows [kvs] may leave, when the rows of the partitions of [mask] are to be removed: nothing has changed if there are no records. Otherwise
    every row has been set by a record, or was there before, has not been named by a record and does not belong to the mask. No row is lost, unless it belongs to the mask. *)
Record updated (cmp : bytes -> bytes -> comparison) (mask : bitmap) (l : list vrec) (kvs kvs' : list kv) : Prop := {
  up_none : l = [] -> kvs' = kvs;
  up_only : l <> [] -> forall x, In x kvs' -> In x (set_rows l) \/ In x kvs /\ ~ named cmp l x /\ in_mask mask x = false;
  up_old : forall x, In x kvs -> ~ named cmp l x -> in_mask mask x = false -> In x kvs';
  up_new : forall x, In x (set_rows l) -> in_mask mask x = false -> In x kvs'
}.
(** The records do not concern the partitions of the mask: none of them sets a row of the mask or has the key of a row of the mask. *)
Definition apart_from (cmp : bytes -> bytes -> comparison) (mask : bitmap) (l : list vrec) (kvs : list kv) : Prop :=
  (forall x, In x (set_rows l) -> in_mask mask x = false) /\ (forall x, In x kvs -> in_mask mask x = true -> ~ named cmp l x).

(** How many records set a key, and how many remove one. *)
Definition n_set (l : list vrec) : N := lenN (filter (fun r => v_op r =? 2) l).
Definition n_removed (l : list vrec) : N := lenN (filter (fun r => v_op r =? 1) l).
(** What an update with the records [l] removes of the partitions of the mask, [w] for each row: nothing if there are no records. *)
Definition cleaned (w : kv -> N) (mask : bitmap) (l : list vrec) (kvs : list kv) : N := match l with [] => 0 | _ => sum_of w (only mask kvs) end.

(** The file [b] holds the records [l] in the order of their keys, or is sorted in this way, and the keys are different. *)
Definition prepared (cmp : bytes -> bytes -> comparison) (sorter : option (bytes -> fres bytes)) (b : bytes) (l : list vrec) : Prop :=
  exists l', Permutation l l' /\ strictly cmp l' /\ ops_file sorter b = Ok (records_file true l').
(** What an update with the records [l] does to one index: the rows before and the rows after. *)
Definition index_updated (cmp : bytes -> bytes -> comparison) (mask : bitmap) (l : list vrec) (x : list kv * list kv) : Prop := sorted cmp (snd x) /\ updated cmp mask l (fst x) (snd x).
(** The records do not concern the mask, and there are not too many rows to count. *)
Definition countable (cmp : bytes -> bytes -> comparison) (w : kv -> N) (mask : bitmap) (l : list vrec) (x : list kv * list kv) : Prop :=
  apart_from cmp mask l (fst x) /\ sum_of w (fst x) + sum_of w (set_rows l) < 2^40.

Section WithEnv.
Context {E : Env}.
(** A file with any contents to which anything has been appended. *)
Definition some_file (f : file) : Prop := exists g gsz pl m k, (forall i, gsz <= i -> g i = 0) /\ appends (opened_on g gsz pl m k) f.
(** The index with the given root holds the rows [l], in this order. *)
Definition holds (f : file) (root : option node_pointer) (l : list kv) : Prop := exists z, index f root l z.
(** The index holds these rows, in the order of the keys. *)
Definition holds_set (cmp : bytes -> bytes -> comparison) (f : file) (root : option node_pointer) (l : list kv) : Prop := exists l', Permutation l l' /\ sorted cmp l' /\ holds f root l'.
End WithEnv.
