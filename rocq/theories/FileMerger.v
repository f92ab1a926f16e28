(** Model of src/file_merger.cc (merging sorted files of records) and of the records of src/views/util.cc. Opening and closing files, allocation and the writing of the
    merged records are assumed to succeed. A source file is the list of the bytes that have not been read yet. *)
From Verif Require Import Base Codec.
Local Open Scope N_scope.
Unset Strict Implicit.

(** src/file_merger.h:29-37 and src/file_sorter.h:31-46 the error codes. [F_ASSERT]: a failed cb_assert or an access outside of an array. [F_HANG]: waiting for ever.
    [F_FUEL]: a bounded loop of the model ran out of steps. *)
Inductive ferr :=
| F_OPEN_FILE | F_READ | F_WRITE | F_BAD_ARG | F_ALLOC | F_SORT | F_MK_TMP_FILE | F_MISSING_CALLBACK | F_ASSERT | F_HANG | F_FUEL.
Inductive fres (A : Type) : Type := Good (a : A) | Bad (e : ferr).
Arguments Good {A} a.
Arguments Bad {A} e.
(** Not part of the code: go on unless there is an error. *)
Definition fbind {A B} (x : fres A) (k : A -> fres B) : fres B := match x with Good a => k a | Bad e => Bad e end.

(** The result of a function of type file_merger_read_record_t (src/file_merger.h:44-54): 0 at the end of the file, a negative error, or the length of a record. *)
Inductive rdres (A : Type) : Type := R_eof | R_err (e : ferr) | R_rec (a : A) (rest : bytes).
Arguments R_eof {A}.
Arguments R_err {A} e.
Arguments R_rec {A} a rest.

(** ** The records of the view files *)

(** src/views/util.h:30-36 view_file_merge_record_t with the key and the value that follow it. *)
Record vrec := VRec { v_op : N; v_key : bytes; v_val : bytes }.
(** src/views/util.cc:125-156 write_view_record; [incr] is is_incremental_update_record (lines 31-34). The length has the byte order of the machine, which is assumed to be little
    endian. *)
Definition write_view_record (incr : bool) (r : vrec) : bytes :=
  let klen := lenN (v_key r) mod 2^16 in
  let len := (2 + lenN (v_key r) + lenN (v_val r) + (if incr then 1 else 0)) mod 2^32 in
  rev (be 4 len) ++ (if incr then [v_op r] else []) ++ be 2 klen ++ v_key r ++ v_val r.
(** src/views/util.cc:79-122 read_view_record: fread of nothing gives 0, which is taken as an error; a file that ends within the length counts as the end of the file. A key that
    is longer than what was read is in memory that was not written: [F_ASSERT]. A result of 2^31 or more is negative as an int. *)
Definition read_view_record (incr : bool) (b : bytes) : rdres vrec :=
  if lenN b <? 4 then R_eof else
  let len := unbe (rev (take 4 b)) in
  let b1 := drop 4 b in
  if incr && (lenN b1 <? 1) then R_err F_READ else
  let op := if incr then hd 0 b1 else 0 in
  let b2 := if incr then drop 1 b1 else b1 in
  if lenN b2 <? 2 then R_err F_READ else
  let klen := unbe (take 2 b2) in
  let vlen := (len + 2^32 + 2^32 - 2 - klen - (if incr then 1 else 0)) mod 2^32 in
  let n := (klen + vlen) mod 2^32 in
  let b3 := drop 2 b2 in
  if (n =? 0) || (2^31 <=? n) || (lenN b3 <? n) then R_err F_READ
  else if n <? klen then R_err F_ASSERT
  else R_rec (VRec op (take klen b3) (drop klen (take n b3))) (drop n b3).
(** src/views/util.cc:174-187 dedup_view_records_merger: the index of the first record of the highest file number. *)
Fixpoint dedup_loop (records : list nat) (i max best : nat) : nat :=
  match records with
  | [] => max
  | f :: r => if Nat.ltb best f then dedup_loop r (S i) i f else dedup_loop r (S i) max best
  end.
Definition dedup_view_records_merger {A} (records : list (A * nat)) : nat :=
  match map snd records with [] => O | f :: r => dedup_loop r 1 O f end.

Section Merge_.
Variable A : Type.
(** ctx->compare_records: the sign of its result. *)
Variable cmp : A -> A -> comparison.
(** ctx->read_record. *)
Variable rd : bytes -> rdres A.
(** ctx->dedup_records, which may be null. *)
Variable dedup : option (list (A * nat) -> nat).

(** src/file_merger.cc:31-34 record_t: the record and the number of its file. *)
Notation mrec := (A * nat)%type.

(** src/file_merger.cc:347-357 the binary search of sorted_vector_add. [fuel] is at least r - l. *)
Fixpoint search (fuel : nat) (x : mrec) (v : list mrec) (l r : nat) : fres (nat * nat) :=
  match fuel with
  | O => Bad F_FUEL
  | S k =>
      if Nat.ltb 1 (r - l) then
        let pos := Nat.div (l + r) 2 in
        match nth_error v pos with
        | None => Bad F_ASSERT
        | Some y => match cmp (fst x) (fst y) with Lt => search k x v l pos | _ => search k x v pos r end
        end
      else Good (l, r)
  end.
(** src/file_merger.cc:338-374 sorted_vector_add; [nfiles] is the number of files. *)
Definition sorted_vector_add (nfiles : nat) (x : mrec) (v : list mrec) : fres (list mrec) :=
  if Nat.eqb (length v) nfiles then Bad F_SORT else
  fbind (search (S (length v)) x v O (length v)) (fun lr =>
  let r := match lr with
           | (O, S r') => match v with y :: _ => match cmp (fst x) (fst y) with Lt => O | _ => S r' end | [] => S r' end
           | (_, r) => r
           end in
  Good (firstn r v ++ x :: skipn r v)).

(** src/file_merger.cc:307-313: how many records at the beginning of the vector are equal to the head. *)
Fixpoint equal_prefix (h : A) (v : list mrec) : nat :=
  match v with
  | y :: r => match cmp h (fst y) with Eq => S (equal_prefix h r) | _ => O end
  | [] => O
  end.
(** src/file_merger.cc:320-327: the winner is exchanged with the first record. *)
Definition winner_first (j : nat) (l : list mrec) : fres (list mrec) :=
  match l, nth_error l j with
  | h :: r, Some w => Good (match j with O => l | S j' => w :: firstn j' r ++ h :: skipn (S j') r end)
  | _, _ => Bad F_ASSERT
  end.
(** src/file_merger.cc:286-332 sorted_vector_pop for a vector that is not empty: the records that are taken out and the rest. *)
Definition sorted_vector_pop (v : list mrec) : fres (list mrec * list mrec) :=
  match v with
  | [] => Bad F_ASSERT
  | h :: t =>
      match dedup with
      | None => Good ([h], t)
      | Some d =>
          let i := equal_prefix (fst h) t in
          let records := h :: firstn i t in
          match i with
          | O => Good (records, t)
          | S _ => fbind (winner_first (d records) records) (fun l => Good (l, skipn i t))
          end
      end
  end.

(** Not part of the code: files[i] = x. *)
Definition set_file (i : nat) (x : option bytes) (files : list (option bytes)) : list (option bytes) := firstn i files ++ x :: skipn (S i) files.
(** src/file_merger.cc:151-174, 215-240: read the next record of file [i] and add it to the vector; at the end of the file it is closed. Reading from a closed file is [F_ASSERT]. *)
Definition refill (i : nat) (st : list (option bytes) * list mrec) : fres (list (option bytes) * list mrec) :=
  let '(files, v) := st in
  match nth_error files i with
  | Some (Some b) =>
      match rd b with
      | R_eof => Good (set_file i None files, v)
      | R_err e => Bad e
      | R_rec a rest => fbind (sorted_vector_add (length files) (a, i) v) (fun v' => Good (set_file i (Some rest) files, v'))
      end
  | _ => Bad F_ASSERT
  end.
(** The loops over the files, src/file_merger.cc:145-175, and over the records taken out, 214-241. *)
Fixpoint refills (is : list nat) (st : list (option bytes) * list mrec) : fres (list (option bytes) * list mrec) :=
  match is with
  | [] => Good st
  | i :: r => fbind (refill i st) (refills r)
  end.
(** src/file_merger.cc:177-244 the main loop; the result is the list of the records given to feed_record and write_record. *)
Fixpoint merge_loop (fuel : nat) (st : list (option bytes) * list mrec) : fres (list A) :=
  match fuel with
  | O => Bad F_FUEL
  | S k =>
      match snd st with
      | [] => Good []
      | _ :: _ =>
          fbind (sorted_vector_pop (snd st)) (fun p =>
          match fst p with
          | [] => Bad F_ASSERT
          | h :: _ => fbind (refills (map snd (fst p)) (fst st, snd p)) (fun st' => fbind (merge_loop k st') (fun out => Good (fst h :: out)))
          end)
      end
  end.
(** src/file_merger.cc:81-140 merge_files with 143-247 do_merge_files. Each record takes at least one byte, which bounds the number of rounds. *)
Definition merge_files (files : list bytes) : fres (list A) :=
  match files with
  | [] => Bad F_BAD_ARG
  | _ :: _ => fbind (refills (seq 0 (length files)) (map (@Some bytes) files, [])) (merge_loop (S (length (concat files))))
  end.
End Merge_.
