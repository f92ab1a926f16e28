(** Model of src/tree_writer.cc: writing an index from unsorted records. *)
From Verif Require Import Base Codec File Btree MergeSort.
Local Open Scope N_scope.

(** src/tree_writer.h TreeWriter::KeyValue. *)
Notation record := (bytes * bytes)%type.

(** src/tree_writer.cc:57-67 TreeWriter::write_record: the bytes put on the stream. *)
Definition write_record (x : record) : bytes :=
  be 4 (lenN (fst x) mod 2^32) ++ be 4 (lenN (snd x) mod 2^32) ++ fst x ++ snd x.

(** src/tree_writer.cc:41-55 TreeWriter::read_record from what is left on the stream: no record ([None]) when there are
    fewer than eight bytes. The exception of a record that ends early is a std::runtime_error, which handle_exceptions
    (lines 73-101) turns into INVALID_ARGUMENTS. *)
Definition read_record (s : bytes) : res (option (record * bytes)) :=
  if lenN s <? 8 then Ok None
  else
    let* kl := rd_be 4 0 s in
    let* vl := rd_be 4 4 s in
    if lenN s <? 8 + kl + vl then Err E_INVALID_ARGUMENTS
    else
      let* k := getb 8 kl s in
      let* v := getb (8 + kl) vl s in
      Ok (Some ((k, v), drop (8 + kl + vl) s)).

(** Not part of the code: all records on a stream, as a sequence of calls of read_record reads them. [fuel] bounds the
    number of records; each has at least eight bytes. *)
Fixpoint read_records (fuel : nat) (s : bytes) : res (list record) :=
  match fuel with
  | O => Err E_FUEL
  | S fuel' =>
      let* x := read_record s in
      match x with
      | None => Ok []
      | Some (r, s') => let* l := read_records fuel' s' in Ok (r :: l)
      end
  end.

(** src/tree_writer.cc:158-168 TreeWriter::add: the stream and num_added. *)
Record writer := Writer { w_stream : bytes; w_added : N; w_written : N }.
Definition new_writer : writer := Writer [] 0 0.
Definition tw_add (k v : bytes) (w : writer) : writer := Writer (w_stream w ++ write_record (k, v)) (w_added w + 1) (w_written w).

(** src/tree_writer.cc:177 block_size: the records sorted in memory at a time. *)
Definition block_size : N := 512 * 1024.
(** src/tree_writer.cc:190-197 the comparison given to merge_sort. *)
Definition rec_less (cmp : bytes -> bytes -> comparison) (a b : record) : bool :=
  match cmp (fst a) (fst b) with Lt => true | _ => false end.

(** src/tree_writer.cc:170-200 TreeWriter::sort. The tapes of merge_sort are streams of records: see MergeSort.v; every record
    written to a stream is read back from it (proved in TreeWriterFacts.v), so the sort is modelled on the records. *)
Definition tw_sort (cmp : bytes -> bytes -> comparison) (w : writer) : res writer :=
  let* l := read_records (S (length (w_stream w))) (w_stream w) in
  let* s := merge_sort (rec_less cmp) block_size l in
  Ok (Writer (concat (map write_record s)) (w_added w) (w_written w)).

Section WithEnv.
Context {E : Env}.

(** The loop of src/tree_writer.cc:240-272: result and num_written. [fuel] bounds the number of records. *)
Fixpoint write_records (fuel : nat) (rq : request) (s : bytes) (m : mr) (n : N) : M (mr * N) :=
  match fuel with
  | O => fail E_FUEL
  | S fuel' =>
      let+ x := lift (read_record s) in
      match x with
      | None => ret (m, n)
      | Some (r, s') => let+ m' := push_item rq (fst r) (snd r) m in write_records fuel' rq s' m' (n + 1)
      end
  end.

(** src/tree_writer.cc:202-283 TreeWriter::write: the root and the new num_written. [rq] has the comparison, the reduce functions and the
    node sizes (r_compact = true, no callbacks: new_btree_modres). *)
Definition tw_write (rq : request) (w : writer) : M (option node_pointer * writer) :=
  let+ x := write_records (S (length (w_stream w))) rq (w_stream w) new_btree_modres (w_written w) in
  let+ r := complete_new_btree rq (fst x) in
  ret (r, Writer (w_stream w) (w_added w) (snd x)).
End WithEnv.
