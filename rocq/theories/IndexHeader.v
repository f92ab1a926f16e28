(** Model of src/views/index_header.cc: the header of a view index. Allocation is assumed to succeed. *)
From Verif Require Import Base Codec File Bitmap SortedList ViewCodec.
Local Open Scope N_scope.
Unset Strict Implicit.

(** src/views/index_header.h:33-36 part_seq_t: partition and sequence number. *)
Definition part_seq := (N * N)%type.
(** src/views/index_header.h:47-50 failover_log_t, 52-56 part_version_t: partition and its failover log (uuid and sequence number). *)
Definition part_version := (N * list (bytes * N))%type.
(** src/views/index_header.cc:556-571 part_seq_cmp, part_id_cmp, part_versions_cmp: by partition. *)
Definition part_seq_cmp (a b : part_seq) : comparison := fst a ?= fst b.
Definition part_id_cmp (a b : N) : comparison := a ?= b.
Definition part_versions_cmp (a b : part_version) : comparison := fst a ?= fst b.

(** src/views/index_header.h:38-45, 58-80 index_header_t. num_views is the number of view states. *)
Record index_header := IndexHeader {
  ih_version : N;
  ih_signature : bytes;
  ih_num_partitions : N;
  ih_active : bitmap;
  ih_passive : bitmap;
  ih_cleanup : bitmap;
  ih_seqs : slist part_seq;
  ih_id_state : option node_pointer;
  ih_view_states : list (option node_pointer);
  ih_has_replica : bool;
  ih_replicas : slist N;
  ih_pend_active : slist N;
  ih_pend_passive : slist N;
  ih_pend_unindexable : slist N;
  ih_unindexable : slist part_seq;
  ih_versions : option (slist part_version)
}.

(** src/views/index_header.cc:503-515 enc_seq_list. *)
Definition enc_seq_list (l : slist N) : bytes :=
  be 2 (Z.to_N (sorted_list_size l)) ++ flat_map (be 2) (sl_elems l).
(** src/views/index_header.cc:518-531 enc_part_seq_list. *)
Definition enc_part_seq_list (l : slist part_seq) : bytes :=
  be 2 (Z.to_N (sorted_list_size l)) ++ flat_map (fun x => be 2 (fst x) ++ be 6 (snd x)) (sl_elems l).
(** src/views/index_header.cc:534-553 enc_part_versions_list; the uuid is copied. *)
Definition enc_part_versions_list (l : slist part_version) : bytes :=
  be 2 (Z.to_N (sorted_list_size l)) ++
  flat_map (fun x => be 2 (fst x) ++ be 2 (lenN (snd x)) ++ flat_map (fun y => fst y ++ be 8 (snd y)) (snd x)) (sl_elems l).
(** src/views/index_header.cc:375-384, 388-399: the size (16 bits) and the root. When the size does not fit, the bytes written and the size disagree and the end of the buffer is
    not initialised: [E_UB]. *)
Definition enc_state (s : option node_pointer) : res bytes :=
  let b := encode_root s in if lenN b <? 2^16 then Ok (be 2 (lenN b) ++ b) else Err E_UB.
(** Not part of the code: the loop over the view states. *)
Fixpoint enc_states (l : list (option node_pointer)) : res bytes :=
  match l with
  | [] => Ok []
  | s :: r => let* a := enc_state s in let* b := enc_states r in Ok (a ++ b)
  end.

Section WithEnv.
Context {E : Env}.

(** src/views/index_header.cc:301-441 encode_index_header. A missing list of versions is dereferenced when the version asks for it: [E_UB]. Failing compression gives
    ALLOC_FAIL. *)
Definition encode_index_header (h : index_header) : res bytes :=
  let* ids := enc_state (ih_id_state h) in
  let* views := enc_states (ih_view_states h) in
  let* vers := if 2 <=? ih_version h
               then match ih_versions h with Some l => Ok (enc_part_versions_list l) | None => Err E_UB end
               else Ok [] in
  let buf := be 1 (ih_version h) ++ be 2 (ih_num_partitions h) ++ ih_active h ++ ih_passive h ++ ih_cleanup h ++
             enc_part_seq_list (ih_seqs h) ++ ids ++ be 1 (lenN (ih_view_states h)) ++ views ++
             [if ih_has_replica h then 1 else 0] ++ enc_seq_list (ih_replicas h) ++ enc_seq_list (ih_pend_active h) ++
             enc_seq_list (ih_pend_passive h) ++ enc_seq_list (ih_pend_unindexable h) ++
             enc_part_seq_list (ih_unindexable h) ++ vers in
  match compress buf with
  | Some c => Ok (ih_signature h ++ c)
  | None => Err E_ALLOC
  end.

(** src/views/index_header.cc:146-160, 162-177, 180-195, 198-213: a list of partitions. *)
Definition dec_seq_list : cur (slist N) :=
  let^ n := next_int 2 in
  let^ l := times (N.to_nat n) (next_int 2) in
  cur_ret (fold_left (sorted_list_add part_id_cmp) l (sorted_list_create N)).
(** src/views/index_header.cc:102-121, 216-235: a list of partitions with sequence numbers. *)
Definition dec_part_seq : cur part_seq := let^ p := next_int 2 in let^ s := next_int 6 in cur_ret (p, s).
Definition dec_part_seq_list : cur (slist part_seq) :=
  let^ n := next_int 2 in
  let^ l := times (N.to_nat n) dec_part_seq in
  cur_ret (fold_left (sorted_list_add part_seq_cmp) l (sorted_list_create part_seq)).
(** src/views/index_header.cc:237-272: the partition versions. *)
Definition dec_log : cur (bytes * N) := let^ u := next 8 in let^ s := next_int 8 in cur_ret (u, s).
Definition dec_part_version : cur part_version :=
  let^ p := next_int 2 in let^ n := next_int 2 in let^ l := times (N.to_nat n) dec_log in cur_ret (p, l).
Definition dec_part_versions_list : cur (slist part_version) :=
  let^ n := next_int 2 in
  let^ l := times (N.to_nat n) dec_part_version in
  cur_ret (fold_left (sorted_list_add part_versions_cmp) l (sorted_list_create part_version)).
(** src/views/index_header.cc:123-126, 137-140: a root. *)
Definition dec_state : cur (option node_pointer) :=
  let^ sz := next_int 2 in
  let^ b := next sz in
  fun l => match read_root b with Ok r => Ok (r, l) | Err e => Err e end.

(** src/views/index_header.cc:47-282 decode_index_header. The bytes before the compressed part are the signature. Nothing checks that the fields lie within the uncompressed bytes:
    [E_UB]. (The length given to snappy_uncompressed_length is 16 bytes too long, line 61; that call can read past the end of the buffer only when the compressed part ends within
    its first five bytes, and is not part of the model. Not distinguished: a compressed part without a valid length, for which the result is CORRUPT, line 62.) *)
Definition decode_fields (sig : bytes) : cur index_header :=
  let^ v := next_int 1 in
  let^ np := next_int 2 in
  let^ ba := next 128 in
  let^ bp := next 128 in
  let^ bc := next 128 in
  let^ seqs := dec_part_seq_list in
  let^ ids := dec_state in
  let^ nv := next_int 1 in
  let^ vs := times (N.to_nat nv) dec_state in
  let^ rep := next_int 1 in
  let^ l1 := dec_seq_list in
  let^ l2 := dec_seq_list in
  let^ l3 := dec_seq_list in
  let^ l4 := dec_seq_list in
  let^ un := dec_part_seq_list in
  let h := IndexHeader v sig np ba bp bc seqs ids vs (negb (rep =? 0)) l1 l2 l3 l4 un in
  if 2 <=? v then let^ pv := dec_part_versions_list in cur_ret (h (Some pv)) else cur_ret (h None).
Definition decode_index_header (b : bytes) : res index_header :=
  if lenN b <=? 16 then Err E_CORRUPT
  else match uncompress (drop 16 b) with
       | None => Err E_ALLOC
       | Some u => match decode_fields (take 16 b) u with Ok (h, _) => Ok h | Err e => Err e end
       end.
End WithEnv.
