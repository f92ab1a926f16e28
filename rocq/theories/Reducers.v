(** Model of src/views/reducers.cc: the reduce values of the view indexes. Allocation is assumed to succeed. [E_UB] stands for a failed cb_assert, which ends the process,
    and for accesses outside of a buffer. *)
From Verif Require Import Base Codec Bitmap ViewCodec.
Local Open Scope N_scope.
Unset Strict Implicit.

(** Not part of the code: apply an operation that may fail to each element. *)
Fixpoint map_res {A B} (g : A -> res B) (l : list A) : res (list B) :=
  match l with
  | [] => Ok []
  | a :: r => let* b := g a in let* t := map_res g r in Ok (b :: t)
  end.
(** The loops over set_bit, src/views/reducers.cc:132-137, 612-619. *)
Fixpoint set_bits (bm : bitmap) (l : list N) : res bitmap :=
  match l with
  | [] => Ok bm
  | b :: r => let* bm' := set_bit bm b in set_bits bm' r
  end.

(** ** Index by document id *)

(** src/views/reducers.cc:122-140 view_id_btree_reduce. *)
Definition view_id_btree_reduce (kvs : list (bytes * bytes)) : res bytes :=
  let* ps := map_res (fun kv => decode_view_btree_partition (snd kv)) kvs in
  let* bm := set_bits empty_bitmap ps in
  encode_view_id_btree_reduction (IdReduction (lenN kvs) bm).
(** src/views/reducers.cc:142-166 view_id_btree_rereduce; the sum is a uint64_t. *)
Definition view_id_btree_rereduce (rs : list bytes) : res bytes :=
  let* ds := map_res decode_view_id_btree_reduction rs in
  encode_view_id_btree_reduction
    (IdReduction (fold_left (fun a r => (a + ir_count r) mod 2^64) ds 0) (fold_left (fun a r => union_bitmaps a (ir_bitmap r)) ds empty_bitmap)).

(** ** Views *)

(** src/views/reducers.cc reducer_fn_t: the keys ([None] when reducing again) and the values give a value or an error. *)
Definition reducer := option (list bytes) -> list bytes -> res bytes.

(** Decimal digits of a number, as printed by "%" PRIu64; at most 20 for a uint64_t. *)
Fixpoint digits (fuel : nat) (n : N) (acc : bytes) : bytes :=
  match fuel with
  | O => acc
  | S k => let acc' := (48 + n mod 10) :: acc in if n / 10 =? 0 then acc' else digits k (n / 10) acc'
  end.
Definition print_u64 (n : N) : bytes := digits 20 n [].
(** strtoull (ISO C): white space, an optional sign, digits; [None] when nothing was converted. The value saturates. The second component is what is left. *)
Fixpoint skip_space (l : bytes) : bytes :=
  match l with
  | c :: r => if (c =? 32) || ((9 <=? c) && (c <=? 13)) then skip_space r else l
  | [] => []
  end.
Fixpoint read_digits (l : bytes) (some : bool) (acc : N) : option (N * bytes) :=
  match l with
  | c :: r => if (48 <=? c) && (c <=? 57) then read_digits r true (acc * 10 + (c - 48)) else if some then Some (acc, l) else None
  | [] => if some then Some (acc, []) else None
  end.
Definition strtoull (l : bytes) : option (N * bytes) :=
  let l := skip_space l in
  let '(neg, l) := match l with 45 :: r => (true, r) | 43 :: r => (false, r) | _ => (false, l) end in
  match read_digits l false 0 with
  | Some (n, r) => Some (if 2^64 <=? n then 2^64 - 1 else if neg then (2^64 - n) mod 2^64 else n, r)
  | None => None
  end.
(** The bytes up to the first zero: a C string (src/views/reducers.cc:83-93 json_to_str). *)
Fixpoint c_string (l : bytes) : bytes := match l with c :: r => if c =? 0 then [] else c :: c_string r | [] => [] end.
(** src/views/reducers.cc:109-120 json_to_uint64. *)
Definition json_to_uint64 (b : bytes) : option N :=
  if (lenN b <? 1) || (31 <? lenN b) then None
  else match strtoull (c_string b) with Some (n, []) => Some n | _ => None end.
(** src/views/reducers.cc:219-256 builtin_count_reducer. *)
Fixpoint sum_counts (vs : list bytes) (count : N) : res N :=
  match vs with
  | [] => Ok count
  | v :: r => match json_to_uint64 v with Some n => sum_counts r ((count + n) mod 2^64) | None => Err E_REDUCER_FAILURE end
  end.
Definition builtin_count_reducer : reducer := fun keys vs =>
  match keys with
  | Some _ => Ok (print_u64 (lenN vs mod 2^64))
  | None => let* n := sum_counts vs 0 in Ok (print_u64 n)
  end.

(** Not part of the code: run the reducers in turn on the same arguments (src/views/reducers.cc:661-673). *)
Fixpoint run_reducers (rs : list reducer) (keys : option (list bytes)) (vs : list bytes) : res (list bytes) :=
  match rs with
  | [] => Ok []
  | r :: t => let* b := r keys vs in let* bs := run_reducers t keys vs in Ok (b :: bs)
  end.
(** src/views/reducers.cc:583-688 view_btree_reduce with the reducers of the context. The sum of the numbers of values is a uint64_t. Every value goes with the key of its entry. *)
Definition view_btree_reduce (rs : list reducer) (kvs : list (bytes * bytes)) : res bytes :=
  let* vs := map_res (fun kv => decode_view_btree_value (snd kv)) kvs in
  let* bm := set_bits empty_bitmap (map vv_partition vs) in
  let count := fold_left (fun a v => (a + lenN (vv_values v)) mod 2^64) vs 0 in
  let* ks := map_res (fun kv => decode_view_btree_json_key (fst kv)) kvs in
  let keys := flat_map (fun kv => repeat (fst kv) (length (vv_values (snd kv)))) (combine ks vs) in
  let* out := run_reducers rs (Some keys) (flat_map vv_values vs) in
  encode_view_btree_reduction (ViewReduction count bm out).
(** src/views/reducers.cc:736-760: the loop over the reducers when reducing again: reducer number [i] gets value number [i] of each reduction. *)
Fixpoint rerun_reducers (rs : list reducer) (i : nat) (ds : list view_reduction) : res (list bytes) :=
  match rs with
  | [] => Ok []
  | r :: t => let* b := r None (map (fun d => nth i (vr_values d) []) ds) in let* bs := rerun_reducers t (S i) ds in Ok (b :: bs)
  end.
(** src/views/reducers.cc:690-769 view_btree_rereduce; [E_UB]: the assertion on line 732. *)
Definition view_btree_rereduce (rs : list reducer) (reds : list bytes) : res bytes :=
  let* ds := map_res decode_view_btree_reduction reds in
  if negb (forallb (fun d => lenN (vr_values d) =? lenN rs) ds) then Err E_UB else
  let count := fold_left (fun a d => (a + vr_count d) mod 2^64) ds 0 in
  let bm := fold_left (fun a d => union_bitmaps a (vr_bitmap d)) ds empty_bitmap in
  let* out := rerun_reducers rs 0 ds in
  encode_view_btree_reduction (ViewReduction count bm out).
