(** Model of src/views/keys.cc, src/views/values.cc and src/views/reductions.cc: the records of the view indexes.
    Allocation is assumed to succeed. [E_UB] stands for a failed cb_assert, which ends the process, and for accesses outside of a buffer. *)
From Verif Require Import Base Codec Bitmap.
Local Open Scope N_scope.
Unset Strict Implicit.

(** Not part of the code: reading at a cursor ("bytes += n; len -= n"); the state is what is left of the buffer. *)
Definition cur (A : Type) := bytes -> res (A * bytes).
Definition cur_ret {A} (a : A) : cur A := fun l => Ok (a, l).
Definition cur_bind {A B} (x : cur A) (f : A -> cur B) : cur B :=
  fun l => match x l with Ok (a, r) => f a r | Err e => Err e end.
Notation "'let^' x ':=' e 'in' k" := (cur_bind e (fun x => k)) (at level 200, x name, e at level 100, k at level 200, right associativity).
(** Not part of the code: the next [n] bytes. *)
Definition next (n : N) : cur bytes := fun l => if n <=? lenN l then Ok (take n l, drop n l) else Err E_UB.
(** src/bitfield.h dec_uint16, dec_uint40, dec_uint48, dec_uint64, src/views/values.cc:14 dec_raw24, at the cursor. *)
Definition next_int (n : N) : cur N := let^ b := next n in cur_ret (unbe b).
(** Not part of the code: "for (i = 0; i < n; ++i)" with one reading step. *)
Fixpoint times {A} (n : nat) (x : cur A) : cur (list A) :=
  match n with
  | O => cur_ret []
  | S n' => let^ a := x in let^ r := times n' x in cur_ret (a :: r)
  end.
(** Not part of the code: "while (len > 0)" with one reading step; every step reads at least one byte, so the number of bytes bounds the number of rounds. *)
Fixpoint until_end {A} (fuel : nat) (x : cur A) (l : bytes) : res (list A) :=
  match l with
  | [] => Ok []
  | _ => match fuel with
         | O => Err E_FUEL
         | S n => match x l with
                  | Ok (a, r) => match until_end n x r with Ok t => Ok (a :: t) | Err e => Err e end
                  | Err e => Err e
                  end
         end
  end.
Definition all_of_rest {A} (x : cur A) (l : bytes) : res (list A) := until_end (length l) x l.

(** ** Keys *)

(** src/views/keys.h:9-12 view_btree_key_t. *)
Record view_key := ViewKey { vk_json : bytes; vk_doc : bytes }.
(** src/views/keys.h:14-17 view_id_btree_key_t. *)
Record id_key := IdKey { ik_partition : N; ik_doc : bytes }.

(** src/views/keys.cc:11-31 decode_view_btree_json_key. *)
Definition decode_view_btree_json_key (b : bytes) : res bytes :=
  match (let^ sz := next_int 2 in next sz) b with Ok (k, _) => Ok k | Err e => Err e end.
(** src/views/keys.cc:33-84 decode_view_btree_key. *)
Definition decode_view_btree_key (b : bytes) : res view_key :=
  match (let^ sz := next_int 2 in next sz) b with Ok (k, rest) => Ok (ViewKey k rest) | Err e => Err e end.
(** src/views/keys.cc:87-120 encode_view_btree_key; the size is converted to 16 bits. *)
Definition encode_view_btree_key (k : view_key) : bytes := be 2 (lenN (vk_json k)) ++ vk_json k ++ vk_doc k.
(** src/views/keys.cc:135-170 decode_view_id_btree_key. *)
Definition decode_view_id_btree_key (b : bytes) : res id_key :=
  match next_int 2 b with Ok (p, rest) => Ok (IdKey p rest) | Err e => Err e end.
(** src/views/keys.cc:173-203 encode_view_id_btree_key. *)
Definition encode_view_id_btree_key (k : id_key) : bytes := be 2 (ik_partition k) ++ ik_doc k.

(** ** Values *)

(** src/views/values.h:13-18 view_btree_value_t: partition and the num_values values. *)
Record view_value := ViewValue { vv_partition : N; vv_values : list bytes }.

(** src/views/values.cc:67-70 decode_view_btree_partition. *)
Definition decode_view_btree_partition (b : bytes) : res N := match next_int 2 b with Ok (p, _) => Ok p | Err e => Err e end.
(** src/views/values.cc:87-98: one round of the counting loop, giving the size of a value. *)
Definition skip_value : cur N := let^ sz := next_int 3 in let^ _ := next sz in cur_ret sz.
(** src/views/values.cc:72-101 decode_view_btree_partition_and_num_values: partition, number of values (a uint16_t, which wraps) and their sizes in total. *)
Definition decode_view_btree_partition_and_num_values (b : bytes) : res (N * N * N) :=
  match next_int 2 b with
  | Ok (p, rest) =>
      match all_of_rest skip_value rest with
      | Ok szs => Ok (p, lenN szs mod 2^16, fold_right N.add 0 szs)
      | Err e => Err e
      end
  | Err e => Err e
  end.
(** src/views/values.cc:49-62: one round of the copying loop. *)
Definition read_value : cur bytes := let^ sz := next_int 3 in next sz.
(** src/views/values.cc:18-65 decode_view_btree_value. With more values than were counted the array of sizes and the copied bytes overlap: [E_UB]. *)
Definition decode_view_btree_value (b : bytes) : res view_value :=
  match decode_view_btree_partition_and_num_values b with
  | Ok (p, num, _) =>
      match all_of_rest read_value (drop 2 b) with
      | Ok vs => if lenN vs =? num then Ok (ViewValue p vs) else Err E_UB
      | Err e => Err e
      end
  | Err e => Err e
  end.
(** src/views/values.cc:103-142 encode_view_btree_value; 355-361 enc_raw24. *)
Definition encode_view_btree_value (v : view_value) : bytes :=
  be 2 (vv_partition v) ++ flat_map (fun x : bytes => be 3 (lenN x) ++ x) (vv_values v).

(** src/views/values.h:26-30 view_id_btree_value_t: partition and, for each view, its number and the keys emitted; [None]: the field num_view_keys_map has not been set. *)
Record id_value := IdValue { iv_partition : N; iv_keys : option (list (N * list bytes)) }.

(** src/views/values.cc:186-197: one key of the counting loop. *)
Definition skip_key : cur unit := let^ sz := next_int 2 in let^ _ := next sz in cur_ret tt.
(** src/views/values.cc:175-200: one round of the counting loop. *)
Definition skip_view : cur unit :=
  let^ _ := next 1 in let^ n := next_int 2 in let^ _ := times (N.to_nat n) skip_key in cur_ret tt.
(** src/views/values.cc:239-254: one key. *)
Definition read_key : cur bytes := let^ sz := next_int 2 in next sz.
(** src/views/values.cc:219-258: one round of the copying loop. *)
Definition read_view : cur (N * list bytes) :=
  let^ v := next_int 1 in let^ n := next_int 2 in let^ ks := times (N.to_nat n) read_key in cur_ret (v, ks).
(** src/views/values.cc:144-267 decode_view_id_btree_value. With nothing after the partition num_view_keys_map stays as allocated. The number of views is a uint16_t; when it wraps
    the array is too small: [E_UB]. *)
Definition decode_view_id_btree_value (b : bytes) : res id_value :=
  match next_int 2 b with
  | Ok (p, []) => Ok (IdValue p None)
  | Ok (p, rest) =>
      match all_of_rest skip_view rest with
      | Ok us =>
          if lenN us <? 2^16
          then match all_of_rest read_view rest with Ok vs => Ok (IdValue p (Some vs)) | Err e => Err e end
          else Err E_UB
      | Err e => Err e
      end
  | Err e => Err e
  end.
(** src/views/values.cc:270-326 encode_view_id_btree_value: [E_UB] when the number of views is not set. *)
Definition encode_view_id_btree_value (v : id_value) : res bytes :=
  match iv_keys v with
  | Some l => Ok (be 2 (iv_partition v) ++
      flat_map (fun m => be 1 (fst m) ++ be 2 (lenN (snd m)) ++ flat_map (fun k : bytes => be 2 (lenN k) ++ k) (snd m)) l)
  | None => Err E_UB
  end.

(** ** Reductions *)

(** src/views/reductions.h:12-19 view_btree_reduction_t: number of entries, partitions, and the num_values reduce values. *)
Record view_reduction := ViewReduction { vr_count : N; vr_bitmap : bitmap; vr_values : list bytes }.
(** src/views/reductions.h:21-24 view_id_btree_reduction_t. *)
Record id_reduction := IdReduction { ir_count : N; ir_bitmap : bitmap }.
(** src/couch_btree.h:21 MAX_REDUCTION_SIZE. *)
Definition MAX_REDUCTION : N := 2^16 - 1.

(** src/views/reductions.cc:18-28 decode_view_btree_reduction_partitions_bitmap, at the cursor. *)
Definition read_count_bitmap : cur (N * bitmap) := let^ c := next_int 5 in let^ bm := next 128 in cur_ret (c, bm).
Definition decode_view_btree_reduction_partitions_bitmap (b : bytes) : res (N * bitmap) :=
  match read_count_bitmap b with Ok (x, _) => Ok x | Err e => Err e end.
(** src/views/reductions.cc:49-61: one round of the counting loop. *)
Definition skip_reduce : cur unit := let^ sz := next_int 2 in let^ _ := next sz in cur_ret tt.
(** src/views/reductions.cc:85-99: one round of the copying loop. *)
Definition read_reduce : cur bytes := let^ sz := next_int 2 in next sz.
(** src/views/reductions.cc:30-102 decode_view_btree_reduction. The number of values is a uint8_t, which wraps; with 0 the function returns early, otherwise the array is too small
    for the values: [E_UB]. *)
Definition decode_view_btree_reduction (b : bytes) : res view_reduction :=
  match read_count_bitmap b with
  | Ok ((c, bm), rest) =>
      match all_of_rest skip_reduce rest with
      | Ok us =>
          if lenN us mod 2^8 =? 0 then Ok (ViewReduction c bm [])
          else if lenN us <? 2^8
          then match all_of_rest read_reduce rest with Ok vs => Ok (ViewReduction c bm vs) | Err e => Err e end
          else Err E_UB
      | Err e => Err e
      end
  | Err e => Err e
  end.
(** src/views/reductions.cc:104-141 encode_view_btree_reduction; 223-229 enc_raw40. *)
Definition encode_view_btree_reduction (r : view_reduction) : res bytes :=
  if MAX_REDUCTION <? 5 + 128 + fold_right (fun (x : bytes) (n : N) => 2 + lenN x + n) 0 (vr_values r) then Err E_REDUCTION_TOO_LARGE
  else Ok (be 5 (vr_count r) ++ vr_bitmap r ++ flat_map (fun x : bytes => be 2 (lenN x) ++ x) (vr_values r)).
(** src/views/reductions.cc:163-185 decode_view_id_btree_reduction; the length is not known to the function. *)
Definition decode_view_id_btree_reduction (b : bytes) : res id_reduction :=
  match read_count_bitmap b with Ok ((c, bm), _) => Ok (IdReduction c bm) | Err e => Err e end.
(** src/views/reductions.cc:188-211 encode_view_id_btree_reduction; the size is below the limit. *)
Definition encode_view_id_btree_reduction (r : id_reduction) : res bytes := Ok (be 5 (ir_count r) ++ ir_bitmap r).
