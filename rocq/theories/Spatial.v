(** Model of the spatial views: keys, their order and the enclosing boxes (src/views/spatial.cc), writing a spatial index (src/views/spatial_modify.cc), building and compacting it
    (src/views/view_group.cc). Allocation is assumed to succeed. A failing cb_assert is [E_UB] here: the process stops. *)
From Verif Require Import Base Codec File Btree BtreeRead Bitmap ViewCodec IndexHeader Reducers Cleanup FileMerger FileSorter ViewFiles ViewGroup.
Local Open Scope N_scope.
Unset Strict Implicit.

(** The comparison of doubles; a double is given by its eight bytes in the key. External: the comparison is that of the machine. *)
Class Coords := MkCoords { less : bytes -> bytes -> bool }.

(** ** Keys *)

(** src/views/spatial.h:32-36 sized_mbb_t: the doubles (lower and upper bound for each dimension in turn); num is their number. *)
Definition mbb := list bytes.
(** Not part of the code: [n] doubles from the start of the bytes. *)
Fixpoint doubles (n : nat) (b : bytes) : list bytes := match n with O => [] | S n' => take 8 b :: doubles n' (drop 8 b) end.
(** src/views/spatial.cc:233-238 decode_spatial_key. The code takes pointers into the key; the doubles are read by its callers. *)
Definition decode_spatial_key (k : bytes) : res mbb :=
  let* n := rd_be 2 0 k in
  let* b := getb 2 (8 * n) k in
  Ok (doubles (N.to_nat n) b).
(** src/views/spatial.cc:241-254 encode_spatial_key. *)
Definition encode_spatial_key (m : mbb) : res bytes :=
  if MAX_REDUCTION <? lenN m * 8 then Err E_UB else Ok (be 2 (lenN m) ++ concat m).

Section Reduce.
Context {C : Coords}.
(** std::min(a, b) and std::max(a, b), src/views/spatial.cc:272, 274. *)
Definition min_of (a b : bytes) : bytes := if less b a then b else a.
Definition max_of (a b : bytes) : bytes := if less a b then b else a.
(** The loop of src/views/spatial.cc:270-276; [lower]: the index is even. *)
Fixpoint expand (lower : bool) (a b : mbb) : mbb :=
  match a, b with
  | x :: a', y :: b' => (if lower then min_of x y else max_of x y) :: expand (negb lower) a' b'
  | _, _ => a
  end.
(** src/views/spatial.cc:258-282 expand_mbb: the new original. *)
Definition expand_mbb (a b : mbb) : res mbb := if negb (lenN a =? lenN b) then Err E_UB else Ok (expand true a b).
(** The loop of src/views/spatial.cc:300-303. *)
Fixpoint enclose (m : mbb) (ks : list bytes) : res mbb :=
  match ks with
  | [] => Ok m
  | k :: r => let* b := decode_spatial_key k in let* m' := expand_mbb m b in enclose m' r
  end.
(** src/views/spatial.cc:286-310 view_spatial_reduce: the keys of the list and the count. The code also overwrites the doubles of the first key in memory; its callers have written the key to
    the file by then and do not use it again. *)
Definition view_spatial_reduce (ks : list bytes) (count : N) : res bytes :=
  match ks with
  | [] => Err E_UB
  | k :: r =>
      let* m := decode_spatial_key k in
      let* m' := enclose m (take (count - 1) r) in
      encode_spatial_key m'
  end.
End Reduce.

(** ** The order of the keys *)

(** src/views/spatial.cc:197-200 set_bit_sized. *)
Definition set_bit_sized (bm : bytes) (size bit : N) : res bytes :=
  if size <=? bit / 8 then Err E_UB else
  let i := N.to_nat (size - 1 - bit / 8) in
  if lenN bm <=? size - 1 - bit / 8 then Err E_UB else Ok (Bitmap.upd i (N.lor (nth i bm 0) (N.shiftl 1 (bit mod 8))) bm).
(** The inner loop of src/views/spatial.cc:221-228 for the numbers [js]; [i] is the bit. *)
Fixpoint interleave_bits (numbers : list N) (num size i : N) (js : list nat) (bm : bytes) : res bytes :=
  match js with
  | [] => Ok bm
  | j :: r =>
      let* bm' := if N.testbit (nth (N.to_nat (num - 1 - N.of_nat j)) numbers 0) i then set_bit_sized bm size (i * num + N.of_nat j) else Ok bm in
      interleave_bits numbers num size i r bm'
  end.
(** The outer loop of src/views/spatial.cc:220-229. The condition [i * num < bitmap_size] fails at the latest for the bit 32, and for all bits above one for which it fails. *)
Fixpoint interleave_loop (numbers : list N) (num bits : N) (is : list nat) (bm : bytes) : res bytes :=
  match is with
  | [] => Ok bm
  | i :: r =>
      if N.of_nat i * num <? bits then
        let* bm' := interleave_bits numbers num (bits / 8) (N.of_nat i) (seq 0 (N.to_nat num)) bm in
        interleave_loop numbers num bits r bm'
      else Ok bm
  end.
(** src/views/spatial.cc:203-231 interleave_uint32s; [numbers] has [num] elements. *)
Definition interleave_uint32s (numbers : list N) : res bytes :=
  let num := lenN numbers in
  if 16384 <=? num then Err E_UB else
  let bits := (4 * num * 8) mod 2^16 in
  interleave_loop numbers num bits (seq 0 32) (repeat 0 (N.to_nat (bits / 8))).
(** src/views/spatial.cc:50-93 spatial_key_cmp. [scaled] stands for spatial_center and spatial_scale_point (src/views/spatial.cc:164-194): the centre of the box of a key in the units
    of the scale factor, one number of 32 bits for each dimension. External: the arithmetic of doubles is that of the machine. *)
Definition spatial_key_cmp (scaled : bytes -> list N) (a b : bytes) : res comparison :=
  if lenN (scaled a) =? 0 then Err E_UB else
  let* x := interleave_uint32s (scaled a) in
  let* y := interleave_uint32s (scaled b) in
  Ok (ebin_cmp x y).
(** src/views/spatial.cc:95-110 spatial_merger_key_cmp. *)
Definition spatial_merger_key_cmp (a b : bytes) : comparison :=
  if lenN a =? lenN b then ebin_cmp a b else lenN a ?= lenN b.

(** ** Writing an index *)

(** The loop of src/views/spatial_modify.cc:191-201: the entries of the node and those left. The quota is unsigned: it wraps below zero. *)
Fixpoint take_spatial (kp : bool) (quota cnt : N) (l : list item) : list item * list item :=
  match l with
  | [] => ([], [])
  | i :: r =>
      if (0 <? quota) || ((cnt <? 2) && kp) then
        let x := take_spatial kp ((quota + 2^64 - item_size i mod 2^64) mod 2^64) (cnt + 1) r in (i :: fst x, snd x)
      else ([], l)
  end.

Section WithEnv.
Context {E : Env} {C : Coords}.

(** src/views/spatial_modify.cc:155-271 flush_spatial_partial. Both reduce functions of the request are view_spatial_reduce (src/views/view_group.cc:1942-1944, 2101-2103). *)
Definition flush_spatial_partial (quota : N) (m : mr) : M mr :=
  match m_vals m with
  | [] => ret m
  | _ :: _ =>
      if negb (m_mod m) then ret m else
      let '(now, later) := take_spatial (m_type m =? KP_NODE) quota 0 (m_vals m) in
      let buf := mk_node (m_type m) (map kv_of now) in
      let+ w := write_node buf in
      let '(pos, disk) := w in
      let+ red := lift (view_spatial_reduce (map it_key (m_vals m)) (lenN now)) in
      let p := NodePointer red pos red ((sub_sum now + disk) mod 2^64) in
      ret (Mr later (m_ptrs m ++ [p]) (m_len m - (lenN buf - 1)) (m_count m - lenN now) (m_mod m) (m_type m))
  end.
(** src/views/spatial_modify.cc:148-151 flush_spatial. *)
Definition flush_spatial (m : mr) : M mr := flush_spatial_partial (m_len m) m.
(** src/views/spatial_modify.cc:31-60 maybe_flush_spatial; of the request the sizes and rq->compacting are used. *)
Definition maybe_flush_spatial (rq : request) (m : mr) : M mr :=
  if r_compact rq then
    if m_mod m && (((m_type m =? KV_NODE) && (r_kv rq * 2 / 3 <? m_len m))
                   || ((m_type m =? KP_NODE) && (r_kp rq * 2 / 3 <? m_len m) && (1 <? m_count m)))
    then flush_spatial m else ret m
  else if m_mod m && (3 <? m_count m) then
    if (m_type m =? KV_NODE) && (r_kv rq <? m_len m) then flush_spatial_partial (r_kv rq * 2 / 3) m
    else if (m_type m =? KP_NODE) && (r_kp rq <? m_len m) then flush_spatial_partial (r_kp rq * 2 / 3) m
    else ret m
  else ret m.
(** Common part of src/views/spatial_modify.cc:103-126 spatial_push_item and of the loop in 274-304 spatial_move_pointers. *)
Definition spatial_push (rq : request) (i : item) (m : mr) : M mr :=
  maybe_flush_spatial rq (Mr (m_vals m ++ [i]) (m_ptrs m) (m_len m + item_size i) (m_count m + 1) (m_mod m) (m_type m)).
(** src/views/spatial_modify.cc:103-126 spatial_push_item. *)
Definition spatial_push_item (rq : request) (k v : bytes) (m : mr) : M mr := spatial_push rq (kv_item (k, v)) m.
(** src/views/spatial_modify.cc:274-304 spatial_move_pointers: the new dst. *)
Definition spatial_move_pointers (rq : request) (ps : list node_pointer) (dst : mr) : M mr := foldM (fun p => spatial_push rq (ptr_item p)) ps dst.

(** src/views/spatial_modify.cc:319: flush_spatial whose error is not looked at. When it fails, the lists are as before and the entries have been counted down. *)
Definition flush_spatial_ignored (m : mr) : M mr := fun s =>
  match flush_spatial m s with
  | (Ok m', s') => (Ok m', s')
  | (Err E_UB, s') => (Err E_UB, s')
  | (Err _, s') => (Ok (Mr (m_vals m) (m_ptrs m) (m_len m) 0 (m_mod m) (m_type m)), s')
  end.
(** The loop of src/views/spatial_modify.cc:320-346; the two structures are swapped in each round. [fuel] bounds the number of rounds. *)
Fixpoint spatial_finish_loop (fuel : nat) (rq : request) (root collector : mr) : M node_pointer :=
  match m_ptrs root with
  | [p] => ret p
  | _ =>
      match fuel with
      | O => fail E_FUEL
      | S fuel' =>
          let+ c1 := spatial_move_pointers rq (m_ptrs root) collector in
          let+ c2 := flush_spatial c1 in
          spatial_finish_loop fuel' rq c2 (Mr (m_vals root) [] (m_len root) (m_count root) (m_mod root) (m_type root))
      end
  end.
(** src/views/spatial_modify.cc:307-349 spatial_finish_root. *)
Definition spatial_finish_root (rq : request) (root : mr) : M node_pointer :=
  let+ m := flush_spatial_ignored root in
  spatial_finish_loop (S (S (S (length (m_ptrs m))))) rq m (set_mod (make_modres KP_NODE)).
(** src/views/spatial_modify.cc:353-393 complete_new_spatial. *)
Definition complete_new_spatial (rq : request) (m : mr) : M (option node_pointer) :=
  let+ m1 := flush_spatial m in
  let+ m2 := spatial_move_pointers rq (m_ptrs m1) (set_mod (make_modres KP_NODE)) in
  if (1 <? m_count m2) || negb (match m_ptrs m2 with [] => true | _ => false end)
  then let+ p := spatial_finish_root rq m2 in ret (Some p)
  else ret (last (map it_ptr (m_vals m2)) None).

(** ** Building and compacting *)

(** src/views/view_group.cc:1991-2004, 2142-2155: the request that new_btree_modres makes. The comparison is not used. *)
Definition spatial_request : request := Request ebin_cmp None None (VIEW_KV + VIEW_KV / 3) (VIEW_KP + VIEW_KP / 3) true None None None None.
(** src/views/view_group.cc:1890-1922 build_spatial_record_callback for each record, in the order in which the sorter passes them, and 2023 complete_new_spatial. *)
Definition build_spatial_rows (rows : list (bytes * bytes)) : M (option node_pointer) :=
  let+ m := foldM (fun x m => spatial_push_item spatial_request (fst x) (snd x) m) rows new_btree_modres in complete_new_spatial spatial_request m.
(** src/views/view_group.cc:1969-2036 build_spatial; [sorted] is what the sorter does, see [ViewGroup.build_btree]. *)
Definition build_spatial (sorted : fres (list vrec)) (f : file) : res (option node_pointer) * file :=
  match sorted with
  | Bad e => (Err (sort_err e), f)
  | Good l => let '(r, s) := build_spatial_rows (map (fun x => (v_key x, v_val x)) l) (St f [] false) in (r, st_f s)
  end.
(** src/views/spatial.cc:313-321 view_spatial_filter. *)
Definition view_spatial_filter (bm : bitmap) (v : bytes) : res bool := let* p := rd_be 2 0 v in is_bit_set bm p.
(** src/views/view_group.cc:2039-2082 compact_spatial_fetchcb; the state as in [ViewGroup.compact_view_fetchcb]. *)
Definition compact_spatial_fetchcb (filterbm : option bitmap) (k : bytes) (v : option bytes) (u : mr * st * N) : res unit * (mr * st * N) :=
  let '(m, s, n) := u in
  match v with
  | None => (Err E_READ, u)
  | Some v =>
      match match filterbm with Some bm => view_spatial_filter bm v | None => Ok false end with
      | Err e => (Err e, u)
      | Ok true => (Ok tt, u)
      | Ok false => match spatial_push_item spatial_request k v m s with
                    | (Ok m', s') => (Ok tt, (m', s', (n + 1) mod 2^64))
                    | (Err e, s') => (Err e, (m, s', n))
                    end
      end
  end.
(** src/views/view_group.cc:2112-2197 compact_spatial, with the comparison that compact_view_spatial (2084-2110) passes: [src] is the source, [f] the target, [n] the count so far. *)
Definition compact_spatial (collate : bytes -> bytes -> comparison) (filterbm : option bitmap) (src : file) (root : option node_pointer) (n : N) (f : file) : res (option node_pointer * N) * file :=
  match root with
  | None => (Ok (None, n), f)
  | Some p =>
      let '(x, (m, s, n')) := btree_lookup (LReq (view_key_cmp collate) (compact_spatial_fetchcb filterbm) None false) src (np_pointer p) [[]] true (new_btree_modres, St f [] false, n) in
      match x with
      | Err e => (Err e, st_f s)
      | Ok _ => let '(r, s') := complete_new_spatial spatial_request m s in (let* root' := r in Ok (root', n'), st_f s')
      end
  end.
End WithEnv.
