(** Specification vocabulary for the cleanup of view indexes. *)
From Verif Require Import Base Codec File Btree Bitmap SpecFile SpecMap SpecUtil ViewCodec SpecView Reducers IndexHeader Cleanup ViewGroup.
Local Open Scope N_scope.
Unset Strict Implicit.

(** Bytes that an entry takes in a node: key, value and five bytes for their lengths. *)
Definition entry_size (kv : bytes * bytes) : N := lenN (fst kv) + lenN (snd kv) + 5.
Definition sum_of {A} (g : A -> N) (l : list A) : N := fold_right (fun x a => g x + a) 0 l.
(** The longest key. *)
Definition longest (kvs : list (bytes * bytes)) : N := fold_right (fun kv a => N.max (lenN (fst kv)) a) 0 kvs.
(** Bytes that a pointer to a subtree with the given entries takes at most in its parent, when reductions take at most [R] bytes: the key of one of the entries,
    14 bytes for position, size and length of the reduction, the reduction, and five bytes for the lengths. *)
Definition pointer_size (R : N) (kvs : list (bytes * bytes)) : N := longest kvs + 14 + R + 5.

(** ** Entries *)

(** The partition of an entry: the first two bytes of the value. *)
Definition part (x : kv) : N := unbe (take 2 (snd x)).
(** The entry belongs to one of the partitions of the mask, a number of 1024 binary digits. *)
Definition in_mask (mask : bitmap) (x : kv) : bool := N.testbit (number mask) (part x).
(** What is left when the entries of the partitions of the mask are removed. *)
Definition without (mask : bitmap) (l : list kv) : list kv := filter (fun x => negb (in_mask mask x)) l.
Definition only (mask : bitmap) (l : list kv) : list kv := filter (in_mask mask) l.

(** An entry of the index by document id: a partition below 1024 and what the document has emitted. *)
Definition id_record (x : kv) : Prop :=
  lenN (fst x) < 2^12 /\ lenN (snd x) < 2^28 /\ exists p rest, p < 1024 /\ snd x = be 2 p ++ rest.
(** An entry of a view: a key, which begins with the length of its first part in two bytes, and a partition below 1024 with the values emitted for the key. *)
Definition view_record (x : kv) : Prop :=
  2 <= lenN (fst x) < 2^12 /\ lenN (snd x) < 2^28 /\ exists v, vv_partition v < 1024 /\ view_value_fits v /\ snd x = encode_view_btree_value v.
(** How many values an entry has. *)
Definition num_values (x : kv) : N := match decode_view_btree_value (snd x) with Ok v => lenN (vv_values v) | Err _ => 0 end.

(** The reductions of a view with the given reducers never take more than [R] bytes. *)
Definition bounded (rs : list reducer) (R : N) : Prop :=
  (forall kvs b, view_btree_reduce rs kvs = Ok b -> lenN b <= R) /\ (forall l b, view_btree_rereduce rs l = Ok b -> lenN b <= R).

Section WithEnv.
Context {E : Env}.

(** ** Indexes *)

(** The size of the file can be represented. *)
Definition fits_file (f : file) : Prop := big f = false /\ fpos f <= 2^48.

(** The indexes that come from updates (with and without purging), cleanups and builds from sorted rows, with the requests [rq] (one for each cleanup mask) and entries that satisfy
    [record]: starting from an empty one in a file with any contents; meanwhile other things may be appended to the file, and the root may be written to a header and read again. *)
Inductive made (rq : bitmap -> request) (record : kv -> Prop) : file -> option node_pointer -> Prop :=
| made_new g gsz pl m k : (forall i, gsz <= i -> g i = 0) -> made rq record (opened_on g gsz pl m k) None
| made_other f root f' : made rq record f root -> appends f f' -> made rq record f' root
| made_header f p p' : made rq record f (Some p) -> np_pointer p' = np_pointer p -> np_reduce p' = np_reduce p ->
    np_subtree p' mod 2^48 = np_subtree p mod 2^48 -> made rq record f (Some p')
| made_update f root mask ev en acts root' s' : made rq record f root -> (en = true -> bitmap_ok mask) -> asorted (r_cmp (rq mask)) acts -> single (r_cmp (rq mask)) acts ->
    Forall (fun a => inserts a = true -> record (a_key a, a_data a)) acts ->
    modify_btree (rq mask) root acts (St f ev en) = (Ok root', s') -> made rq record (st_f s') root'
| made_built f root red rered rows ev root' s' : made rq record f root -> r_reduce (rq empty_bitmap) = Some red -> r_rereduce (rq empty_bitmap) = Some rered ->
    sorted (r_cmp (rq empty_bitmap)) rows -> Forall record rows ->
    build_rows (build_request (r_cmp (rq empty_bitmap)) red rered) rows (St f ev false) = (Ok root', s') -> made rq record (st_f s') root'
| made_cleanup f root mask root' s' : made rq record f root -> bitmap_ok mask ->
    guided_purge_btree (rq mask) root (St f [] true) = (Ok root', s') -> made rq record (st_f s') root'.

(** The tree at [pos] holds the entries [kvs] and can lose any of them without a node being split: every leaf has at most three entries or at most [kv] bytes; every inner node has
    at most three children, or would not be larger than [kp] bytes if every child were labelled with its longest key. *)
Fixpoint roomy (kv kp R : N) (f : file) (d : nat) (pos : N) (kvs : list (bytes * bytes)) : Prop :=
  match d with
  | O => exists b, pread_compressed f pos = Ok b /\ hd_error b = Some KV_NODE /\ node_items b = (kvs, TEnd) /\
           ((length kvs <= 3)%nat \/ sum_of entry_size kvs <= kv)
  | S d' => exists b entries cs kss, pread_compressed f pos = Ok b /\ hd_error b = Some KP_NODE /\ node_items b = (entries, TEnd) /\
           Forall2 (fun e c => read_pointer (fst e) (snd e) = Ok c) entries cs /\
           Forall2 (fun c ks => roomy kv kp R f d' (np_pointer c) ks) cs kss /\ kvs = concat kss /\
           ((length cs <= 3)%nat \/ sum_of (pointer_size R) kss <= kp)
  end.
(** The same for an index. *)
Definition room_for (R : N) (f : file) (root : option node_pointer) : Prop :=
  match root with Some p => exists d kvs, roomy VIEW_KV VIEW_KP R f d (np_pointer p) kvs | None => True end.

(** [l] is an end of [l']. *)
Definition ending (l l' : list kv) : Prop := exists a, l' = a ++ l.

(** The view indexes of a header have been made. *)
Definition group_made (collate : bytes -> bytes -> comparison) (reds : list (list reducer)) (h : index_header) (f : file) : Prop :=
  bitmap_ok (ih_cleanup h) /\ made id_cleanup_request id_record f (ih_id_state h) /\
  Forall2 (fun rs root => made (view_cleanup_request collate rs) view_record f root) reds (ih_view_states h).
End WithEnv.
