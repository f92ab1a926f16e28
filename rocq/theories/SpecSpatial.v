(** Specification vocabulary for spatial views. *)
From Verif Require Import Base Codec CodecFacts File Btree SpecMap SpecCleanup SpecGroup Spatial.
Local Open Scope N_scope.
Unset Strict Implicit.

Section Spec.
Context {C : Coords}.
(** Which doubles are numbers; on these, the comparison is a linear order up to equality (there are two zeros). *)
Record CoordsOk (number : bytes -> Prop) : Prop := {
  co_asym : forall a b, number a -> number b -> less a b = true -> less b a = false;
  co_dense : forall a b c, number a -> number b -> number c -> less a c = true -> less a b = true \/ less b c = true
}.

(** The [i]-th double of a key: the even ones are lower bounds, the odd ones upper bounds. *)
Definition coord (k : bytes) (i : N) : bytes := take 8 (drop (2 + 8 * i) k).
(** The key is a box with [D] bounds: their number in two bytes, and the bounds. *)
Definition box (number : bytes -> Prop) (D : N) (k : bytes) : Prop :=
  unbe (take 2 k) = D /\ 2 + 8 * D <= lenN k /\ forall i, i < D -> number (coord k i).
(** No bound of the box [b] is outside of the box [a]. *)
Definition encloses (D : N) (a b : bytes) : Prop :=
  forall i, i < D -> if N.even i then less (coord b i) (coord a i) = false else less (coord a i) (coord b i) = false.
(** The box [k] encloses the others and has no larger bounds than needed. *)
Definition smallest_box (D : N) (k : bytes) (ks : list bytes) : Prop :=
  (forall x, In x ks -> encloses D k x) /\ forall i, i < D -> exists x, In x ks /\ coord k i = coord x i.
(** In no dimension one box ends before the other begins. *)
Definition meets (D : N) (a b : bytes) : bool :=
  forallb (fun j => negb (less (coord a (2 * N.of_nat j + 1)) (coord b (2 * N.of_nat j))) && negb (less (coord b (2 * N.of_nat j + 1)) (coord a (2 * N.of_nat j)))) (seq 0 (N.to_nat (D / 2))).

(** A row of a spatial view: its key is a box. *)
Definition spatial_row (number : bytes -> Prop) (D : N) (x : kv) : Prop := box number D (fst x) /\ kv_ok x.

Context {E : Env}.
(** The node at [pos] and all nodes below it hold the rows, in this order; [k] is the smallest box around them, and every child is labelled with the smallest box around its rows. Children are
    stored before their parent. *)
Fixpoint spatial_tree (f : file) (D : N) (d : nat) (pos : N) (k : bytes) (rows : list kv) : Prop :=
  smallest_box D k (map fst rows) /\
  match d with
  | O => exists b, pread_compressed f pos = Ok b /\ hd_error b = Some KV_NODE /\ node_items b = (rows, TEnd)
  | S d' => exists b entries cs kss, pread_compressed f pos = Ok b /\ hd_error b = Some KP_NODE /\ node_items b = (entries, TEnd) /\
      Forall2 (fun e c => read_pointer (fst e) (snd e) = Ok c) entries cs /\
      Forall2 (fun c rows => np_pointer c < pos /\ np_reduce c = np_key c /\ lenN (np_key c) = 2 + 8 * D /\ spatial_tree f D d' (np_pointer c) (np_key c) rows) cs kss /\ rows = concat kss
  end.
(** The index with the given root holds these rows. The reduce value of the root is the smallest box around all rows. *)
Definition spatial_index (f : file) (D : N) (root : option node_pointer) (rows : list kv) : Prop :=
  match root with
  | None => rows = []
  | Some p => rows <> [] /\ np_pointer p < fpos f /\ exists d, spatial_tree f D d (np_pointer p) (np_reduce p) rows
  end.

(** What a search for the rows that meet a window finds when it descends only into the children whose label meets the window. *)
Fixpoint search (f : file) (D : N) (w : bytes) (d : nat) (pos : N) (found : list kv) : Prop :=
  match d with
  | O => exists b rows, pread_compressed f pos = Ok b /\ hd_error b = Some KV_NODE /\ node_items b = (rows, TEnd) /\ found = filter (fun x => meets D w (fst x)) rows
  | S d' => exists b entries cs fs, pread_compressed f pos = Ok b /\ hd_error b = Some KP_NODE /\ node_items b = (entries, TEnd) /\
      Forall2 (fun e c => read_pointer (fst e) (snd e) = Ok c) entries cs /\
      Forall2 (fun c l => if meets D w (np_key c) then search f D w d' (np_pointer c) l else l = []) cs fs /\ found = concat fs
  end.

(** Compression works for buffers of up to 1 GiB, and its result is below 4 GiB. *)
Definition snappy_works : Prop := forall b, lenN b < 2^30 -> exists z, compress b = Some z /\ lenN z + mac_size < 2^32.
End Spec.

(** ** The order on the space-filling curve *)

(** [z] is the number whose bits are those of the numbers in [l], interleaved: the highest bits of all numbers first, the bits of the first number in front. *)
Definition interleaved (l : list N) (z : N) : Prop :=
  z < 2 ^ (32 * lenN l) /\ forall i j, i < 32 -> j < lenN l -> N.testbit z (i * lenN l + (lenN l - 1 - j)) = N.testbit (nth (N.to_nat j) l 0) i.
(** Numbers of 32 bits. *)
Definition uint32s (l : list N) : Prop := Forall (fun x => x < 2^32) l.
