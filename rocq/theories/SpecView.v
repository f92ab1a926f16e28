(** Specification vocabulary for the records of the view indexes: what fits into the format. *)
From Verif Require Import Base Codec Bitmap SortedList SpecUtil ViewCodec IndexHeader.
Local Open Scope N_scope.
Unset Strict Implicit.

Definition short (b : bytes) : Prop := lenN b < 2^16.

(** A key emitted by a view and a document. *)
Definition view_key_fits (k : view_key) : Prop := short (vk_json k).
Definition id_key_fits (k : id_key) : Prop := ik_partition k < 2^16.
Definition view_value_fits (v : view_value) : Prop :=
  vv_partition v < 2^16 /\ lenN (vv_values v) < 2^16 /\ Forall (fun x => lenN x < 2^24) (vv_values v).
(** For each view its number and the keys emitted. *)
Definition view_keys_fit (m : N * list bytes) : Prop := fst m < 2^8 /\ lenN (snd m) < 2^16 /\ Forall short (snd m).
Definition id_value_fits (p : N) (l : list (N * list bytes)) : Prop := p < 2^16 /\ lenN l < 2^16 /\ Forall view_keys_fit l.

(** A reduction; its reduce values may be of any size. *)
Definition view_reduction_fits (r : view_reduction) : Prop := vr_count r < 2^40 /\ lenN (vr_bitmap r) = 128 /\ lenN (vr_values r) < 2^8.
Definition id_reduction_fits (r : id_reduction) : Prop := ir_count r < 2^40 /\ lenN (ir_bitmap r) = 128.
(** The bytes needed: number of entries, partitions, and for each value two bytes and the value. *)
Definition reduction_size (r : view_reduction) : N := 5 + 128 + fold_right (fun (x : bytes) (n : N) => 2 + lenN x + n) 0 (vr_values r).

(** The root of an index. *)
Definition root_fits (r : option node_pointer) : Prop :=
  match r with
  | None => True
  | Some p => np_key p = [] /\ np_pointer p < 2^48 /\ np_subtree p < 2^48 /\ 12 + lenN (np_reduce p) < 2^16
  end.
(** A sorted list, as it comes from adding and removing elements. *)
Definition list_fits {A} (cmp : A -> A -> comparison) (ok : A -> Prop) (l : slist A) : Prop :=
  slist_use cmp l /\ lenN (all_of l) < 2^16 /\ Forall ok (all_of l).
Definition part_fits (p : N) : Prop := p < 2^16.
Definition part_seq_fits (x : part_seq) : Prop := fst x < 2^16 /\ snd x < 2^48.
Definition version_fits (x : part_version) : Prop :=
  fst x < 2^16 /\ lenN (snd x) < 2^16 /\ Forall (fun y => lenN (fst y) = 8 /\ snd y < 2^64) (snd x).
Record header_fits (h : index_header) : Prop := {
  if_version : ih_version h < 2^8;
  if_sig : lenN (ih_signature h) = 16;
  if_parts : ih_num_partitions h < 2^16;
  if_masks : lenN (ih_active h) = 128 /\ lenN (ih_passive h) = 128 /\ lenN (ih_cleanup h) = 128;
  if_seqs : list_fits part_seq_cmp part_seq_fits (ih_seqs h);
  if_id : root_fits (ih_id_state h);
  if_views : lenN (ih_view_states h) < 2^8 /\ Forall root_fits (ih_view_states h);
  if_lists : Forall (list_fits part_id_cmp part_fits) [ih_replicas h; ih_pend_active h; ih_pend_passive h; ih_pend_unindexable h];
  if_un : list_fits part_seq_cmp part_seq_fits (ih_unindexable h);
  if_vers : if 2 <=? ih_version h then exists l, ih_versions h = Some l /\ list_fits part_versions_cmp version_fits l else ih_versions h = None
}.
