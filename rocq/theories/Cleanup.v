(** Model of src/views/purgers.cc and of couchstore_cleanup_view_group (src/views/view_group.cc:875-1165): removing the entries of some partitions from the indexes of a
    view group. Allocation is assumed to succeed. *)
From Verif Require Import Base Codec File Btree Bitmap ViewCodec IndexHeader Reducers.
Local Open Scope N_scope.
Unset Strict Implicit.

(** ** Which entries to purge *)

(** src/views/purgers.cc:33-44 view_purgekv_action (the count is added up below). *)
Definition view_purgekv_action (mask : bitmap) (part : N) : res purge_action :=
  let* b := is_bit_set mask part in Ok (if b then P_ITEM else P_KEEP).
(** src/views/purgers.cc:46-64 view_purgekp_action. *)
Definition view_purgekp_action (mask red : bitmap) : purge_action :=
  if is_equal_bitmap red mask then P_ITEM
  else if is_equal_bitmap (intersect_bitmaps mask red) empty_bitmap then P_KEEP else P_PARTIAL.
(** src/views/purgers.cc:66-76 view_id_btree_purge_kv. *)
Definition view_id_btree_purge_kv (mask : bitmap) (k v : bytes) : res purge_action :=
  let* p := decode_view_btree_partition v in view_purgekv_action mask p.
(** src/views/purgers.cc:78-98 view_id_btree_purge_kp. *)
Definition view_id_btree_purge_kp (mask : bitmap) (p : node_pointer) : res purge_action :=
  let* r := decode_view_id_btree_reduction (np_reduce p) in Ok (view_purgekp_action mask (ir_bitmap r)).
(** src/views/purgers.cc:100-109 view_btree_purge_kv. *)
Definition view_btree_purge_kv (mask : bitmap) (k v : bytes) : res purge_action :=
  let* x := decode_view_btree_partition_and_num_values v in view_purgekv_action mask (fst (fst x)).
(** src/views/purgers.cc:111-120 view_btree_purge_kp. *)
Definition view_btree_purge_kp (mask : bitmap) (p : node_pointer) : res purge_action :=
  let* x := decode_view_btree_reduction_partitions_bitmap (np_reduce p) in Ok (view_purgekp_action mask (snd x)).

(** What the calls add to ctx->count, src/views/purgers.cc:39, 54; only calls that did not fail are recorded. *)
Definition id_purged (e : event) : N :=
  match e with
  | EvPurgeKv _ _ => 1
  | EvPurgeKp p => match decode_view_id_btree_reduction (np_reduce p) with Ok r => ir_count r | Err _ => 0 end
  | _ => 0
  end.
Definition view_purged (e : event) : N :=
  match e with
  | EvPurgeKv _ v => match decode_view_btree_partition_and_num_values v with Ok (_, n, _) => n | Err _ => 0 end
  | EvPurgeKp p => match decode_view_btree_reduction_partitions_bitmap (np_reduce p) with Ok (c, _) => c | Err _ => 0 end
  | _ => 0
  end.
Definition purged (w : event -> N) (evs : list event) : N := fold_left (fun a e => (a + w e) mod 2^64) evs 0.

(** ** The indexes *)

(** src/views/view_group.cc:41-42 VIEW_KV_CHUNK_THRESHOLD, VIEW_KP_CHUNK_THRESHOLD. *)
Definition VIEW_KV : N := 7 * 1024.
Definition VIEW_KP : N := 6 * 1024.
(** src/views/util.cc:38-68 view_key_cmp, with [collate] in place of CollateJSON (src/views/collate_json.cc, which uses ICU): the JSON keys first, then the document ids. Keys that
    are shorter than their length field says are read out of bounds by the code; here the bytes that are there are used. *)
Definition json_part (k : bytes) : bytes := take (unbe (take 2 k)) (drop 2 k).
Definition doc_part (k : bytes) : bytes := drop (unbe (take 2 k)) (drop 2 k).
Definition view_key_cmp (collate : bytes -> bytes -> comparison) (a b : bytes) : comparison :=
  match collate (json_part a) (json_part b) with Eq => ebin_cmp (doc_part a) (doc_part b) | c => c end.
(** The requests of src/views/view_group.cc:944-975 cleanup_btree, 978-1001 cleanup_id_btree and 1004-1047 cleanup_view_btree. src/views/util.cc:71-76 view_id_cmp is ebin_cmp. The requests of 1168-1300 update_btree for modify_btree have the same fields; enable_purging is not part of the request but of the state. *)
Definition id_cleanup_request (mask : bitmap) : request :=
  Request ebin_cmp (Some view_id_btree_reduce) (Some view_id_btree_rereduce) VIEW_KV VIEW_KP false None None
    (Some (view_id_btree_purge_kv mask)) (Some (view_id_btree_purge_kp mask)).
Definition view_cleanup_request (collate : bytes -> bytes -> comparison) (rs : list reducer) (mask : bitmap) : request :=
  Request (view_key_cmp collate) (Some (view_btree_reduce rs)) (Some (view_btree_rereduce rs)) VIEW_KV VIEW_KP false None None
    (Some (view_btree_purge_kv mask)) (Some (view_btree_purge_kp mask)).

(** src/views/view_group.cc:907-925 view_id_bitmask; its errors are ignored by the caller. *)
Definition view_id_bitmask (root : option node_pointer) (bm : bitmap) : bitmap :=
  match root with
  | None => bm
  | Some p => match decode_view_id_btree_reduction (np_reduce p) with Ok r => union_bitmaps bm (ir_bitmap r) | Err _ => bm end
  end.
(** src/views/view_group.cc:928-941 view_bitmask; a reduction that is too short is read beyond its end: [E_UB]. *)
Definition view_bitmask (root : option node_pointer) (bm : bitmap) : res bitmap :=
  match root with
  | None => Ok bm
  | Some p => let* x := decode_view_btree_reduction_partitions_bitmap (np_reduce p) in Ok (union_bitmaps bm (snd x))
  end.

Section WithEnv.
Context {E : Env}.

(** src/views/view_group.cc:944-975 cleanup_btree on the file, with [w] telling what a call adds to the count: the new root, the count and the file. *)
Definition cleanup_btree (rq : request) (w : event -> N) (f : file) (root : option node_pointer) : res (option node_pointer * N) * file :=
  let '(r, s) := guided_purge_btree rq root (St f [] true) in
  (let* root' := r in Ok (root', purged w (List.rev (st_ev s))), st_f s).

(** The loop over the views, src/views/view_group.cc:1117-1137: a list of reducers and a root for each; the new roots, the count and the bitmap. *)
Fixpoint cleanup_views (collate : bytes -> bytes -> comparison) (mask : bitmap) (l : list (list reducer * option node_pointer)) (count : N) (bm : bitmap) (f : file) :
    res (list (option node_pointer) * N * bitmap) * file :=
  match l with
  | [] => (Ok ([], count, bm), f)
  | (rs, root) :: r =>
      match cleanup_btree (view_cleanup_request collate rs mask) view_purged f root with
      | (Err e, f1) => (Err e, f1)
      | (Ok (root', n), f1) =>
          match view_bitmask root' bm with
          | Err e => (Err e, f1)
          | Ok bm' =>
              match cleanup_views collate mask r ((count + n) mod 2^64) bm' f1 with
              | (Err e, f2) => (Err e, f2)
              | (Ok (roots, count', bm''), f2) => (Ok (root' :: roots, count', bm''), f2)
              end
          end
      end
  end.

(** src/views/view_group.cc:1091-1142: what couchstore_cleanup_view_group does with the header that it has read: the new header and the count. [reds]: the reducers of each
    view; [E_UB]: the assertion on line 1085. *)
Definition with_roots (h : index_header) (mask : bitmap) (id : option node_pointer) (views : list (option node_pointer)) : index_header :=
  IndexHeader (ih_version h) (ih_signature h) (ih_num_partitions h) (ih_active h) (ih_passive h) mask (ih_seqs h) id views (ih_has_replica h) (ih_replicas h)
    (ih_pend_active h) (ih_pend_passive h) (ih_pend_unindexable h) (ih_unindexable h) (ih_versions h).
Definition cleanup_header (collate : bytes -> bytes -> comparison) (reds : list (list reducer)) (h : index_header) (f : file) : res (index_header * N) * file :=
  if negb (lenN reds =? lenN (ih_view_states h)) then (Err E_UB, f) else
  let mask := ih_cleanup h in
  match cleanup_btree (id_cleanup_request mask) id_purged f (ih_id_state h) with
  | (Err e, f1) => (Err e, f1)
  | (Ok (id_root, n), f1) =>
      match cleanup_views collate mask (combine reds (ih_view_states h)) n (view_id_bitmask id_root empty_bitmap) f1 with
      | (Err e, f2) => (Err e, f2)
      | (Ok (roots, count, bm), f2) => (Ok (with_roots h (intersect_bitmaps bm mask) id_root roots, count), f2)
      end
  end.

(** src/views/view_group.cc:841-873 read_view_group_header; src/views/view_group.h:31 MAX_VIEW_HEADER_SIZE. *)
Definition MAX_VIEW_HEADER : N := 20 * 2^20.
Definition read_view_group_header (f : file) (pos : N) : res index_header :=
  if size f <=? pos then Err E_READ else
  let b := File.cur f pos in
  if b =? 0 then Err E_NO_HEADER else if negb (b =? 1) then Err E_CORRUPT else
  let* hb := pread_header f pos MAX_VIEW_HEADER in decode_index_header hb.
(** src/views/view_group.cc:875-904 write_view_group_header. *)
Definition write_view_group_header (f : file) (h : index_header) : res N * file :=
  match encode_index_header h with
  | Err e => (Err e, f)
  | Ok b => write_header f b B_HEADER
  end.
(** src/views/view_group.cc:1050-1165 couchstore_cleanup_view_group. The header is read and the indexes are written through two handles on the same file; here both
    are [f], whose append position is the end of the file (1096-1097). The result: the position of the new header and the count. *)
Definition cleanup_view_group (collate : bytes -> bytes -> comparison) (reds : list (list reducer)) (f : file) (pos : N) : res (N * N) * file :=
  match read_view_group_header f pos with
  | Err e => (Err e, f)
  | Ok h =>
      match cleanup_header collate reds h (set_fpos f (size f)) with
      | (Err e, f1) => (Err e, f1)
      | (Ok (h', count), f1) =>
          let '(r, f2) := write_view_group_header f1 h' in (let* p := r in Ok (p, count), f2)
      end
  end.
End WithEnv.
