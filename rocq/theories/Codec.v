(** Model of the fixed-width fields and of the records built from them. *)
From Verif Require Import Base.
Local Open Scope N_scope.

(** ** Big-endian integers *)

(** src/bitfield.cc:70-117 ENCODE_RAW / ENCODE_RAW_POINTER: the low [n] bytes of the value, most
    significant first (the value is truncated to [n] bytes). [n] is 1,2,3,4,5,6 or 8. *)
Fixpoint be (n : nat) (x : N) : bytes :=
  match n with
  | O => []
  | S n' => be n' (x / 256) ++ [x mod 256]
  end.

(** src/bitfield.cc:22-64 DECODE_RAW / DECODE_RAW_POINTER: big-endian value of the bytes. *)
Definition unbe (l : bytes) : N := fold_left (fun a b => a * 256 + b) l 0.

(** src/bitfield.cc decode_rawNN applied to the bytes at offset [off] of a buffer. *)
Definition rd_be (n off : N) (buf : bytes) : res N :=
  let* b := getb off n buf in Ok (unbe b).

(** ** Packed key/value length *)

(** src/node_types.cc:107-115 encode_kv_length (arguments already truncated to 32 bits by the
    callers' casts, node_types.cc:45; the 28-bit and 12-bit limits are not checked). *)
Definition encode_kv_length (klen vlen : N) : bytes :=
  match be 4 vlen with
  | [b1; b2; b3; b4] =>
      [ (N.shiftr klen 4) mod 256; N.lor b1 (N.shiftl (N.land klen 15) 4); b2; b3; b4 ]
  | _ => []
  end.

(** src/node_types.cc:99-105 decode_kv_length on exactly five bytes. *)
Definition decode_kv_length (kv : bytes) : N * N :=
  match kv with
  | [b0; b1; b2; b3; b4] =>
      ( N.lor (N.shiftl b0 4) (N.shiftr (N.land b1 240) 4),
        N.land (unbe [b1; b2; b3; b4]) 268435455 )
  | _ => (0, 0)
  end.

(** ** Key/value entries of index nodes *)

(** src/node_types.cc:42-53 write_kv (returned bytes instead of writing into a buffer; lengths are
    truncated to 32 bits as by the casts on line 45). *)
Definition write_kv (k v : bytes) : bytes :=
  encode_kv_length (lenN k mod 2^32) (lenN v mod 2^32) ++ k ++ v.

(** src/node_types.cc:14-40 read_kv: entry at [start] of [buf] with [buf_end] = length of [buf].
    [Ok None] is the "return 0" outcome (buffer too small). *)
Definition read_kv (buf : bytes) (start : N) : res (option (bytes * bytes * N)) :=
  if lenN buf <? start + 5 then Ok None
  else
    let* kv := getb start 5 buf in
    let '(klen, vlen) := decode_kv_length kv in
    let total := 5 + klen + vlen in
    if lenN buf - start <? total then Ok None
    else
      let* k := getb (start + 5) klen buf in
      let* v := getb (start + 5 + klen) vlen buf in
      Ok (Some (k, v, total)).

(** How the entry list of a node ends: cleanly at the end of the buffer, or at an entry for which
    read_kv fails (the caller then reports corruption). *)
Inductive tail := TEnd | TBad.

(** The loop [while (bufpos < nodebuflen) { kvlen = read_kv(...); error_unless(kvlen > 0); bufpos += kvlen }]
    used by every node reader (btree_read.cc:48-53, 109-117; btree_modify.cc modify_node;
    couch_db.cc:2065-2069). All entries that are read before the first failing one, and how the
    sequence ends; consumers stop at that point with CORRUPT. [fuel] bounds the number of entries;
    each takes at least 5 bytes. *)
Fixpoint parse_items (fuel : nat) (buf : bytes) (start : N) : list (bytes * bytes) * tail :=
  match fuel with
  | O => ([], TBad)
  | S fuel' =>
      if start <? lenN buf then
        match read_kv buf start with
        | Ok (Some (k, v, n)) =>
            let '(r, t) := parse_items fuel' buf (start + n) in ((k, v) :: r, t)
        | _ => ([], TBad)
        end
      else ([], TEnd)
  end.

(** The entries of a node buffer: the byte at offset 0 is the node type, entries start at 1. *)
Definition node_items (buf : bytes) : list (bytes * bytes) * tail :=
  parse_items (S (length buf)) buf 1.

(** Node buffer written by flush_mr_partial (btree_modify.cc:211-337): type byte, then entries. *)
Definition KP_NODE : N := 0.
Definition KV_NODE : N := 1.
Definition mk_node (ty : N) (kvs : list (bytes * bytes)) : bytes :=
  ty :: flat_map (fun kv => write_kv (fst kv) (snd kv)) kvs.

(** ** Node pointers *)

(** src/internal.h:140-145 struct node_pointer. *)
Record node_pointer := NodePointer {
  np_key : bytes;
  np_pointer : N;
  np_reduce : bytes;
  np_subtree : N
}.

(** src/btree_modify.cc:150-164 encode_pointer: the value stored for a child in an inner node. *)
Definition encode_pointer (p : node_pointer) : bytes :=
  be 6 (np_pointer p) ++ be 6 (np_subtree p) ++ be 2 (lenN (np_reduce p)) ++ np_reduce p.

(** src/btree_modify.cc:180-202 read_pointer: child entry (key, value) to node_pointer. The size checks
    are the ones done there. *)
Definition read_pointer (k v : bytes) : res node_pointer :=
  if lenN v <? 14 then Err E_CORRUPT
  else
    let* ptr := rd_be 6 0 v in
    let* sz := rd_be 6 6 v in
    let* rs := rd_be 2 12 v in
    if lenN v <? 14 + rs then Err E_CORRUPT
    else
      let* r := getb 14 rs v in
      Ok (NodePointer k ptr r sz).

(** src/node_types.cc:82-97 encode_root (for a non-null node; a null node gives no bytes). *)
Definition encode_root (r : option node_pointer) : bytes :=
  match r with
  | None => []
  | Some p => be 6 (np_pointer p) ++ be 6 (np_subtree p) ++ np_reduce p
  end.

(** src/node_types.cc:55-80 read_root: None when the size is below 12. *)
Definition read_root (buf : bytes) : res (option node_pointer) :=
  if lenN buf <? 12 then Ok None
  else
    let* ptr := rd_be 6 0 buf in
    let* sz := rd_be 6 6 buf in
    let* r := getb 12 (lenN buf - 12) buf in
    Ok (Some (NodePointer [] ptr r sz)).

(** src/node_types.cc:117-121 decode_sequence_key: reads 6 bytes whatever the key size is. *)
Definition decode_sequence_key (k : bytes) : res N := rd_be 6 0 k.

(** ** Document information *)

(** include/libcouchstore/couch_common.h struct DocInfo. *)
Record doc_info := DocInfo {
  di_id : bytes;
  di_db_seq : N;
  di_rev_seq : N;
  di_rev_meta : bytes;
  di_deleted : bool;
  di_content_meta : N;
  di_bp : N;
  di_physical_size : N
}.

(** src/node_types.h:99 BP_DELETED_FLAG. *)
Definition BP_DELETED_FLAG : N := 140737488355328.

(** src/couch_save.cc:42, 62: bp | (deleted ? 1<<47 : 0). *)
Definition bp_field (d : doc_info) : N :=
  if di_deleted d then N.lor (di_bp d) BP_DELETED_FLAG else di_bp d.

(** src/couch_save.cc:37-54 assemble_seq_index_value. *)
Definition assemble_seq_index_value (d : doc_info) : bytes :=
  encode_kv_length (lenN (di_id d)) (di_physical_size d mod 2^32)
  ++ be 6 (bp_field d) ++ be 6 (di_rev_seq d) ++ be 1 (di_content_meta d)
  ++ di_id d ++ di_rev_meta d.

(** src/couch_save.cc:56-72 assemble_id_index_value. *)
Definition assemble_id_index_value (d : doc_info) : bytes :=
  be 6 (di_db_seq d) ++ be 4 (di_physical_size d) ++ be 6 (bp_field d)
  ++ be 6 (di_rev_seq d) ++ be 1 (di_content_meta d) ++ di_rev_meta d.

(** src/couch_db.cc:1149-1186 by_seq_read_docinfo. *)
Definition by_seq_read_docinfo (k v : bytes) : res doc_info :=
  if (lenN v <? 18) || (lenN k <? 6) then Err E_CORRUPT
  else
    let extra := lenN v - 18 in
    let* sizes := getb 0 5 v in
    let '(idsize, datasize) := decode_kv_length sizes in
    if extra <? idsize then Err E_CORRUPT
    else
      let* bp := rd_be 6 5 v in
      let* rev_seq := rd_be 6 11 v in
      let* cm := rd_be 1 17 v in
      let* seq := decode_sequence_key k in
      let* id := getb 18 idsize v in
      let* rm := getb (18 + idsize) (extra - idsize) v in
      Ok (DocInfo id seq rev_seq rm (negb (N.land bp BP_DELETED_FLAG =? 0)) cm
                  (N.ldiff bp BP_DELETED_FLAG) datasize).

(** src/couch_db.cc:1188-1223 by_id_read_docinfo. *)
Definition by_id_read_docinfo (k v : bytes) : res doc_info :=
  if lenN v <? 23 then Err E_CORRUPT
  else
    let* seq := rd_be 6 0 v in
    let* datasize := rd_be 4 6 v in
    let* bp := rd_be 6 10 v in
    let* revnum := rd_be 6 16 v in
    let* cm := rd_be 1 22 v in
    let* rm := getb 23 (lenN v - 23) v in
    Ok (DocInfo k seq revnum rm (negb (N.land bp BP_DELETED_FLAG =? 0)) cm
                (N.ldiff bp BP_DELETED_FLAG) datasize).

(** src/couch_db.cc:1225-1236 local_read_docinfo. Fields not assigned there are zero
    (couchstore_alloc_docinfo clears the structure). *)
Definition local_read_docinfo (k v : bytes) : doc_info :=
  DocInfo k 0 0 [] false 0 0 (lenN v).

(** ** Reductions *)

(** src/reduces.cc:8-19 by_seq_reduce; [count] is the number of leaf entries. *)
Definition by_seq_reduce (items : list (bytes * bytes)) : res bytes :=
  Ok (be 5 (lenN items)).

(** src/reduces.cc:21-43 by_seq_rereduce over the children's reduce values. *)
Fixpoint seq_total (rs : list bytes) (acc : N) : res N :=
  match rs with
  | [] => Ok acc
  | r :: rs' =>
      if lenN r <? 5 then Err E_CORRUPT
      else let* c := rd_be 5 0 r in seq_total rs' (acc + c)
  end.
Definition by_seq_rereduce (rs : list bytes) : res bytes :=
  let* t := seq_total rs 0 in Ok (be 5 t).

(** src/reduces.cc:46-53 encode_by_id_reduce. *)
Definition encode_by_id_reduce (notdeleted deleted size : N) : bytes :=
  be 5 notdeleted ++ be 5 deleted ++ be 6 size.

(** src/reduces.cc:55-81 by_id_reduce. *)
Fixpoint id_totals (items : list (bytes * bytes)) (acc : N * N * N) : res (N * N * N) :=
  match items with
  | [] => Ok acc
  | (_, v) :: r =>
      if lenN v <? 23 then Err E_CORRUPT
      else
        let* bp := rd_be 6 10 v in
        let* ps := rd_be 4 6 v in
        let '(nd, d, s) := acc in
        if negb (N.land bp BP_DELETED_FLAG =? 0)
        then id_totals r (nd, d + 1, s + ps)
        else id_totals r (nd + 1, d, s + ps)
  end.
Definition by_id_reduce (items : list (bytes * bytes)) : res bytes :=
  let* t := id_totals items (0, 0, 0) in
  let '(nd, d, s) := t in Ok (encode_by_id_reduce nd d s).

(** src/reduces.cc:83-107 by_id_rereduce. *)
Fixpoint id_retotals (rs : list bytes) (acc : N * N * N) : res (N * N * N) :=
  match rs with
  | [] => Ok acc
  | r :: rs' =>
      if lenN r <? 16 then Err E_CORRUPT
      else
        let* n := rd_be 5 0 r in
        let* d := rd_be 5 5 r in
        let* s := rd_be 6 10 r in
        let '(nd, dl, sz) := acc in
        id_retotals rs' (nd + n, dl + d, sz + s)
  end.
Definition by_id_rereduce (rs : list bytes) : res bytes :=
  let* t := id_retotals rs (0, 0, 0) in
  let '(nd, d, s) := t in Ok (encode_by_id_reduce nd d s).

(** ** Key comparison *)

(** memcmp on the common prefix, then length: src/util.cc:17-35 ebin_cmp. *)
Fixpoint ebin_cmp (a b : bytes) : comparison :=
  match a, b with
  | [], [] => Eq
  | [], _ :: _ => Lt
  | _ :: _, [] => Gt
  | x :: a', y :: b' => match x ?= y with Eq => ebin_cmp a' b' | c => c end
  end.

(** src/util.cc:37-45 seq_cmp. A key shorter than 6 bytes is read out of bounds. *)
Definition seq_cmp_res (a b : bytes) : res comparison :=
  let* x := decode_sequence_key a in
  let* y := decode_sequence_key b in
  Ok (x ?= y).
