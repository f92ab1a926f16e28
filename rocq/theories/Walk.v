(** Model of the tree walks of src/couch_db.cc (couchstore_walk_id_tree, couchstore_walk_seq_tree, couchstore_walk_local_tree). *)
From Verif Require Import Base Codec File Header Btree SpecMap BtreeRead Db.
Local Open Scope N_scope.
Unset Strict Implicit.

(** The arguments of couchstore_walk_tree_callback_fn (include/libcouchstore/couch_db.h:753-758) after the depth: a tree node has a subtree size and a
    reduce value and no document, a document has no reduce value and the size 0. *)
Inductive item := INode (size : N) (reduce : bytes) | IDoc (i : doc_info).

(** src/couch_db.cc:1225-1236 local_read_docinfo with :1108-1134 couchstore_alloc_docinfo (all other fields are zero). *)
Definition local_read_docinfo (k v : bytes) : res doc_info := Ok (DocInfo k 0 0 [] false 0 0 (lenN v)).

Section Walk.
Variable U : Type.
(** Not part of the code: the type of the user's function; it gets the depth and acts on the user's context. A positive result counts as success. *)
Definition walk_fn := N -> item -> U -> res unit * U.

(** src/couch_db.cc:1446-1511 lookup_callback with a walk callback (1491-1498): the user's function gets the depth in the lookup context. The context is the
    depth and the user's context. *)
Definition walk_fetch (o : enumopts) (read : bytes -> bytes -> res doc_info) (cb : walk_fn) (k : bytes) (v : option bytes) (c : N * U) : res unit * (N * U) :=
  let '(x, u) := lookup_callback o read (fun i u => cb (fst c) (IDoc i) u) k v (snd c) in (x, (fst c, u)).

(** src/couch_db.cc:1597-1617 walk_node_callback. The depth is an int; it never falls below its first value because every decrement follows an
    increment. *)
Definition walk_node_callback (cb : walk_fn) (a : option (N * bytes)) (c : N * U) : res unit * (N * U) :=
  match a with
  | Some (size, red) => let '(x, u) := cb (fst c) (INode size red) (snd c) in (x, (fst c + 1, u))
  | None => (Ok tt, (fst c - 1, snd c))
  end.

(** The lookup request, src/couch_db.cc:1655-1669. *)
Definition walk_request (cmp : bytes -> bytes -> comparison) (o : enumopts) (read : bytes -> bytes -> res doc_info) (cb : walk_fn) : lreq (N * U) :=
  LReq cmp (walk_fetch o read cb) (Some (walk_node_callback cb)) (eo_tolerate o).

Context {E : Env}.

(** src/couch_db.cc:1619-1675 couchstore_walk_tree; a null start key is the empty key. *)
Definition walk_tree (d : db) (root : option node_pointer) (cmp : bytes -> bytes -> comparison) (read : bytes -> bytes -> res doc_info) (start : bytes)
    (o : enumopts) (cb : walk_fn) (u : U) : res unit * U :=
  if dropped d then (Err E_FILE_CLOSED, u) else
  match root with
  | None => (Ok tt, u)
  | Some p =>
      let '(x, u1) := cb 0 (INode (np_subtree p) (np_reduce p)) u in
      match x with
      | Err e => (Err e, u1)
      | Ok _ => let '(y, c) := btree_lookup (walk_request cmp o read cb) (dbf d) (np_pointer p) [start] true (1, u1) in (y, snd c)
      end
  end.

(** src/couch_db.cc:1677-1687 couchstore_walk_id_tree. *)
Definition walk_id_tree (d : db) (start : bytes) (o : enumopts) (cb : walk_fn) (u : U) : res unit * U :=
  walk_tree d (h_by_id (dbh d)) ebin_cmp by_id_read_docinfo start o cb u.
(** src/couch_db.cc:1689-1703 couchstore_walk_seq_tree. *)
Definition walk_seq_tree (d : db) (start : N) (o : enumopts) (cb : walk_fn) (u : U) : res unit * U :=
  walk_tree d (h_by_seq (dbh d)) seq_cmp by_seq_read_docinfo (be 6 start) o cb u.
(** src/couch_db.cc:1705-1722 couchstore_walk_local_tree. *)
Definition walk_local_tree (d : db) (start : bytes) (o : enumopts) (cb : walk_fn) (u : U) : res unit * U :=
  walk_tree d (h_local (dbh d)) ebin_cmp local_read_docinfo start o cb u.
End Walk.
