(** Model of src/dbdump.cc, the program couch_dbdump with --tree: the nodes and documents of an index. *)
From Verif Require Import Base Codec File Header Btree BtreeRead SpecMap Db Walk Dbinfo.
Local Open Scope N_scope.
Unset Strict Implicit.

(** The lines that src/dbdump.cc:694-740 prints, with the depth by which they are indented: a node with the size of everything below it and its reduce value; a document;
    a document "not in a known format". How the lines are formatted is not modelled. *)
Inductive tline := TNode (depth size : N) (reduce : bytes) | TDoc (depth : N) (i : doc_info) | TCorrupt (depth : N) (i : doc_info).
(** The output so far and the number of documents (the int behind ctx, lines 732-733). *)
Definition tstate : Type := list tline * N.

(** src/dbdump.cc: the modes with --tree (DumpBySequence, DumpByID, DumpLocals). *)
Inductive tree_mode := TreeSeq | TreeId | TreeLocal.

(** src/dbdump.cc:694-740 visit_node: it always returns 0. [loc]: the mode is DumpLocals. *)
Definition visit_node (loc : bool) : walk_fn tstate := fun depth x u =>
  match x with
  | INode n red => (Ok tt, (fst u ++ [TNode depth n red], snd u))
  | IDoc i =>
      if (0 <? di_bp i) || ((di_bp i =? 0) && di_deleted i) || loc
      then (Ok tt, (fst u ++ [TDoc depth i], snd u + 1))
      else (Ok tt, (fst u ++ [TCorrupt depth i], snd u))
  end.

Section WithEnv.
Context {E : Env}.
(** src/dbdump.cc:961-964, 972-977, 995-1000: one pass over the index of the current header. *)
Definition dump_tree (m : tree_mode) (d : db) : res unit * tstate :=
  let o := EnumOpts false false true in
  match m with
  | TreeSeq => walk_seq_tree d 0 o (visit_node false) ([], 0)
  | TreeId => walk_id_tree d [] o (visit_node false) ([], 0)
  | TreeLocal => walk_local_tree d [] o (visit_node true) ([], 0)
  end.

(** src/dbdump.cc:901-1059 process_vbucket_file with --tree and without --iterate-headers, on an existing non-empty file; [offset]: --header-offset. If the pass fails, what it has printed stays, and the
    number of documents is not added to the total (lines 1051-1058). *)
Definition dump_tree_file (f : file) (getkey : N -> bytes -> bytes -> res N) (offset : option N) (m : tree_mode) : res N * list tline :=
  match open_at f getkey offset with
  | Err e => (Err e, [])
  | Ok d => match dump_tree m d with
            | (Ok _, (out, n)) => (Ok n, out)
            | (Err e, (out, _)) => (Err e, out)
            end
  end.
End WithEnv.
