(** Specification vocabulary for the walks over the nodes and documents of an index. *)
From Verif Require Import Base Codec File Btree Db SpecSession Walk.
Local Open Scope N_scope.
Unset Strict Implicit.

(** ** The shape of an index *)

(** A leaf with its documents, or an inner node with its children; [own] is the number of bytes that the node itself takes in the file. *)
Inductive shape (A : Type) := Leaf (own : N) (ds : list A) | Inner (own : N) (cs : list (shape A)).
Arguments Leaf {A}. Arguments Inner {A}.

Section Shape.
Variable A : Type.
(** The documents in and below a node. *)
Fixpoint docs (t : shape A) : list A := match t with Leaf _ ds => ds | Inner _ cs => flat_map docs cs end.
(** The bytes of a node and of all nodes below it. *)
Fixpoint space (t : shape A) : N := match t with Leaf own _ => own | Inner own cs => own + fold_right (fun c n => space c + n) 0 cs end.
(** No node is empty, and all leaves are [d] levels down. *)
Fixpoint even (d : nat) (t : shape A) : Prop :=
  match d, t with
  | O, Leaf _ ds => ds <> []
  | S d', Inner _ cs => cs <> [] /\ Forall (even d') cs
  | _, _ => False
  end.

(** The calls below a node of depth [depth]: its documents and children one level deeper, each child before everything below it. A child is left out if
    all its documents lie before the start ([keep] tells which do not); of the documents from the start on, those with [want]. A node is reported with
    the bytes and the total of everything below it. *)
Variable keep : A -> bool.
Variable want : doc_info -> bool.
Variable info : A -> doc_info.
Variable sum : list A -> bytes.
Definition visit := (N * item)%type.
Fixpoint visits (depth : N) (t : shape A) : list visit :=
  match t with
  | Leaf _ ds => map (fun a => (depth + 1, IDoc (info a))) (filter (fun a => keep a && want (info a)) ds)
  | Inner _ cs => flat_map (fun c => if existsb keep (docs c)
                                     then (depth + 1, INode (space c mod 2^48) (sum (docs c))) :: visits (depth + 1) c else []) cs
  end.
End Shape.

(** ** The shape in the file *)

Section WithEnv.
Context {E : Env}.
Variable A : Type.
(** The stored entry stands for this document. *)
Variable means : bytes * bytes -> A -> Prop.

(** At the position [pos] of the file there is an index node of this shape. The key of a child in its parent is the key of the last entry below the child. *)
Inductive drawn (f : file) : N -> bytes -> shape A -> Prop :=
| drawn_leaf pos z b kvs ds : pread_bin f pos = Ok z -> uncompress z = Some b -> hd_error b = Some KV_NODE -> node_items b = (kvs, TEnd) ->
    Forall2 means kvs ds -> drawn f pos (last (map fst kvs) []) (Leaf (overhead f + lenN z) ds)
| drawn_inner pos z b entries cs ts : pread_bin f pos = Ok z -> uncompress z = Some b -> hd_error b = Some KP_NODE ->
    node_items b = (entries, TEnd) -> Forall2 (fun e c => read_pointer (fst e) (snd e) = Ok c) entries cs ->
    Forall2 (fun c t => drawn f (np_pointer c) (np_key c) t) cs ts -> drawn f pos (last (map fst entries) []) (Inner (overhead f + lenN z) ts).
End WithEnv.

(** ** Totals *)

(** The reduce value of the index by id: live documents (5 bytes), deleted documents (5 bytes), bytes of their bodies (6 bytes). *)
Definition id_total (ds : list doc_info) : bytes :=
  be 5 (lenN (filter (fun i => negb (di_deleted i)) ds)) ++ be 5 (lenN (filter di_deleted ds)) ++ be 6 (total di_physical_size ds).
(** The reduce value of the index by sequence number: the number of documents (5 bytes). *)
Definition seq_total (ds : list doc_info) : bytes := be 5 (lenN ds).

(** ** Selection *)

(** The key [a] does not come before [b] in the order of bytes. *)
Fixpoint not_before (a b : bytes) : bool :=
  match b, a with
  | [], _ => true
  | _ :: _, [] => false
  | y :: b', x :: a' => if x =? y then not_before a' b' else y <? x
  end.
(** Not filtered out by the options. *)
Definition wanted (o : enumopts) (i : doc_info) : bool :=
  (negb (eo_deletes_only o) || di_deleted i) && (negb (eo_no_deletes o) || negb (di_deleted i)).
(** What is reported of a local document: its id and the size of its contents. *)
Definition local_info (x : bytes * bytes) : doc_info := DocInfo (fst x) 0 0 [] false 0 0 (lenN (snd x)).
