(** Model of src/btree_read.cc: looking up keys and ranges in an index, and of the range count of src/couch_db.cc. *)
From Verif Require Import Base Codec File Btree.
Local Open Scope N_scope.

(** src/btree_read.cc:9-23 lookup_compare: the empty key is below every other key. *)
Definition lookup_compare (cmp : bytes -> bytes -> comparison) (a b : bytes) : comparison :=
  match a, b with
  | [], [] => Eq
  | [], _ => Lt
  | _, [] => Gt
  | _, _ => cmp a b
  end.
(** Not part of the code: the test "comparison >= 0". *)
Definition ge (c : comparison) : bool := match c with Lt => false | _ => true end.

(** src/couch_btree.h:33-58 couchfile_lookup_request without the keys and the two fold flags. The callbacks act on a state
    of the caller (callback_ctx and anything reachable from it). A callback that returns a positive value is not
    modelled (the callbacks in couchstore turn it into success). A null value is [None]; the node callback gets
    [Some (subtree size, reduce value)] before a child is visited and [None] after it. *)
Record lreq (U : Type) := LReq {
  l_cmp : bytes -> bytes -> comparison;
  l_fetch : bytes -> option bytes -> U -> res unit * U;
  l_node : option (option (N * bytes) -> U -> res unit * U);
  l_tol : bool
}.
(** The caller's state and the flags fold and in_fold of the request. *)
Record lst (U : Type) := Lst { l_u : U; l_fold : bool; l_in : bool }.

Section WithU.
Variable U : Type.
Variable rq : lreq U.

(** Not part of the code: updating the state. *)
Definition set_u (u : U) (s : lst U) : lst U := Lst u (l_fold s) (l_in s).
Definition set_in (b : bool) (s : lst U) : lst U := Lst (l_u s) (l_fold s) b.
(** src/btree_read.cc:9-23 with the comparison of the request. *)
Definition lcmp (a b : bytes) : comparison := lookup_compare (l_cmp rq) a b.

(** The keys not above the separator at the front, src/btree_read.cc:64-66. *)
Fixpoint span_ge (ck : bytes) (ks : list bytes) : list bytes * list bytes :=
  match ks with
  | [] => ([], [])
  | k :: r => if ge (lcmp ck k) then let '(x, y) := span_ge ck r in (k :: x, y) else ([], ks)
  end.

(** Remaining keys are reported as not found, src/btree_read.cc:162-166. [ec] is errcode so far: it is overwritten. *)
Fixpoint lk_rest (ks : list bytes) (ec : res unit) (s : lst U) : res unit * lst U :=
  match ks with
  | [] => (ec, s)
  | k :: r =>
      if l_fold s then (ec, s) else
      let '(x, u) := l_fetch rq k None (l_u s) in
      match x with
      | Err e => (Err e, set_u u s)
      | Ok _ => lk_rest r (Ok tt) (set_u u s)
      end
  end.

(** The node callback if there is one (src/btree_read.cc:75-81, 96-98); error_pass assigns errcode. *)
Definition call_node (a : option (N * bytes)) (ec : res unit) (s : lst U) : res unit * res unit * lst U :=
  match l_node rq with
  | None => (Ok tt, ec, s)
  | Some g => let '(x, u) := g a (l_u s) in (x, Ok tt, set_u u s)
  end.

(** src/btree_read.cc:47-100, the entries of an inner node; [rec] is the recursive call. The child entry is checked as in
    [read_pointer]. The list [ks] stands for keys[current .. end). *)
Fixpoint lk_kp (rec : N -> list bytes -> lst U -> res unit * lst U) (items : list (bytes * bytes)) (t : tail)
    (ks : list bytes) (ec : res unit) (s : lst U) : res unit * lst U :=
  match ks with
  | [] => (ec, s)
  | k0 :: kr =>
      match items with
      | [] => match t with TEnd => lk_rest ks ec s | TBad => (Err E_CORRUPT, s) end
      | (ck, v) :: r =>
          if ge (lcmp ck k0) then
            let s1 := if l_fold s then set_in true s else s in
            let '(here, later) := span_ge ck kr in
            match read_pointer ck v with
            | Err e => (Err e, s1)
            | Ok p =>
                let '(x1, ec1, s2) := call_node (Some (np_subtree p, np_reduce p)) ec s1 in
                match x1 with
                | Err e => (Err e, s2)
                | Ok _ =>
                    let '(x2, s3) := rec (np_pointer p) (k0 :: here) s2 in
                    match x2, l_tol rq with
                    | Err e, false => (Err e, s3)
                    | _, _ =>
                        let ec2 := match x2 with Err e => Err e | Ok _ => if l_tol rq then ec1 else Ok tt end in
                        let ks' := if l_in s3 then ks else later in
                        let '(x3, ec3, s4) := call_node None ec2 s3 in
                        match x3 with
                        | Err e => (Err e, s4)
                        | Ok _ => lk_kp rec r t ks' ec3 s4
                        end
                    end
                end
            end
          else lk_kp rec r t ks ec s
      end
  end.

(** Not part of the code: the outcome of comparing one leaf entry with the keys. *)
Inductive kvres := KDone (x : res unit) (s : lst U) | KMore (ks : list bytes) (ec : res unit) (s : lst U).
(** One leaf entry against the keys, src/btree_read.cc:120-158: finished with a result, or go on with the next entry. *)
Fixpoint kv_entry (k v : bytes) (ks : list bytes) (ec : res unit) (s : lst U) : kvres :=
  match ks with
  | [] => KDone ec s
  | k0 :: kr =>
      let c := lcmp k k0 in
      let s1 := if ge c && l_fold s && negb (l_in s) then set_in true s else s in
      if l_in s1 && (match kr with [] => false | k1 :: _ => match lcmp k k1 with Gt => true | _ => false end end)
      then KDone ec (Lst (l_u s1) false false)
      else if ge c then
        let '(x, u) := if (match c with Eq => true | _ => false end) || l_in s1
                       then l_fetch rq k (Some v) (l_u s1)
                       else l_fetch rq k0 None (l_u s1) in
        let s2 := set_u u s1 in
        match x, l_tol rq with
        | Err e, false => KDone (Err e) s2
        | _, _ =>
            let ec' := match x with Err e => Err e | Ok _ => if l_tol rq then ec else Ok tt end in
            if l_in s2 then KMore ks ec' s2
            else match c with Eq => KMore kr ec' s2 | _ => kv_entry k v kr ec' s2 end
        end
      else KMore ks ec s1
  end.

(** src/btree_read.cc:101-166, the entries of a leaf. *)
Fixpoint lk_kv (items : list (bytes * bytes)) (t : tail) (ks : list bytes) (ec : res unit) (s : lst U) : res unit * lst U :=
  match ks with
  | [] => (ec, s)
  | _ :: _ =>
      match items with
      | [] => match t with TEnd => lk_rest ks ec s | TBad => (Err E_CORRUPT, s) end
      | (k, v) :: r =>
          match kv_entry k v ks ec s with
          | KDone x s' => (x, s')
          | KMore ks' ec' s' => lk_kv r t ks' ec' s'
          end
      end
  end.

Context {E : Env}.

(** Reading a node, src/btree_read.cc:38-45. *)
Definition node_at (f : file) (pos : N) : res bytes :=
  match pread_compressed f pos with
  | Ok [] => Err E_CORRUPT
  | r => r
  end.

(** src/btree_read.cc:25-172 btree_lookup_inner. A node of a third kind counts as containing nothing. [fuel] bounds the depth
    of the recursion. *)
Fixpoint lookup_inner (fuel : nat) (f : file) (pos : N) (ks : list bytes) (s : lst U) : res unit * lst U :=
  match ks with
  | [] => (Ok tt, s)
  | _ :: _ =>
      match fuel with
      | O => (Err E_FUEL, s)
      | S fuel' =>
          match node_at f pos with
          | Err e => (Err e, s)
          | Ok buf =>
              let '(items, t) := node_items buf in
              match buf with
              | 0 :: _ => lk_kp (lookup_inner fuel' f) items t ks (Ok tt) s
              | 1 :: _ => lk_kv items t ks (Ok tt) s
              | _ => lk_rest ks (Ok tt) s
              end
          end
      end
  end.

(** src/btree_read.cc:174-179 btree_lookup. *)
Definition btree_lookup (f : file) (pos : N) (ks : list bytes) (fold : bool) (u : U) : res unit * U :=
  let '(x, s) := lookup_inner (depth_fuel f) f pos ks (Lst u fold false) in (x, l_u s).
End WithU.

Section Count.
Context {E : Env}.
Variable cmp : bytes -> bytes -> comparison.

(** The loop of src/couch_db.cc:2066-2101 (btree_eval_seq_reduce); [kp] tells whether the node is an inner node; a node of a
    third kind is treated as a leaf. [past] is past_left_edge. The reduce value is read from the bytes after the node
    pointer whatever its declared length. The sum wraps at 2^64. *)
Fixpoint ev_loop (rec : bool -> N -> N -> res N) (kp : bool) (left right : bytes) (items : list (bytes * bytes)) (t : tail)
    (past : bool) (acc : N) : res N :=
  match items with
  | [] => match t with TEnd => Ok acc | TBad => Err E_CORRUPT end
  | (k, v) :: r =>
      match cmp k left with
      | Lt => ev_loop rec kp left right r t past acc
      | _ =>
          if kp then
            if lenN v <? 14 + 5 then Err E_CORRUPT else
            let* sub := rd_be 5 14 v in
            let* ptr := rd_be 6 0 v in
            let rc := ge (cmp k right) in
            if negb past || rc then
              let* acc' := rec past ptr acc in
              if rc then Ok acc' else ev_loop rec kp left right r t true acc'
            else ev_loop rec kp left right r t past ((acc + sub) mod 2^64)
          else
            match cmp k right with
            | Gt => Ok acc
            | _ => ev_loop rec kp left right r t past ((acc + 1) mod 2^64)
            end
      end
  end.

(** src/couch_db.cc:2048-2107 btree_eval_seq_reduce. *)
Fixpoint eval_seq_reduce (fuel : nat) (f : file) (left right : bytes) (past : bool) (pos acc : N) : res N :=
  match fuel with
  | O => Err E_FUEL
  | S fuel' =>
      let* buf := node_at f pos in
      let '(items, t) := node_items buf in
      ev_loop (fun past' pos' acc' => eval_seq_reduce fuel' f left right past' pos' acc')
        (match buf with 0 :: _ => true | _ => false end) left right items t past acc
  end.
End Count.
