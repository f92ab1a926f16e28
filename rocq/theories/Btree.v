(** Model of the index writer: src/btree_modify.cc. Memory allocation (arenas) is assumed to succeed. *)
From Verif Require Import Base Codec File.
Local Open Scope N_scope.

(** src/couch_btree.h:82-85 ACTION_FETCH, ACTION_REMOVE, ACTION_INSERT, ACTION_FETCH_INSERT. *)
Inductive atype := A_FETCH | A_REMOVE | A_INSERT | A_FETCH_INSERT.

(** src/couch_btree.h:87-111 couchfile_modify_action; [a_req] stands for the userReq pointer. The data of FETCH and
    REMOVE actions is not used. *)
Record action := Action { a_type : atype; a_key : bytes; a_data : bytes; a_req : N }.

(** src/couch_btree.h:114-117 PURGE_ITEM, PURGE_STOP, PURGE_KEEP, PURGE_PARTIAL. *)
Inductive purge_action := P_ITEM | P_STOP | P_KEEP | P_PARTIAL.

(** src/couch_btree.h:123-149 couchfile_modify_request (without the file and the actions, which are arguments
    of the functions below). The callbacks are given by the result they return; the calls themselves are
    recorded as events in the state. [r_fetch] also tells whether the callback changed the type of the action from FETCH_INSERT to FETCH
    (only updateLocalDocumentsCallback, src/db_compact.cc:505-519, does). [r_reduce] gets the leaf entries, [r_rereduce] the reduce values of the children.
    [r_save] is the result of reading the docinfo of a key and value (docinfo_callback); [None] when no save
    callback is set. The purge decisions are functions of the entry only (as in src/views/purgers.cc). *)
Record request := Request {
  r_cmp : bytes -> bytes -> comparison;
  r_reduce : option (list (bytes * bytes) -> res bytes);
  r_rereduce : option (list bytes -> res bytes);
  r_kv : N;
  r_kp : N;
  r_compact : bool;
  r_fetch : option (action -> option bytes -> res bool);
  r_save : option (bytes -> bytes -> res unit);
  r_purge_kv : option (bytes -> bytes -> res purge_action);
  r_purge_kp : option (node_pointer -> res purge_action)
}.

(** Calls of the fetch callback (key, value found or not) and of the save callback (key, old value if any, new value,
    userReq); and the calls of the purge callbacks that returned PURGE_ITEM (with these a callback may count in guided_purge_ctx,
    src/views/purgers.cc:33-64). *)
Inductive event :=
| EvFetch (k : bytes) (v : option bytes)
| EvSave (k : bytes) (old : option bytes) (new : bytes) (req : N)
| EvPurgeKv (k v : bytes)
| EvPurgeKp (p : node_pointer).

(** What the functions below change: the file, the calls made so far (newest first), rq->enable_purging. *)
Record st := St { st_f : file; st_ev : list event; st_en : bool }.

(** Not part of the code: sequencing of operations on the state that may fail. *)
Definition M (A : Type) := st -> res A * st.
Definition ret {A} (a : A) : M A := fun s => (Ok a, s).
Definition fail {A} (e : err) : M A := fun s => (Err e, s).
Definition bindM {A B} (x : M A) (k : A -> M B) : M B :=
  fun s => match x s with (Ok a, s') => k a s' | (Err e, s') => (Err e, s') end.
Notation "'let+' x ':=' e 'in' k" := (bindM e (fun x => k))
  (at level 200, x name, e at level 100, k at level 200, right associativity).
Definition lift {A} (r : res A) : M A := fun s => (r, s).
Definition emit (e : event) : M unit := fun s => (Ok tt, St (st_f s) (e :: st_ev s) (st_en s)).
Definition stop_purging : M unit := fun s => (Ok tt, St (st_f s) (st_ev s) false).
Definition get_en : M bool := fun s => (Ok (st_en s), s).

(** src/couch_btree.h:64-69 nodelist: key, encoded value and, for children, the pointer. *)
Record item := Item { it_key : bytes; it_data : bytes; it_ptr : option node_pointer }.

(** src/btree_modify.cc:150-164 encode_pointer: list element for a child. *)
Definition ptr_item (p : node_pointer) : item := Item (np_key p) (encode_pointer p) (Some p).
Definition kv_item (kv : bytes * bytes) : item := Item (fst kv) (snd kv) None.

(** src/couch_btree.h:155-173 couchfile_modify_result: values and pointers lists, node_len, count, modified,
    node_type. Elements of the pointers list are always made by encode_pointer. *)
Record mr := Mr {
  m_vals : list item; m_ptrs : list node_pointer; m_len : N; m_count : N; m_mod : bool; m_type : N
}.
(** src/btree_modify.cc:67-92 make_modres (node_type is set by the callers). *)
Definition make_modres (ty : N) : mr := Mr [] [] 0 0 false ty.
Definition set_mod (m : mr) : mr := Mr (m_vals m) (m_ptrs m) (m_len m) (m_count m) true (m_type m).
(** src/btree_modify.cc:94-126 new_btree_modres. *)
Definition new_btree_modres : mr := set_mod (make_modres KV_NODE).

(** Encoded size of an entry, btree_modify.cc:145, 175, 251, 352: key, value and raw_kv_length. *)
Definition item_size (i : item) : N := lenN (it_key i) + lenN (it_data i) + 5.

(** The loop of flush_mr_partial, btree_modify.cc:246-272: [used] is used_quota, [blen] the bytes in the buffer of
    [size] bytes, [cnt] is itmcount. Result: entries put in the node and entries left. *)
Fixpoint take_items (kp : bool) (quota size used blen cnt : N) (l : list item) : res (list item * list item) :=
  match l with
  | [] => Ok ([], [])
  | i :: r =>
      if (used <? quota) || ((cnt <? 2) && kp) then
        let sz := item_size i in
        if size <? blen + sz then Err E_INVALID_ARGUMENTS
        else
          let* x := take_items kp quota size (used + sz) (blen + sz) (cnt + 1) r in
          Ok (i :: fst x, snd x)
      else Ok ([], l)
  end.

(** Sum of the children's subtree sizes, btree_modify.cc:264-266. *)
Definition sub_sum (l : list item) : N :=
  fold_right (fun i a => match it_ptr i with Some p => np_subtree p + a | None => a end) 0 l.

(** The reduce value of a new node, btree_modify.cc:288-302. A child element without pointer would be a null
    dereference in the rereduce functions. *)
Fixpoint reduce_vals (l : list item) : res (list bytes) :=
  match l with
  | [] => Ok []
  | i :: r => match it_ptr i with
              | None => Err E_UB
              | Some p => let* x := reduce_vals r in Ok (np_reduce p :: x)
              end
  end.
Definition kv_of (i : item) : bytes * bytes := (it_key i, it_data i).
Definition node_reduce (rq : request) (ty : N) (l : list item) : res bytes :=
  if ty =? KV_NODE then
    match r_reduce rq with Some f => f (map kv_of l) | None => Ok [] end
  else if ty =? KP_NODE then
    match r_rereduce rq with Some f => let* rs := reduce_vals l in f rs | None => Ok [] end
  else Ok [].

Section WithEnv.
Context {E : Env}.

(** src/couch_file_write.cc:238-259 db_write_buf_compressed on the file of the state: position and disk size. *)
Definition write_node (b : bytes) : M (N * N) :=
  fun s => let '(r, f') := db_write_buf_compressed (st_f s) b in (r, St f' (st_ev s) (st_en s)).

(** Key of the last entry written, or of the first entry of the list if none was, btree_modify.cc:244, 268
    (final_key). *)
Definition last_key (now vals : list item) : bytes := last (map it_key now) (hd [] (map it_key vals)).

(** src/btree_modify.cc:211-337 flush_mr_partial. The reducers of couchstore never exceed the 65535 bytes of
    reducebuf (the assertion on lines 293 and 301 is not modelled). *)
Definition flush_mr_partial (rq : request) (quota : N) (m : mr) : M mr :=
  match m_vals m with
  | [] => ret m
  | _ :: _ =>
      if negb (m_mod m) then ret m else
      let+ x := lift (take_items (m_type m =? KP_NODE) quota (m_len m + 1) 0 1 0 (m_vals m)) in
      let '(now, later) := x in
      let buf := mk_node (m_type m) (map kv_of now) in
      let+ w := write_node buf in
      let '(pos, disk) := w in
      let+ red := lift (node_reduce rq (m_type m) now) in
      let p := NodePointer (last_key now (m_vals m)) pos red ((sub_sum now + disk) mod 2^64) in
      ret (Mr later (m_ptrs m ++ [p]) (m_len m - (lenN buf - 1)) (m_count m - lenN now) (m_mod m) (m_type m))
  end.

(** src/btree_modify.cc:204-207 flush_mr. *)
Definition flush_mr (rq : request) (m : mr) : M mr := flush_mr_partial rq (m_len m) m.

(** src/btree_modify.cc:22-52 maybe_flush. *)
Definition maybe_flush (rq : request) (m : mr) : M mr :=
  if r_compact rq then
    if m_mod m && (((m_type m =? KV_NODE) && (r_kv rq * 2 / 3 <? m_len m))
                   || ((m_type m =? KP_NODE) && (r_kp rq * 2 / 3 <? m_len m) && (1 <? m_count m)))
    then flush_mr rq m else ret m
  else if m_mod m && (3 <? m_count m) then
    if (m_type m =? KV_NODE) && (r_kv rq <? m_len m) then flush_mr_partial rq (r_kv rq * 2 / 3) m
    else if (m_type m =? KP_NODE) && (r_kp rq <? m_len m) then flush_mr_partial rq (r_kp rq * 2 / 3) m
    else ret m
  else ret m.

(** Common part of src/btree_modify.cc:128-148 mr_push_item, 166-178 mr_push_pointerinfo and of the loop in 340-367
    mr_move_pointers: append to the values list and flush if large. *)
Definition push (rq : request) (i : item) (m : mr) : M mr :=
  maybe_flush rq (Mr (m_vals m ++ [i]) (m_ptrs m) (m_len m + item_size i) (m_count m + 1) (m_mod m) (m_type m)).
(** src/btree_modify.cc:128-148 mr_push_item. *)
Definition push_item (rq : request) (k v : bytes) (m : mr) : M mr := push rq (kv_item (k, v)) m.
(** src/btree_modify.cc:166-178 mr_push_pointerinfo. *)
Definition push_pointerinfo (rq : request) (p : node_pointer) (m : mr) : M mr := push rq (ptr_item p) m.

(** Not part of the code: run an operation on each element in turn. *)
Fixpoint foldM {A} (f : A -> mr -> M mr) (l : list A) (m : mr) : M mr :=
  match l with
  | [] => ret m
  | a :: r => let+ m' := f a m in foldM f r m'
  end.

(** src/btree_modify.cc:340-367 mr_move_pointers: the new dst (src is not used afterwards except in finish_root, where its
    pointers list is then empty). *)
Definition move_pointers (rq : request) (src dst : mr) : M mr := foldM (push_pointerinfo rq) (m_ptrs src) dst.

(** src/btree_modify.cc:370-401 maybe_purgekv. *)
Definition maybe_purgekv (rq : request) (k v : bytes) (m : mr) : M mr :=
  let+ en := get_en in
  let+ act := match r_purge_kv rq with
              | Some f => if en then lift (f k v) else ret P_KEEP
              | None => ret P_KEEP
              end in
  match act with
  | P_ITEM => let+ _ := emit (EvPurgeKv k v) in ret (set_mod m)
  | P_STOP => let+ _ := stop_purging in push_item rq k v m
  | P_KEEP => push_item rq k v m
  | P_PARTIAL => ret m
  end.

(** src/btree_modify.cc:404-437 maybe_purgekp; [pn] is purge_node. *)
Definition maybe_purgekp (rq : request) (pn : node_pointer -> mr -> M mr) (p : node_pointer) (m : mr) : M mr :=
  let+ en := get_en in
  let+ act := match r_purge_kp rq with
              | Some f => if en then lift (f p) else ret P_KEEP
              | None => ret P_KEEP
              end in
  match act with
  | P_ITEM => let+ _ := emit (EvPurgeKp p) in ret (set_mod m)
  | P_PARTIAL => pn p m
  | P_STOP => let+ _ := stop_purging in push_pointerinfo rq p m
  | P_KEEP => push_pointerinfo rq p m
  end.

(** Reading a node: btree_modify.cc:484-489, 921-925. A node of length zero is reported as corrupt. *)
Definition read_node (pos : N) : M bytes :=
  fun s => (match pread_compressed (st_f s) pos with
            | Ok [] => Err E_CORRUPT
            | r => r
            end, s).

(** End of the entry loop: an entry that cannot be read is reported (error_unless(kvlen > 0, CORRUPT)). *)
Definition finish_items (t : tail) (m : mr) : M mr :=
  match t with TEnd => ret m | TBad => fail E_CORRUPT end.

(** src/btree_modify.cc:900-979 purge_node. [fuel] bounds the depth of the recursion. *)
Fixpoint purge_node (fuel : nat) (rq : request) (p : node_pointer) (dst : mr) : M mr :=
  match fuel with
  | O => fail E_FUEL
  | S fuel' =>
      let+ en := get_en in
      if negb en then push_pointerinfo rq p (set_mod dst) else
      let+ buf := read_node (np_pointer p) in
      let '(items, t) := node_items buf in
      let+ loc :=
        match buf with
        | 1 :: _ =>
            let+ m := foldM (fun kv m => maybe_purgekv rq (fst kv) (snd kv) m) items (make_modres KV_NODE) in
            finish_items t m
        | 0 :: _ =>
            let+ m := foldM (fun kv m => let+ c := lift (read_pointer (fst kv) (snd kv)) in
                                         maybe_purgekp rq (purge_node fuel' rq) c m) items (make_modres KP_NODE) in
            finish_items t m
        | _ => fail E_CORRUPT
        end in
      if m_mod loc then
        let+ loc' := flush_mr rq loc in
        move_pointers rq loc' (set_mod dst)
      else ret dst
  end.

(** src/btree_modify.cc:441-466 do_save_callback with the test of the callers. *)
Definition do_save (rq : request) (a : action) (old : option bytes) : M unit :=
  match r_save rq with
  | None => ret tt
  | Some f =>
      let+ _ := lift (f (a_key a) (a_data a)) in
      let+ _ := match old with Some v => lift (f (a_key a) v) | None => ret tt end in
      emit (EvSave (a_key a) old (a_data a) (a_req a))
  end.

(** Call of the fetch callback. *)
Definition do_fetch (rq : request) (a : action) (v : option bytes) : M bool :=
  match r_fetch rq with
  | None => ret false
  | Some f => let+ _ := emit (EvFetch (a_key a) v) in lift (f a v)
  end.

(** The ACTION_INSERT arm of the switches in modify_node (btree_modify.cc:533-547, 578-592, 625-637). *)
Definition do_insert (rq : request) (a : action) (old : option bytes) (m : mr) : M mr :=
  let+ m' := push_item rq (a_key a) (a_data a) (set_mod m) in
  let+ _ := do_save rq a old in
  ret m'.

(** An action whose key is not in the node: btree_modify.cc:514-556 and 608-644. *)
Definition act_missing (rq : request) (a : action) (m : mr) : M mr :=
  match a_type a with
  | A_FETCH => let+ _ := do_fetch rq a None in ret m
  | A_FETCH_INSERT => let+ c := do_fetch rq a None in if c then ret m else do_insert rq a None m
  | A_INSERT => do_insert rq a None m
  | A_REMOVE => ret (set_mod m)
  end.

(** The inner loop of modify_node for one leaf entry (btree_modify.cc:502-606): remaining actions and result. *)
Fixpoint leaf_entry (rq : request) (k v : bytes) (acts : list action) (m : mr) : M (list action * mr) :=
  match acts with
  | [] => let+ m' := maybe_purgekv rq k v m in ret ([], m')
  | a :: rest =>
      match r_cmp rq k (a_key a) with
      | Lt => let+ m' := maybe_purgekv rq k v m in ret (acts, m')
      | Gt => let+ m' := act_missing rq a m in leaf_entry rq k v rest m'
      | Eq =>
          match a_type a with
          | A_FETCH => let+ _ := do_fetch rq a (Some v) in leaf_entry rq k v rest m
          | A_FETCH_INSERT =>
              let+ c := do_fetch rq a (Some v) in
              if c then leaf_entry rq k v rest m else
              let+ m' := do_insert rq a (Some v) m in ret (rest, m')
          | A_INSERT => let+ m' := do_insert rq a (Some v) m in ret (rest, m')
          | A_REMOVE => ret (rest, set_mod m)
          end
      end
  end.

(** The leaf part of modify_node, btree_modify.cc:495-644. *)
Fixpoint leaf_loop (rq : request) (items : list (bytes * bytes)) (t : tail) (acts : list action) (m : mr) : M mr :=
  match items with
  | [] => match t with
          | TBad => fail E_CORRUPT
          | TEnd => foldM (act_missing rq) acts m
          end
  | (k, v) :: r => let+ x := leaf_entry rq k v acts m in leaf_loop rq r t (fst x) (snd x)
  end.

(** The actions with a key not above [k] at the front of the list, btree_modify.cc:688-693 (range_end). *)
Fixpoint span_le (cmp : bytes -> bytes -> comparison) (k : bytes) (acts : list action) : list action * list action :=
  match acts with
  | [] => ([], [])
  | a :: r => match cmp (a_key a) k with
              | Gt => ([], acts)
              | _ => let '(x, y) := span_le cmp k r in (a :: x, y)
              end
  end.

(** The inner-node part of modify_node, btree_modify.cc:645-728; [mn] is modify_node for a child. *)
Fixpoint kp_loop (rq : request) (pn : node_pointer -> mr -> M mr) (mn : node_pointer -> list action -> mr -> M mr)
    (items : list (bytes * bytes)) (t : tail) (acts : list action) (m : mr) : M mr :=
  match items with
  | [] => finish_items t m
  | (k, v) :: r =>
      match acts with
      | [] =>
          let+ c := lift (read_pointer k v) in
          let+ m' := maybe_purgekp rq pn c m in
          kp_loop rq pn mn r t [] m'
      | a :: _ =>
          match r, t with
          | [], TEnd => let+ c := lift (read_pointer k v) in mn c acts m
          | _, _ =>
              match r_cmp rq k (a_key a) with
              | Lt =>
                  let+ c := lift (read_pointer k v) in
                  let+ m' := maybe_purgekp rq pn c m in
                  kp_loop rq pn mn r t acts m'
              | _ =>
                  let '(here, later) := span_le (r_cmp rq) k acts in
                  let+ c := lift (read_pointer k v) in
                  let+ m' := mn c here m in
                  kp_loop rq pn mn r t later m'
              end
          end
      end
  end.

(** src/btree_modify.cc:468-745 modify_node. [fuel] bounds the depth of the recursion. *)
Fixpoint modify_node (fuel : nat) (rq : request) (nptr : option node_pointer) (acts : list action) (dst : mr) : M mr :=
  match acts with
  | [] => ret dst
  | _ :: _ =>
      match fuel with
      | O => fail E_FUEL
      | S fuel' =>
          match nptr with
          | None =>
              let+ loc := leaf_loop rq [] TEnd acts (make_modres KV_NODE) in
              let+ loc' := flush_mr rq loc in
              move_pointers rq loc' (set_mod dst)
          | Some p =>
              let+ buf := read_node (np_pointer p) in
              let '(items, t) := node_items buf in
              let+ loc :=
                match buf with
                | 1 :: _ => leaf_loop rq items t acts (make_modres KV_NODE)
                | 0 :: _ => kp_loop rq (purge_node fuel' rq) (fun c as_ m => modify_node fuel' rq (Some c) as_ m)
                              items t acts (make_modres KP_NODE)
                | _ => fail E_CORRUPT
                end in
              let+ loc' := flush_mr rq loc in
              if negb (m_mod loc') then push_pointerinfo rq p dst
              else move_pointers rq loc' (set_mod dst)
          end
      end
  end.

(** The loop of src/btree_modify.cc:763-787 (finish_root); the pointers of the current top level. Moving the
    pointers of one structure into the other and swapping leaves the other one empty. [fuel] bounds the number of
    rounds. *)
Fixpoint finish_loop (fuel : nat) (rq : request) (ptrs : list node_pointer) : M node_pointer :=
  match ptrs with
  | [p] => ret p
  | _ =>
      match fuel with
      | O => fail E_FUEL
      | S fuel' =>
          let+ m := foldM (push_pointerinfo rq) ptrs (set_mod (make_modres KP_NODE)) in
          let+ m' := flush_mr rq m in
          finish_loop fuel' rq (m_ptrs m')
      end
  end.

(** src/btree_modify.cc:747-790 finish_root. *)
Definition finish_root (rq : request) (root : mr) : M node_pointer :=
  let+ m := flush_mr rq root in
  finish_loop (length (m_ptrs m)) rq (m_ptrs m).

(** The end of complete_new_btree and of modify_btree: the only pointer in the values list, or a new root. *)
Definition top_pointer (rq : request) (m : mr) : M (option node_pointer) :=
  if (1 <? m_count m) || negb (match m_ptrs m with [] => true | _ => false end)
  then let+ p := finish_root rq m in ret (Some p)
  else ret (last (map it_ptr (m_vals m)) None).

(** src/btree_modify.cc:814-850 complete_new_btree. *)
Definition complete_new_btree (rq : request) (m : mr) : M (option node_pointer) :=
  let+ m1 := flush_mr rq m in
  let+ m2 := move_pointers rq m1 (set_mod (make_modres KP_NODE)) in
  top_pointer rq m2.

(** The recursion depth allowed by the model: a child is always stored before its parent in files written by
    couchstore, so no path is longer than the file. *)
Definition depth_fuel (f : file) : nat := S (N.to_nat (fpos f)).

(** src/btree_modify.cc:852-898 modify_btree. *)
Definition modify_btree (rq : request) (root : option node_pointer) (acts : list action) : M (option node_pointer) :=
  fun s =>
  (let+ m := modify_node (depth_fuel (st_f s)) rq root acts (make_modres KP_NODE) in
   if m_mod m then top_pointer rq m else ret root) s.

(** src/btree_modify.cc:981-1016 guided_purge_btree. *)
Definition guided_purge_btree (rq : request) (root : option node_pointer) : M (option node_pointer) :=
  fun s =>
  let s := St (st_f s) (st_ev s) true in
  match root with
  | None => (Ok None, s)
  | Some p =>
      (let+ m := purge_node (depth_fuel (st_f s)) rq p (make_modres KP_NODE) in
       ret (if m_mod m then last (map it_ptr (m_vals m)) None else root)) s
  end.

End WithEnv.
