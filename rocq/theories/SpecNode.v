(** Specification vocabulary for the size of index nodes. *)
From Verif Require Import Base Codec CodecFacts File Btree SpecFile SpecMap SpecCleanup.
Local Open Scope N_scope.
Unset Strict Implicit.

(** A node is within the size [T]: it has at most three entries, or all entries but the last take at most [T] bytes. *)
Definition within (T : N) (l : list kv) : Prop := (length l <= 3)%nat \/ sum_of entry_size (removelast l) <= T.

(** The reduce values of a request can be stored. *)
Definition small_reductions (rq : request) : Prop :=
  (forall g l b, r_reduce rq = Some g -> g l = Ok b -> lenN b < 2^16) /\
  (forall g l b, r_rereduce rq = Some g -> g l = Ok b -> lenN b < 2^16).

Section WithEnv.
Context {E : Env}.

(** The indexes that come from updates, cleanups and bulk building with the node sizes [kv] for leaves and [kp] for inner nodes, whatever the order of keys, the
    reductions, the callbacks and the actions are: starting from an empty one in a file with any contents; meanwhile other things may be appended to the file, and the root may be
    written to a header and read again. *)
Inductive grown (kv kp : N) : file -> option node_pointer -> Prop :=
| grown_new g gsz pl m k : (forall i, gsz <= i -> g i = 0) -> grown kv kp (opened_on g gsz pl m k) None
| grown_other f root f' : grown kv kp f root -> appends f f' -> grown kv kp f' root
| grown_header f p p' : grown kv kp f (Some p) -> np_pointer p' = np_pointer p -> np_reduce p' = np_reduce p -> np_key p' = [] -> grown kv kp f (Some p')
| grown_update rq f root acts ev en root' s' : grown kv kp f root -> r_kv rq = kv -> r_kp rq = kp -> r_compact rq = false -> small_reductions rq ->
    Forall (fun a => inserts a = true -> kv_ok (a_key a, a_data a)) acts ->
    modify_btree rq root acts (St f ev en) = (Ok root', s') -> grown kv kp (st_f s') root'
| grown_purge rq f root ev en root' s' : grown kv kp f root -> r_kv rq = kv -> r_kp rq = kp -> r_compact rq = false -> small_reductions rq ->
    guided_purge_btree rq root (St f ev en) = (Ok root', s') -> grown kv kp (st_f s') root'
| grown_build rq f root items ev en root' s' : grown kv kp f root -> r_kv rq = kv -> r_kp rq = kp -> r_compact rq = true -> small_reductions rq -> Forall kv_ok items ->
    bindM (foldM (fun x m => push_item rq (fst x) (snd x) m) items new_btree_modres) (complete_new_btree rq) (St f ev en) = (Ok root', s') ->
    grown kv kp (st_f s') root'.

(** Every node of the tree at [pos] is within the sizes. *)
Fixpoint nodes_within (kv kp : N) (f : file) (d : nat) (pos : N) : Prop :=
  match d with
  | O => exists b entries, pread_compressed f pos = Ok b /\ hd_error b = Some KV_NODE /\ node_items b = (entries, TEnd) /\ within kv entries
  | S d' => exists b entries cs, pread_compressed f pos = Ok b /\ hd_error b = Some KP_NODE /\ node_items b = (entries, TEnd) /\
              Forall2 (fun e c => read_pointer (fst e) (snd e) = Ok c) entries cs /\
              Forall (fun c => nodes_within kv kp f d' (np_pointer c)) cs /\ within kp entries
  end.
End WithEnv.
