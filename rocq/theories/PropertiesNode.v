(** Property C54: the size of the nodes of the indexes. *)
From Verif Require Import Base Codec CodecFacts File FileFacts ChunkFacts Btree TreeStore SpecMap MergeFacts ModifyFacts SpecFile SpecCleanup SpecNode NodeFacts EnvExample.
Local Open Scope N_scope.
Unset Strict Implicit.

(** However an index has been made, with whatever callbacks, entries and actions in whatever order: every node in it has at most three entries, or all its entries but the last
    take no more than the node size. ([grown] and [nodes_within]: SpecNode.v.) *)
Theorem C54_size : forall (E : Env), EnvOk E -> forall kv kp f root, 2 <= kv -> 2 <= kp -> grown kv kp f root -> fits_file f ->
  match root with Some p => exists d, nodes_within kv kp f d (np_pointer p) | None => True end.
Proof.
  intros E EO kv kp f root Hkv Hkp Hg F. pose proof (grown_rootz EO Hkv Hkp Hg F) as H. destruct root as [p|]; [|exact I].
  destruct H as [d H]. exists d. exact (sized_within EO Hkv Hkp (grown_good EO Hg) H).
Qed.
Print Assumptions C54_size.

(** The nodes of the tree at [pos]: for each node the number of its entries and their sizes. *)
Fixpoint node_sizes {E : Env} (d : nat) (f : file) (pos : N) : list (list N) :=
  match pread_compressed f pos with
  | Ok b =>
      let es := fst (node_items b) in
      map entry_size es ::
      match d with
      | O => []
      | S d' => concat (map (fun e => match read_pointer (fst e) (snd e) with Ok c => node_sizes d' f (np_pointer c) | Err _ => [] end) es)
      end
  | Err _ => []
  end.

(** Nodes of 40 bytes for leaves and inner nodes; entries of nine bytes and one of 105. *)
Definition ex_rq (compact : bool) : request := Request ebin_cmp None None 40 40 compact None None None None.
Definition ex_entry (i : N) : kv := ([i], if i =? 5 then repeat 7 99 else [i; i; i]).
Definition ex_ins (l : list N) : list action := map (fun i => Action A_INSERT (fst (ex_entry i)) (snd (ex_entry i)) 0) l.
Definition ex_f : file := opened_on (fun _ => 0) 0 [] CRC32C None.
Definition ex_one := @modify_btree env0 (ex_rq false) None (ex_ins [1; 3; 4; 5; 7; 8; 9]) (St ex_f [] false).
Definition ex_root (r : res (option node_pointer)) : option node_pointer := match r with Ok x => x | Err _ => None end.
Definition ex_two := @modify_btree env0 (ex_rq false) (ex_root (fst ex_one)) (Action A_REMOVE [1] [] 0 :: ex_ins [2; 6; 10]) (St (st_f (snd ex_one)) [] false).
Definition ex_built := @bindM mr _ (foldM (fun x m => @push_item env0 (ex_rq true) (fst x) (snd x) m) (map ex_entry [1; 2; 3; 4; 5; 6; 7; 8]) new_btree_modres)
  (@complete_new_btree env0 (ex_rq true)) (St (st_f (snd ex_two)) [] false).

Definition fits_b (f : file) : bool := negb (big f) && (fpos f <=? 2^48).
Lemma fits_b_ok f : fits_b f = true -> fits_file f.
Proof. intros H. apply andb_prop in H. destruct H as [H1 H2]. split; [destruct (big f); [discriminate H1|reflexivity]|now apply N.leb_le]. Qed.
Lemma small_ex c : small_reductions (ex_rq c).
Proof. split; intros g l b H; discriminate H. Qed.
Lemma fine_ex l : Forall (fun a => inserts a = true -> kv_ok (a_key a, a_data a)) (ex_ins l).
Proof.
  apply Forall_forall. intros a Ha _. apply in_map_iff in Ha. destruct Ha as (i & <- & _). unfold ex_entry. cbn [a_key a_data fst snd]. destruct (i =? 5); split; vm_compute; reflexivity.
Qed.
Definition is_ok {A} (r : res A) : bool := match r with Ok _ => true | Err _ => false end.
Lemma step_update {E : Env} kv kp rq f root acts : @grown E kv kp f root -> r_kv rq = kv -> r_kp rq = kp -> r_compact rq = false -> small_reductions rq ->
  Forall (fun a => inserts a = true -> kv_ok (a_key a, a_data a)) acts -> forall X, modify_btree rq root acts (St f [] false) = X -> is_ok (fst X) = true ->
  grown kv kp (st_f (snd X)) (ex_root (fst X)).
Proof. intros H1 H2 H3 H4 H5 H6 [[r|e] s] HX Ho; [|discriminate Ho]. exact (grown_update H1 H2 H3 H4 H5 H6 HX). Qed.
Lemma step_build {E : Env} kv kp rq f root items : @grown E kv kp f root -> r_kv rq = kv -> r_kp rq = kp -> r_compact rq = true -> small_reductions rq -> Forall kv_ok items ->
  forall X, bindM (foldM (fun x m => push_item rq (fst x) (snd x) m) items new_btree_modres) (complete_new_btree rq) (St f [] false) = X -> is_ok (fst X) = true ->
  grown kv kp (st_f (snd X)) (ex_root (fst X)).
Proof. intros H1 H2 H3 H4 H5 H6 [[r|e] s] HX Ho; [|discriminate Ho]. exact (grown_build H1 H2 H3 H4 H5 H6 HX). Qed.

Lemma ex_one_eq : @modify_btree env0 (ex_rq false) None (ex_ins [1; 3; 4; 5; 7; 8; 9]) (St ex_f [] false) = ex_one.
Proof. unfold ex_one. reflexivity. Qed.
Lemma ex_two_eq : @modify_btree env0 (ex_rq false) (ex_root (fst ex_one)) (Action A_REMOVE [1] [] 0 :: ex_ins [2; 6; 10]) (St (st_f (snd ex_one)) [] false) = ex_two.
Proof. unfold ex_two. reflexivity. Qed.
Lemma ex_built_eq : @bindM mr _ (foldM (fun x m => @push_item env0 (ex_rq true) (fst x) (snd x) m) (map ex_entry [1; 2; 3; 4; 5; 6; 7; 8]) new_btree_modres)
  (@complete_new_btree env0 (ex_rq true)) (St (st_f (snd ex_two)) [] false) = ex_built.
Proof. unfold ex_built. reflexivity. Qed.
Lemma ex_oks : is_ok (fst ex_one) = true /\ is_ok (fst ex_two) = true /\ is_ok (fst ex_built) = true /\ fits_b (st_f (snd ex_two)) = true /\ fits_b (st_f (snd ex_built)) = true.
Proof. vm_compute. auto. Qed.

Lemma ex_one_grown : @grown env0 40 40 (st_f (snd ex_one)) (ex_root (fst ex_one)).
Proof.
  apply (@step_update env0 40 40 (ex_rq false) ex_f None _ (@grown_new env0 40 40 (fun _ => 0) 0 [] CRC32C None (fun _ _ => eq_refl)) eq_refl eq_refl eq_refl (small_ex false) (fine_ex _) ex_one ex_one_eq).
  exact (proj1 ex_oks).
Qed.
Lemma ex_two_grown : @grown env0 40 40 (st_f (snd ex_two)) (ex_root (fst ex_two)).
Proof.
  refine (@step_update env0 40 40 (ex_rq false) (st_f (snd ex_one)) (ex_root (fst ex_one)) _ ex_one_grown eq_refl eq_refl eq_refl (small_ex false) _ ex_two ex_two_eq (proj1 (proj2 ex_oks))).
  constructor; [intros X; discriminate X|apply fine_ex].
Qed.
Lemma ex_built_grown : @grown env0 40 40 (st_f (snd ex_built)) (ex_root (fst ex_built)).
Proof.
  refine (@step_build env0 40 40 (ex_rq true) (st_f (snd ex_two)) (ex_root (fst ex_two)) _ ex_two_grown eq_refl eq_refl eq_refl (small_ex true) _ ex_built ex_built_eq (proj1 (proj2 (proj2 ex_oks)))).
  apply Forall_forall. intros a Ha. apply in_map_iff in Ha. destruct Ha as (i & <- & _). unfold ex_entry. destruct (i =? 5); split; vm_compute; reflexivity.
Qed.

Definition shape_of (d : nat) (x : res (option node_pointer) * st) : list (list N) :=
  match fst x with Ok (Some p) => @node_sizes env0 d (st_f (snd x)) (np_pointer p) | _ => [] end.
Example C54_ex : @grown env0 40 40 (st_f (snd ex_two)) (ex_root (fst ex_two)) /\ fits_file (st_f (snd ex_two)) /\
  shape_of 2 ex_two = [[20; 20]; [20; 20]; [9; 9; 9]; [105]; [20; 20]; [9; 9; 9]; [9; 9]] /\
  @grown env0 40 40 (st_f (snd ex_built)) (ex_root (fst ex_built)) /\ fits_file (st_f (snd ex_built)) /\
  shape_of 2 ex_built = [[20; 20]; [20; 20]; [9; 9; 9]; [9; 105]; [20]; [9; 9; 9]].
Proof.
  split; [exact ex_two_grown|]. split; [apply fits_b_ok; exact (proj1 (proj2 (proj2 (proj2 ex_oks))))|]. split; [vm_compute; reflexivity|].
  split; [exact ex_built_grown|]. split; [apply fits_b_ok; exact (proj2 (proj2 (proj2 (proj2 ex_oks))))|]. vm_compute. reflexivity.
Qed.
