(** Properties C73 to C77: the programs on a file without any header. *)
From Verif Require Import Base Codec File Header Btree BtreeRead SpecMap Db Dbinfo Dbdump DbdumpLocal DbdumpJson Walk DbdumpTree History SpecSession EnvExample SessionExample PropertiesRecover PropertiesDbck PropertiesDbckVersions PropertiesDump.
Local Open Scope N_scope.
Unset Strict Implicit.

(** No block of the file starts with the mark of a header (the byte 1 at a multiple of 4096). *)
Definition headerless (f : file) : Prop := forall q, q mod 4096 = 0 -> q < size f -> cur f q <> 1.

Section WithEnv.
Context {E : Env}.
Lemma headerless_at f h n : headerless f -> exists e, find_header_at_pos f h (N.of_nat n * BLOCK) = (Err e, h).
Proof.
  intros H. unfold find_header_at_pos. assert (P : pread f (N.of_nat n * BLOCK) 1 = [] \/ exists t, pread f (N.of_nat n * BLOCK) 1 = [t] /\ t <> 1).
  { assert (Hq : (N.of_nat n * BLOCK) mod 4096 = 0) by (change BLOCK with 4096; apply N.mod_mul; discriminate). specialize (H _ Hq). unfold pread.
    destruct (N.lt_ge_cases (N.of_nat n * BLOCK) (size f)) as [L|L].
    - right. exists (cur f (N.of_nat n * BLOCK)). split; [|exact (H L)]. replace (N.min 1 (size f - N.of_nat n * BLOCK)) with 1 by lia. reflexivity.
    - left. replace (N.min 1 (size f - N.of_nat n * BLOCK)) with 0 by lia. reflexivity. }
  destruct P as [-> | (t & -> & Ht)]; [eexists; reflexivity|]. destruct ((t =? B_DATA) || (t =? B_META)); [eexists; reflexivity|]. apply N.eqb_neq in Ht. change B_HEADER with 1. rewrite Ht. eexists. reflexivity.
Qed.
Lemma headerless_loop f skip : headerless f -> forall n h l, exists e, fst (find_header_loop f h n skip l) = Err e.
Proof.
  intros H. induction n as [|n IH]; intros h l; cbn [find_header_loop].
  - destruct (headerless_at h O H) as [e He]. rewrite He. destruct e; try (eexists; reflexivity); destruct skip; eexists; reflexivity.
  - destruct (headerless_at h (S n) H) as [e He]. rewrite He. destruct e; try (eexists; reflexivity); try apply IH; destruct skip; try apply IH; eexists; reflexivity.
Qed.
Lemma headerless_open f getkey r l : headerless f -> exists e, open_existing f getkey r l = Err e.
Proof.
  intros H. unfold open_existing. set (f0 := set_fpos (set_fkey (set_crcm f CRC_UNKNOWN) None) (size f)). assert (H0 : headerless f0) by exact H. unfold find_header.
  destruct (Z.of_N (size f) - 2 <? 0)%Z; [eexists; reflexivity|].
  destruct (headerless_loop r H0 (N.to_nat (Z.to_N (Z.of_N (size f) - 2) / BLOCK)) header0 E_NO_HEADER) as [e He].
  destruct (find_header_loop f0 header0 (N.to_nat (Z.to_N (Z.of_N (size f) - 2) / BLOCK)) r E_NO_HEADER) as [x h]. cbn [fst] in He. subst x. eexists. reflexivity.
Qed.
End WithEnv.

(** A file without headers is refused by the programs whatever they are asked for, and nothing is printed as if it were a database. *)
Theorem C73_no_header : forall (E : Env) f getkey offset iterate, headerless f -> exists e, process_file f getkey offset iterate = Err e.
Proof. intros E f getkey offset iterate H. destruct (headerless_open getkey false false H) as [e He]. unfold process_file, open_at. rewrite He. eexists. reflexivity. Qed.
Print Assumptions C73_no_header.
Theorem C74_no_header : forall (E : Env) f getkey offset body m iterate, headerless f -> exists e, dump_file f getkey offset body m iterate = (Err e, []).
Proof. intros E f getkey offset body m iterate H. destruct (headerless_open getkey false false H) as [e He]. unfold dump_file, open_at. rewrite He. eexists. reflexivity. Qed.
Print Assumptions C74_no_header.
Theorem C75_no_header : forall (E : Env) decode parses f getkey offset json key, headerless f -> exists e, dump_locals_file decode parses f getkey offset json key = (Err e, []).
Proof. intros E decode parses f getkey offset json key H. destruct (headerless_open getkey false false H) as [e He]. unfold dump_locals_file, open_at. rewrite He. eexists. reflexivity. Qed.
Print Assumptions C75_no_header.

Theorem C76_no_header : forall (E : Env) inflate xattr parses f getkey offset body m, headerless f -> exists e, dump_json_file inflate xattr parses f getkey offset body m = (Err e, JState [] false).
Proof. intros E inflate xattr parses f getkey offset body m H. destruct (headerless_open getkey false false H) as [e He]. unfold dump_json_file, open_at. rewrite He. eexists. reflexivity. Qed.
Print Assumptions C76_no_header.
Theorem C77_no_header : forall (E : Env) f getkey offset m, headerless f -> exists e, dump_tree_file f getkey offset m = (Err e, []).
Proof. intros E f getkey offset m H. destruct (headerless_open getkey false false H) as [e He]. unfold dump_tree_file, open_at. rewrite He. eexists. reflexivity. Qed.
Print Assumptions C77_no_header.

(** With --tree a root that cannot be read is reported: only the line of the root itself is printed, from what the header says. *)
Lemma opened_live {E : Env} f getkey r l d : open_existing f getkey r l = Ok d -> dropped d = false.
Proof.
  unfold open_existing. destruct (find_header _ _ _ _) as [[x|e] h]; [|discriminate]. destruct (l && _); [discriminate|]. destruct (h_meta h).
  - destruct (read_encryption_key _ _ _) as [k|e]; [|discriminate]. cbn [bind]. intros H. injection H as <-. reflexivity.
  - intros H. injection H as <-. reflexivity.
Qed.
Lemma root_fails {E : Env} loc d p cmp read start o e : dropped d = false -> node_at (dbf d) (np_pointer p) = Err e ->
  walk_tree d (Some p) cmp read start o (visit_node loc) ([], 0) = (Err e, ([TNode 0 (np_subtree p) (np_reduce p)], 0)).
Proof. intros Hd Hn. unfold walk_tree. rewrite Hd. cbn [visit_node fst snd app]. unfold btree_lookup, depth_fuel. cbn [lookup_inner]. rewrite Hn. reflexivity. Qed.
Theorem C77_root : forall (E : Env) f getkey d, open_at f getkey None = Ok d -> forall m p e,
  match m with TreeSeq => h_by_seq (dbh d) | TreeId => h_by_id (dbh d) | TreeLocal => h_local (dbh d) end = Some p -> node_at (dbf d) (np_pointer p) = Err e ->
  dump_tree_file f getkey None m = (Err e, [TNode 0 (np_subtree p) (np_reduce p)]).
Proof.
  intros E f getkey d Ho m p e Hp Hn. unfold dump_tree_file. rewrite Ho. assert (Hd : dropped d = false).
  { unfold open_at in Ho. destruct (open_existing f getkey false false) as [d0|e0] eqn:Hx; [|discriminate Ho]. cbn [bind] in Ho. injection Ho as <-. exact (opened_live Hx). }
  unfold dump_tree, walk_seq_tree, walk_id_tree, walk_local_tree. cbv zeta. destruct m; rewrite Hp, (root_fails _ _ _ _ _ Hd Hn); reflexivity.
Qed.
Print Assumptions C77_root.

(** A file of two blocks with the byte 3 everywhere. *)
Definition no_couch : file := image (fun _ => 3) 5000 [].
Example headerless_ex : headerless no_couch /\ @dump_file env0 no_couch gks None true ById false = (Err E_CORRUPT, []).
Proof. split; [intros q _ _; discriminate|vm_compute; reflexivity]. Qed.
(** A file whose root of the index by sequence number is damaged. *)
Definition z_root_hit : file := let f := dbf (ss_db zs4) in image (cur (hit f (match h_by_seq z_h with Some q => np_pointer q + 9 | None => 0 end))) (size f) [].
Definition z_root_db : db := match @open_at env0 z_root_hit gks None with Ok d => d | Err _ => z_r end.
Lemma opened_some {E : Env} f g o d0 : match open_at f g o with Ok _ => true | Err _ => false end = true -> open_at f g o = Ok (match open_at f g o with Ok d => d | Err _ => d0 end).
Proof. destruct (open_at f g o); [reflexivity|discriminate]. Qed.
Example C77_root_ex : @open_at env0 z_root_hit gks None = Ok z_root_db /\
  option_map (fun p => @node_at env0 (dbf z_root_db) (np_pointer p)) (h_by_seq (dbh z_root_db)) = Some (Err E_CHECKSUM) /\
  fst (@dump_tree_file env0 z_root_hit gks None TreeSeq) = Err E_CHECKSUM /\ length (snd (@dump_tree_file env0 z_root_hit gks None TreeSeq)) = 1%nat.
Proof. split; [apply opened_some; vm_compute; reflexivity|]. repeat split; vm_compute; reflexivity. Qed.
