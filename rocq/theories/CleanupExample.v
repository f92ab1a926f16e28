(** Concrete view indexes for the examples and the counterexample on cleanup. *)
From Verif Require Import Base Codec File Btree Bitmap ViewCodec IndexHeader Reducers Cleanup EnvExample SpecFile SpecMap SpecUtil UtilFacts MergeFacts SpecView SpecSession SpecCleanup
  TreeStore ModifyFacts DataFacts SessionFacts PropertiesView GroupFacts.
Local Open Scope N_scope.
Unset Strict Implicit.

(** Not part of the code: stands for the external libraries; run-length coding as compression. *)
Fixpoint rle (x : bytes) : bytes :=
  match x with
  | [] => []
  | b :: r => match rle r with
              | n :: c :: t => if (c =? b) && (n <? 255) then (n + 1) :: c :: t else 1 :: b :: n :: c :: t
              | _ => [1; b]
              end
  end.
Fixpoint unrle (y : bytes) : option bytes :=
  match y with
  | [] => Some []
  | n :: b :: t => match unrle t with Some x => Some (repeat b (N.to_nat n) ++ x) | None => None end
  | [_] => None
  end.
Lemma rle_shape x : match rle x with [] => x = [] | [_] => False | _ => True end.
Proof. destruct x as [|b x]; [reflexivity|]. cbn [rle]. destruct (rle x) as [|n [|c t]]; [exact I|exact I|]. destruct ((c =? b) && (n <? 255)); exact I. Qed.
Lemma unrle_rle x : unrle (rle x) = Some x.
Proof.
  induction x as [|b x IH]; [reflexivity|]. cbn [rle]. pose proof (rle_shape x) as Hs. destruct (rle x) as [|n [|c t]]; [subst x; reflexivity|destruct Hs|].
  destruct ((c =? b) && (n <? 255)) eqn:Hc.
  - apply andb_prop in Hc. destruct Hc as [Hc _]. apply N.eqb_eq in Hc. subst c. cbn [unrle] in IH |- *. destruct (unrle t) as [y|]; [|discriminate IH].
    rewrite N.add_1_r, N2Nat.inj_succ. cbn [repeat app]. injection IH as <-. reflexivity.
  - change (match unrle (n :: c :: t) with Some x0 => Some (repeat b (N.to_nat 1) ++ x0) | None => None end = Some (b :: x)). rewrite IH. reflexivity.
Qed.
Definition env1 : Env := MkEnv (fun x => Some (rle x)) unrle (@crc32c env0) (@crc32 env0) (@encrypt env0) (@decrypt env0) (@mac_size env0).
Lemma env1_ok : EnvOk env1.
Proof. destruct env0_ok as [H1 H2 H3 H4 H5]. constructor; cbn; auto. intros x y H. inv H. apply unrle_rle. Qed.

(** ** Five long and five short keys *)

(** The partition mask {2}. *)
Definition mask2 : bitmap := match set_bit empty_bitmap 2 with Ok b => b | Err _ => [] end.
Definition f0 : file := opened_on (fun _ => 0) 0 [] CRC32C None.
(** Entries of partition 1 have keys of 1502 and values of 3202 bytes, entries of partition 2 short keys and values of 102 bytes. *)
Definition five : list N := [1; 2; 3; 4; 5].
Definition id_val (p n : N) : bytes := be 2 p ++ repeat 66 (N.to_nat n).
Definition id_acts : list action :=
  flat_map (fun i => [Action A_INSERT (i :: 1 :: repeat 65 1500) (id_val 1 3200) 0; Action A_INSERT [i; 2] (id_val 2 100) 0]) five.
Definition id_built := @modify_btree env1 (id_cleanup_request empty_bitmap) None id_acts (St f0 [] false).
Definition the_root (r : res (option node_pointer)) : option node_pointer := match r with Ok p => p | Err _ => None end.
Definition id_root : option node_pointer := the_root (fst id_built).
Definition id_cleaned := @cleanup_btree env1 (id_cleanup_request mask2) id_purged (st_f (snd id_built)) id_root.
(** The same in a view. *)
Definition v_key (j : bytes) (i : N) : bytes := be 2 (lenN j) ++ j ++ [i].
Definition v_val (p n : N) : bytes := encode_view_btree_value (ViewValue p [repeat 66 (N.to_nat n)]).
Definition v_acts : list action :=
  flat_map (fun i => [Action A_INSERT (v_key (i :: 1 :: repeat 65 1500) i) (v_val 1 3200) 0; Action A_INSERT (v_key [i; 2] i) (v_val 2 100) 0]) five.
Definition v_built := @modify_btree env1 (view_cleanup_request ebin_cmp [] empty_bitmap) None v_acts (St f0 [] false).
Definition v_root : option node_pointer := the_root (fst v_built).
Definition v_cleaned := @cleanup_btree env1 (view_cleanup_request ebin_cmp [] mask2) view_purged (st_f (snd v_built)) v_root.

Definition okb {A} (r : res A) : bool := match r with Ok _ => true | Err _ => false end.
Lemma id_built_ok : fst id_built = Ok id_root.
Proof. unfold id_root. assert (H : okb (fst id_built) = true) by (vm_compute; reflexivity). destruct (fst id_built); [reflexivity|discriminate H]. Qed.
Lemma v_built_ok : fst v_built = Ok v_root.
Proof. unfold v_root. assert (H : okb (fst v_built) = true) by (vm_compute; reflexivity). destruct (fst v_built); [reflexivity|discriminate H]. Qed.
Lemma bytes_ok l : forallb (fun b => b <? 256) l = true -> is_bytes l.
Proof. intros H. apply Forall_forall. intros x Hx. apply N.ltb_lt. exact (proj1 (forallb_forall _ _) H x Hx). Qed.
Lemma mask2_ok : bitmap_ok mask2.
Proof. split; [reflexivity|]. apply bytes_ok. vm_compute. reflexivity. Qed.

Fixpoint strict (cmp : bytes -> bytes -> comparison) (l : list action) : bool :=
  match l with [] => true | a :: r => forallb (fun b => match cmp (a_key a) (a_key b) with Lt => true | _ => false end) r && strict cmp r end.
Lemma strict_ok cmp l : strict cmp l = true -> asorted cmp l /\ single cmp l.
Proof.
  induction l as [|a l IH]; intros H; [split; constructor|]. cbn [strict] in H. apply andb_prop in H. destruct H as [H1 H2]. destruct (IH H2) as [I1 I2].
  assert (HF : Forall (fun b => cmp (a_key a) (a_key b) = Lt) l).
  { apply Forall_forall. intros x Hx. pose proof (proj1 (forallb_forall _ _) H1 x Hx) as H. cbn beta in H. destruct (cmp (a_key a) (a_key x)); congruence. }
  split; [constructor; [exact I1|]|split; [intros _|exact I2]]; revert HF; apply Forall_impl; intros b ->; discriminate.
Qed.
Definition small (l : list action) : bool := forallb (fun a => (lenN (a_key a) <? 2^12) && (lenN (a_data a) <? 2^28)) l.
Lemma small_ok l : small l = true -> forall a, In a l -> lenN (a_key a) < 2^12 /\ lenN (a_data a) < 2^28.
Proof. intros H a Ha. pose proof (proj1 (forallb_forall _ _) H a Ha) as H1. cbn beta in H1. apply andb_prop in H1. destruct H1 as [A B]. split; [apply N.ltb_lt; exact A|apply N.ltb_lt; exact B]. Qed.
Lemma id_acts_in a : In a id_acts -> exists p n, p < 1024 /\ a_data a = id_val p n.
Proof.
  intros H. apply in_flat_map in H. destruct H as (i & _ & [<-|[<-|[]]]); cbn [a_data]; [exists 1, 3200|exists 2, 100]; split; reflexivity.
Qed.
Lemma v_acts_in a : In a v_acts -> exists p n, p < 1024 /\ n < 4000 /\ a_data a = v_val p n.
Proof.
  intros H. apply in_flat_map in H. destruct H as (i & _ & [<-|[<-|[]]]); cbn [a_data]; [exists 1, 3200|exists 2, 100]; repeat split; reflexivity.
Qed.
Lemma v_fits p n : p < 1024 -> n < 4000 -> view_value_fits (ViewValue p [repeat 66 (N.to_nat n)]).
Proof.
  intros Hp Hn. unfold view_value_fits. cbn [vv_partition vv_values].
  split; [lia|]. split; [reflexivity|]. constructor; [|constructor]. unfold lenN. rewrite repeat_length, N2Nat.id. change (2^24) with 16777216. lia.
Qed.
Lemma f0_zero : forall i : N, 0 <= i -> (fun _ : N => 0) i = 0.
Proof. reflexivity. Qed.
Lemma made_from {E : Env} rq (record : kv -> Prop) acts B root : modify_btree (rq empty_bitmap) None acts (St f0 [] false) = B -> fst B = Ok root ->
  strict (r_cmp (rq empty_bitmap)) acts = true -> Forall (fun a => inserts a = true -> record (a_key a, a_data a)) acts -> made rq record (st_f (snd B)) root.
Proof.
  intros H1 H2 H3 H4. destruct (strict_ok H3) as [S1 S2]. destruct B as [r s]. cbn [fst snd] in *. subst r. exact (made_update (@made_new E _ _ (fun _ => 0) 0 [] CRC32C None f0_zero) (ev := []) (en := false) ltac:(discriminate) S1 S2 H4 H1).
Qed.
Lemma made_more {E : Env} rq (record : kv -> Prop) f acts B root : made rq record f None -> modify_btree (rq empty_bitmap) None acts (St f [] false) = B -> fst B = Ok root ->
  strict (r_cmp (rq empty_bitmap)) acts = true -> Forall (fun a => inserts a = true -> record (a_key a, a_data a)) acts -> made rq record (st_f (snd B)) root.
Proof. intros M H1 H2 H3 H4. destruct (strict_ok H3) as [S1 S2]. destruct B as [r s]. cbn [fst snd] in *. subst r. exact (made_update (ev := []) (en := false) M ltac:(discriminate) S1 S2 H4 H1). Qed.
Lemma id_eq : @modify_btree env1 (id_cleanup_request empty_bitmap) None id_acts (St f0 [] false) = id_built.
Proof. unfold id_built. reflexivity. Qed.
Lemma id_cleaned_eq : @cleanup_btree env1 (id_cleanup_request mask2) id_purged (st_f (snd id_built)) id_root = id_cleaned.
Proof. unfold id_cleaned. reflexivity. Qed.
Lemma v_cleaned_eq : @cleanup_btree env1 (view_cleanup_request ebin_cmp [] mask2) view_purged (st_f (snd v_built)) v_root = v_cleaned.
Proof. unfold v_cleaned. reflexivity. Qed.
Lemma id_made : @made env1 id_cleanup_request id_record (st_f (snd id_built)) id_root.
Proof.
  apply (made_from (acts := id_acts)); [exact id_eq|exact id_built_ok|vm_compute; reflexivity|].
  apply Forall_forall. intros a Ha _. destruct (id_acts_in Ha) as (p & n & Hp & Hd). assert (Hs : small id_acts = true) by (vm_compute; reflexivity). destruct (small_ok Hs Ha) as [L1 L2].
  split; [exact L1|]. split; [exact L2|]. exists p, (repeat 66 (N.to_nat n)). split; [exact Hp|exact Hd].
Qed.
Lemma v_eq : @modify_btree env1 (view_cleanup_request ebin_cmp [] empty_bitmap) None v_acts (St f0 [] false) = v_built.
Proof. unfold v_built. reflexivity. Qed.
Lemma v_made : @made env1 (view_cleanup_request ebin_cmp []) view_record (st_f (snd v_built)) v_root.
Proof.
  apply (made_from (acts := v_acts)); [exact v_eq|exact v_built_ok|vm_compute; reflexivity|].
  apply Forall_forall. intros a Ha _. destruct (v_acts_in Ha) as (p & n & Hp & Hn & Hd). assert (Hs : small v_acts = true) by (vm_compute; reflexivity). destruct (small_ok Hs Ha) as [L1 L2].
  split; [split; [|exact L1]|]; [assert (Hl : forallb (fun a => 2 <=? lenN (a_key a)) v_acts = true) by (vm_compute; reflexivity); rewrite forallb_forall in Hl; apply N.leb_le; exact (Hl a Ha)|]. split; [exact L2|]. exists (ViewValue p [repeat 66 (N.to_nat n)]). split; [exact Hp|]. split; [now apply v_fits|exact Hd].
Qed.

(** ** Reading the entries of an index *)

Fixpoint same (a b : bytes) : bool := match a, b with [], [] => true | x :: a', y :: b' => (x =? y) && same a' b' | _, _ => false end.
Lemma same_eq a : forall b, same a b = true -> a = b.
Proof. induction a as [|x a IH]; intros [|y b] H; try discriminate H; [reflexivity|]. cbn [same] in H. apply andb_prop in H. destruct H as [H1 H2]. apply N.eqb_eq in H1. f_equal; [exact H1|exact (IH _ H2)]. Qed.
Lemma same_refl a : same a a = true.
Proof. induction a as [|x a IH]; [reflexivity|]. cbn [same]. now rewrite N.eqb_refl. Qed.
Section WithEnv.
Context {E : Env}.
Definition node_at (f : file) (pos : N) (t : N) : option (list kv) :=
  match pread_bin f pos with
  | Ok z => match uncompress z with
            | Some b => match hd_error b with
                        | Some t' => if t' =? t then match node_items b with (x :: l, TEnd) => Some (x :: l) | _ => None end else None
                        | None => None
                        end
            | None => None
            end
  | Err _ => None
  end.
Fixpoint walk (d : nat) (f : file) (pos : N) : option (list kv) :=
  match d with
  | O => node_at f pos KV_NODE
  | S d' =>
      match node_at f pos KP_NODE with
      | Some es =>
          (fix go (es : list kv) : option (list kv) :=
             match es with
             | [] => Some []
             | e :: r =>
                 match read_pointer (fst e) (snd e) with
                 | Ok c => match walk d' f (np_pointer c), go r with
                           | Some ks, Some l => if same (np_key c) (last (map fst ks) []) then Some (ks ++ l) else None
                           | _, _ => None
                           end
                 | Err _ => None
                 end
             end) es
      | None => None
      end
  end.
Lemma node_at_ok f pos t l : node_at f pos t = Some l -> exists z b, pread_bin f pos = Ok z /\ uncompress z = Some b /\ hd_error b = Some t /\ node_items b = (l, TEnd) /\ l <> [].
Proof.
  unfold node_at. destruct (pread_bin f pos) as [z|]; [|discriminate]. destruct (uncompress z) as [b|] eqn:Hu; [|discriminate]. destruct (hd_error b) as [t'|] eqn:Ht; [|discriminate].
  destruct (N.eqb_spec t' t); [|discriminate]. destruct (node_items b) as [[|x r] [|]] eqn:Hi; try discriminate. intros H. exists z, b. assert (Hl : l = x :: r) by congruence. subst l t'.
  split; [reflexivity|]. split; [assumption|]. split; [assumption|]. split; [exact Hi|discriminate].
Qed.
Lemma walk_ok f d : forall pos kvs, walk d f pos = Some kvs -> exists n, subtree f d pos kvs n.
Proof.
  induction d as [|d IH]; intros pos kvs H; cbn [walk] in H.
  - destruct (node_at_ok H) as (z & b & H1 & H2 & H3 & H4 & H5). exists (overhead f + lenN z). econstructor; eassumption.
  - destruct (node_at f pos KP_NODE) as [es|] eqn:Hn; [|discriminate H]. destruct (node_at_ok Hn) as (z & b & H1 & H2 & H3 & H4 & H5).
    assert (HX : exists cs kss ns, Forall2 (fun e c => read_pointer (fst e) (snd e) = Ok c) es cs /\ subtrees f d cs kss ns /\ kvs = concat kss).
    { clear Hn H1 H2 H3 H4 H5. revert kvs H. induction es as [|e es IHe]; intros kvs H; [exists [], [], []; repeat split; try constructor; now injection H as <-|].
      destruct (read_pointer (fst e) (snd e)) as [c|] eqn:Hc; [|discriminate H]. destruct (walk d f (np_pointer c)) as [ks|] eqn:Hw; [|discriminate H].
      match goal with H : match ?g with Some _ => _ | None => _ end = _ |- _ => destruct g as [l|] eqn:Hg; [|discriminate H] end.
      destruct (same (np_key c) (last (map fst ks) [])) eqn:Hs; [|discriminate H]. destruct (IHe _ eq_refl) as (cs & kss & ns & J1 & J2 & ->). destruct (IH _ _ Hw) as [n Hsub].
      exists (c :: cs), (ks :: kss), (n :: ns). split; [now constructor|]. split; [constructor; [exact Hsub|exact (same_eq Hs)|exact J2]|]. cbn [concat]. congruence. }
    destruct HX as (cs & kss & ns & J1 & J2 & ->). eexists. eapply sub_inner; eassumption.
Qed.
Definition has_key (k : bytes) (l : list kv) : bool := existsb (fun x => same (fst x) k) l.
Lemma has_key_not k v l : has_key k l = false -> ~ In (k, v) l.
Proof. intros H Hi. assert (Ht : has_key k l = true) by (apply existsb_exists; exists (k, v); split; [exact Hi|apply same_refl]). congruence. Qed.
Definition has_kv (k v : bytes) (l : list kv) : bool := existsb (fun x => same (fst x) k && same (snd x) v) l.
Lemma has_kv_in k v l : has_kv k v l = true -> In (k, v) l.
Proof. intros H. apply existsb_exists in H. destruct H as ([k' v'] & Hi & H). apply andb_prop in H. destruct H as [H1 H2]. apply same_eq in H1, H2. cbn [fst snd] in H1, H2. now subst. Qed.
End WithEnv.

(** The outcome of a cleanup lacks a key. *)
Section Lacks.
Context {E : Env}.
Definition lacks (d : nat) (k : bytes) (C : res (option node_pointer * N) * file) : bool :=
  match C with
  | (Ok (Some p, _), f) => match walk d f (np_pointer p) with Some l => negb (has_key k l) && negb (big f) && (fpos f <=? 2^48) | None => false end
  | _ => false
  end.
Lemma lacks_ok d k v C : lacks d k C = true -> exists root' n f' l z', C = (Ok (root', n), f') /\ fits_file f' /\ index f' root' l z' /\ ~ In (k, v) l.
Proof.
  unfold lacks. destruct C as [[[[p|] n]|e] f]; intros H; try discriminate H. destruct (walk d f (np_pointer p)) as [l|] eqn:Hw; [|discriminate H].
  apply andb_prop in H. destruct H as [H H3]. apply andb_prop in H. destruct H as [H1 H2]. destruct (walk_ok Hw) as [z Hz]. exists (Some p), n, f, l, z.
  split; [reflexivity|]. split; [split; [destruct (big f); [discriminate H2|reflexivity]|now apply N.leb_le]|]. split; [exists d; exact Hz|]. apply has_key_not. destruct (has_key k l); [discriminate H1|reflexivity].
Qed.
Definition holds (d : nat) (k v : bytes) (f : file) (root : option node_pointer) : bool :=
  match root with
  | Some p => match walk d f (np_pointer p) with Some l => has_kv k v l | None => false end
  | None => false
  end.
Lemma holds_ok d k v f root : holds d k v f root = true -> exists l z, index f root l z /\ In (k, v) l.
Proof.
  unfold holds. destruct root as [p|]; intros H; [|discriminate H]. destruct (walk d f (np_pointer p)) as [l|] eqn:Hw; [|discriminate H]. destruct (walk_ok Hw) as [z Hz].
  exists l, z. split; [exists d; exact Hz|now apply has_kv_in].
Qed.
End Lacks.

(** ** A small group *)

(** Three documents, two of them in partition 2; one view is empty, the other has an entry in partition 1 and one in partition 2. *)
Definition g_id_acts : list action := [Action A_INSERT [1] (id_val 2 3) 0; Action A_INSERT [2] (id_val 1 3) 0; Action A_INSERT [3] (id_val 2 0) 0].
Definition g_v_acts : list action := [Action A_INSERT (v_key [34; 34] 1) (v_val 2 3) 0; Action A_INSERT (v_key [34; 34] 2) (v_val 1 3) 0].
Definition g_id := @modify_btree env0 (id_cleanup_request empty_bitmap) None g_id_acts (St f0 [] false).
Definition g_id_root : option node_pointer := the_root (fst g_id).
Definition g_v := @modify_btree env0 (view_cleanup_request ebin_cmp [] empty_bitmap) None g_v_acts (St (st_f (snd g_id)) [] false).
Definition g_v_root : option node_pointer := the_root (fst g_v).
Definition g_header : index_header := with_roots header_ex mask2 (stored_root g_id_root) (map stored_root [None; g_v_root]).
Definition g_w := @write_view_group_header env0 (st_f (snd g_v)) g_header.
Definition g_pos : N := match fst g_w with Ok p => p | Err _ => 0 end.
Definition g_clean := @cleanup_view_group env0 ebin_cmp [[]; []] (snd g_w) g_pos.
Lemma g_id_ok : fst g_id = Ok g_id_root.
Proof. unfold g_id_root. assert (H : okb (fst g_id) = true) by (vm_compute; reflexivity). destruct (fst g_id); [reflexivity|discriminate H]. Qed.
Lemma g_v_ok : fst g_v = Ok g_v_root.
Proof. unfold g_v_root. assert (H : okb (fst g_v) = true) by (vm_compute; reflexivity). destruct (fst g_v); [reflexivity|discriminate H]. Qed.
Lemma g_w_ok : fst g_w = Ok g_pos.
Proof. unfold g_pos. assert (H : okb (fst g_w) = true) by (vm_compute; reflexivity). destruct (fst g_w); [reflexivity|discriminate H]. Qed.
Lemma g_id_eq : @modify_btree env0 (id_cleanup_request empty_bitmap) None g_id_acts (St f0 [] false) = g_id.
Proof. unfold g_id. reflexivity. Qed.
Lemma g_v_eq : @modify_btree env0 (view_cleanup_request ebin_cmp [] empty_bitmap) None g_v_acts (St (st_f (snd g_id)) [] false) = g_v.
Proof. unfold g_v. reflexivity. Qed.
Lemma g_w_eq : @write_view_group_header env0 (st_f (snd g_v)) g_header = g_w.
Proof. unfold g_w. reflexivity. Qed.
Lemma new_none rq record : @made env0 rq record f0 None.
Proof. exact (@made_new env0 _ _ (fun _ => 0) 0 [] CRC32C None f0_zero). Qed.
Lemma g_id_made : @made env0 id_cleanup_request id_record (st_f (snd g_id)) g_id_root.
Proof.
  apply (made_more (acts := g_id_acts) (new_none _ _)); [exact g_id_eq|exact g_id_ok|vm_compute; reflexivity|].
  apply Forall_forall. intros a Ha _. assert (Hs : small g_id_acts = true) by (vm_compute; reflexivity). destruct (small_ok Hs Ha) as [L1 L2]. split; [exact L1|]. split; [exact L2|].
  destruct Ha as [<-|[<-|[<-|[]]]]; cbn [a_data snd]; [exists 2, (repeat 66 3)|exists 1, (repeat 66 3)|exists 2, []]; split; reflexivity.
Qed.
Lemma g_app1 : @appends env0 f0 (st_f (snd g_id)).
Proof. pose proof g_id_eq as H. destruct g_id as [r s]. destruct (@ow_modify env0 _ _ _ _ _ _ H) as [l W]. exact (writes_appends W). Qed.
Lemma g_app2 : @appends env0 (st_f (snd g_id)) (st_f (snd g_v)).
Proof. pose proof g_v_eq as H. destruct g_v as [r s]. destruct (@ow_modify env0 _ _ _ _ _ _ H) as [l W]. exact (writes_appends W). Qed.
Lemma write_view_appends {E : Env} f h r f' : write_view_group_header f h = (r, f') -> appends f f'.
Proof. unfold write_view_group_header. destruct (encode_index_header h) as [b|e]; intros H; [eapply app_header; [constructor|exact H]|]. injection H as _ <-. constructor. Qed.
Lemma g_app3 : @appends env0 (st_f (snd g_v)) (snd g_w).
Proof. pose proof g_w_eq as H. destruct g_w as [r s]. exact (write_view_appends H). Qed.
Lemma g_v_made : @made env0 (view_cleanup_request ebin_cmp []) view_record (st_f (snd g_v)) g_v_root.
Proof.
  apply (made_more (f := st_f (snd g_id)) (acts := g_v_acts) (made_other (new_none _ _) g_app1)); [exact g_v_eq|exact g_v_ok|vm_compute; reflexivity|].
  apply Forall_forall. intros a Ha _. assert (Hs : small g_v_acts = true) by (vm_compute; reflexivity). destruct (small_ok Hs Ha) as [L1 L2]. split; [split; [|exact L1]|]; [assert (Hl : forallb (fun a => 2 <=? lenN (a_key a)) g_v_acts = true) by (vm_compute; reflexivity); rewrite forallb_forall in Hl; apply N.leb_le; exact (Hl a Ha)|]. split; [exact L2|].
  destruct Ha as [<-|[<-|[]]]; cbn [a_data snd]; [exists (ViewValue 2 [repeat 66 (N.to_nat 3)])|exists (ViewValue 1 [repeat 66 (N.to_nat 3)])]; (split; [reflexivity|]; split; [apply v_fits; reflexivity|reflexivity]).
Qed.
Lemma g_made : @group_made env0 ebin_cmp [[]; []] g_header (snd g_w).
Proof.
  split; [exact mask2_ok|]. unfold g_header. cbn [with_roots ih_id_state ih_view_states map stored_root].
  split; [apply made_stored; exact (made_other (made_other g_id_made g_app2) g_app3)|].
  constructor; [exact (made_other (made_other (made_other (new_none _ _) g_app1) g_app2) g_app3)|]. constructor; [|constructor]. apply made_stored. exact (made_other g_v_made g_app3).
Qed.
Lemma g_fits : header_fits g_header.
Proof.
  apply (@with_stored_fits header_ex mask2 g_id_root [None; g_v_root] (match enc_state g_id_root with Ok b => b | Err _ => [] end) (match enc_states [None; g_v_root] with Ok b => b | Err _ => [] end) C43_ex).
  - reflexivity.
  - vm_compute. reflexivity.
  - intros p Hp. assert (H : match g_id_root with Some q => np_pointer q <? 2^48 | None => true end = true) by (vm_compute; reflexivity). rewrite Hp in H. now apply N.ltb_lt.
  - vm_compute. reflexivity.
  - constructor; [discriminate|]. constructor; [|constructor]. intros p Hp. assert (H : match g_v_root with Some q => np_pointer q <? 2^48 | None => true end = true) by (vm_compute; reflexivity). rewrite Hp in H. now apply N.ltb_lt.
  - reflexivity.
Qed.
Lemma g_read : @read_view_group_header env0 (snd g_w) g_pos = Ok g_header.
Proof.
  pose proof g_w_eq as H. pose proof g_w_ok as Hp. assert (Hs : fpos (snd g_w) - g_pos <=? MAX_VIEW_HEADER = true) by (vm_compute; reflexivity). destruct g_w as [r s]. cbn [fst snd] in *. subst r.
  apply (write_then_read env0_ok (f := st_f (snd g_v))); [intros x y Hx; injection Hx as <-; discriminate|exact g_fits| |exact H|now apply N.leb_le].
  exact (proj1 (appends_good env0_ok g_app2 (proj1 (appends_good env0_ok g_app1 (@opened_on_good (fun _ => 0) 0 [] CRC32C None f0_zero))))).
Qed.
Definition three (C : res (N * N) * file) : bool := match C with (Ok (p, n), f) => (n =? 3) && negb (big f) && (fpos f <=? 2^48) && (fpos f - p <=? MAX_VIEW_HEADER) | _ => false end.
Lemma three_ok C : three C = true -> exists p n f, C = (Ok (p, n), f) /\ fits_file f /\ fpos f - p <= MAX_VIEW_HEADER /\ n = 3.
Proof.
  unfold three. destruct C as [[[p n]|e] f]; intros H; [|discriminate H]. apply andb_prop in H. destruct H as [H H4]. apply andb_prop in H. destruct H as [H H3]. apply andb_prop in H. destruct H as [H1 H2].
  exists p, n, f. split; [reflexivity|]. split; [split; [destruct (big f); [discriminate H2|reflexivity]|now apply N.leb_le]|]. split; [now apply N.leb_le|now apply N.eqb_eq].
Qed.
Lemma g_clean_eq : @cleanup_view_group env0 ebin_cmp [[]; []] (snd g_w) g_pos = g_clean.
Proof. unfold g_clean. reflexivity. Qed.
(** A leaf with at most three entries cannot be split. *)
Definition leafy {E : Env} (f : file) (r : option node_pointer) : bool :=
  match r with Some p => match node_at f (np_pointer p) KV_NODE with Some l => (length l <=? 3)%nat | None => false end | None => false end.
Lemma leaf_room {E : Env} f r : leafy f r = true -> room_for 133 f (stored_root r).
Proof.
  unfold leafy. destruct r as [p|]; [|discriminate]. destruct (node_at f (np_pointer p) KV_NODE) as [l|] eqn:Hn; [|discriminate]. intros HW. destruct (node_at_ok Hn) as (z & b & H1 & H2 & H3 & H4 & H5).
  exists 0%nat, l. cbn [roomy np_pointer]. exists b. split; [unfold pread_compressed; unfold pread_bin in H1; rewrite H1; cbn [bind]; rewrite H2; reflexivity|]. split; [exact H3|]. split; [exact H4|]. left. now apply Nat.leb_le.
Qed.
Lemma g_room : @room_for env0 133 (snd g_w) (ih_id_state g_header).
Proof. unfold g_header. cbn [with_roots ih_id_state]. apply leaf_room. vm_compute. reflexivity. Qed.
