(** Proofs about the records of the view indexes. *)
From Verif Require Import Base Codec CodecFacts File Bitmap SortedList SpecUtil UtilFacts ViewCodec IndexHeader SpecView.
From Coq Require Import Sorted.
Local Open Scope N_scope.
Unset Strict Implicit.

(** ** Reading what was written *)

(** [x] reads the bytes [b] as [a]. *)
Definition reads {A} (x : cur A) (b : bytes) (a : A) : Prop := forall rest, x (b ++ rest) = Ok (a, rest).
Lemma reads_ret A (a : A) : reads (cur_ret a) [] a. Proof. intros r. reflexivity. Qed.
Lemma reads_bind A B (x : cur A) (f : A -> cur B) b a b' c : reads x b a -> reads (f a) b' c -> reads (cur_bind x f) (b ++ b') c.
Proof. intros H1 H2 r. unfold cur_bind. rewrite <- app_assoc, (H1 _). apply H2. Qed.
Lemma reads_next b n : lenN b = n -> reads (next n) b b.
Proof. intros <- r. unfold next. rewrite lenN_app. destruct (N.leb_spec (lenN b) (lenN b + lenN r)); [|lia]. now rewrite take_app_exact, drop_app_exact. Qed.
Lemma reads_int n k v : n = N.of_nat k -> v < 256 ^ n -> reads (next_int n) (be k v) v.
Proof.
  intros -> Hv. unfold next_int. rewrite <- (app_nil_r (be k v)). eapply reads_bind; [apply reads_next, lenN_be|]. rewrite unbe_be_small by exact Hv. apply reads_ret.
Qed.
Lemma reads_times A (x : cur A) (enc : A -> bytes) l : Forall (fun a => reads x (enc a) a) l -> forall n, N.to_nat n = length l -> reads (times (N.to_nat n) x) (flat_map enc l) l.
Proof.
  intros H n ->. clear n. induction H as [|a l Ha H IH]; cbn [length times flat_map]; [apply reads_ret|].
  eapply reads_bind; [exact Ha|]. rewrite <- (app_nil_r (flat_map enc l)). eapply reads_bind; [exact IH|apply reads_ret].
Qed.
Lemma reads_end A (x : cur A) (enc : A -> bytes) l : Forall (fun a => reads x (enc a) a /\ 0 < lenN (enc a)) l -> all_of_rest x (flat_map enc l) = Ok l.
Proof.
  unfold all_of_rest. intros H. assert (G : forall n, (length (flat_map enc l) <= n)%nat -> until_end n x (flat_map enc l) = Ok l); [|apply G; lia].
  induction H as [|a l [Ha Hp] H IH]; intros n Hn; cbn [flat_map] in *; [destruct n; reflexivity|].
  destruct (enc a ++ flat_map enc l) as [|z t] eqn:Ez; [exfalso; apply (f_equal (@lenN N)) in Ez; rewrite lenN_app, lenN_nil in Ez; lia|]. rewrite <- Ez.
  assert (Hl : (length (flat_map enc l) < length (z :: t))%nat) by (rewrite <- Ez, app_length; unfold lenN in Hp; lia).
  destruct n as [|n]; [cbn [length] in Hn; lia|]. cbn [until_end]. destruct (enc a ++ flat_map enc l) as [|z' t'] eqn:Ez'; [discriminate|]. rewrite <- Ez', (Ha _).
  rewrite IH; [reflexivity|]. cbn [length] in Hn, Hl. lia.
Qed.

(** ** Writing what was read *)

(** Whatever [x] reads is [enc] of the result. *)
Definition writes {A} (x : cur A) (enc : A -> bytes) (P : A -> Prop) : Prop := forall l a r, is_bytes l -> x l = Ok (a, r) -> l = enc a ++ r /\ P a /\ is_bytes r.
Lemma bytes_take n (l : bytes) : is_bytes l -> is_bytes (take n l).
Proof. unfold is_bytes. intros H. rewrite <- (take_drop n l) in H. apply Forall_app in H. apply H. Qed.
Lemma bytes_drop n (l : bytes) : is_bytes l -> is_bytes (drop n l).
Proof. unfold is_bytes. intros H. rewrite <- (take_drop n l) in H. apply Forall_app in H. apply H. Qed.
Lemma next_inv n l b r : next n l = Ok (b, r) -> l = b ++ r /\ lenN b = n.
Proof. unfold next. destruct (N.leb_spec n (lenN l)); [|discriminate]. intros Q. injection Q as <- <-. split; [symmetry; apply take_drop|]. rewrite lenN_take. lia. Qed.
Lemma next_writes n : writes (next n) (fun b => b) (fun b => lenN b = n /\ is_bytes b).
Proof. intros l a r B H. apply next_inv in H. destruct H as [-> H]. apply Forall_app in B. destruct B. auto. Qed.
Lemma int_writes n k : n = N.of_nat k -> writes (next_int n) (be k) (fun v => v < 256 ^ n).
Proof.
  intros -> l a r B H. unfold next_int, cur_bind in H. destruct (next (N.of_nat k) l) as [[b q]|e] eqn:Hn; [|discriminate]. injection H as <- <-.
  destruct (next_writes B Hn) as (-> & [Hl Hb] & Hq). split; [|split; [|exact Hq]].
  - now rewrite be_unbe by (auto; unfold lenN in Hl; lia).
  - rewrite <- Hl. apply unbe_bound, Hb.
Qed.
Lemma bind_inv A B (x : cur A) (f : A -> cur B) l c r : cur_bind x f l = Ok (c, r) -> exists a q, x l = Ok (a, q) /\ f a q = Ok (c, r).
Proof. unfold cur_bind. destruct (x l) as [[a q]|e]; [eauto|discriminate]. Qed.
Lemma times_writes A (x : cur A) enc P : writes x enc P -> forall n, writes (times n x) (flat_map enc) (fun l => length l = n /\ Forall P l).
Proof.
  intros W n. induction n as [|n IH]; intros l a r B H; cbn [times] in H.
  - injection H as <- <-. auto.
  - apply bind_inv in H. destruct H as (y & q & H1 & H2). apply bind_inv in H2. destruct H2 as (t & q2 & H2 & H3). injection H3 as <- <-.
    destruct (W _ _ _ B H1) as (-> & Py & Bq). destruct (IH _ _ _ Bq H2) as (-> & [Pl Pt] & Br). cbn [flat_map length]. rewrite app_assoc. auto.
Qed.
Lemma end_writes A (x : cur A) enc P : writes x enc P -> forall l a, is_bytes l -> all_of_rest x l = Ok a -> l = flat_map enc a /\ Forall P a.
Proof.
  intros W l a B. unfold all_of_rest. generalize (length l) at 1. intros n. revert l a B. induction n as [|n IH]; intros l a B H; cbn [until_end] in H.
  - destruct l; [injection H as <-; auto|discriminate].
  - destruct l as [|z t]; [injection H as <-; auto|]. destruct (x (z :: t)) as [[y q]|e] eqn:Hx; [|discriminate]. destruct (until_end n x q) as [u|e] eqn:Hu; [|discriminate]. injection H as <-.
    destruct (W _ _ _ B Hx) as (-> & Py & Bq). destruct (IH _ _ Bq Hu) as [-> Pu]. cbn [flat_map]. auto.
Qed.

(** ** Keys and values *)

Lemma reads_sized k b : lenN b < 256 ^ N.of_nat k -> reads (let^ sz := next_int (N.of_nat k) in next sz) (be k (lenN b) ++ b) b.
Proof. intros H. eapply reads_bind; [apply reads_int; [reflexivity|exact H]|apply reads_next; reflexivity]. Qed.
Lemma sized_writes k : writes (let^ sz := next_int (N.of_nat k) in next sz) (fun b => be k (lenN b) ++ b) (fun b => lenN b < 256 ^ N.of_nat k).
Proof.
  intros l a r B H. apply bind_inv in H. destruct H as (sz & q & H1 & H2). destruct (int_writes eq_refl B H1) as (-> & Hs & Bq). destruct (next_writes Bq H2) as (-> & [<- Ba] & Br).
  rewrite <- app_assoc. auto.
Qed.
(** A skipping step and a reading step go the same way. *)
Lemma skip_sized k l : (let^ sz := next_int k in let^ _ := next sz in cur_ret tt) l = match (let^ sz := next_int k in next sz) l with Ok (_, r) => Ok (tt, r) | Err e => Err e end.
Proof. unfold cur_bind. destruct (next_int k l) as [[sz q]|e]; [|reflexivity]. destruct (next sz q) as [[b r]|e]; reflexivity. Qed.
Lemma until_skip A B (x : cur A) (y : cur B) (g : B -> A) : (forall l, x l = match y l with Ok (b, r) => Ok (g b, r) | Err e => Err e end) ->
  forall l, all_of_rest x l = match all_of_rest y l with Ok t => Ok (map g t) | Err e => Err e end.
Proof.
  intros H l. unfold all_of_rest. generalize (length l). intros n. revert l. induction n as [|n IH]; intros [|z l]; cbn [until_end]; try reflexivity.
  rewrite H. destruct (y (z :: l)) as [[b r]|e]; [|reflexivity]. rewrite IH. destruct (until_end n y r); reflexivity.
Qed.
Lemma times_skip A B (x : cur A) (y : cur B) (g : B -> A) : (forall l, x l = match y l with Ok (b, r) => Ok (g b, r) | Err e => Err e end) ->
  forall n l, times n x l = match times n y l with Ok (t, r) => Ok (map g t, r) | Err e => Err e end.
Proof.
  intros H n. induction n as [|n IH]; intros l; cbn [times]; [reflexivity|]. unfold cur_bind. rewrite H. destruct (y l) as [[b r]|e]; [|reflexivity]. rewrite IH. destruct (times n y r) as [[t q]|e]; reflexivity.
Qed.
Lemma skip_value_eq l : skip_value l = match read_value l with Ok (b, r) => Ok (lenN b, r) | Err e => Err e end.
Proof.
  unfold skip_value, read_value, cur_bind. destruct (next_int 3 l) as [[sz q]|e]; [|reflexivity]. destruct (next sz q) as [[b r]|e] eqn:Hn; [|reflexivity]. apply next_inv in Hn. destruct Hn as [_ <-]. reflexivity.
Qed.
Lemma skip_view_eq l : skip_view l = match read_view l with Ok (_, r) => Ok (tt, r) | Err e => Err e end.
Proof.
  unfold skip_view, read_view, next_int, cur_bind, cur_ret. destruct (next 1 l) as [[b r]|e]; [|reflexivity]. destruct (next 2 r) as [[n q]|e]; [|reflexivity].
  rewrite (@times_skip unit bytes skip_key read_key (fun _ => tt) (skip_sized 2)). destruct (times (N.to_nat (unbe n)) read_key q) as [[t u]|e]; reflexivity.
Qed.

Lemma view_key_decode k : view_key_fits k -> decode_view_btree_key (encode_view_btree_key k) = Ok k.
Proof. intros H. unfold decode_view_btree_key, encode_view_btree_key. rewrite app_assoc. change 2 with (N.of_nat 2). rewrite (@reads_sized 2 (vk_json k) H (vk_doc k)). destruct k; reflexivity. Qed.
Lemma json_key_decode k : view_key_fits k -> decode_view_btree_json_key (encode_view_btree_key k) = Ok (vk_json k).
Proof. intros H. unfold decode_view_btree_json_key, encode_view_btree_key. rewrite app_assoc. change 2 with (N.of_nat 2). rewrite (@reads_sized 2 (vk_json k) H (vk_doc k)). reflexivity. Qed.
Lemma view_key_encode b k : is_bytes b -> decode_view_btree_key b = Ok k -> encode_view_btree_key k = b /\ view_key_fits k.
Proof.
  intros B H. unfold decode_view_btree_key in H. destruct ((let^ sz := next_int 2 in next sz) b) as [[j r]|e] eqn:Hr; [|discriminate]. injection H as <-. destruct (@sized_writes 2 _ _ _ B Hr) as (-> & P & _).
  unfold encode_view_btree_key. cbn [vk_json vk_doc]. now rewrite app_assoc.
Qed.
Lemma id_key_decode k : id_key_fits k -> decode_view_id_btree_key (encode_view_id_btree_key k) = Ok k.
Proof. intros H. unfold decode_view_id_btree_key, encode_view_id_btree_key. rewrite (@reads_int 2 2 (ik_partition k) eq_refl H). destruct k; reflexivity. Qed.
Lemma id_key_encode b k : is_bytes b -> decode_view_id_btree_key b = Ok k -> encode_view_id_btree_key k = b /\ id_key_fits k.
Proof.
  intros B H. unfold decode_view_id_btree_key in H. destruct (next_int 2 b) as [[j r]|e] eqn:Hr; [|discriminate]. injection H as <-. destruct (@int_writes 2 2 eq_refl _ _ _ B Hr) as (-> & P & _). split; [reflexivity|exact P].
Qed.

Definition enc_value (x : bytes) := be 3 (lenN x) ++ x.
Lemma values_read vs : Forall (fun x => lenN x < 2^24) vs -> all_of_rest read_value (flat_map enc_value vs) = Ok vs.
Proof.
  intros H. apply reads_end. revert H. apply Forall_impl. intros x Hx. split; [exact (@reads_sized 3 x Hx)|]. unfold enc_value. rewrite lenN_app, lenN_be. lia.
Qed.
Lemma part_num_decode v : view_value_fits v -> decode_view_btree_partition_and_num_values (encode_view_btree_value v) = Ok (vv_partition v, lenN (vv_values v), fold_right (fun x n => lenN x + n) 0 (vv_values v)).
Proof.
  intros (H1 & H2 & H3). unfold decode_view_btree_partition_and_num_values, encode_view_btree_value. rewrite (@reads_int 2 2 (vv_partition v) eq_refl H1).
  rewrite (@until_skip N bytes skip_value read_value (@lenN N) skip_value_eq). pose proof (values_read H3) as Q; unfold enc_value in Q; rewrite Q; clear Q. rewrite lenN_map, N.mod_small by exact H2. f_equal. f_equal.
  induction (vv_values v) as [|x l IH]; [reflexivity|]. cbn [map fold_right]. rewrite <- IH; [reflexivity| |now inversion H3]. rewrite lenN_cons in H2. lia.
Qed.
Lemma view_value_decode v : view_value_fits v -> decode_view_btree_value (encode_view_btree_value v) = Ok v.
Proof.
  intros H. unfold decode_view_btree_value. rewrite (part_num_decode H). destruct H as (H1 & H2 & H3). unfold encode_view_btree_value. replace (drop 2 _) with (flat_map enc_value (vv_values v)).
  - rewrite (values_read H3), N.eqb_refl. destruct v; reflexivity.
  - symmetry. apply drop_app_exact. reflexivity.
Qed.
Lemma view_value_encode b v : is_bytes b -> decode_view_btree_value b = Ok v -> encode_view_btree_value v = b /\ view_value_fits v.
Proof.
  intros B H. unfold decode_view_btree_value, decode_view_btree_partition_and_num_values in H. destruct (next_int 2 b) as [[p r]|e] eqn:Hp; [|discriminate].
  destruct (@int_writes 2 2 eq_refl _ _ _ B Hp) as (-> & Pp & Br). replace (drop 2 _) with r in H by (symmetry; apply drop_app_exact; reflexivity).
  destruct (all_of_rest skip_value r) as [szs|e] eqn:Hz; [|discriminate]. destruct (all_of_rest read_value r) as [vs|e] eqn:Hv; [|discriminate]. destruct (N.eqb_spec (lenN vs) (lenN szs mod 2^16)) as [Hn|]; [|discriminate].
  injection H as <-. destruct (end_writes (@sized_writes 3) Br Hv) as [-> Pv]. unfold encode_view_btree_value, view_value_fits. cbn [vv_partition vv_values]. repeat split; [exact Pp| |exact Pv].
  rewrite Hn. apply N.mod_lt. discriminate.
Qed.
Lemma partition_decode v : view_value_fits v -> decode_view_btree_partition (encode_view_btree_value v) = Ok (vv_partition v).
Proof. intros (H & _). unfold decode_view_btree_partition, encode_view_btree_value. now rewrite (@reads_int 2 2 (vv_partition v) eq_refl H). Qed.

Definition enc_key (k : bytes) := be 2 (lenN k) ++ k.
Definition enc_view (m : N * list bytes) := be 1 (fst m) ++ be 2 (lenN (snd m)) ++ flat_map enc_key (snd m).
Lemma keys_read ks : Forall short ks -> lenN ks < 2^16 -> reads (let^ n := next_int 2 in times (N.to_nat n) read_key) (be 2 (lenN ks) ++ flat_map enc_key ks) ks.
Proof.
  intros H Hl. eapply reads_bind; [apply (@reads_int 2 2); [reflexivity|exact Hl]|]. apply reads_times; [|unfold lenN; lia]. revert H. apply Forall_impl. intros k Hk. exact (@reads_sized 2 k Hk).
Qed.
Lemma view_read m : view_keys_fit m -> reads read_view (enc_view m) m.
Proof.
  intros (H1 & H2 & H3). unfold read_view, enc_view. eapply reads_bind; [apply (@reads_int 1 1); [reflexivity|exact H1]|]. eapply reads_bind; [apply (@reads_int 2 2); [reflexivity|exact H2]|].
  rewrite <- (app_nil_r (flat_map enc_key (snd m))). eapply reads_bind; [apply reads_times; [|unfold lenN; lia]|].
  - revert H3. apply Forall_impl. intros k Hk. exact (@reads_sized 2 k Hk).
  - destruct m as [v ks]. apply reads_ret.
Qed.
Lemma view_writes : writes read_view enc_view view_keys_fit.
Proof.
  intros l a r B H. apply bind_inv in H. destruct H as (v & q & H1 & H2). apply bind_inv in H2. destruct H2 as (n & q2 & H2 & H3). apply bind_inv in H3. destruct H3 as (ks & q3 & H3 & H4). injection H4 as <- <-.
  destruct (@int_writes 1 1 eq_refl _ _ _ B H1) as (-> & Pv & B1). destruct (@int_writes 2 2 eq_refl _ _ _ B1 H2) as (-> & Pn & B2).
  destruct (times_writes (@sized_writes 2) B2 H3) as (-> & [Hl Hk] & B3). unfold enc_view, view_keys_fit. cbn [fst snd]. replace (lenN ks) with n by (unfold lenN; lia). rewrite <- !app_assoc. split; [reflexivity|]. split; [|exact B3].
  split; [exact Pv|]. split; [exact Pn|exact Hk].
Qed.
Lemma id_value_decode p l : l <> [] -> id_value_fits p l -> exists b, encode_view_id_btree_value (IdValue p (Some l)) = Ok b /\ decode_view_id_btree_value b = Ok (IdValue p (Some l)).
Proof.
  intros Hne (H1 & H2 & H3). unfold encode_view_id_btree_value. cbn [iv_keys iv_partition]. eexists. split; [reflexivity|]. unfold decode_view_id_btree_value. rewrite (@reads_int 2 2 p eq_refl H1).
  change (flat_map _ l) with (flat_map enc_view l).
  assert (Hr : all_of_rest read_view (flat_map enc_view l) = Ok l).
  { apply reads_end. revert H3. apply Forall_impl. intros m Hm. split; [exact (view_read Hm)|]. unfold enc_view. rewrite lenN_app, lenN_be. lia. }
  destruct (flat_map enc_view l) as [|z t] eqn:Ez.
  - exfalso. destruct l as [|m l]; [now elim Hne|]. cbn [flat_map] in Ez. unfold enc_view at 1 in Ez. apply (f_equal (@lenN N)) in Ez. rewrite !lenN_app, lenN_be, lenN_nil in Ez. lia.
  - rewrite (@until_skip unit (N * list bytes) skip_view read_view (fun _ => tt) skip_view_eq), Hr, lenN_map. destruct (N.ltb_spec (lenN l) (2^16)); [reflexivity|lia].
Qed.
Lemma id_value_encode b p l : is_bytes b -> decode_view_id_btree_value b = Ok (IdValue p (Some l)) -> encode_view_id_btree_value (IdValue p (Some l)) = Ok b /\ id_value_fits p l.
Proof.
  intros B H. unfold decode_view_id_btree_value in H. destruct (next_int 2 b) as [[q r]|e] eqn:Hp; [|discriminate]. destruct (@int_writes 2 2 eq_refl _ _ _ B Hp) as (-> & Pp & Br). destruct r as [|z t]; [discriminate|].
  rewrite (@until_skip unit (N * list bytes) skip_view read_view (fun _ => tt) skip_view_eq) in H. destruct (all_of_rest read_view (z :: t)) as [vs|e] eqn:Hv; [|discriminate]. rewrite lenN_map in H. destruct (N.ltb_spec (lenN vs) (2^16)) as [Hn|]; [|discriminate].
  injection H as -> ->. destruct (end_writes view_writes Br Hv) as [-> Pv]. split; [reflexivity|]. split; [exact Pp|]. split; [exact Hn|exact Pv].
Qed.

(** ** Reductions *)

Lemma head_read c bm : c < 2^40 -> lenN bm = 128 -> reads read_count_bitmap (be 5 c ++ bm) (c, bm).
Proof.
  intros H1 H2. unfold read_count_bitmap. eapply reads_bind; [apply (@reads_int 5 5); [reflexivity|exact H1]|]. rewrite <- (app_nil_r bm) at 1. eapply reads_bind; [apply reads_next, H2|apply reads_ret].
Qed.
Lemma head_writes : writes read_count_bitmap (fun x => be 5 (fst x) ++ snd x) (fun x => fst x < 2^40 /\ lenN (snd x) = 128).
Proof.
  intros l a r B H. apply bind_inv in H. destruct H as (c & q & H1 & H2). apply bind_inv in H2. destruct H2 as (bm & q2 & H2 & H3). injection H3 as <- <-. destruct (@int_writes 5 5 eq_refl _ _ _ B H1) as (-> & Pc & B1).
  destruct (next_writes B1 H2) as (-> & [Hl _] & B2). cbn [fst snd]. rewrite <- app_assoc. auto.
Qed.
Lemma sizes_short (l : list bytes) : fold_right (fun (x : bytes) (n : N) => 2 + lenN x + n) 0 l <= MAX_REDUCTION -> Forall short l.
Proof.
  unfold MAX_REDUCTION, short. induction l as [|x l IH]; intros H; cbn [fold_right] in H; [constructor|]. change (2^16 - 1) with 65535 in *. change (2^16) with 65536 in *.
  set (z := fold_right (fun (x : bytes) (n : N) => 2 + lenN x + n) 0 l) in *. clearbody z. constructor; [|apply IH]; lia.
Qed.
Lemma reduction_refused r : encode_view_btree_reduction r = Err E_REDUCTION_TOO_LARGE <-> MAX_REDUCTION < reduction_size r.
Proof. unfold encode_view_btree_reduction, reduction_size. destruct (N.ltb_spec MAX_REDUCTION (5 + 128 + fold_right (fun (x : bytes) (n : N) => 2 + lenN x + n) 0 (vr_values r))); split; intros Q; try reflexivity; try assumption; [discriminate Q|lia]. Qed.
Lemma reduction_decode r : view_reduction_fits r -> reduction_size r <= MAX_REDUCTION -> exists b, encode_view_btree_reduction r = Ok b /\ lenN b = reduction_size r /\ decode_view_btree_reduction b = Ok r.
Proof.
  intros (H1 & H2 & H3) H4. unfold encode_view_btree_reduction. unfold reduction_size in H4. destruct (N.ltb_spec MAX_REDUCTION (5 + 128 + fold_right (fun (x : bytes) (n : N) => 2 + lenN x + n) 0 (vr_values r))) as [Hx|_]; [lia|].
  eexists. split; [reflexivity|]. split.
  { unfold reduction_size. rewrite !lenN_app, lenN_be, H2. change (N.of_nat 5) with 5. rewrite <- N.add_assoc. do 2 f_equal. clear. induction (vr_values r) as [|x l IH]; [reflexivity|]. cbn [flat_map fold_right]. rewrite !lenN_app, lenN_be, IH. change (N.of_nat 2) with 2. lia. }
  unfold decode_view_btree_reduction. rewrite app_assoc, (head_read H1 H2 _). change (flat_map _ (vr_values r)) with (flat_map enc_key (vr_values r)).
  assert (Hs : Forall short (vr_values r)) by (apply sizes_short; lia).
  assert (Hr : all_of_rest read_reduce (flat_map enc_key (vr_values r)) = Ok (vr_values r)).
  { apply reads_end. revert Hs. apply Forall_impl. intros x Hx. split; [exact (@reads_sized 2 x Hx)|]. unfold enc_key. rewrite lenN_app, lenN_be. lia. }
  rewrite (@until_skip unit bytes skip_reduce read_reduce (fun _ => tt) (skip_sized 2)), Hr, lenN_map. rewrite N.mod_small by exact H3. destruct (N.eqb_spec (lenN (vr_values r)) 0) as [E|_].
  - apply lenN_0 in E. destruct r as [c bm vs]. cbn [vr_values vr_count vr_bitmap] in *. now rewrite E.
  - destruct (N.ltb_spec (lenN (vr_values r)) (2^8)); [|lia]. destruct r; reflexivity.
Qed.
Lemma reduction_encode b r : is_bytes b -> decode_view_btree_reduction b = Ok r -> lenN b <= MAX_REDUCTION -> (vr_values r <> [] \/ lenN b = 133) -> encode_view_btree_reduction r = Ok b /\ view_reduction_fits r.
Proof.
  intros B H Hb Hv. unfold decode_view_btree_reduction in H. destruct (read_count_bitmap b) as [[[c bm] q]|e] eqn:Hh; [|discriminate]. destruct (head_writes B Hh) as (-> & [Pc Pb] & Bq). cbn [fst snd] in *.
  rewrite (@until_skip unit bytes skip_reduce read_reduce (fun _ => tt) (skip_sized 2)) in H. destruct (all_of_rest read_reduce q) as [vs|e] eqn:Hr; [|discriminate]. rewrite lenN_map in H. destruct (end_writes (@sized_writes 2) Bq Hr) as [-> Pv].
  assert (Es : 5 + 128 + fold_right (fun (x : bytes) (n : N) => 2 + lenN x + n) 0 vs = lenN ((be 5 c ++ bm) ++ flat_map (fun b : bytes => be 2 (lenN b) ++ b) vs)).
  { rewrite !lenN_app, lenN_be, Pb. change (N.of_nat 5) with 5. f_equal. clear. induction vs as [|x l IH]; [reflexivity|]. cbn [flat_map fold_right]. rewrite !lenN_app, lenN_be, <- IH. change (N.of_nat 2) with 2. lia. }
  assert (Q : r = ViewReduction c bm vs /\ lenN vs < 2^8).
  { destruct (N.eqb_spec (lenN vs mod 2^8) 0) as [Ez|Ez].
    - injection H as <-. destruct Hv as [Hv|Hv]; [now elim Hv|]. rewrite Hv in Es. assert (vs = []) as ->; [|split; reflexivity]. destruct vs as [|x vs]; [reflexivity|]. cbn [fold_right] in Es. set (z := fold_right (fun (x : bytes) (n : N) => 2 + lenN x + n) 0 vs) in *. clearbody z. lia.
    - destruct (N.ltb_spec (lenN vs) (2^8)); [|discriminate]. injection H as <-. auto. }
  destruct Q as [-> Hn]. unfold encode_view_btree_reduction. cbn [vr_values vr_count vr_bitmap]. rewrite Es. destruct (N.ltb_spec MAX_REDUCTION (lenN ((be 5 c ++ bm) ++ flat_map (fun b : bytes => be 2 (lenN b) ++ b) vs))); [lia|].
  rewrite app_assoc. split; [reflexivity|]. split; [exact Pc|]. split; [exact Pb|exact Hn].
Qed.
Lemma id_reduction_decode r : id_reduction_fits r -> exists b, encode_view_id_btree_reduction r = Ok b /\ decode_view_id_btree_reduction b = Ok r.
Proof. intros (H1 & H2). eexists. split; [reflexivity|]. unfold decode_view_id_btree_reduction. rewrite <- (app_nil_r (be 5 _ ++ _)), (head_read H1 H2 _). destruct r; reflexivity. Qed.
Lemma id_reduction_encode b r : is_bytes b -> lenN b = 133 -> decode_view_id_btree_reduction b = Ok r -> encode_view_id_btree_reduction r = Ok b /\ id_reduction_fits r.
Proof.
  intros B Hl H. unfold decode_view_id_btree_reduction in H. destruct (read_count_bitmap b) as [[[c bm] q]|e] eqn:Hh; [|discriminate]. injection H as <-. destruct (head_writes B Hh) as (-> & [Pc Pb] & Bq). cbn [fst snd] in *.
  rewrite !lenN_app, lenN_be, Pb in Hl. assert (q = []) as -> by (apply lenN_0; lia). rewrite app_nil_r. split; [reflexivity|]. split; [exact Pc|exact Pb].
Qed.

(** ** Index headers *)

Section Lists.
Variable A : Type.
Variable key : A -> N.
Definition kcmp (a b : A) : comparison := key a ?= key b.
Lemma add_last e l : Forall (fun n => kcmp n e = Lt) l -> add_elem kcmp e l = (l ++ [e], false).
Proof. induction 1 as [|n l Hn H IH]; cbn [add_elem]; [reflexivity|]. rewrite Hn, IH. reflexivity. Qed.
Lemma add_all l : forall pre, StronglySorted (fun a b => kcmp a b = Lt) (pre ++ l) ->
  fold_left (sorted_list_add kcmp) l (Slist pre (Z.of_nat (length pre))) = Slist (pre ++ l) (Z.of_nat (length (pre ++ l))).
Proof.
  induction l as [|e l IH]; intros pre S; cbn [fold_left]; [now rewrite app_nil_r|]. unfold sorted_list_add at 2. cbn [sl_elems sl_length]. rewrite add_last.
  - replace (Z.of_nat (length pre) + 1)%Z with (Z.of_nat (length (pre ++ [e]))) by (rewrite app_length; cbn [length]; lia). rewrite IH by (rewrite <- app_assoc; exact S). now rewrite <- app_assoc.
  - clear IH. induction pre as [|n pre IH]; [constructor|]. cbn [app] in S. inversion S as [|? ? S1 F]; subst. constructor; [|exact (IH S1)]. rewrite Forall_forall in F. apply F, in_app_iff. right. left. reflexivity.
Qed.
Lemma kcmp_total : total_order kcmp.
Proof.
  constructor; unfold kcmp.
  - intros x. apply N.compare_refl.
  - intros x y. apply N.compare_antisym.
  - intros x y z. rewrite !N.compare_lt_iff. lia.
  - intros x y z H. apply N.compare_eq in H. now rewrite H.
Qed.
(** A list in the header and its bytes. *)
Variable enc : A -> bytes.
Variable x : cur A.
Variable ok : A -> Prop.
Hypothesis Hreads : forall a, ok a -> reads x (enc a) a.
Hypothesis Hwrites : writes x enc ok.
Definition enc_slist (l : slist A) : bytes := be 2 (Z.to_N (sorted_list_size l)) ++ flat_map enc (sl_elems l).
Definition dec_slist : cur (slist A) := let^ n := next_int 2 in let^ l := times (N.to_nat n) x in cur_ret (fold_left (sorted_list_add kcmp) l (sorted_list_create A)).
Lemma slist_read l : list_fits kcmp ok l -> reads dec_slist (enc_slist l) l.
Proof.
  intros (U & L & F). rewrite all_of_eq in L, F. destruct (sl_sorted kcmp_total U) as [S Z]. unfold dec_slist, enc_slist, sorted_list_size. rewrite Z. replace (Z.to_N (Z.of_nat (length (sl_elems l)))) with (lenN (sl_elems l)) by (unfold lenN; lia).
  eapply reads_bind; [apply (@reads_int 2 2); [reflexivity|exact L]|]. rewrite <- (app_nil_r (flat_map enc _)). eapply reads_bind.
  - apply reads_times; [|unfold lenN; lia]. revert F. apply Forall_impl. exact Hreads.
  - unfold sorted_list_create. pose proof (@add_all (sl_elems l) [] S) as Q. cbn [app length Z.of_nat] in Q. rewrite Q. clear Q. destruct l as [e n]. cbn [sl_elems sl_length] in *. rewrite <- Z. apply reads_ret.
Qed.
Lemma add_all_fits l : forall s, Forall ok l -> slist_use kcmp s -> Forall ok (sl_elems s) ->
  let s' := fold_left (sorted_list_add kcmp) l s in slist_use kcmp s' /\ (length (sl_elems s') <= length l + length (sl_elems s))%nat /\ Forall ok (sl_elems s').
Proof using enc.
  clear Hreads Hwrites. induction l as [|e l IH]; intros s F U Fs; cbn [fold_left]; [cbn [length]; auto|]. inversion F as [|? ? He Fl]; subst.
  assert (Fs1 : Forall ok (sl_elems (sorted_list_add kcmp s e))).
  { rewrite Forall_forall in *. intros y Hy. unfold sorted_list_add in Hy. pose proof (@add_elem_in A kcmp e (sl_elems s) y) as Q. destruct (add_elem kcmp e (sl_elems s)) as [r b]. cbn [sl_elems fst] in *. destruct (Q Hy) as [->|H]; auto. }
  destruct (IH _ Fl (su_add e U) Fs1) as (Q1 & Q2 & Q3). split; [exact Q1|]. split; [|exact Q3]. cbn [length]. etransitivity; [exact Q2|].
  pose proof (@add_elem_length A kcmp e (sl_elems s)) as Q. unfold sorted_list_add. destruct (add_elem kcmp e (sl_elems s)) as [r b]. cbn [sl_elems fst snd] in *. destruct b; lia.
Qed.
Lemma slist_fits l a r : is_bytes l -> dec_slist l = Ok (a, r) -> list_fits kcmp ok a /\ is_bytes r.
Proof using Hwrites.
  clear Hreads.
  intros B H. apply bind_inv in H. destruct H as (n & q & H1 & H2). apply bind_inv in H2. destruct H2 as (t & q2 & H2 & H3). injection H3 as <- <-. destruct (@int_writes 2 2 eq_refl _ _ _ B H1) as (-> & Pn & B1).
  destruct (times_writes Hwrites B1 H2) as (-> & [Hl Ht] & B2). split; [|exact B2]. destruct (@add_all_fits t (sorted_list_create A) Ht (su_new _) (Forall_nil _)) as (Q1 & Q2 & Q3). split; [exact Q1|]. rewrite all_of_eq. split; [|exact Q3].
  cbn [sorted_list_create sl_elems length] in Q2. change (256^2) with (2^16) in Pn. unfold lenN. lia.
Qed.
End Lists.

Lemma reads_conv A (x : cur A) b a b' : reads x b a -> b = b' -> reads x b' a. Proof. now intros H ->. Qed.
Lemma part_seq_read a : part_seq_fits a -> reads dec_part_seq (be 2 (fst a) ++ be 6 (snd a)) a.
Proof.
  intros [H1 H2]. eapply reads_bind; [apply (@reads_int 2 2); [reflexivity|exact H1]|]. rewrite <- (app_nil_r (be 6 _)). eapply reads_bind; [apply (@reads_int 6 6); [reflexivity|exact H2]|]. destruct a. apply reads_ret.
Qed.
Lemma part_seq_writes : writes dec_part_seq (fun a => be 2 (fst a) ++ be 6 (snd a)) part_seq_fits.
Proof.
  intros l a r B H. apply bind_inv in H. destruct H as (p & q & H1 & H2). apply bind_inv in H2. destruct H2 as (s & q2 & H2 & H3). injection H3 as <- <-. destruct (@int_writes 2 2 eq_refl _ _ _ B H1) as (-> & Pp & B1).
  destruct (@int_writes 6 6 eq_refl _ _ _ B1 H2) as (-> & Ps & B2). cbn [fst snd]. rewrite <- app_assoc. split; [reflexivity|]. split; [split; [exact Pp|exact Ps]|exact B2].
Qed.
Definition enc_log (y : bytes * N) := fst y ++ be 8 (snd y).
Definition log_fits (y : bytes * N) : Prop := lenN (fst y) = 8 /\ snd y < 2^64.
Lemma log_read y : log_fits y -> reads dec_log (enc_log y) y.
Proof. intros [H1 H2]. eapply reads_bind; [apply reads_next, H1|]. rewrite <- (app_nil_r (be 8 _)). eapply reads_bind; [apply (@reads_int 8 8); [reflexivity|exact H2]|]. destruct y. apply reads_ret. Qed.
Lemma log_writes : writes dec_log enc_log log_fits.
Proof.
  intros l a r B H. apply bind_inv in H. destruct H as (p & q & H1 & H2). apply bind_inv in H2. destruct H2 as (s & q2 & H2 & H3). injection H3 as <- <-. destruct (next_writes B H1) as (-> & [Pp _] & B1).
  destruct (@int_writes 8 8 eq_refl _ _ _ B1 H2) as (-> & Ps & B2). unfold enc_log. cbn [fst snd]. rewrite <- app_assoc. split; [reflexivity|]. split; [split; [exact Pp|exact Ps]|exact B2].
Qed.
Definition enc_version (v : part_version) := be 2 (fst v) ++ be 2 (lenN (snd v)) ++ flat_map enc_log (snd v).
Lemma version_read v : version_fits v -> reads dec_part_version (enc_version v) v.
Proof.
  intros (H1 & H2 & H3). unfold dec_part_version, enc_version. eapply reads_bind; [apply (@reads_int 2 2); [reflexivity|exact H1]|]. eapply reads_bind; [apply (@reads_int 2 2); [reflexivity|exact H2]|].
  rewrite <- (app_nil_r (flat_map enc_log _)). eapply reads_bind; [apply reads_times; [|unfold lenN; lia]|].
  - revert H3. apply Forall_impl. intros y Hy. exact (log_read Hy).
  - destruct v. apply reads_ret.
Qed.
Lemma version_writes : writes dec_part_version enc_version version_fits.
Proof.
  intros l a r B H. apply bind_inv in H. destruct H as (v & q & H1 & H2). apply bind_inv in H2. destruct H2 as (n & q2 & H2 & H3). apply bind_inv in H3. destruct H3 as (ks & q3 & H3 & H4). injection H4 as <- <-.
  destruct (@int_writes 2 2 eq_refl _ _ _ B H1) as (-> & Pv & B1). destruct (@int_writes 2 2 eq_refl _ _ _ B1 H2) as (-> & Pn & B2).
  destruct (times_writes log_writes B2 H3) as (-> & [Hl Hk] & B3). unfold enc_version, version_fits. cbn [fst snd]. replace (lenN ks) with n by (unfold lenN; lia). rewrite <- !app_assoc. split; [reflexivity|]. split; [|exact B3].
  split; [exact Pv|]. split; [exact Pn|exact Hk].
Qed.
Lemma state_read s b : root_fits s -> enc_state s = Ok b -> reads dec_state b s.
Proof.
  intros R H. unfold enc_state in H. destruct (N.ltb_spec (lenN (encode_root s)) (2^16)) as [L|]; [|discriminate]. assert (Hb : b = be 2 (lenN (encode_root s)) ++ encode_root s) by congruence. subst b. unfold dec_state. eapply reads_bind; [apply (@reads_int 2 2); [reflexivity|exact L]|].
  rewrite <- (app_nil_r (encode_root s)) at 2. eapply reads_bind; [apply reads_next; reflexivity|]. intros rest. cbn [app]. destruct s as [p|]; [|reflexivity]. rewrite read_encode_root. destruct R as (R1 & R2 & R3 & R4).
  rewrite ?N.mod_small by assumption. destruct p as [k pt rd sz]. cbn [np_key np_pointer np_reduce np_subtree] in *. now subst k.
Qed.
Lemma state_ok s : root_fits s -> exists b, enc_state s = Ok b.
Proof. intros R. unfold enc_state. rewrite lenN_encode_root. destruct s as [p|]; [|eexists; reflexivity]. destruct R as (R1 & R2 & R3 & R4). destruct (N.ltb_spec (12 + lenN (np_reduce p)) (2^16)); [|lia]. eauto. Qed.
Lemma states_read l : Forall root_fits l -> exists b, enc_states l = Ok b /\ forall n, N.to_nat n = length l -> reads (times (N.to_nat n) dec_state) b l.
Proof.
  intros H. induction H as [|s l Hs H (b & IH1 & IH2)]; cbn [enc_states].
  - exists []. split; [reflexivity|]. intros n ->. apply reads_ret.
  - destruct (state_ok Hs) as [a Ha]. rewrite Ha, IH1. cbn [bind]. exists (a ++ b). split; [reflexivity|]. intros n ->. cbn [length times]. eapply reads_bind; [exact (state_read Hs Ha)|].
    rewrite <- (app_nil_r b). eapply reads_bind; [|apply reads_ret]. specialize (IH2 (N.of_nat (length l))). rewrite Nat2N.id in IH2. exact (IH2 eq_refl).
Qed.
Lemma state_fits l s r : is_bytes l -> dec_state l = Ok (s, r) -> root_fits s /\ is_bytes r.
Proof.
  intros B H. apply bind_inv in H. destruct H as (sz & q & H1 & H2). apply bind_inv in H2. destruct H2 as (b & q2 & H2 & H3). destruct (@int_writes 2 2 eq_refl _ _ _ B H1) as (-> & Ps & B1). destruct (next_writes B1 H2) as (-> & [Hb Bb] & B2).
  unfold read_root in H3. destruct (N.ltb_spec (lenN b) 12) as [Hl|Hl]; [injection H3 as <- <-; split; [exact I|exact B2]|].
  unfold rd_be, getb in H3. destruct (N.leb_spec (0 + 6) (lenN b)); [|lia]. destruct (N.leb_spec (6 + 6) (lenN b)); [|lia]. destruct (N.leb_spec (12 + (lenN b - 12)) (lenN b)); [|lia]. cbn [bind] in H3. injection H3 as <- <-.
  split; [|exact B2]. unfold root_fits. cbn [np_key np_pointer np_subtree np_reduce]. split; [reflexivity|].
  assert (Hu : forall o, o + 6 <= lenN b -> unbe (take 6 (drop o b)) < 2^48).
  { intros o Ho. change (2^48) with (256 ^ 6). replace 6 with (lenN (take 6 (drop o b))) at 2 by (rewrite lenN_take, lenN_drop; lia). apply unbe_bound, bytes_take, bytes_drop, Bb. }
  split; [apply Hu; lia|]. split; [apply Hu; lia|]. rewrite lenN_take, lenN_drop. change (256^2) with (2^16) in Ps. lia.
Qed.
Lemma states_fit n : forall l s r, is_bytes l -> times n dec_state l = Ok (s, r) -> (length s = n /\ Forall root_fits s) /\ is_bytes r.
Proof.
  induction n as [|n IH]; intros l s r B H; cbn [times] in H.
  - injection H as <- <-. auto.
  - apply bind_inv in H. destruct H as (y & q & H1 & H2). apply bind_inv in H2. destruct H2 as (t & q2 & H2 & H3). injection H3 as <- <-. destruct (state_fits B H1) as [Py B1]. destruct (IH _ _ _ B1 H2) as ([Hl Ht] & B2). cbn [length]. auto.
Qed.

Section WithEnv.
Context {E : Env}.
Lemma seq_list_read l : list_fits part_id_cmp part_fits l -> reads dec_seq_list (enc_seq_list l) l.
Proof. apply (@slist_read N (fun a => a) (be 2) (next_int 2) part_fits). intros a Ha. exact (@reads_int 2 2 a eq_refl Ha). Qed.
Lemma part_seq_list_read l : list_fits part_seq_cmp part_seq_fits l -> reads dec_part_seq_list (enc_part_seq_list l) l.
Proof. apply (@slist_read part_seq (@fst N N) _ dec_part_seq part_seq_fits). exact part_seq_read. Qed.
Lemma versions_read l : list_fits part_versions_cmp version_fits l -> reads dec_part_versions_list (enc_part_versions_list l) l.
Proof. apply (@slist_read part_version (@fst N _) enc_version dec_part_version version_fits). exact version_read. Qed.
Lemma header_fields h : header_fits h -> exists ids views vers,
  enc_state (ih_id_state h) = Ok ids /\ enc_states (ih_view_states h) = Ok views /\
  (if 2 <=? ih_version h then match ih_versions h with Some l => Ok (enc_part_versions_list l) | None => Err E_UB end else Ok []) = Ok vers /\
  reads (decode_fields (ih_signature h)) (be 1 (ih_version h) ++ be 2 (ih_num_partitions h) ++ ih_active h ++ ih_passive h ++ ih_cleanup h ++
             enc_part_seq_list (ih_seqs h) ++ ids ++ be 1 (lenN (ih_view_states h)) ++ views ++
             [if ih_has_replica h then 1 else 0] ++ enc_seq_list (ih_replicas h) ++ enc_seq_list (ih_pend_active h) ++
             enc_seq_list (ih_pend_passive h) ++ enc_seq_list (ih_pend_unindexable h) ++
             enc_part_seq_list (ih_unindexable h) ++ vers) h.
Proof.
  intros F. destruct (state_ok (if_id F)) as [ids Hi]. destruct (if_views F) as [Hn Hv]. destruct (states_read Hv) as (views & Hvs & Rv). pose proof (if_lists F) as FL. apply Forall_cons_iff in FL. destruct FL as [F1 FL]. apply Forall_cons_iff in FL. destruct FL as [F2 FL].
  apply Forall_cons_iff in FL. destruct FL as [F3 FL]. apply Forall_cons_iff in FL. destruct FL as [F4 _]. destruct (if_masks F) as (M1 & M2 & M3). pose proof (if_vers F) as Fv.
  exists ids, views. 
  assert (G : forall vers fin, (2 <=? ih_version h = true -> exists l, vers = enc_part_versions_list l /\ list_fits part_versions_cmp version_fits l /\ ih_versions h = Some l) -> (2 <=? ih_version h = false -> vers = [] /\ ih_versions h = None) -> fin = vers ->
    reads (decode_fields (ih_signature h)) (be 1 (ih_version h) ++ be 2 (ih_num_partitions h) ++ ih_active h ++ ih_passive h ++ ih_cleanup h ++
             enc_part_seq_list (ih_seqs h) ++ ids ++ be 1 (lenN (ih_view_states h)) ++ views ++
             [if ih_has_replica h then 1 else 0] ++ enc_seq_list (ih_replicas h) ++ enc_seq_list (ih_pend_active h) ++
             enc_seq_list (ih_pend_passive h) ++ enc_seq_list (ih_pend_unindexable h) ++
             enc_part_seq_list (ih_unindexable h) ++ fin) h).
  { intros vers fin Gt Gf ->. unfold decode_fields.
    eapply reads_bind; [apply (@reads_int 1 1); [reflexivity|exact (if_version F)]|].
    eapply reads_bind; [apply (@reads_int 2 2); [reflexivity|exact (if_parts F)]|].
    eapply reads_bind; [apply reads_next, M1|]. eapply reads_bind; [apply reads_next, M2|]. eapply reads_bind; [apply reads_next, M3|].
    eapply reads_bind; [exact (part_seq_list_read (if_seqs F))|]. eapply reads_bind; [exact (state_read (if_id F) Hi)|].
    eapply reads_bind; [apply (@reads_int 1 1); [reflexivity|exact Hn]|]. eapply reads_bind; [apply Rv; unfold lenN; lia|].
    eapply reads_bind; [apply (@reads_conv _ (next_int 1) (be 1 (if ih_has_replica h then 1 else 0))); [apply (@reads_int 1 1); [reflexivity|destruct (ih_has_replica h); reflexivity]|destruct (ih_has_replica h); reflexivity]|].
    eapply reads_bind; [exact (seq_list_read F1)|]. eapply reads_bind; [exact (seq_list_read F2)|]. eapply reads_bind; [exact (seq_list_read F3)|]. eapply reads_bind; [exact (seq_list_read F4)|].
    eapply reads_bind; [exact (part_seq_list_read (if_un F))|]. replace (negb ((if ih_has_replica h then 1 else 0) =? 0)) with (ih_has_replica h) by (destruct (ih_has_replica h); reflexivity).
    destruct (2 <=? ih_version h).
    - destruct (Gt eq_refl) as (l & -> & Fl & El). rewrite <- (app_nil_r (enc_part_versions_list l)). eapply reads_bind; [exact (versions_read Fl)|]. rewrite <- El. destruct h. apply reads_ret.
    - destruct (Gf eq_refl) as [-> El]. rewrite <- El. destruct h. apply reads_ret. }
  destruct (2 <=? ih_version h) eqn:Ev.
  - destruct Fv as (l & El & Fl). exists (enc_part_versions_list l). rewrite El. split; [exact Hi|]. split; [exact Hvs|]. split; [reflexivity|]. eapply G; [intros _; exists l; auto|discriminate|reflexivity].
  - exists []. split; [exact Hi|]. split; [exact Hvs|]. split; [reflexivity|]. eapply G; [discriminate|auto|reflexivity].
Qed.
End WithEnv.
