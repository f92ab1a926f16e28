(** Property C64. *)
From Verif Require Import Base Codec CodecFacts File Btree TreeStore SpecFile SpecMap SpecSession Bitmap SpecUtil UtilFacts MergeFacts FileMerger ViewCodec Cleanup ViewGroup SpecCleanup SpecGroup EnvExample CleanupFacts
  CleanupExample ViewGroupFacts PropertiesGroup Spatial SpecSpatial SpatialFacts ZorderFacts.
Local Open Scope N_scope.
Unset Strict Implicit.

(** ** C64: a spatial index holds its rows, in the given order, and its boxes are exact *)

(** If no write fails, building a spatial index succeeds for any rows whose keys are boxes. The index holds the rows in the order in which the sorter passes them, and every node is labelled
    with the smallest box around its rows. *)
Theorem C64_build : forall {E : Env} {C : Coords} number D l f, EnvOk E -> CoordsOk number -> snappy_works -> some_file f -> calm f -> crcm f <> CRC_UNKNOWN -> Forall (spatial_row number D) (rows_of l) ->
  exists root f', build_spatial (Good l) f = (Ok root, f') /\ (fits_file f' -> spatial_index f' D root (rows_of l)).
Proof.
  intros E C number D l f EO CO SW S Ca Cr Hl. destruct (built EO CO SW (some_good EO S) Ca Cr Hl) as (root & s & H1 & H2). exists root, (st_f s). split; [|exact H2].
  unfold build_spatial. unfold rows_of in H1. rewrite H1. reflexivity.
Qed.
Print Assumptions C64_build.

(** Compaction copies the rows in the same order, without those of the partitions in the mask, and counts them. *)
Theorem C64_compact : forall {E : Env} {C : Coords} number D collate mask src root rows n f, EnvOk E -> CoordsOk number -> snappy_works -> some_file f -> calm f -> crcm f <> CRC_UNKNOWN ->
  spatial_index src D root rows -> Forall (spatial_row number D) rows ->
  (forall bm, mask = Some bm -> bitmap_ok bm /\ Forall (fun x => 2 <= lenN (snd x) /\ part x < 1024) rows) -> n < 2^64 ->
  exists root' f', compact_spatial collate mask src root n f = (Ok (root', (n + lenN (kept_rows mask rows)) mod 2^64), f') /\ (fits_file f' -> spatial_index f' D root' (kept_rows mask rows)).
Proof. intros E C number D collate mask src root rows n f EO CO SW S Ca Cr Hi Hr Hm Hn. exact (compacted EO CO collate SW (some_good EO S) Ca Cr Hr Hi Hm Hn). Qed.
Print Assumptions C64_compact.

(** A search that descends only into the children whose label meets the window finds exactly the rows that meet it. *)
Theorem C64_search : forall {E : Env} {C : Coords} number D w f p rows, CoordsOk number -> box number D w -> spatial_index f D (Some p) rows -> Forall (spatial_row number D) rows ->
  exists d, forall found, search f D w d (np_pointer p) found <-> found = filter (fun x => meets D w (fst x)) rows.
Proof. intros E C number D w f p rows CO Hw (_ & _ & d & T) Hr. exists d. exact (searching CO Hw T Hr). Qed.
Print Assumptions C64_search.

(** ** C64: the order of the rows of a spatial index *)

(** The code of fewer than 2048 coordinates is the number whose bits are those of the coordinates, interleaved, in four bytes for each coordinate. *)
Theorem C64_code : forall l, lenN l < 2048 -> exists b, interleave_uint32s l = Ok b /\ is_bytes b /\ lenN b = 4 * lenN l /\ interleaved l (unbe b).
Proof. exact interleave_ok. Qed.
Print Assumptions C64_code.

(** Keys with the same number of dimensions are compared by the interleaved numbers of their scaled centres: that is a total order, keys are equal in it exactly when the scaled centres are
    equal, and a key with no larger coordinates is not after another one. *)
Theorem C64_order : forall scaled a b, uint32s (scaled a) -> uint32s (scaled b) -> lenN (scaled a) = lenN (scaled b) -> 0 < lenN (scaled a) < 2048 ->
  exists za zb, interleaved (scaled a) za /\ interleaved (scaled b) zb /\ spatial_key_cmp scaled a b = Ok (za ?= zb) /\ (za = zb <-> scaled a = scaled b) /\
    (Forall2 N.le (scaled a) (scaled b) -> za <= zb).
Proof.
  intros scaled a b Ua Ub Hl Hn. destruct (@interleave_ok (scaled a) (proj2 Hn)) as (x & X1 & X2 & X3 & X4). destruct (@interleave_ok (scaled b)) as (y & Y1 & Y2 & Y3 & Y4); [rewrite <- Hl; apply Hn|].
  exists (unbe x), (unbe y). split; [exact X4|]. split; [exact Y4|]. split.
  - unfold spatial_key_cmp. destruct (N.eqb_spec (lenN (scaled a)) 0) as [H0|_]; [lia|]. rewrite X1. cbn [bind]. rewrite Y1. cbn [bind]. f_equal. apply ebin_unbe; [exact X2|exact Y2|]. unfold lenN in X3, Y3, Hl |- *. lia.
  - split; [|intros F; exact (interleaved_mono Ua Ub F X4 Y4)]. split.
    + intros He. rewrite He in X4. exact (interleaved_inj Ua Ub Hl X4 Y4).
    + intros He. rewrite He in X4. exact (interleaved_eq X4 Y4).
Qed.
Print Assumptions C64_order.

(** The merger of sorted files compares keys by length, then byte by byte: a total order in which only identical keys are equal. *)
Theorem C64_merger : ord spatial_merger_key_cmp /\ forall a b, spatial_merger_key_cmp a b = Eq <-> a = b.
Proof.
  split; [exact merger_ord|]. intros a b. split; [|intros ->; apply (o_refl merger_ord)]. unfold spatial_merger_key_cmp. destruct (N.eqb_spec (lenN a) (lenN b)) as [_|Hne]; [apply ebin_eq|].
  intros H. apply N.compare_eq_iff in H. congruence.
Qed.
Print Assumptions C64_merger.

(** ** Examples *)

Definition xc : Coords := MkCoords (fun a b => unbe a <? unbe b).
Lemma xc_ok : @CoordsOk xc (fun _ => True).
Proof.
  constructor; cbn; intros.
  - apply N.ltb_lt in H1. apply N.ltb_ge. lia.
  - apply N.ltb_lt in H2. rewrite !N.ltb_lt. lia.
Qed.
Lemma env0_snappy : @snappy_works env0.
Proof. intros b Hb. exists (7 :: b). split; [reflexivity|]. rewrite lenN_cons. change (@mac_size env0) with 1. change (2^30) with 1073741824 in Hb. change (2^32) with 4294967296. lia. Qed.
Lemma rle_len x : lenN (rle x) <= 2 * lenN x.
Proof.
  induction x as [|b x IH]; [reflexivity|]. cbn [rle]. rewrite lenN_cons. destruct (rle x) as [|n [|c r]]; rewrite ?lenN_cons in *; change (lenN (@nil N)) with 0 in *; try lia.
  destruct (_ && _); rewrite ?lenN_cons; lia.
Qed.
Lemma env1_snappy : @snappy_works env1.
Proof.
  intros b Hb. exists (rle b). split; [reflexivity|]. pose proof (@rle_len b) as Hr. change (@mac_size env1) with 1. change (2^30) with 1073741824 in Hb. change (2^32) with 4294967296. lia.
Qed.
(** Boxes with one and the same interval in all [D / 2] dimensions. *)
Definition xkey (D lo hi : N) : bytes := be 2 D ++ concat (repeat (be 8 lo ++ be 8 hi) (N.to_nat (D / 2))).
Definition xrec (D x p n : N) : vrec := VRec 0 (xkey D x (x + 1)) (be 2 p ++ repeat x (N.to_nat n)).
Definition xrows : list vrec := [xrec 170 5 1 5200; xrec 170 1 2 5200; xrec 170 3 1 5200].
Definition rowb (D : N) (x : kv) : bool := (unbe (take 2 (fst x)) =? D) && (2 + 8 * D <=? lenN (fst x)) && (lenN (fst x) <? 2^12) && (lenN (snd x) <? 2^28).
Lemma rowb_ok D l : forallb (rowb D) l = true -> Forall (@spatial_row (fun _ => True) D) l.
Proof.
  rewrite forallb_forall, Forall_forall. intros H x Hx. specialize (H x Hx). unfold rowb in H. rewrite !andb_true_iff, N.eqb_eq, N.leb_le, !N.ltb_lt in H. destruct H as [[[H1 H2] H3] H4].
  split; [split; [exact H1|split; [exact H2|auto]]|split; assumption].
Qed.
Lemma xrows_ok : Forall (@spatial_row (fun _ => True) 170) (rows_of xrows).
Proof. apply rowb_ok. vm_compute. reflexivity. Qed.

Definition x_built := @build_spatial env1 xc (Good xrows) f0.
Lemma x_built_eq : @build_spatial env1 xc (Good xrows) f0 = x_built.
Proof. unfold x_built. reflexivity. Qed.
Lemma f0_some1 : @some_file env1 f0.
Proof. exists (fun _ => 0), 0, [], CRC32C, None. split; [exact f0_zero|constructor]. Qed.
Lemma f0_calm : calm f0.
Proof. split; [reflexivity|constructor]. Qed.
Lemma root_ok (X : res (option node_pointer) * file) : match X with (Ok (Some p), f) => fitsb f | _ => false end = true -> exists p f, X = (Ok (Some p), f) /\ fits_file f.
Proof. destruct X as [[[p|]|e] f]; intros H; try discriminate H. exists p, f. split; [reflexivity|now apply fitsb_ok]. Qed.
(** Three rows with keys of 1362 and values of 5202 bytes: the index has three leaves, two nodes above them and a root. *)
Example C64_build_ex : exists p f', @CoordsOk xc (fun _ => True) /\ @snappy_works env1 /\ @some_file env1 f0 /\ calm f0 /\ crcm f0 <> CRC_UNKNOWN /\ Forall (@spatial_row (fun _ => True) 170) (rows_of xrows) /\
  @build_spatial env1 xc (Good xrows) f0 = (Ok (Some p), f') /\ fits_file f' /\ @spatial_index xc env1 f' 170 (Some p) (rows_of xrows).
Proof.
  destruct (@root_ok x_built) as (p & f & Hx & F); [vm_compute; reflexivity|]. exists p, f. split; [exact xc_ok|]. split; [exact env1_snappy|]. split; [exact f0_some1|]. split; [exact f0_calm|].
  split; [vm_compute; discriminate|]. split; [exact xrows_ok|]. rewrite x_built_eq. split; [exact Hx|]. split; [exact F|].
  destruct (@C64_build env1 xc (fun _ => True) 170 xrows f0 env1_ok xc_ok env1_snappy f0_some1 f0_calm ltac:(vm_compute; discriminate) xrows_ok) as (root & f' & H1 & H2).
  rewrite x_built_eq, Hx in H1. injection H1 as <- <-. exact (H2 F).
Qed.
Lemma xparts : Forall (fun x : kv => 2 <= lenN (snd x) /\ part x < 1024) (rows_of xrows).
Proof.
  apply Forall_forall. assert (H : forallb (fun x : kv => (2 <=? lenN (snd x)) && (part x <? 1024)) (rows_of xrows) = true) by (vm_compute; reflexivity).
  intros x Hx. rewrite forallb_forall in H. specialize (H x Hx). rewrite andb_true_iff, N.leb_le, N.ltb_lt in H. exact H.
Qed.
(** Its compaction without partition 2, which has one of the rows. *)
Example C64_compact_ex : exists src root, @spatial_index xc env1 src 170 root (rows_of xrows) /\ bitmap_ok mask2 /\ Forall (fun x : kv => 2 <= lenN (snd x) /\ part x < 1024) (rows_of xrows) /\
  lenN (kept_rows (Some mask2) (rows_of xrows)) = 2.
Proof.
  destruct C64_build_ex as (p & f' & _ & _ & _ & _ & _ & _ & _ & _ & H). exists f', (Some p). split; [exact H|]. split; [exact mask2_ok|]. split; [exact xparts|vm_compute; reflexivity].
Qed.
(** A window that meets two of the three rows. *)
Example C64_search_ex : exists f p, @spatial_index xc env1 f 170 (Some p) (rows_of xrows) /\ @box (fun _ => True) 170 (xkey 170 4 9) /\
  map (fun x => nth 9 (fst x) 0) (filter (fun x => @meets xc 170 (xkey 170 4 9) (fst x)) (rows_of xrows)) = [5; 3].
Proof.
  destruct C64_build_ex as (p & f' & _ & _ & _ & _ & _ & _ & _ & _ & H). exists f', p. split; [exact H|]. split; [|vm_compute; reflexivity].
  split; [vm_compute; reflexivity|]. split; [vm_compute; discriminate|]. intros i _. exact I.
Qed.
Example C64_code_ex : interleave_uint32s [5; 3] = Ok [0; 0; 0; 0; 0; 0; 0; 39] /\ interleaved [5; 3] 39.
Proof.
  assert (H : interleave_uint32s [5; 3] = Ok [0; 0; 0; 0; 0; 0; 0; 39]) by (vm_compute; reflexivity). split; [exact H|].
  destruct (@C64_code [5; 3]) as (b & H1 & _ & _ & H2); [reflexivity|]. rewrite H in H1. injection H1 as <-. exact H2.
Qed.
(** The numbers of the key are its coordinates: (1, 7) is before (4, 2), and (2, 2) before (3, 7). *)
Example C64_order_ex : let s := fun k => k in uint32s (s [1; 7]) /\ uint32s (s [4; 2]) /\ lenN (s [1; 7]) = lenN (s [4; 2]) /\ 0 < lenN (s [1; 7]) < 2048 /\
  spatial_key_cmp s [1; 7] [4; 2] = Ok Lt /\ spatial_key_cmp s [2; 2] [3; 7] = Ok Lt /\ spatial_key_cmp s [3; 7] [1; 7] = Ok Gt.
Proof.
  cbv zeta. assert (U : forall a b, a < 2^32 -> b < 2^32 -> uint32s [a; b]) by (intros a b Ha Hb; constructor; [exact Ha|constructor; [exact Hb|constructor]]).
  split; [apply U; reflexivity|]. split; [apply U; reflexivity|]. split; [reflexivity|]. split; [split; reflexivity|]. split; [vm_compute; reflexivity|]. split; vm_compute; reflexivity.
Qed.
Example C64_merger_ex : spatial_merger_key_cmp [2] [1; 0] = Lt /\ spatial_merger_key_cmp [2; 0] [1; 0] = Gt.
Proof. split; reflexivity. Qed.

(** ** C64, refuted parts *)

(** Eleven writes succeed, the twelfth fails: that of the second node above the leaves. *)
Definition x_plan : list wstep := repeat (WStep 100000 false None false false) 11 ++ [WStep 0 false (Some E_WRITE) false false].
Definition fx : file := opened_on (fun _ => 0) 0 x_plan CRC32C None.
Definition x_lost := @build_spatial env1 xc (Good xrows) fx.
Lemma x_lost_eq : @build_spatial env1 xc (Good xrows) fx = x_lost.
Proof. unfold x_lost. reflexivity. Qed.
Definition x_count (X : res (option node_pointer) * file) : res (option node_pointer * N) * file :=
  match X with (Ok root, f) => @compact_spatial env1 xc ebin_cmp None f root 0 f0 | (Err e, f) => (Err e, f) end.
Lemma two_left (X : res (option node_pointer) * file) : match X with (Ok (Some p), f) => fitsb f && match x_count X with (Ok (_, n), _) => n =? 2 | _ => false end | _ => false end = true ->
  exists p f root' f', X = (Ok (Some p), f) /\ fits_file f /\ @compact_spatial env1 xc ebin_cmp None f (Some p) 0 f0 = (Ok (root', 2), f').
Proof.
  destruct X as [[[p|]|e] f]; intros H; try discriminate H. apply andb_prop in H. destruct H as [H1 H2]. cbn [x_count] in H2.
  destruct (@compact_spatial env1 xc ebin_cmp None f (Some p) 0 f0) as [[[root' n]|e] f'] eqn:Hc; [|discriminate H2]. apply N.eqb_eq in H2. subst n. exists p, f, root', f'. split; [reflexivity|]. split; [now apply fitsb_ok|exact Hc].
Qed.
(** A failing write is not always reported: three rows are built into an index that has only two of them, and success is returned (the error of the flush in spatial_finish_root is not looked
    at, src/views/spatial_modify.cc:319). *)
Theorem C64_lost_refuted : exists (E : Env) (C : Coords) number D l f p f', EnvOk E /\ CoordsOk number /\ snappy_works /\ some_file f /\ Forall (spatial_row number D) (rows_of l) /\
  build_spatial (Good l) f = (Ok (Some p), f') /\ fits_file f' /\ ~ spatial_index f' D (Some p) (rows_of l) /\
  lenN l = 3 /\ exists g root' g', compact_spatial ebin_cmp None f' (Some p) 0 g = (Ok (root', 2), g').
Proof.
  destruct (@two_left x_lost) as (p & f & root' & f' & Hx & F & Hc); [vm_compute; reflexivity|]. exists env1, xc, (fun _ => True), 170, xrows, fx, p, f.
  split; [exact env1_ok|]. split; [exact xc_ok|]. split; [exact env1_snappy|]. split; [exists (fun _ => 0), 0, x_plan, CRC32C, None; split; [reflexivity|constructor]|]. split; [exact xrows_ok|].
  rewrite x_lost_eq. split; [exact Hx|]. split; [exact F|]. split; [|split; [reflexivity|exists f0, root', f'; exact Hc]]. intros Hi.
  destruct (@C64_compact env1 xc (fun _ => True) 170 ebin_cmp None f (Some p) (rows_of xrows) 0 f0 env1_ok xc_ok env1_snappy f0_some1 f0_calm ltac:(vm_compute; discriminate) Hi xrows_ok ltac:(discriminate) ltac:(reflexivity))
    as (root2 & f2 & H1 & _). rewrite Hc in H1. change (lenN (kept_rows None (rows_of xrows))) with 3 in H1. change ((0 + 3) mod 2^64) with 3 in H1.
  assert (Hn : 2 = 3) by (clear - H1; congruence). discriminate Hn.
Qed.
Print Assumptions C64_lost_refuted.

(** The assertion of interleave_uint32s admits up to 16383 coordinates (src/views/spatial.cc:209), but the number of bits is kept in 16 bits: for 2048 coordinates all codes are empty, so that all
    keys are equal, and for 2049 coordinates bits are set outside of the bitmap. *)
Theorem C64_interleave_refuted : exists l l' m, lenN l = 2048 /\ lenN l' = 2048 /\ l <> l' /\ uint32s l /\ uint32s l' /\ interleave_uint32s l = Ok [] /\ interleave_uint32s l' = Ok [] /\
  lenN m = 2049 /\ uint32s m /\ interleave_uint32s m = Err E_UB.
Proof.
  exists (repeat 1 (N.to_nat 2048)), (repeat 2 (N.to_nat 2048)), (repeat 1 (N.to_nat 2049)).
  assert (U : forall x n, x < 2^32 -> uint32s (repeat x n)) by (intros x n Hx; apply Forall_forall; intros y Hy; apply repeat_spec in Hy; subst y; exact Hx).
  split; [vm_compute; reflexivity|]. split; [vm_compute; reflexivity|]. split; [intros H; apply (f_equal (hd 0)) in H; vm_compute in H; discriminate H|].
  split; [apply U; reflexivity|]. split; [apply U; reflexivity|]. split; [vm_compute; reflexivity|]. split; [vm_compute; reflexivity|]. split; [vm_compute; reflexivity|]. split; [apply U; reflexivity|vm_compute; reflexivity].
Qed.
Print Assumptions C64_interleave_refuted.
