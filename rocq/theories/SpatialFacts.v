(** Spatial views: the boxes of the nodes, building, searching and compacting an index. *)
From Verif Require Import Base Codec CodecFacts File FileFacts ChunkFacts Btree BtreeRead LookupFacts TreeStore SpecMap MergeFacts ModifyFacts SpecFile DataFacts
  Bitmap SpecUtil UtilFacts ViewCodec Cleanup SpecCleanup CleanupFacts SpecGroup FileMerger ViewGroup Spatial SpecSpatial.
Local Open Scope N_scope.
Unset Strict Implicit.

Section Boxes.
Context {C : Coords}.
Variable number : bytes -> Prop.
Hypothesis CO : CoordsOk number.
Variable D : N.
Notation box := (box number D).
Notation n := (N.to_nat D).

(** The [i]-th double. *)
Definition dbl (m : list bytes) (i : nat) : bytes := nth i m [].
Lemma dbl_cons x m i : dbl (x :: m) (S i) = dbl m i. Proof. reflexivity. Qed.
Lemma dbl_0 x m : dbl (x :: m) 0 = x. Proof. reflexivity. Qed.
Lemma doubles_length k : forall b, length (doubles k b) = k.
Proof. induction k as [|k IH]; intros b; cbn [doubles length]; [reflexivity|now rewrite IH]. Qed.
Lemma doubles_nth k : forall b i, (i < k)%nat -> dbl (doubles k b) i = take 8 (drop (8 * N.of_nat i) b).
Proof.
  induction k as [|k IH]; intros b i Hi; [lia|]. cbn [doubles]. destruct i as [|i]; [reflexivity|]. rewrite dbl_cons, IH by lia. rewrite drop_drop. f_equal. f_equal. lia.
Qed.
Lemma coord_len k i : box k -> i < D -> lenN (coord k i) = 8.
Proof. intros (_ & H & _) Hi. unfold coord. rewrite lenN_take, lenN_drop. lia. Qed.
Lemma decode_box k : box k -> exists m, decode_spatial_key k = Ok m /\ length m = n /\ forall i, (i < n)%nat -> dbl m i = coord k (N.of_nat i).
Proof.
  intros (H1 & H2 & _). unfold decode_spatial_key, rd_be. rewrite getb_ok by lia. cbn [bind]. change (drop 0 k) with k. rewrite H1. rewrite getb_ok by lia. cbn [bind].
  eexists. split; [reflexivity|]. split; [apply doubles_length|]. intros i Hi. rewrite doubles_nth by exact Hi. unfold coord.
  assert (Hs : take (8 * D) (drop 2 k) = take (8 * D - 8 * N.of_nat i + 8 * N.of_nat i) (drop 2 k)) by (f_equal; lia).
  rewrite <- (take_drop (8 * N.of_nat i + 8) (take (8 * D) (drop 2 k))) at 1. rewrite take_take. replace (N.min (8 * N.of_nat i + 8) (8 * D)) with (8 * N.of_nat i + 8) by lia.
  assert (Hl : lenN (take (8 * N.of_nat i + 8) (drop 2 k)) = 8 * N.of_nat i + 8) by (rewrite lenN_take, lenN_drop; lia).
  rewrite drop_app_le by lia. rewrite take_app_le by (rewrite lenN_drop; lia). clear Hs Hl.
  replace (drop (2 + 8 * N.of_nat i) k) with (drop (8 * N.of_nat i) (drop 2 k)) by (rewrite drop_drop; f_equal; lia).
  set (r := drop 2 k). assert (Hr : 8 * D <= lenN r) by (unfold r; rewrite lenN_drop; lia). clearbody r. clear - Hi Hr.
  rewrite <- (take_drop (8 * N.of_nat i + 8) r) at 2. rewrite drop_app_le by (rewrite lenN_take; lia). symmetry. apply take_app_le. rewrite lenN_drop, lenN_take. lia.
Qed.

(** The bounds collected so far. *)
Definition around (m : mbb) (done : list bytes) : Prop :=
  length m = n /\ forall i, (i < n)%nat -> lenN (dbl m i) = 8 /\ number (dbl m i) /\ (exists x, In x done /\ dbl m i = coord x (N.of_nat i)) /\
    forall x, In x done -> if Nat.even i then less (coord x (N.of_nat i)) (dbl m i) = false else less (dbl m i) (coord x (N.of_nat i)) = false.
Lemma irrefl a : number a -> less a a = false.
Proof. intros H. destruct (less a a) eqn:Hl; [|reflexivity]. rewrite <- Hl. exact (co_asym CO H H Hl). Qed.
Lemma expand_length a : forall lower b, length (expand lower a b) = length a.
Proof. induction a as [|x a IH]; intros lower [|y b]; cbn [expand length]; auto. Qed.
Lemma expand_nth a : forall lower b i, length a = length b -> (i < length a)%nat ->
  dbl (expand lower a b) i = if Bool.eqb lower (Nat.even i) then min_of (dbl a i) (dbl b i) else max_of (dbl a i) (dbl b i).
Proof.
  induction a as [|x a IH]; intros lower [|y b] i Hl Hi; cbn [length] in *; try lia. cbn [expand]. destruct i as [|i].
  - rewrite !dbl_0. change (Nat.even 0) with true. destruct lower; reflexivity.
  - rewrite !dbl_cons, IH by lia. rewrite Nat.even_succ, <- Nat.negb_even. destruct lower, (Nat.even i); reflexivity.
Qed.
Lemma around_one k m : box k -> length m = n -> (forall i, (i < n)%nat -> dbl m i = coord k (N.of_nat i)) -> around m [k].
Proof.
  intros B Hl Hm. split; [exact Hl|]. intros i Hi. rewrite (Hm i Hi). pose proof B as (_ & _ & Hn). assert (Hi' : N.of_nat i < D) by lia. split; [exact (coord_len B Hi')|].
  split; [exact (Hn _ Hi')|]. split; [exists k; split; [now left|reflexivity]|]. intros x [->|[]]. rewrite (irrefl (Hn _ Hi')). now destruct (Nat.even i).
Qed.
Lemma around_more m done k b : around m done -> (forall x, In x done -> box x) -> box k -> length b = n -> (forall i, (i < n)%nat -> dbl b i = coord k (N.of_nat i)) -> around (expand true m b) (done ++ [k]).
Proof.
  intros [Hl Hm] Hd B Hb Hk. split; [now rewrite expand_length|]. intros i Hi. rewrite expand_nth by lia. rewrite (Hk i Hi). assert (Hi' : N.of_nat i < D) by lia.
  destruct (Hm i Hi) as (M1 & M2 & (y & M3 & M3') & M4). pose proof B as (_ & _ & Hn). pose proof (Hn _ Hi') as Hnk. pose proof (coord_len B Hi') as Hlk.
  assert (NX : forall x, In x done -> number (coord x (N.of_nat i))) by (intros x Hx; destruct (Hd x Hx) as (_ & _ & H); exact (H _ Hi')).
  destruct (Nat.even i); cbn [Bool.eqb]; [unfold min_of|unfold max_of].
  - destruct (less (coord k (N.of_nat i)) (dbl m i)) eqn:Hlt.
    + split; [exact Hlk|]. split; [exact Hnk|]. split; [exists k; split; [apply in_or_app; right; now left|reflexivity]|].
      intros x Hx. apply in_app_or in Hx. destruct Hx as [Hx|[<-|[]]]; [|exact (irrefl Hnk)].
      destruct (less (coord x (N.of_nat i)) (coord k (N.of_nat i))) eqn:Hc; [|reflexivity].
      destruct (co_dense CO (NX x Hx) M2 Hnk Hc) as [H|H]; [now rewrite (M4 x Hx) in H|]. now rewrite (co_asym CO M2 Hnk H) in Hlt.
    + split; [exact M1|]. split; [exact M2|]. split; [exists y; split; [apply in_or_app; now left|exact M3']|].
      intros x Hx. apply in_app_or in Hx. destruct Hx as [Hx|[<-|[]]]; [exact (M4 x Hx)|exact Hlt].
  - destruct (less (dbl m i) (coord k (N.of_nat i))) eqn:Hlt.
    + split; [exact Hlk|]. split; [exact Hnk|]. split; [exists k; split; [apply in_or_app; right; now left|reflexivity]|].
      intros x Hx. apply in_app_or in Hx. destruct Hx as [Hx|[<-|[]]]; [|exact (irrefl Hnk)].
      destruct (less (coord k (N.of_nat i)) (coord x (N.of_nat i))) eqn:Hc; [|reflexivity].
      destruct (co_dense CO Hnk M2 (NX x Hx) Hc) as [H|H]; [|now rewrite (M4 x Hx) in H]. now rewrite (co_asym CO M2 Hnk Hlt) in H.
    + split; [exact M1|]. split; [exact M2|]. split; [exists y; split; [apply in_or_app; now left|exact M3']|].
      intros x Hx. apply in_app_or in Hx. destruct Hx as [Hx|[<-|[]]]; [exact (M4 x Hx)|exact Hlt].
Qed.
Lemma enclose_ok ks : forall m done, around m done -> (forall x, In x done -> box x) -> Forall box ks -> exists m', enclose m ks = Ok m' /\ around m' (done ++ ks).
Proof.
  induction ks as [|k ks IH]; intros m done A Hd Hk; cbn [enclose]; [exists m; rewrite app_nil_r; auto|]. inversion Hk as [|? ? B Hk']; subst.
  destruct (decode_box B) as (b & -> & Hb & Hb'). cbn [bind]. unfold expand_mbb. assert (He : lenN m =? lenN b = true) by (apply N.eqb_eq; unfold lenN; rewrite Hb, (proj1 A); reflexivity).
  rewrite He. cbn [negb bind]. destruct (IH (expand true m b) (done ++ [k])) as (m' & H1 & H2).
  - apply around_more; assumption.
  - intros x Hx. apply in_app_or in Hx. destruct Hx as [Hx|[<-|[]]]; auto.
  - exact Hk'.
  - exists m'. split; [exact H1|]. now rewrite <- app_assoc in H2.
Qed.
Lemma concat_drop (m : list bytes) i : Forall (fun x => lenN x = 8) m -> (i < length m)%nat -> take 8 (drop (8 * N.of_nat i) (concat m)) = dbl m i.
Proof.
  intros H. revert i. induction H as [|x m Hx H IH]; intros i Hi; cbn [length] in Hi; [lia|]. cbn [concat]. destruct i as [|i].
  - change (drop (8 * N.of_nat 0) (x ++ concat m)) with (x ++ concat m). rewrite dbl_0. apply take_app_exact. now symmetry.
  - rewrite dbl_cons. rewrite drop_app_ge by lia. rewrite Hx. replace (8 * N.of_nat (S i) - 8) with (8 * N.of_nat i) by lia. apply IH. lia.
Qed.
Lemma concat_len (m : list bytes) : Forall (fun x => lenN x = 8) m -> lenN (concat m) = 8 * lenN m.
Proof. induction 1 as [|x m Hx H IH]; [reflexivity|]. cbn [concat]. rewrite lenN_app, lenN_cons, IH, Hx. unfold bytes. lia. Qed.
Lemma even_of i : N.even (N.of_nat i) = Nat.even i.
Proof.
  destruct (Nat.even i) eqn:He.
  - apply Nat.even_spec in He. destruct He as [j ->]. rewrite N.even_spec. exists (N.of_nat j). lia.
  - rewrite <- Nat.negb_odd in He. apply negb_false_iff, Nat.odd_spec in He. destruct He as [j ->]. rewrite <- N.negb_odd. apply negb_false_iff, N.odd_spec. exists (N.of_nat j). lia.
Qed.
Lemma reduce_ok ks : ks <> [] -> Forall box ks -> 2 + 8 * D < 2^12 ->
  exists k, view_spatial_reduce ks (lenN ks) = Ok k /\ lenN k = 2 + 8 * D /\ box k /\ smallest_box D k ks.
Proof.
  intros Hne Hb HD. destruct ks as [|k0 ks]; [congruence|]. inversion Hb as [|? ? B Hb']; subst. cbn [view_spatial_reduce]. destruct (decode_box B) as (m0 & -> & H0 & H0'). cbn [bind].
  rewrite lenN_cons. replace (1 + lenN ks - 1) with (lenN ks) by lia. rewrite take_all by lia.
  destruct (enclose_ok (m := m0) (done := [k0]) (ks := ks)) as (m & -> & Hl & Hm).
  { exact (around_one B H0 H0'). } { intros x [<-|[]]; exact B. } { exact Hb'. }
  cbn [bind]. unfold encode_spatial_key. assert (Hlen : lenN m = D) by (unfold lenN; rewrite Hl; lia). rewrite Hlen. change (2^12) with 4096 in HD.
  destruct (N.ltb_spec MAX_REDUCTION (D * 8)) as [Hx|_]; [change MAX_REDUCTION with 65535 in Hx; lia|].
  assert (H8 : Forall (fun x => lenN x = 8) m).
  { apply Forall_forall. intros x Hx. apply In_nth with (d := []) in Hx. destruct Hx as (i & Hi & <-). change (nth i m []) with (dbl m i). apply Hm. now rewrite <- Hl. }
  assert (Hco : forall i, (i < n)%nat -> coord (be 2 D ++ concat m) (N.of_nat i) = dbl m i).
  { intros i Hi. unfold coord. rewrite drop_app_ge by (rewrite lenN_be; lia). rewrite lenN_be. replace (2 + 8 * N.of_nat i - N.of_nat 2) with (8 * N.of_nat i) by lia. apply concat_drop; [exact H8|lia]. }
  assert (Hnat : forall i, i < D -> exists j, i = N.of_nat j /\ (j < n)%nat) by (intros i Hi; exists (N.to_nat i); lia).
  eexists. split; [reflexivity|]. split; [rewrite lenN_app, lenN_be, concat_len by exact H8; lia|]. split; [|split].
  - split; [|split].
    + rewrite take_app_exact by (rewrite lenN_be; reflexivity). apply unbe_be_small. change (256 ^ N.of_nat 2) with 65536. lia.
    + rewrite lenN_app, lenN_be, concat_len by exact H8. lia.
    + intros i Hi. destruct (Hnat i Hi) as (j & -> & Hj). rewrite Hco by exact Hj. apply Hm. exact Hj.
  - intros x Hx i Hi. destruct (Hnat i Hi) as (j & -> & Hj). rewrite Hco by exact Hj. rewrite even_of. apply Hm; [exact Hj|exact Hx].
  - intros i Hi. destruct (Hnat i Hi) as (j & -> & Hj). rewrite Hco by exact Hj. destruct (Hm j Hj) as (_ & _ & H & _). exact H.
Qed.

Lemma encloses_trans a b c : box a -> box b -> box c -> encloses D a b -> encloses D b c -> encloses D a c.
Proof.
  intros (_ & _ & Na) (_ & _ & Nb) (_ & _ & Nc) H1 H2 i Hi. specialize (H1 i Hi). specialize (H2 i Hi). pose proof (Na i Hi) as A. pose proof (Nb i Hi) as B. pose proof (Nc i Hi) as X.
  destruct (N.even i).
  - destruct (less (coord c i) (coord a i)) eqn:Hl; [|reflexivity]. destruct (co_dense CO X B A Hl) as [H|H]; congruence.
  - destruct (less (coord a i) (coord c i)) eqn:Hl; [|reflexivity]. destruct (co_dense CO A B X Hl) as [H|H]; congruence.
Qed.
Lemma smallest_concat k ks kss : box k -> Forall box ks -> Forall2 (fun a l => Forall box l /\ smallest_box D a l) ks kss -> smallest_box D k ks -> smallest_box D k (concat kss).
Proof.
  intros Bk Bs F [S1 S2]. split.
  - intros x Hx. apply in_concat in Hx. destruct Hx as (l & Hl & Hx).
    assert (Hex : exists a, In a ks /\ Forall box l /\ smallest_box D a l).
    { clear - F Hl. induction F as [|a l0 ks kss H F IH]; [destruct Hl|]. destruct Hl as [->|Hl]; [exists a; split; [now left|exact H]|]. destruct (IH Hl) as (a' & H1 & H2). exists a'. split; [now right|exact H2]. }
    destruct Hex as (a & Ha & Hbl & Sa & _). rewrite Forall_forall in Bs, Hbl. eapply encloses_trans; [exact Bk|exact (Bs a Ha)|exact (Hbl x Hx)|exact (S1 a Ha)|exact (Sa x Hx)].
  - intros i Hi. destruct (S2 i Hi) as (a & Ha & ->).
    assert (Hex : exists l, In l kss /\ smallest_box D a l).
    { clear - F Ha. induction F as [|a0 l0 ks kss H F IH]; [destruct Ha|]. destruct Ha as [->|Ha]; [exists l0; split; [now left|exact (proj2 H)]|]. destruct (IH Ha) as (l & H1 & H2). exists l. split; [now right|exact H2]. }
    destruct Hex as (l & Hl & _ & Sb). destruct (Sb i Hi) as (x & Hx & ->). exists x. split; [apply in_concat; exists l; auto|reflexivity].
Qed.

(** ** Searching *)

Lemma meets_row w k x : box w -> box k -> box x -> encloses D k x -> meets D w x = true -> meets D w k = true.
Proof.
  intros (_ & _ & Nw) (_ & _ & Nk) (_ & _ & Nx) He Hm. unfold meets in *. rewrite forallb_forall in Hm |- *. intros j Hj. specialize (Hm j Hj). apply in_seq in Hj.
  assert (H1 : 2 * N.of_nat j < D /\ 2 * N.of_nat j + 1 < D).
  { destruct Hj as [_ Hj]. cbn in Hj. assert (Hd : N.of_nat j < D / 2) by lia. pose proof (N.mul_div_le D 2). lia. }
  destruct H1 as [H1 H2]. pose proof (He _ H1) as E1. pose proof (He _ H2) as E2.
  rewrite N.even_mul in E1. cbn [N.even orb] in E1. rewrite N.even_add, N.even_mul in E2. cbn [N.even orb Bool.eqb] in E2.
  apply andb_true_iff in Hm. destruct Hm as [M1 M2]. apply negb_true_iff in M1, M2. apply andb_true_iff. split; apply negb_true_iff.
  - destruct (less (coord w (2 * N.of_nat j + 1)) (coord k (2 * N.of_nat j))) eqn:Hl; [|reflexivity]. destruct (co_dense CO (Nw _ H2) (Nx _ H1) (Nk _ H1) Hl) as [H|H]; congruence.
  - destruct (less (coord k (2 * N.of_nat j + 1)) (coord w (2 * N.of_nat j))) eqn:Hl; [|reflexivity]. destruct (co_dense CO (Nk _ H2) (Nx _ H2) (Nw _ H1) Hl) as [H|H]; congruence.
Qed.
End Boxes.

(** ** Writing *)

Section Build.
Context {E : Env} (EO : EnvOk E) {C : Coords}.
Variable number : bytes -> Prop.
Hypothesis CO : CoordsOk number.
Variable D : N.
Hypothesis HD : 2 + 8 * D < 2^12.
Hypothesis SW : snappy_works.
Notation box := (box number D).
Notation row := (spatial_row number D).

Definition okst (s : st) : Prop := good (st_f s) /\ calm (st_f s) /\ crcm (st_f s) <> CRC_UNKNOWN.
(** The operation succeeds. *)
Definition runs {A} (x : M A) (s : st) (Q : A -> st -> Prop) : Prop :=
  exists a s', x s = (Ok a, s') /\ okst s' /\ le (st_f s) (st_f s') /\ Q a s'.
Lemma runs_ret A (a : A) s (Q : A -> st -> Prop) : okst s -> Q a s -> runs (ret a) s Q.
Proof. intros O H. exists a, s. split; [reflexivity|]. split; [exact O|]. split; [apply le_refl; exact (proj1 O)|exact H]. Qed.
Lemma runs_bind A B (x : M A) (k : A -> M B) s Q R : runs x s Q -> (forall a s1, okst s1 -> le (st_f s) (st_f s1) -> Q a s1 -> runs (k a) s1 R) -> runs (bindM x k) s R.
Proof.
  intros (a & s1 & H1 & O1 & L1 & Q1) Hk. destruct (Hk a s1 O1 L1 Q1) as (b & s2 & H2 & O2 & L2 & Q2). exists b, s2. split; [unfold bindM; now rewrite H1|]. split; [exact O2|].
  split; [exact (le_trans L1 L2)|exact Q2].
Qed.
Lemma runs_weaken A (x : M A) s (Q R : A -> st -> Prop) : runs x s Q -> (forall a s', okst s' -> le (st_f s) (st_f s') -> Q a s' -> R a s') -> runs x s R.
Proof. intros (a & s1 & H1 & O1 & L1 & Q1) H. exists a, s1. auto 10. Qed.
Lemma runs_write b s : okst s -> lenN b < 2^30 ->
  runs (write_node b) s (fun w s' => fst w = fpos (st_f s) /\ fst w < fpos (st_f s') /\ (fin (st_f s') -> exists sz, hasz (st_f s') (fst w) b sz)).
Proof.
  intros (G & Ca & Cr) Hb. destruct (SW Hb) as (z & Hz & Hl). destruct (db_write_buf_calm z Ca Cr Hl) as (p & sz & f' & Hw & Ca').
  exists (p, sz), (St f' (st_ev s) (st_en s)). unfold write_node, db_write_buf_compressed. rewrite Hz, Hw. split; [reflexivity|].
  destruct (db_write_buf_spec EO _ G Hw) as [L Hs]. destruct (Hs _ _ eq_refl) as (H1 & H2 & H3 & H4 & _). cbn [st_f fst]. split.
  - split; [exact (le_good L)|]. split; [exact Ca'|]. cbn [st_f]. destruct L as (X & _). now rewrite (ex_crcm X).
  - split; [exact L|]. split; [exact H1|]. split; [exact H2|]. intros [F _]. eexists. exists z. split; [exact (H3 F)|]. split; [exact (ok_compress EO _ Hz)|reflexivity].
Qed.

(** Stored trees; what concerns the contents of the file holds if its size can be represented. *)
Fixpoint stree (f : file) (d : nat) (p : node_pointer) (rows : list kv) : Prop :=
  np_reduce p = np_key p /\ lenN (np_key p) = 2 + 8 * D /\ box (np_key p) /\ smallest_box D (np_key p) (map fst rows) /\ np_pointer p < fpos f /\ Forall row rows /\ rows <> [] /\
  match d with
  | O => fin f -> exists sz, hasz f (np_pointer p) (mk_node KV_NODE rows) sz
  | S d' => exists cs ks, Forall2 (stree f d') cs ks /\ rows = concat ks /\ Forall (fun c => np_pointer c < np_pointer p) cs /\
      (fin f -> exists sz, hasz f (np_pointer p) (mk_node KP_NODE (map kp_entry cs)) sz)
  end.
Lemma stree_head f d p rows : stree f d p rows ->
  np_reduce p = np_key p /\ lenN (np_key p) = 2 + 8 * D /\ box (np_key p) /\ smallest_box D (np_key p) (map fst rows) /\ np_pointer p < fpos f /\ Forall row rows /\ rows <> [].
Proof. destruct d; intros (H1 & H2 & H3 & H4 & H5 & H6 & H7 & _); auto 10. Qed.
Lemma le_fin f f' : le f f' -> fin f' -> fin f.
Proof. intros (X & H & _) [B F]. split; [exact (ex_big X B)|lia]. Qed.
Lemma stree_le f f' : le f f' -> forall d p rows, stree f d p rows -> stree f' d p rows.
Proof.
  intros L. assert (Hp : fpos f <= fpos f') by exact (proj1 (proj2 L)).
  induction d as [|d IH]; intros p rows (H1 & H2 & H3 & H4 & H5 & H6 & H7 & H8); cbn [stree]; (do 4 (split; [assumption|]); split; [lia|]; do 2 (split; [assumption|])).
  - intros F. destruct (H8 (le_fin L F)) as (sz & Hh). exists sz. exact (hasz_le L Hh).
  - destruct H8 as (cs & ks & A1 & A2 & A3 & A4). exists cs, ks. split; [revert A1; apply Forall2_impl; exact IH|]. split; [exact A2|]. split; [exact A3|].
    intros F. destruct (A4 (le_fin L F)) as (sz & Hh). exists sz. exact (hasz_le L Hh).
Qed.

Definition srep (f : file) (leaf : bool) (d : nat) (i : item) (ks : list kv) : Prop :=
  if leaf then exists x, i = kv_item x /\ ks = [x] /\ row x else exists p, i = ptr_item p /\ stree f d p ks.
Record smr (f : file) (leaf : bool) (d : nat) (m : mr) (rows : list kv) : Prop := {
  so_type : m_type m = ty_of leaf;
  so_len : m_len m = isum (m_vals m);
  so_count : m_count m = lenN (m_vals m);
  so_mod : m_mod m = true;
  so_cont : exists k1 k2, Forall2 (stree f (lev leaf d)) (m_ptrs m) k1 /\ Forall2 (srep f leaf d) (m_vals m) k2 /\ rows = concat k1 ++ concat k2
}.
Lemma srep_le f f' leaf d i ks : le f f' -> srep f leaf d i ks -> srep f' leaf d i ks.
Proof. intros L. destruct leaf; cbn; [auto|]. intros (p & H1 & H2). exists p. split; [exact H1|]. exact (stree_le L H2). Qed.
Lemma smr_le f f' leaf d m rows : le f f' -> smr f leaf d m rows -> smr f' leaf d m rows.
Proof.
  intros L [H1 H2 H3 H4 (k1 & k2 & H5 & H6 & H7)]. constructor; auto. exists k1, k2. split; [|split; [|exact H7]].
  - revert H5. apply Forall2_impl. intros. eapply stree_le; eassumption.
  - revert H6. apply Forall2_impl. intros. eapply srep_le; eassumption.
Qed.
Lemma smr_empty f leaf d : smr f leaf d (set_mod (make_modres (ty_of leaf))) [].
Proof. constructor; auto. exists [], []. cbn. auto. Qed.
Lemma sreps_leaf f d l ks : Forall2 (srep f true d) l ks -> exists kvs, l = map kv_item kvs /\ concat ks = kvs /\ Forall row kvs.
Proof.
  induction 1 as [|i k l ks H _ (kvs & -> & H2 & H3)]; [exists []; auto|].
  destruct H as (x & -> & -> & Hx). exists (x :: kvs). cbn. rewrite H2. auto.
Qed.
Lemma sreps_inner f d l ks : Forall2 (srep f false d) l ks -> exists cs, l = map ptr_item cs /\ Forall2 (stree f d) cs ks.
Proof.
  induction 1 as [|i k l ks H _ (cs & -> & H2)]; [exists []; auto|].
  destruct H as (p & -> & Hp). exists (p :: cs). cbn. auto.
Qed.
Lemma take_spatial_all kp l : forall cnt, isum l < 2^64 -> take_spatial kp (isum l) cnt l = (l, []).
Proof.
  induction l as [|i l IH]; intros cnt H; [reflexivity|]. cbn [take_spatial]. rewrite isum_cons in *. pose proof (item_size_pos i) as Hi.
  destruct (N.ltb_spec 0 (item_size i + isum l)) as [_|Hx]; [|lia]. cbn [orb].
  rewrite (N.mod_small (item_size i)) by lia. replace (item_size i + isum l + 2^64 - item_size i) with (isum l + 1 * 2^64) by lia.
  rewrite N.mod_add by discriminate. rewrite N.mod_small by lia. rewrite IH by lia. reflexivity.
Qed.
(** The keys of the entries are boxes, and the smallest box around them is the smallest box around the rows. *)
Lemma sreps_keys f leaf d l ks : Forall2 (srep f leaf d) l ks -> Forall box (map it_key l) /\ Forall row (concat ks) /\
  forall k, box k -> smallest_box D k (map it_key l) -> smallest_box D k (map fst (concat ks)).
Proof.
  destruct leaf; intros H.
  - destruct (sreps_leaf H) as (kvs & -> & -> & Hr). rewrite map_map. cbn [kv_item it_key]. split; [|split; [exact Hr|auto]].
    apply Forall_forall. intros x Hx. apply in_map_iff in Hx. destruct Hx as (y & <- & Hy). rewrite Forall_forall in Hr. exact (proj1 (Hr y Hy)).
  - destruct (sreps_inner H) as (cs & -> & Hc). rewrite map_map. cbn [ptr_item it_key]. clear H.
    assert (H1 : Forall box (map np_key cs)) by (clear - Hc; induction Hc as [|c k cs ks H _ IH]; cbn [map]; constructor; [exact (proj1 (proj2 (proj2 (stree_head H))))|exact IH]).
    assert (H2 : Forall row (concat ks)).
    { clear - Hc. induction Hc as [|c k cs ks H _ IH]; cbn [concat]; [constructor|]. apply Forall_app. split; [|exact IH]. destruct (stree_head H) as (_ & _ & _ & _ & _ & Hr & _). exact Hr. }
    split; [exact H1|]. split; [exact H2|]. intros k Bk Sk.
    assert (Hm : map fst (concat ks) = concat (map (map fst) ks)) by apply concat_map. rewrite Hm.
    eapply (smallest_concat CO); [exact Bk|exact H1| |exact Sk]. clear - Hc. induction Hc as [|c k cs ks H _ IH]; cbn [map]; constructor; [|exact IH].
    destruct (stree_head H) as (_ & _ & _ & Hs & _ & Hr & _). split; [|exact Hs]. apply Forall_forall. intros x Hx. apply in_map_iff in Hx. destruct Hx as (y & <- & Hy). rewrite Forall_forall in Hr. exact (proj1 (Hr y Hy)).
Qed.
Lemma sreps_nonempty f leaf d l ks : Forall2 (srep f leaf d) l ks -> l <> [] -> concat ks <> [].
Proof.
  intros H Hn. destruct H as [|i k l ks H1 _]; [congruence|]. cbn [concat]. intros Hx. apply app_eq_nil in Hx. destruct Hx as [-> _].
  destruct leaf; [destruct H1 as (x & _ & Hx & _); discriminate|]. destruct H1 as (p & _ & T). destruct (stree_head T) as (_ & _ & _ & _ & _ & _ & H). congruence.
Qed.

Lemma runs_flush leaf d m rows s : okst s -> smr (st_f s) leaf d m rows -> isum (m_vals m) < 2^29 ->
  runs (flush_spatial m) s (fun m' s' => smr (st_f s') leaf d m' rows /\ m_vals m' = [] /\ length (m_ptrs m') = (length (m_ptrs m) + match m_vals m with [] => 0 | _ => 1 end)%nat).
Proof.
  intros O Sm Hs. pose proof Sm as [Ht Hl Hc Hm (k1 & k2 & H5 & H6 & H7)]. unfold flush_spatial, flush_spatial_partial. destruct (m_vals m) as [|i0 l0] eqn:Hv.
  - apply runs_ret; [exact O|]. split; [exact Sm|]. split; [exact Hv|lia].
  - rewrite Hm. cbn [negb]. change (2^29) with 536870912 in Hs. rewrite Hl, take_spatial_all by lia. set (l := i0 :: l0) in *.
    assert (Hb : lenN (mk_node (m_type m) (map kv_of l)) = 1 + isum l) by apply lenN_mk_node.
    eapply runs_bind. { apply runs_write; [exact O|]. rewrite Hb. change (2^30) with 1073741824. lia. }
    intros [pos disk] s1 O1 L1 (W1 & W2 & W3). cbn [fst snd] in *.
    destruct (sreps_keys H6) as (K1 & K2 & K3). destruct (reduce_ok CO (D := D) (ks := map it_key l)) as (k & R1 & R2 & R3 & R4); [discriminate|exact K1|exact HD|].
    assert (Hlen : lenN (map it_key l) = lenN l) by (unfold lenN; now rewrite map_length). rewrite Hlen in R1. rewrite R1.
    eapply runs_bind with (Q := fun a s' => a = k /\ s' = s1). { exists k, s1. split; [reflexivity|]. split; [exact O1|]. split; [apply le_refl; exact (proj1 O1)|auto]. }
    intros a s2 O2 _ [-> ->]. apply runs_ret; [exact O1|]. rewrite Hb.
    assert (T : stree (st_f s1) (lev leaf d) (NodePointer k pos k ((sub_sum l + disk) mod 2^64)) (concat k2)).
    { assert (Hne : concat k2 <> []) by (eapply sreps_nonempty; [exact H6|discriminate]).
      destruct leaf; cbn [lev stree np_reduce np_key np_pointer].
      - do 3 (split; [auto|]). split; [exact (K3 k R3 R4)|]. split; [exact W2|]. split; [exact K2|]. split; [exact Hne|]. intros F. destruct (W3 F) as (sz & Hh). exists sz.
        destruct (sreps_leaf H6) as (kvs & Hk & <- & _). rewrite Hk, kv_of_kv, Ht in Hh. exact Hh.
      - do 3 (split; [auto|]). split; [exact (K3 k R3 R4)|]. split; [exact W2|]. split; [exact K2|]. split; [exact Hne|].
        destruct (sreps_inner H6) as (cs & Hk & Hcs). exists cs, k2. split; [revert Hcs; apply Forall2_impl; intros; eapply stree_le; eassumption|]. split; [reflexivity|]. split.
        + clear - Hcs W1. apply Forall_forall. intros c Hin. assert (Hp : forall l, Forall2 (stree (st_f s) d) cs l -> np_pointer c < fpos (st_f s)).
          { clear Hcs. induction cs as [|c0 cs IH]; intros l H; [destruct Hin|]. inversion H as [|? k ? ks A B]; subst. destruct Hin as [->|Hin]; [|exact (IH Hin ks B)]. destruct (stree_head A) as (_ & _ & _ & _ & Hp & _). exact Hp. }
          rewrite W1. exact (Hp _ Hcs).
        + intros F. destruct (W3 F) as (sz & Hh). exists sz. rewrite Hk, kv_of_ptr, Ht in Hh. exact Hh. }
    split; [|split; [reflexivity|cbn [m_ptrs]; rewrite app_length; reflexivity]]. constructor; cbn [m_type m_len m_vals m_count m_mod m_ptrs]; [exact Ht| |rewrite Hc; change (lenN (@nil item)) with 0; lia|reflexivity|].
    + change (isum []) with 0. lia.
    + exists (k1 ++ [concat k2]), []. split; [|split; [constructor|]].
      * apply Forall2_app; [revert H5; apply Forall2_impl; intros; eapply stree_le; eassumption|]. constructor; [exact T|constructor].
      * rewrite H7, concat_app. cbn [concat]. now rewrite !app_nil_r.
Qed.

Lemma row_size x : row x -> item_size (kv_item x) < 2^28 + 2^12 + 5.
Proof. intros (_ & H1 & H2). unfold item_size. cbn [kv_item it_key it_data]. lia. Qed.
Lemma ptr_size f d p ks : stree f d p ks -> item_size (ptr_item p) < 8300.
Proof. intros T. destruct (stree_head T) as (H1 & H2 & _). unfold item_size. cbn [ptr_item it_key it_data]. rewrite lenN_encode_pointer, H1, H2. change (2^12) with 4096 in HD. lia. Qed.

Definition weight (m : mr) : nat := (2 * length (m_ptrs m) + length (m_vals m))%nat.
Lemma runs_push leaf d m rows i ks s : okst s -> smr (st_f s) leaf d m rows -> isum (m_vals m) <= 9600 -> srep (st_f s) leaf d i ks ->
  runs (spatial_push spatial_request i m) s (fun m' s' => smr (st_f s') leaf d m' (rows ++ ks) /\ isum (m_vals m') <= 9600 /\
     (leaf = false -> (weight m' <= weight m + 1)%nat) /\ (m_ptrs m' <> [] \/ m_vals m' <> [])).
Proof.
  intros O [Ht Hl Hc Hm (k1 & k2 & H5 & H6 & H7)] Hs Hi. unfold spatial_push.
  set (m1 := Mr (m_vals m ++ [i]) (m_ptrs m) (m_len m + item_size i) (m_count m + 1) (m_mod m) (m_type m)).
  assert (S1 : smr (st_f s) leaf d m1 (rows ++ ks)).
  { constructor; cbn [m1 m_type m_len m_vals m_count m_mod m_ptrs]; auto.
    - rewrite isum_app, isum_cons. change (isum []) with 0. lia.
    - rewrite lenN_app, lenN_cons. change (lenN (@nil item)) with 0. lia.
    - exists k1, (k2 ++ [ks]). split; [exact H5|]. split; [apply Forall2_app; [exact H6|constructor; [exact Hi|constructor]]|]. rewrite H7, concat_app. cbn [concat]. now rewrite app_nil_r, app_assoc. }
  assert (Hsz : item_size i < 2^28 + 2^12 + 5).
  { destruct leaf; [destruct Hi as (x & -> & _ & Hx); exact (row_size Hx)|]. destruct Hi as (p & -> & T). pose proof (ptr_size T). change (2^28 + 2^12 + 5) with 268439557. lia. }
  assert (Hi1 : isum (m_vals m1) = isum (m_vals m) + item_size i) by (cbn [m1 m_vals]; rewrite isum_app, isum_cons; change (isum []) with 0; lia).
  change (2^28 + 2^12 + 5) with 268439557 in Hsz.
  assert (Hne : m_vals m1 <> []) by (cbn [m1 m_vals]; intros Hx; apply app_eq_nil in Hx; destruct Hx; discriminate).
  unfold maybe_flush_spatial. cbn [spatial_request r_compact]. set (go := m_mod m1 && _).
  destruct go eqn:Hgo.
  - eapply runs_weaken. { eapply runs_flush; [exact O|exact S1|rewrite Hi1; change (2^29) with 536870912; lia]. }
    intros m' s' O' L' (A1 & A2 & A3). split; [exact A1|]. rewrite A2. split; [change (isum []) with 0; lia|].
    assert (Hp : (length (m_ptrs m') = length (m_ptrs m) + 1)%nat) by (rewrite A3; destruct (m_vals m1); [congruence|reflexivity]).
    split; [|left; intros Hx; rewrite Hx in Hp; cbn [length] in Hp; lia]. intros ->. unfold go in Hgo. apply andb_true_iff in Hgo. destruct Hgo as [_ Hgo].
    assert (Ht1 : m_type m1 = KP_NODE) by exact Ht. rewrite Ht1 in Hgo. change (KP_NODE =? KV_NODE) with false in Hgo. cbn [andb orb] in Hgo. apply andb_true_iff in Hgo. destruct Hgo as [_ Hgo]. apply N.ltb_lt in Hgo.
    cbn [m1 m_count] in Hgo. unfold weight. rewrite A2, Hp. cbn [length]. rewrite Hc in Hgo. unfold lenN in Hgo. lia.
  - apply runs_ret; [exact O|]. split; [exact S1|]. split; [|split; [intros _; unfold weight; cbn [m1 m_vals m_ptrs]; rewrite app_length; cbn [length]; lia|right; exact Hne]].
    unfold go in Hgo. assert (Hm1 : m_mod m1 = true) by exact Hm. rewrite Hm1 in Hgo. cbn [andb] in Hgo. apply orb_false_iff in Hgo. destruct Hgo as [G1 G2].
    assert (Ht1 : m_type m1 = ty_of leaf) by exact Ht. assert (Hl1 : m_len m1 = isum (m_vals m1)) by exact (so_len S1). rewrite Ht1, Hl1 in G1, G2. destruct leaf.
    + change (ty_of true =? KV_NODE) with true in G1. cbn [andb] in G1. apply N.ltb_ge in G1. cbn [spatial_request r_kv] in G1. change ((VIEW_KV + VIEW_KV / 3) * 2 / 3) with 6371 in G1. lia.
    + change (ty_of false =? KP_NODE) with true in G2. cbn [andb] in G2. apply andb_false_iff in G2. destruct G2 as [G2|G2].
      * apply N.ltb_ge in G2. cbn [spatial_request r_kp] in G2. change ((VIEW_KP + VIEW_KP / 3) * 2 / 3) with 5461 in G2. lia.
      * apply N.ltb_ge in G2. cbn [m1 m_count] in G2. rewrite Hc in G2. assert (Hz : m_vals m = []) by (destruct (m_vals m); [reflexivity|rewrite lenN_cons in G2; lia]).
        rewrite Hi1, Hz. change (isum []) with 0. destruct Hi as (p & -> & T). pose proof (ptr_size T). lia.
Qed.
Lemma runs_rows d l : forall m rows s, okst s -> smr (st_f s) true d m rows -> isum (m_vals m) <= 9600 -> Forall row l ->
  runs (foldM (fun x m => spatial_push_item spatial_request (fst x) (snd x) m) l m) s (fun m' s' => smr (st_f s') true d m' (rows ++ l) /\ isum (m_vals m') <= 9600).
Proof.
  induction l as [|[k v] l IH]; intros m rows s O Sm Hs Hl; cbn [foldM].
  - apply runs_ret; [exact O|]. rewrite app_nil_r. auto.
  - inversion Hl as [|? ? H1 H2]; subst. eapply runs_bind. { eapply runs_push with (leaf := true) (ks := [(k, v)]); [exact O|exact Sm|exact Hs|exists (k, v); auto]. }
    intros m1 s1 O1 L1 (A1 & A2 & _). eapply runs_weaken; [exact (IH m1 _ s1 O1 A1 A2 H2)|]. intros m2 s2 _ _ (B1 & B2). rewrite <- app_assoc in B1. auto.
Qed.
Lemma runs_move d ps : forall m rows ks s, okst s -> smr (st_f s) false d m rows -> isum (m_vals m) <= 9600 -> Forall2 (stree (st_f s) d) ps ks ->
  runs (spatial_move_pointers spatial_request ps m) s (fun m' s' => smr (st_f s') false d m' (rows ++ concat ks) /\ isum (m_vals m') <= 9600 /\ (weight m' <= weight m + length ps)%nat /\
     (ps <> [] -> m_ptrs m' <> [] \/ m_vals m' <> [])).
Proof.
  unfold spatial_move_pointers. induction ps as [|p ps IH]; intros m rows ks s O Sm Hs Hp; cbn [foldM].
  - inversion Hp; subst. apply runs_ret; [exact O|]. cbn [concat length]. rewrite app_nil_r. split; [exact Sm|]. split; [exact Hs|]. split; [lia|congruence].
  - inversion Hp as [|? k ? ks' H1 H2]; subst. eapply runs_bind. { eapply runs_push with (leaf := false) (ks := k); [exact O|exact Sm|exact Hs|exists p; auto]. }
    intros m1 s1 O1 L1 (A1 & A2 & A3 & A4). specialize (A3 eq_refl).
    eapply runs_weaken; [apply (IH m1 _ ks' s1 O1 A1 A2); revert H2; apply Forall2_impl; intros; eapply stree_le; eassumption|].
    intros m2 s2 _ _ (B1 & B2 & B3 & B4). cbn [concat length]. rewrite <- app_assoc in B1. split; [exact B1|]. split; [exact B2|]. split; [lia|]. intros _. destruct ps as [|p' ps]; [|apply B4; discriminate].
    inversion H2; subst. cbn [concat] in B1. rewrite app_nil_r in B1.
    destruct (m_ptrs m2) as [|? ?] eqn:X1; [|left; discriminate]. destruct (m_vals m2) as [|? ?] eqn:X2; [|right; discriminate].
    exfalso. destruct B1 as [_ _ _ _ (k1 & k2 & Y1 & Y2 & Y3)]. rewrite X1 in Y1. rewrite X2 in Y2. inversion Y1; subst k1. inversion Y2; subst k2. cbn in Y3. apply app_eq_nil in Y3. destruct Y3 as [_ Y3].
    destruct (stree_head H1) as (_ & _ & _ & _ & _ & _ & Hk). congruence.
Qed.

Lemma smr_flushed f leaf d m rows : smr f leaf d m rows -> m_vals m = [] -> exists ks, Forall2 (stree f (lev leaf d)) (m_ptrs m) ks /\ rows = concat ks /\ m = Mr [] (m_ptrs m) 0 0 true (ty_of leaf).
Proof.
  intros [Ht Hl Hc Hm (k1 & k2 & H5 & H6 & H7)] Hv. rewrite Hv in *. inversion H6; subst k2. exists k1. split; [exact H5|]. split; [rewrite H7; apply app_nil_r|].
  destruct m as [v p ln c mo ty]. cbn [m_vals m_ptrs m_len m_count m_mod m_type] in *. subst. reflexivity.
Qed.
Lemma runs_finish_loop F : forall d ps ks s, okst s -> (length ps <= F)%nat -> Forall2 (stree (st_f s) d) ps ks -> ps <> [] ->
  runs (spatial_finish_loop F spatial_request (Mr [] ps 0 0 true KP_NODE) (Mr [] [] 0 0 true KP_NODE)) s (fun p s' => exists d', stree (st_f s') d' p (concat ks)).
Proof.
  assert (Hone : forall F d p ks s, okst s -> Forall2 (stree (st_f s) d) [p] ks ->
     runs (spatial_finish_loop F spatial_request (Mr [] [p] 0 0 true KP_NODE) (Mr [] [] 0 0 true KP_NODE)) s (fun p s' => exists d', stree (st_f s') d' p (concat ks))).
  { intros F0 d p ks s O H. inversion H as [|? k ? ? H1 H2]; subst. inversion H2; subst. destruct F0; cbn [spatial_finish_loop m_ptrs]; (apply runs_ret; [exact O|]; exists d; cbn [concat]; rewrite app_nil_r; exact H1). }
  induction F as [|F IH]; intros d ps ks s O Hl Ht Hne; [destruct ps; [congruence|cbn in Hl; lia]|].
  destruct ps as [|p [|p' ps]]; [congruence|eapply Hone; eassumption|]. cbn [spatial_finish_loop m_ptrs m_vals m_len m_count m_mod m_type].
  eapply runs_bind. { eapply runs_move with (d := d) (rows := []); [exact O|exact (smr_empty (st_f s) false d)|exact (N.le_0_l 9600)|exact Ht]. }
  intros m1 s1 O1 L1 (A1 & A2 & A3 & A4). cbn [app] in A1.
  eapply runs_bind. { eapply runs_flush; [exact O1|exact A1|change (2^29) with 536870912; lia]. }
  intros m2 s2 O2 L2 (B1 & B2 & B3). destruct (smr_flushed B1 B2) as (k1 & C1 & C2 & C3). rewrite C3. cbn [ty_of m_ptrs].
  eapply runs_weaken; [apply IH with (d := S d) (ks := k1); [exact O2| |exact C1|]|].
  - unfold weight in A3. cbn [set_mod make_modres m_ptrs m_vals length] in A3, Hl. rewrite B3. destruct (m_vals m1); cbn [length] in *; lia.
  - intros Hz. rewrite Hz in C1. inversion C1; subst k1. inversion Ht as [|? k ? ? Hp ?]; subst. destruct (stree_head Hp) as (_ & _ & _ & _ & _ & _ & Hk). cbn [concat] in C2. apply app_eq_nil in C2. tauto.
  - intros p0 s' _ _ (d' & D1). exists d'. now rewrite C2.
Qed.

Definition stop_tree (f : file) (r : option node_pointer) (rows : list kv) : Prop := match r with None => rows = [] | Some p => exists d, stree f d p rows end.
Lemma runs_complete m rows s : okst s -> smr (st_f s) true 0 m rows -> isum (m_vals m) <= 9600 ->
  runs (complete_new_spatial spatial_request m) s (fun r s' => stop_tree (st_f s') r rows).
Proof.
  intros O Sm Hs. unfold complete_new_spatial. eapply runs_bind. { eapply runs_flush; [exact O|exact Sm|change (2^29) with 536870912; lia]. }
  intros m1 s1 O1 L1 (A1 & A2 & A3). destruct (smr_flushed A1 A2) as (ks & B1 & B2 & B3). cbn [lev] in B1.
  eapply runs_bind. { eapply runs_move with (d := 0%nat) (rows := []); [exact O1|exact (smr_empty (st_f s1) false 0)|exact (N.le_0_l 9600)|exact B1]. }
  intros m2 s2 O2 L2 (C1 & C2 & C3 & C4). cbn [app] in C1. rewrite <- B2 in C1. unfold weight in C3. cbn [set_mod make_modres m_ptrs m_vals length] in C3.
  destruct ((1 <? m_count m2) || negb match m_ptrs m2 with [] => true | _ => false end) eqn:Hb.
  - eapply runs_bind with (Q := fun p s' => exists d', stree (st_f s') d' p rows).
    { unfold spatial_finish_root, flush_spatial_ignored.
      assert (Hf : runs (flush_spatial m2) s2 (fun m' s' => smr (st_f s') false 0 m' rows /\ m_vals m' = [] /\ length (m_ptrs m') = (length (m_ptrs m2) + match m_vals m2 with [] => 0 | _ => 1 end)%nat)).
      { eapply runs_flush; [exact O2|exact C1|change (2^29) with 536870912; lia]. }
      destruct Hf as (m3 & s3 & F1 & F2 & F3 & F4).
      eapply runs_bind with (Q := fun a s' => a = m3 /\ s' = s3). { exists m3, s3. rewrite F1. auto. }
      intros a s4 O4 _ [-> ->]. destruct F4 as (D1 & D2 & D3). destruct (smr_flushed D1 D2) as (k3 & D4 & D5 & D6). rewrite D6. cbn [ty_of m_ptrs].
      change (set_mod (make_modres KP_NODE)) with (Mr [] [] 0 0 true KP_NODE).
      assert (Hne : m_ptrs m3 <> []).
      { intros Hz. rewrite Hz in D3. cbn [length] in D3. apply orb_true_iff in Hb. destruct Hb as [Hb|Hb].
        - apply N.ltb_lt in Hb. rewrite (so_count C1) in Hb. destruct (m_vals m2); [unfold lenN in Hb; cbn [length] in Hb; lia|lia].
        - destruct (m_ptrs m2); [discriminate|cbn in D3; lia]. }
      eapply runs_weaken; [apply runs_finish_loop with (d := 1%nat) (ks := k3); [exact F2|lia|exact D4|exact Hne]|].
      intros p s' _ _ (d' & T). exists d'. now rewrite D5. }
    intros p s3 O3 _ H. apply runs_ret; [exact O3|exact H].
  - apply orb_false_iff in Hb. destruct Hb as [Hc Hp]. apply N.ltb_ge in Hc. rewrite (so_count C1) in Hc. apply runs_ret; [exact O2|].
    destruct C1 as [_ _ _ _ (k1 & k2 & H5 & H6 & H7)]. destruct (m_ptrs m2) as [|? ?]; [|discriminate]. inversion H5; subst k1. cbn [concat app] in H7. rewrite H7. clear H7 B2. destruct (m_vals m2) as [|i [|j vs]].
    + inversion H6; subst k2. reflexivity.
    + inversion H6 as [|? k ? ? H8 H9]; subst. inversion H9; subst. destruct H8 as (p & -> & T). cbn [map last ptr_item it_ptr stop_tree]. cbn [concat]. rewrite app_nil_r. exists 0%nat. exact T.
    + rewrite !lenN_cons in Hc. lia.
Qed.
Lemma runs_build l s : okst s -> Forall row l -> runs (build_spatial_rows l) s (fun r s' => stop_tree (st_f s') r l).
Proof.
  intros O Hl. unfold build_spatial_rows. eapply runs_bind. { eapply runs_rows with (d := 0%nat) (rows := []); [exact O|exact (smr_empty (st_f s) true 0)|exact (N.le_0_l 9600)|exact Hl]. }
  intros m1 s1 O1 L1 (A1 & A2). cbn [app] in A1. apply runs_complete; assumption.
Qed.
End Build.

(** ** Reading *)

Section Read.
Context {E : Env} (EO : EnvOk E) {C : Coords}.
Variable number : bytes -> Prop.
Hypothesis CO : CoordsOk number.
Variable D : N.
Notation box := (box number D).
Notation row := (spatial_row number D).

Lemma row_boxes l : Forall row l -> Forall box (map fst l).
Proof. induction 1 as [|x l H _ IH]; cbn [map]; constructor; [exact (proj1 H)|exact IH]. Qed.
Lemma hasz_read f q b sz : good f -> hasz f q b sz -> pread_compressed f q = Ok b.
Proof. intros G (z & H & Hu & _). pose proof (has_read EO q z G H) as Hr. unfold pread_bin in Hr. unfold pread_compressed. rewrite Hr. cbn [bind]. now rewrite Hu. Qed.
Lemma stored_tree f : 2 + 8 * D < 2^12 -> good f -> fin f -> forall d p rows, stree number D f d p rows -> spatial_tree f D d (np_pointer p) (np_key p) rows.
Proof.
  intros HD G F. induction d as [|d IH]; intros p rows (H1 & H2 & H3 & H4 & H5 & H6 & H7 & H8); cbn [spatial_tree]; (split; [exact H4|]).
  - destruct (H8 F) as (sz & Hh). exists (mk_node KV_NODE rows). split; [exact (hasz_read G Hh)|]. split; [reflexivity|]. apply node_items_mk. revert H6. apply Forall_impl. intros x Hx. exact (proj2 Hx).
  - destruct H8 as (cs & ks & A1 & A2 & A3 & A4). destruct (A4 F) as (sz & Hh). exists (mk_node KP_NODE (map kp_entry cs)), (map kp_entry cs), (map norm cs), ks.
    split; [exact (hasz_read G Hh)|]. split; [reflexivity|]. split; [|split; [|split; [|exact A2]]].
    + apply node_items_mk. clear - A1 HD. induction A1 as [|c k cs ks H _ IHc]; cbn [map]; constructor; [|exact IHc]. destruct (stree_head H) as (B1 & B2 & _). change (2^12) with 4096 in HD.
      split; cbn [kp_entry fst snd]; [rewrite B2; change (2^12) with 4096; lia|]. rewrite lenN_encode_pointer, B1, B2. change (2^28) with 268435456. lia.
    + clear - A1 HD F. induction A1 as [|c k cs ks H _ IHc]; cbn [map]; constructor; [|exact IHc]. destruct (stree_head H) as (B1 & B2 & _ & _ & B5 & _). cbn [kp_entry fst snd]. change (2^12) with 4096 in HD.
      rewrite read_encode_pointer; [reflexivity|destruct F; lia|]. rewrite B1, B2. change (2^16) with 65536. lia.
    + clear - A1 A3 IH. induction A1 as [|c k cs ks H _ IHc]; cbn [map]; constructor; [|apply IHc; now inversion A3]. inversion A3; subst. destruct (stree_head H) as (B1 & B2 & _). cbn [norm np_pointer np_key np_reduce]. auto.
Qed.
Lemma stored_index f root rows : 2 + 8 * D < 2^12 -> good f -> fin f -> stop_tree number D f root rows -> spatial_index f D root rows.
Proof.
  intros HD G F H. destruct root as [p|]; [|exact H]. destruct H as [d T]. destruct (stree_head T) as (B1 & _ & _ & _ & B5 & _ & B7). cbn [spatial_index]. split; [exact B7|]. split; [exact B5|]. exists d.
  rewrite B1. exact (stored_tree HD G F T).
Qed.

(** ** Searching *)

Lemma tree_smallest f d pos k rows : spatial_tree f D d pos k rows -> smallest_box D k (map fst rows).
Proof. destruct d; intros [H _]; exact H. Qed.
Lemma label_box k rows : smallest_box D k (map fst rows) -> lenN k = 2 + 8 * D -> Forall row rows -> forall i, i < D -> number (coord k i).
Proof. intros [_ H] _ Hr i Hi. destruct (H i Hi) as (x & Hx & ->). apply row_boxes in Hr. rewrite Forall_forall in Hr. destruct (Hr x Hx) as (_ & _ & Hn). exact (Hn i Hi). Qed.
Lemma filter_none A (p : A -> bool) l : (forall x, In x l -> p x = false) -> filter p l = [].
Proof. induction l as [|x l IH]; intros H; [reflexivity|]. cbn [filter]. rewrite (H x (or_introl eq_refl)). apply IH. intros y Hy. apply H. now right. Qed.
(** Of a label only the bounds matter. *)
Lemma meets_label w k rows : box w -> lenN k = 2 + 8 * D -> Forall row rows -> smallest_box D k (map fst rows) -> meets D w k = false -> filter (fun x => meets D w (fst x)) rows = [].
Proof.
  intros Bw Hl Hr Sk Hm. apply filter_none. intros x Hx. destruct (meets D w (fst x)) eqn:Hw; [|reflexivity].
  pose proof (label_box Sk Hl Hr) as Nk. rewrite Forall_forall in Hr. destruct (proj1 (Hr x Hx)) as (X1 & X2 & X3). destruct Bw as (_ & _ & Nw). destruct Sk as [Sk _]. specialize (Sk (fst x) (in_map fst _ _ Hx)).
  rewrite <- Hm. unfold meets in *. symmetry. rewrite forallb_forall in Hw |- *. intros j Hj. specialize (Hw j Hj). apply in_seq in Hj.
  assert (H1 : 2 * N.of_nat j < D /\ 2 * N.of_nat j + 1 < D).
  { destruct Hj as [_ Hj]. cbn in Hj. assert (Hd : N.of_nat j < D / 2) by lia. pose proof (N.mul_div_le D 2). lia. }
  destruct H1 as [H1 H2]. pose proof (Sk _ H1) as E1. pose proof (Sk _ H2) as E2.
  rewrite N.even_mul in E1. cbn [N.even orb] in E1. rewrite N.even_add, N.even_mul in E2. cbn [N.even orb Bool.eqb] in E2.
  apply andb_true_iff in Hw. destruct Hw as [M1 M2]. apply negb_true_iff in M1, M2. apply andb_true_iff. split; apply negb_true_iff.
  - destruct (less (coord w (2 * N.of_nat j + 1)) (coord k (2 * N.of_nat j))) eqn:Hlt; [|reflexivity]. destruct (co_dense CO (Nw _ H2) (X3 _ H1) (Nk _ H1) Hlt) as [H|H]; congruence.
  - destruct (less (coord k (2 * N.of_nat j + 1)) (coord w (2 * N.of_nat j))) eqn:Hlt; [|reflexivity]. destruct (co_dense CO (Nk _ H2) (X3 _ H2) (Nw _ H1) Hlt) as [H|H]; congruence.
Qed.
Lemma filter_concat A (p : A -> bool) ls : filter p (concat ls) = concat (map (filter p) ls).
Proof. induction ls as [|l ls IH]; [reflexivity|]. cbn [concat map]. rewrite filter_app. now rewrite IH. Qed.
Lemma Forall_concat A (P : A -> Prop) ls : Forall P (concat ls) -> Forall (Forall P) ls.
Proof. induction ls as [|l ls IH]; intros H; constructor; cbn [concat] in H; apply Forall_app in H; tauto. Qed.
Lemma searching f w : box w -> forall d pos k rows, spatial_tree f D d pos k rows -> Forall row rows -> forall found, search f D w d pos found <-> found = filter (fun x => meets D w (fst x)) rows.
Proof.
  intros Bw. induction d as [|d IH]; intros pos k rows [Hs T] Hr found; cbn [search].
  - destruct T as (b & T1 & T2 & T3). split.
    + intros (b' & rows' & S1 & S2 & S3 & ->). congruence.
    + intros ->. exists b, rows. auto.
  - destruct T as (b & en & cs & kss & T1 & T2 & T3 & T4 & T5 & ->). rewrite filter_concat. apply Forall_concat in Hr.
    assert (Hc : forall fs, Forall2 (fun c l => if meets D w (np_key c) then search f D w d (np_pointer c) l else l = []) cs fs <-> fs = map (filter (fun x => meets D w (fst x))) kss).
    { clear - T5 IH Hr Bw CO. induction T5 as [|c rows cs kss H _ IHc]; intros fs.
      - split; [intros H; now inversion H|intros ->; constructor].
      - inversion Hr as [|? ? R1 R2]; subst. destruct H as (_ & _ & Hl & Ht). cbn [map].
        assert (Hone : forall l, (if meets D w (np_key c) then search f D w d (np_pointer c) l else l = []) <-> l = filter (fun x => meets D w (fst x)) rows).
        { intros l. destruct (meets D w (np_key c)) eqn:Hm; [exact (IH _ _ _ Ht R1 l)|]. rewrite (meets_label Bw Hl R1 (tree_smallest Ht) Hm). reflexivity. }
        split.
        + intros H. inversion H as [|? l ? ls A B]; subst. apply Hone in A. apply (IHc R2) in B. now subst.
        + intros ->. constructor; [now apply Hone|]. now apply (IHc R2). }
    split.
    + intros (b' & en' & cs' & fs & S1 & S2 & S3 & S4 & S5 & ->). assert (b' = b) by congruence. subst b'. assert (en' = en) by congruence. subst en'.
      assert (cs' = cs) by (clear - S4 T4; revert cs T4; induction S4 as [|e c en cs' H _ IHc]; intros cs0 T4; inversion T4 as [|? ? ? ? A B]; subst; [reflexivity|]; f_equal; [congruence|now apply IHc]). subst cs'.
      apply Hc in S5. now subst fs.
    + intros ->. exists b, en, cs, (map (filter (fun x => meets D w (fst x))) kss). repeat (split; [assumption|]). split; [now apply Hc|reflexivity].
Qed.

(** ** Compaction *)

Section Scan.
Variable U : Type.
Variable rq : lreq U.
Hypothesis Htol : l_tol rq = false.
Hypothesis Hnode : l_node rq = None.
Definition scanned (i : bool) (u : U) (l : list kv) (r : res unit * lst U) : Prop :=
  (fst r, l_u (snd r)) = run_calls rq (map found l) u /\ (fst r = Ok tt -> l_fold (snd r) = true /\ (i = true -> l_in (snd r) = true)).
Lemma ge_empty k : ge (lcmp rq k []) = true.
Proof. destruct k; reflexivity. Qed.
Lemma scan_leaf l : forall u i, scanned i u l (lk_kv rq l TEnd [[]] (Ok tt) (Lst u true i)).
Proof.
  induction l as [|[k v] l IH]; intros u i; cbn [lk_kv lk_rest l_fold].
  - split; [reflexivity|]. cbn. auto.
  - cbn [kv_entry]. rewrite ge_empty. cbn [l_fold andb]. set (s1 := if negb (l_in (Lst u true i)) then set_in true (Lst u true i) else Lst u true i).
    assert (Hs : s1 = Lst u true true) by (unfold s1; destruct i; reflexivity). rewrite Hs. cbn [l_in andb l_u]. rewrite orb_true_r. unfold scanned. cbn [map run_calls found fst snd].
    destruct (l_fetch rq k (Some v) u) as [[[]|e] u1] eqn:Hf; rewrite Htol; unfold set_u; cbn [l_in l_fold l_u].
    + destruct (IH u1 true) as [Q1 Q2]. split; [exact Q1|]. intros Hok. destruct (Q2 Hok) as [Q3 Q4]. split; [exact Q3|]. intros _. now apply Q4.
    + split; [reflexivity|discriminate].
Qed.
Lemma scan_tree f : forall d F, (d < F)%nat -> forall pos k rows u i, spatial_tree f D d pos k rows -> scanned i u rows (lookup_inner rq F f pos [[]] (Lst u true i)).
Proof.
  induction d as [|d IH]; intros [|F] HF pos k rows u i [_ T]; try lia; cbn [lookup_inner].
  - destruct T as (b & T1 & T2 & T3). destruct b as [|t b]; [discriminate|]. injection T2 as ->. unfold node_at. rewrite T1, T3. cbn [KV_NODE]. apply scan_leaf.
  - destruct T as (b & en & cs & kss & T1 & T2 & T3 & T4 & T5 & ->). destruct b as [|t b]; [discriminate|]. injection T2 as ->. unfold node_at. rewrite T1, T3. cbn [KP_NODE]. clear T1 T3.
    revert kss T5 u i. induction T4 as [|[ck v] c en cs Hc _ IHc]; intros kss T5 u i; inversion T5 as [|? rows ? kss' H1 H2]; subst; cbn [lk_kp lk_rest l_fold concat].
    + split; [reflexivity|]. cbn. auto.
    + rewrite ge_empty. cbn [l_fold set_in l_u span_ge fst snd] in *. rewrite Hc. unfold call_node. rewrite Hnode. unfold scanned. rewrite map_app, run_calls_app.
      destruct H1 as (_ & _ & _ & Ht). destruct (IH F ltac:(lia) _ _ _ u true Ht) as [P1 P2]. unfold set_in. cbn [l_u l_fold].
      match goal with |- context [lookup_inner rq F f (np_pointer c) ?ks ?s] => set (X := lookup_inner rq F f (np_pointer c) ks s) end.
      match type of P1 with context [lookup_inner rq F f (np_pointer c) ?ks ?s] => change (lookup_inner rq F f (np_pointer c) ks s) with X in P1 end.
      match type of P2 with context [lookup_inner rq F f (np_pointer c) ?ks ?s] => change (lookup_inner rq F f (np_pointer c) ks s) with X in P2 end.
      destruct X as [x2 [u3 f3 i3]]. cbn [fst snd l_u l_fold l_in] in *. rewrite <- P1. rewrite Htol.
      destruct x2 as [[]|e]; [|split; [reflexivity|discriminate]]. destruct (P2 eq_refl) as [-> Hin]. rewrite (Hin eq_refl). cbn [l_in].
      destruct (IHc kss' H2 u3 true) as [Q1 Q2]. split; [exact Q1|]. intros Hok. destruct (Q2 Hok) as [Q3 Q4]. split; [exact Q3|]. intros _. now apply Q4.
Qed.
Lemma deep_tree f d : forall pos k rows, rows <> [] -> spatial_tree f D d pos k rows -> exists q, q + N.of_nat d <= pos.
Proof.
  induction d as [|d IH]; intros pos k rows Hn [_ T]; [exists 0; lia|]. destruct T as (b & en & cs & kss & _ & _ & _ & _ & T5 & ->).
  assert (Hx : exists c rows, In rows kss /\ rows <> [] /\ np_pointer c < pos /\ spatial_tree f D d (np_pointer c) (np_key c) rows).
  { clear - Hn T5. induction T5 as [|c rows cs kss H _ IHc]; [now destruct Hn|]. destruct H as (H1 & _ & _ & H2). destruct rows as [|r rows].
    - destruct (IHc Hn) as (c' & rows' & A & B). exists c', rows'. split; [now right|exact B].
    - exists c, (r :: rows). split; [now left|]. split; [discriminate|]. auto. }
  destruct Hx as (c & rows & _ & Hr & Hp & Ht). destruct (IH _ _ _ Hr Ht) as (q & Hq). exists q. lia.
Qed.
Lemma scan_index f p rows u : spatial_index f D (Some p) rows -> btree_lookup rq f (np_pointer p) [[]] true u = run_calls rq (map found rows) u.
Proof.
  intros (Hn & Hp & d & T). unfold btree_lookup. destruct (deep_tree Hn T) as (q & Hq). assert (Hd : (d < depth_fuel f)%nat) by (unfold depth_fuel; lia).
  destruct (@scan_tree f d (depth_fuel f) Hd _ _ _ u false T) as [H _]. destruct (lookup_inner rq (depth_fuel f) f (np_pointer p) [[]] (Lst u true false)) as [x s]. exact H.
Qed.
End Scan.

Lemma filter_part mask x : bitmap_ok mask -> 2 <= lenN (snd x) -> part x < 1024 -> view_spatial_filter mask (snd x) = Ok (in_mask mask x).
Proof.
  intros Hm Hl Hp. unfold view_spatial_filter, rd_be. rewrite getb_ok by lia. cbn [bind]. change (drop 0 (snd x)) with (snd x). fold (part x). rewrite is_bit_set_eq by exact Hp.
  unfold in_mask. now rewrite (mask_bit Hm Hp).
Qed.
Lemma scan_fold fb collate (l : list kv) : forall m s n m' s', (forall mask, fb = Some mask -> bitmap_ok mask /\ Forall (fun x => 2 <= lenN (snd x) /\ part x < 1024) l) ->
  foldM (fun x m => spatial_push_item spatial_request (fst x) (snd x) m) (kept_rows fb l) m s = (Ok m', s') -> n < 2^64 ->
  run_calls (LReq (view_key_cmp collate) (compact_spatial_fetchcb fb) None false) (map found l) (m, s, n) = (Ok tt, (m', s', (n + lenN (kept_rows fb l)) mod 2^64)).
Proof.
  induction l as [|[k v] l IH]; intros m s n m' s' Hb Hf Hn.
  - assert (Hk : kept_rows fb (@nil kv) = @nil kv) by (destruct fb; reflexivity). rewrite Hk in Hf |- *. cbn [foldM] in Hf. unfold ret in Hf. injection Hf as <- <-. cbn [map run_calls].
    change (lenN (@nil kv)) with 0. rewrite N.add_0_r, N.mod_small by exact Hn. reflexivity.
  - assert (Hb' : forall mask, fb = Some mask -> bitmap_ok mask /\ Forall (fun x => 2 <= lenN (snd x) /\ part x < 1024) l).
    { intros mask Hm. destruct (Hb mask Hm) as [H1 H2]. split; [exact H1|]. now inversion H2. }
    cbn [map found run_calls l_fetch fst snd]. unfold compact_spatial_fetchcb at 1.
    assert (Hflt : match fb with Some bm => view_spatial_filter bm v | None => Ok false end = Ok (match fb with Some bm => in_mask bm (k, v) | None => false end)).
    { destruct fb as [bm|]; [|reflexivity]. destruct (Hb bm eq_refl) as [H1 H2]. inversion H2 as [|? ? [H3 H4] _]; subst. exact (filter_part H1 H3 H4). }
    rewrite Hflt.
    assert (Hk : kept_rows fb ((k, v) :: l) = (if match fb with Some bm => in_mask bm (k, v) | None => false end then [] else [(k, v)]) ++ kept_rows fb l).
    { unfold kept_rows. destruct fb as [bm|]; [|reflexivity]. unfold without. cbn [filter]. destruct (in_mask bm (k, v)); reflexivity. }
    rewrite Hk in Hf |- *. destruct (match fb with Some bm => in_mask bm (k, v) | None => false end).
    + cbn [app] in *. exact (IH m s n m' s' Hb' Hf Hn).
    + cbn [app foldM fst snd] in *. unfold bindM in Hf. destruct (spatial_push_item spatial_request k v m s) as [[m1|e] s1] in Hf |- *; [|discriminate Hf].
      rewrite (IH m1 s1 ((n + 1) mod 2^64) m' s' Hb' Hf ltac:(apply N.mod_lt; discriminate)). rewrite lenN_cons, N.add_mod_idemp_l by discriminate. do 3 f_equal. lia.
Qed.
Lemma Forall_kept fb (P : kv -> Prop) l : Forall P l -> Forall P (kept_rows fb l).
Proof. intros H. unfold kept_rows, without. destruct fb; [|exact H]. rewrite Forall_forall in *. intros x Hx. apply filter_In in Hx. now apply H. Qed.

Lemma rows_dim l : Forall row l -> l <> [] -> 2 + 8 * D < 2^12.
Proof. intros H Hn. destruct H as [|x l [(_ & H1 & _) (H2 & _)] _]; [congruence|]. lia. Qed.
Lemma built l f : snappy_works -> good f -> calm f -> crcm f <> CRC_UNKNOWN -> Forall row l ->
  exists root s, build_spatial_rows l (St f [] false) = (Ok root, s) /\ (fits_file (st_f s) -> spatial_index (st_f s) D root l).
Proof.
  intros SW G Ca Cr Hl. destruct l as [|x l].
  - exists None, (St f [] false). split; [reflexivity|]. intros _. reflexivity.
  - pose proof (rows_dim Hl ltac:(discriminate)) as HD. destruct (runs_build EO CO HD SW (l := x :: l) (s := St f [] false)) as (root & s & H1 & H2 & H3 & H4); [split; [exact G|split; assumption]|exact Hl|].
    exists root, s. split; [exact H1|]. intros F. apply stored_index; [exact HD|exact (proj1 H2)|exact F|exact H4].
Qed.
Lemma compacted collate fb src root rows n f : snappy_works -> good f -> calm f -> crcm f <> CRC_UNKNOWN -> Forall row rows -> spatial_index src D root rows ->
  (forall mask, fb = Some mask -> bitmap_ok mask /\ Forall (fun x => 2 <= lenN (snd x) /\ part x < 1024) rows) -> n < 2^64 ->
  exists root' f', compact_spatial collate fb src root n f = (Ok (root', (n + lenN (kept_rows fb rows)) mod 2^64), f') /\ (fits_file f' -> spatial_index f' D root' (kept_rows fb rows)).
Proof.
  intros SW G Ca Cr Hr Hi Hb Hn. unfold compact_spatial. destruct root as [p|].
  - rewrite (scan_index eq_refl eq_refl (rq := LReq (view_key_cmp collate) (compact_spatial_fetchcb fb) None false) _ Hi).
    destruct (built SW G Ca Cr (Forall_kept fb Hr)) as (root' & s & H1 & H2). unfold build_spatial_rows, bindM in H1.
    destruct (foldM _ (kept_rows fb rows) new_btree_modres (St f [] false)) as [[m|e] s1] eqn:Hf; [|discriminate H1].
    rewrite (scan_fold collate Hb Hf Hn). rewrite H1. exists root', (st_f s). split; [reflexivity|exact H2].
  - cbn [spatial_index] in Hi. subst rows. assert (Hk : kept_rows fb [] = []) by (destruct fb; reflexivity). rewrite Hk. exists None, f. change (lenN (@nil kv)) with 0. rewrite N.add_0_r, N.mod_small by exact Hn. split; [reflexivity|]. intros _. reflexivity.
Qed.
End Read.
