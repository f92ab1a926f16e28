(** Properties C04 (stored bytes come back) and C30 (damage is reported). *)
From Verif Require Import Base Codec File FileFacts ChunkFacts Header History SpecFile DataFacts EnvExample.
Local Open Scope N_scope.

(** ** C04 *)

(** A chunk written at the end of a file with any contents and any length comes back unchanged from the
    position returned by the write, after any later operations, whatever short or failing writes occur in between.
    The write itself happens after arbitrary earlier operations. *)
Theorem C04_read_back : forall (E : Env), EnvOk E ->
  forall g gsz pl m k f b p sz f1 f2,
  (forall i, gsz <= i -> g i = 0) ->
  appends (opened_on g gsz pl m k) f ->
  db_write_buf f b = (Ok (p, sz), f1) -> sz <= 2^31 ->
  appends f1 f2 ->
  pread_bin f2 p = Ok b.
Proof.
  intros E EO g gsz pl m k f b p sz f1 f2 Hg A Hw Hs A2.
  destruct (appends_good EO A (@opened_on_good g gsz pl m k Hg)) as (G & _).
  eapply write_buf_read; eauto.
Qed.
Print Assumptions C04_read_back.

(** Index nodes and compressed bodies. *)
Theorem C04_compressed : forall (E : Env), EnvOk E ->
  forall g gsz pl m k f b p sz f1 f2,
  (forall i, gsz <= i -> g i = 0) ->
  appends (opened_on g gsz pl m k) f ->
  db_write_buf_compressed f b = (Ok (p, sz), f1) -> sz <= 2^31 ->
  appends f1 f2 ->
  pread_compressed f2 p = Ok b.
Proof.
  intros E EO g gsz pl m k f b p sz f1 f2 Hg A Hw Hs A2.
  unfold db_write_buf_compressed in Hw. destruct (compress b) as [z|] eqn:Ez; [|discriminate].
  pose proof (@C04_read_back E EO g gsz pl m k f z p sz f1 f2 Hg A Hw Hs A2) as H.
  unfold pread_compressed, pread_bin in *. rewrite H. cbn [bind]. now rewrite (ok_compress EO _ Ez).
Qed.
Print Assumptions C04_compressed.

(** Short writes never make a write fail: it only fails when the operating system reports an error. *)
Theorem C04_short_writes : forall (E : Env) f b,
  calm f -> crcm f <> CRC_UNKNOWN -> lenN b + mac_size < 2^32 ->
  exists p sz f1, db_write_buf f b = (Ok (p, sz), f1).
Proof.
  intros E f b H1 H2 H3. destruct (db_write_buf_calm b H1 H2 H3) as (p & sz & f1 & H & _). eauto.
Qed.
Print Assumptions C04_short_writes.

(** Reads that return less than asked for are continued and give the same result. *)
Theorem C04_short_reads : forall (o : list N) f pos len, read_short o f pos len = read_skip f pos len.
Proof. exact read_short_eq. Qed.
Print Assumptions C04_short_reads.

(** What [read_skip] returns: exactly the data bytes, or an error when the file is too short. *)
Theorem C04_read_data : forall f pos len,
  (forall b p, read_skip f pos len = Ok (b, p) -> b = data (cur f) pos (N.to_nat len)) /\
  (0 < len -> (data_end pos (N.to_nat len) <= size f <-> exists r, read_skip f pos len = Ok r)) /\
  (forall e, read_skip f pos len = Err e -> e = E_READ).
Proof.
  intros f pos len. rewrite read_skip_data.
  destruct (N.eqb_spec len 0) as [->|Hl]; cbn [orb].
  - split; [|split; [lia|discriminate]]. intros b p H. now inv H.
  - destruct (N.leb_spec (data_end pos (N.to_nat len)) (size f)) as [H|H].
    + split; [intros b p HH; now inv HH|]. split; [|discriminate]. intros _. split; eauto.
    + split; [discriminate|]. split; [|intros e HH; now inv HH]. intros _. split; [lia|]. intros [r HH]; discriminate.
Qed.
Print Assumptions C04_read_data.

(** At 2 GiB exactly the property fails: the length field loses its top bit, so the write succeeds and the body does
    not come back. *)
Theorem C04_big_refuted : exists (E : Env) f b p sz f1,
  EnvOk E /\ (exists g gsz pl m k, (forall i, gsz <= i -> g i = 0) /\ f = opened_on g gsz pl m k) /\
  db_write_buf f b = (Ok (p, sz), f1) /\ pread_bin f1 p <> Ok b.
Proof.
  set (f := opened_on (fun _ => 0) 0 [] CRC32C None).
  set (b := repeat 0 (N.to_nat (2^31))).
  assert (Lb : lenN b = 2^31) by (unfold b, lenN; rewrite repeat_length; apply Nnat.N2Nat.id).
  assert (G : good f) by (apply opened_on_good; auto).
  destruct (@db_write_buf_calm env0 f b) as (p & sz & f1 & H & _).
  { split; [reflexivity|constructor]. }
  { discriminate. }
  { rewrite Lb. reflexivity. }
  exists env0, f, b, p, sz, f1. split; [exact env0_ok|]. split.
  { exists (fun _ => 0), 0, [], CRC32C, None. auto. }
  split; [exact H|]. exact (@big_chunk env0 f b p sz f1 G eq_refl Lb H).
Qed.
Print Assumptions C04_big_refuted.

(** A write across a block boundary, interrupted by short writes, with later operations. *)
Definition ex_f0 : file :=
  opened_on (fun i => if i <? 4084 then 1 else 0) 4084
    [WStep 3 false None false false; WStep 1 true None false false] CRC32C None.
Definition ex_f1 : file := snd (@db_write_buf env0 ex_f0 [10;11;12;13;14;15;16;17]).
Definition ex_f2 : file := snd (@write_header env0 ex_f1 [5;6] 1).

Example C04_ex :
  calm ex_f0 /\ fst (@db_write_buf env0 ex_f0 [10;11;12;13;14;15;16;17]) = Ok (4084, 16) /\
  @appends env0 ex_f1 ex_f2 /\ cur ex_f2 4096 = B_DATA /\ fpos ex_f1 = 4101 /\
  @pread_bin env0 ex_f2 4084 = Ok [10;11;12;13;14;15;16;17].
Proof.
  split; [split; [reflexivity|repeat constructor]|]. split; [vm_compute; reflexivity|].
  split.
  { eapply app_header; [apply app_refl|]. unfold ex_f2. apply surjective_pairing. }
  vm_compute. auto.
Qed.

Example C04_encrypted_ex :
  let f := opened_on (fun _ => 0) 4090 [] CRC32C (Some 77) in
  let (r, f1) := @db_write_buf env0 f [1;2;3] in
  r = Ok (4090, 8) /\ @pread_bin env0 f1 4090 = Ok [1;2;3].
Proof. vm_compute. auto. Qed.

Example C04_short_reads_ex :
  read_short [2;1;0] ex_f1 4084 12 = Ok ([128;0;0;8] ++ data (cur ex_f1) 4088 8, 4097).
Proof. vm_compute. reflexivity. Qed.

(** ** C30 *)

(** Whatever the file contains, a body is returned exactly when the stored length and checksum match the bytes and
    all of them are inside the file; otherwise the result is an error. *)
Theorem C30_body : forall (E : Env) f p b, (forall i, cur f i < 256) -> fkey f = None ->
  (pread_bin f p = Ok b <->
   stored_len (cur f) p = 2^31 + lenN b /\
   accepts (crcm f) b (stored_sum (cur f) p) /\
   b = data (cur f) (data_end p 8) (length b) /\
   data_end p (8 + length b) <= size f).
Proof.
  intros E f p b HB Hk. unfold pread_bin. rewrite bin_internal_inv by auto. cbv zeta.
  rewrite data_end_app. change (0 =? 0) with true. cbv iota. tauto.
Qed.
Print Assumptions C30_body.

(** The same for headers (read after the block-type byte at [p]); [maxh] is the reader's size limit. *)
Theorem C30_header : forall (E : Env) f p maxh b, (forall i, cur f i < 256) -> 0 < maxh ->
  (pread_header f p maxh = Ok b <->
   stored_len (cur f) (p + 1) = 4 + lenN b /\ 4 + lenN b <= maxh /\ 4 + lenN b < 2^31 /\
   accepts (crcm f) b (stored_sum (cur f) (p + 1)) /\
   b = data (cur f) (data_end (p + 1) 8) (length b) /\
   data_end (p + 1) (8 + length b) <= size f).
Proof.
  intros E f p maxh b HB Hm. unfold pread_header. destruct (N.eqb_spec maxh 0) as [|Hz]; [lia|].
  rewrite bin_internal_inv by (auto; congruence). cbv zeta.
  rewrite data_end_app. destruct (N.eqb_spec maxh 0) as [|_]; [lia|].
  split.
  - intros (H1 & H2 & H3 & H4 & H5). specialize (H2 Hz). rewrite H1 in H2. tauto.
  - intros (H1 & H2 & H3 & H4 & H5 & H6). rewrite H1. tauto.
Qed.
Print Assumptions C30_header.

(** Encrypted files: a body is returned exactly when the cipher accepts the stored bytes. *)
Theorem C30_encrypted : forall (E : Env) f k p b, (forall i, cur f i < 256) -> fkey f = Some k ->
  (pread_bin f p = Ok b <->
   let len := stored_len (cur f) p in
   mac_size <= len < 2^31 /\ data_end p (4 + N.to_nat len) <= size f /\
   decrypt k (data_pos p) (data (cur f) (data_end p 4) (N.to_nat len)) = Some b).
Proof.
  intros E f k p b HB Hk. unfold pread_bin, pread_bin_internal. rewrite Hk. cbv zeta. rewrite data_end_app.
  apply (encrypted_inv k f p b HB).
Qed.
Print Assumptions C30_encrypted.

(** Index nodes: what comes back is the decompression of such a body. *)
Theorem C30_node : forall (E : Env) f p b,
  pread_compressed f p = Ok b <-> exists z, pread_bin f p = Ok z /\ uncompress z = Some b.
Proof.
  intros E f p b. unfold pread_compressed, pread_bin. destruct (pread_bin_internal f p 0) as [z|e]; cbn [bind].
  - split.
    + intros H. exists z. split; auto. destruct (uncompress z); inv H. reflexivity.
    + intros (z' & H & Hu). injection H as <-. now rewrite Hu.
  - split; [discriminate|]. intros (z & H & _). discriminate.
Qed.
Print Assumptions C30_node.

(** All other outcomes are one of three error codes; in particular nothing is read outside a buffer. *)
Theorem C30_errors : forall (E : Env) f p maxh e,
  pread_bin f p = Err e \/ pread_compressed f p = Err e \/ (0 < maxh /\ pread_header f p maxh = Err e) ->
  e = E_READ \/ e = E_CORRUPT \/ e = E_CHECKSUM.
Proof.
  intros E f p maxh e [H|[H|[Hm H]]].
  - exact (bin_internal_err _ _ _ H).
  - unfold pread_compressed in H. destruct (pread_bin_internal f p 0) as [z|e'] eqn:Eq; cbn [bind] in H.
    + destruct (uncompress z); inv H. auto.
    + inv H. exact (bin_internal_err _ _ _ Eq).
  - unfold pread_header in H. destruct (N.eqb_spec maxh 0); [lia|]. exact (bin_internal_err _ _ _ H).
Qed.
Print Assumptions C30_errors.

(** A single changed byte of the example file is noticed. *)
Example C30_ex :
  @pread_bin env0 ex_f1 4084 = Ok [10;11;12;13;14;15;16;17] /\
  @pread_bin env0 (put ex_f1 4098 [99]) 4084 = Err E_CHECKSUM /\
  @pread_bin env0 (put ex_f1 4084 [0]) 4084 = Err E_CORRUPT /\
  @pread_bin env0 (put ex_f1 4087 [200]) 4084 = Err E_READ.
Proof. vm_compute. auto. Qed.

Example C30_ex_bytes : forall i, cur ex_f0 i < 256.
Proof. intros i. cbn. destruct (i <? 4084); lia. Qed.
