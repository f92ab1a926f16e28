(** Properties C31 and C46: header and metadata parsing of arbitrary bytes. *)
From Verif Require Import Base Codec File FileFacts ChunkFacts Header HeaderFacts History CrashFacts OpenFacts NavFacts SpecFile DataFacts
  SpecCrash ReachNav CommitFacts EnvExample PropertiesFile PropertiesCrash.
Local Open Scope N_scope.

(** ** C31 *)

(** A header that is found at any position of any file has a known version, and its index roots and purge pointer lie before it. *)
Theorem C31_roots : forall (E : Env) f pos h, valid_header f pos h ->
  11 <= h_version h <= 14 /\ h_position h = pos /\ h_purge_ptr h <= pos /\
  forall r, In (Some r) [h_by_id h; h_by_seq h; h_local h] -> np_pointer r < pos.
Proof.
  intros E f pos h H. pose proof (find_pos _ _ _ H) as P. unfold valid_header, find_header_at_pos in H.
  destruct (pread f pos 1) as [|t [|? ?]]; try discriminate H.
  destruct ((t =? B_DATA) || (t =? B_META)); [discriminate H|]. destruct (negb (t =? B_HEADER)); [discriminate H|].
  destruct (pread_header f pos MAX_DB_HEADER_SIZE) as [buf|e]; [|destruct (pos =? 0); discriminate H].
  destruct (parse_roots _ _ _ H) as (H1 & H2 & H3 & H4 & H5).
  split; [lia|]. split; [exact P|]. split; [exact H5|].
  intros r [R|[R|[R|[]]]].
  - now rewrite R in H1.
  - now rewrite R in H2.
  - now rewrite R in H3.
Qed.
Print Assumptions C31_roots.

(** Partial: no read outside the buffers, at any position of any file, unless the chunk's length field is 4 (missing: that case, which is
    refuted next). *)
Theorem C31_safe_partial : forall (E : Env) f h pos, (forall i, cur f i < 256) -> stored_len (cur f) (pos + 1) <> 4 ->
  fst (find_header_at_pos f h pos) <> Err E_UB.
Proof.
  intros E f h pos HB Hl. unfold find_header_at_pos.
  destruct (pread f pos 1) as [|t [|? ?]]; try discriminate.
  destruct ((t =? B_DATA) || (t =? B_META)); [discriminate|]. destruct (negb (t =? B_HEADER)); [discriminate|].
  destruct (pread_header f pos MAX_DB_HEADER_SIZE) as [buf|e] eqn:Ep.
  - destruct (parse_header h pos buf) as [r h'] eqn:Er. cbn [fst]. eapply parse_safe; [exact Er|]. intros ->.
    apply C30_header in Ep; [|exact HB|reflexivity]. destruct Ep as [Ep _]. apply Hl. rewrite Ep. reflexivity.
  - cbn [fst]. unfold pread_header in Ep. change (MAX_DB_HEADER_SIZE =? 0) with false in Ep. cbv iota in Ep.
    destruct (bin_internal_err _ _ _ Ep) as [->|[->| ->]]; destruct (pos =? 0); discriminate.
Qed.
Print Assumptions C31_safe_partial.

(** The whole scan of find_header likewise. *)
Theorem C31_scan_partial : forall (E : Env) f h skip start, (forall i, cur f i < 256) ->
  (forall pos, pos mod 4096 = 0 -> stored_len (cur f) (pos + 1) <> 4) ->
  fst (find_header f h start skip) <> Err E_UB.
Proof.
  intros E f h skip start HB Hl. unfold find_header. destruct (start <? 0)%Z; [discriminate|].
  assert (L : forall n h last, last <> E_UB -> fst (find_header_loop f h n skip last) <> Err E_UB).
  { induction n as [|n IH]; intros h0 last Hlast; cbn [find_header_loop];
    match goal with |- context [find_header_at_pos f h0 ?p] => pose proof (@C31_safe_partial E f h0 p HB) as S;
      destruct (find_header_at_pos f h0 p) as [[u|e] h1] end; cbn [fst] in *; try discriminate.
    - assert (e <> E_UB). { intros ->. apply S; [|reflexivity]. apply Hl. reflexivity. }
      destruct e; cbn; try congruence; destruct skip; cbn; congruence.
    - assert (e <> E_UB). { intros ->. apply S; [|reflexivity]. apply Hl. rewrite BLOCK_val. clear. lia. }
      destruct e; try destruct skip; cbn [fst]; try congruence; apply IH; congruence. }
  apply L. discriminate.
Qed.
Print Assumptions C31_scan_partial.

(** A chunk with an empty body: the version byte is read from an empty buffer. *)
Definition ex_empty_body : file :=
  image (fun i => nth (N.to_nat i) ([1; 0; 0; 0; 4] ++ be 4 (@crc32c env0 [])) 0) 9 [].
Theorem C31_refuted : exists (E : Env) f, EnvOk E /\ (forall i, cur f i < 256) /\ fst (find_header_at_pos f header0 0) = Err E_UB.
Proof.
  exists env0, ex_empty_body. split; [exact env0_ok|]. split; [|vm_compute; reflexivity].
  intros i. unfold ex_empty_body, image. cbn [cur]. generalize (N.to_nat i). intros n.
  assert (H : Forall (fun x => x < 256) ([1; 0; 0; 0; 4] ++ be 4 (@crc32c env0 []))) by (vm_compute; repeat constructor).
  rewrite Forall_forall in H. destruct (nth_in_or_default n ([1; 0; 0; 0; 4] ++ be 4 (@crc32c env0 [])) 0) as [H1|H1]; [now apply H|].
  rewrite H1. reflexivity.
Qed.
Print Assumptions C31_refuted.

(** A header with two roots in a file of the example execution, and a damaged one. *)
Example C31_ex :
  (exists h, @valid_header env0 (dbf (s_db ex_s4)) 4096 h) /\
  stored_len (cur (dbf (s_db ex_s4))) 4097 <> 4 /\
  fst (@find_header_at_pos env0 (image (fun i => i mod 2) 9000 []) header0 1) <> Err E_UB.
Proof. split; [|split]; [|vm_compute; discriminate..]. eexists. vm_compute. reflexivity. Qed.

(** ** C46 *)

(** What read_metadata_header returns for every file: exactly the fields of the stored chunk, and an error when there is no such chunk, when
    its version is unknown or when the strings do not fit. *)
Theorem C46_parse : forall (E : Env) f, match read_metadata_header f with
  | Ok (v, id, ctx) => exists b rest, cur f 0 = 2 /\ pread_header f 0 4096 = Ok b /\ v <= 1 /\
       b = v :: lenN id :: id ++ lenN ctx :: ctx ++ rest
  | Err e => In e [E_READ; E_CORRUPT; E_CHECKSUM; E_NO_HEADER; E_NOT_SUPPORTED]
  end.
Proof.
  intros E f. unfold read_metadata_header. destruct (N.lt_ge_cases 0 (size f)) as [Hz|Hz].
  2:{ unfold pread. replace (N.min 1 (size f - 0)) with 0 by lia. change (rdn (cur f) 0 (N.to_nat 0)) with (@nil N). cbn. auto. }
  rewrite pread1 by exact Hz.
  destruct (N.eqb_spec (cur f 0) B_META) as [Hm|]; cbn [negb]; [|cbn; auto 6].
  change BLOCK with 4096. destruct (pread_header f 0 4096) as [b|e] eqn:Er; cbn [bind].
  2:{ unfold pread_header in Er. change (4096 =? 0) with false in Er. cbv iota in Er.
      destruct (bin_internal_err _ _ _ Er) as [->|[->| ->]]; cbn; auto 6. }
  destruct b as [|v r]; cbn [parse_metadata]; [cbn; auto 8|].
  destruct (N.ltb_spec 1 v) as [|Hv]; [cbn; auto 8|].
  assert (P : forall l s t, parse_short_string l = Some (s, t) -> l = lenN s :: s ++ t).
  { intros [|n l] s t; cbn [parse_short_string]; [discriminate|]. destruct (N.ltb_spec (lenN l) n) as [|Hn]; [discriminate|].
    intros H. injection H as <- <-. rewrite take_drop. rewrite lenN_take. now rewrite N.min_l by lia. }
  destruct (parse_short_string r) as [[id r1]|] eqn:E1; [|cbn; auto].
  destruct (parse_short_string r1) as [[ctx r2]|] eqn:E2; [|cbn; auto].
  apply P in E1. apply P in E2. exists (v :: r), r2. rewrite E1, E2. auto.
Qed.
Print Assumptions C46_parse.

(** In every execution of an encrypted file, the metadata header read from the file gives back what was stored at creation; after the first
    acknowledged commit this holds for every file that a crash can leave. *)
Theorem C46_stored : forall (E : Env), EnvOk E ->
  forall ki getkey, key_ok (Some ki) getkey -> forall s, reach (Some ki) getkey s ->
  read_metadata_header (dbf (s_db s)) = Ok (ki_version ki, ki_id ki, ki_ctx ki) /\
  forall c g gsz pl, s_ack s = Some c -> crash_image (dbf (s_db s)) g gsz ->
    read_metadata_header (set_crcm (image g gsz pl) CRC32C) = Ok (ki_version ki, ki_id ki, ki_ctx ki).
Proof.
  intros E EO ki getkey KO s R. destruct (@reach_inv E EO (Some ki) getkey KO s R) as [B I].
  pose proof (i_meta I) as M. unfold meta_inv in M. destruct M as (M1 & M2 & M3 & M4 & M5 & M6 & M7 & M8). destruct KO as (K1 & K2 & K3 & K4).
  assert (Hm9 : 9 <= meta_end ki).
  { unfold meta_end. pose proof (adv_ge 1 (8 + length (encode_metadata ki))). lia. }
  assert (P : forall f, crcm f = CRC32C -> cur f 0 = 2 -> meta_end ki <= size f ->
     (forall i, i < meta_end ki -> i mod BLOCK <> 0 -> cur f i = cur (dbf (s_db s)) i) ->
     read_metadata_header f = Ok (ki_version ki, ki_id ki, ki_ctx ki)).
  { intros f Hc H0 Hz Hx. unfold read_metadata_header. rewrite pread1 by lia. rewrite H0. change (negb (2 =? B_META)) with false. cbv iota.
    assert (Hr : pread_header f 0 BLOCK = Ok (encode_metadata ki)).
    { eapply hdr_at_read_max with (m := CRC32C) (e := meta_end ki).
      - rewrite M2 in M4. eapply hdr_at_mono; [exact M4| |lia]. intros i Hi Hm. apply Hx; auto.
      - exact Hz.
      - left. exact Hc.
      - destruct M4 as (M4 & _). rewrite BLOCK_val. lia. }
    rewrite Hr. cbn [bind]. now apply parse_encode_metadata. }
  split.
  - apply P; auto. pose proof (proj2 (i_good I)). lia.
  - intros c g gsz pl Ha G. unfold acked in M8. rewrite Ha in M8. destruct (M8 eq_refl) as [[S1 S2] V0]. destruct G as (G2 & G1 & G3).
    apply P; cbn [set_crcm image cur size crcm]; auto.
    + apply V0. apply G1. lia.
    + lia.
    + intros i Hi Hm. apply S2; auto. apply G1. lia.
Qed.
Print Assumptions C46_stored.

(** Every malformed chunk is reported: cut anywhere, the stored strings are refused. *)
Theorem C46_cut : forall ki n, ki_version ki <= 1 -> lenN (ki_id ki) <= 255 -> lenN (ki_ctx ki) <= 255 ->
  0 < n < lenN (encode_metadata ki) -> parse_metadata (take n (encode_metadata ki)) = Err E_CORRUPT.
Proof.
  intros ki n H1 H2 H3 Hn.
  assert (B1 : forall s : bytes, lenN s <= 255 -> be 1 (lenN s) = [lenN s]).
  { intros s Hs. cbn. now rewrite N.mod_small by lia. }
  assert (Q : forall (s rest : bytes) m, lenN s <= 255 -> m < 1 + lenN s -> parse_short_string (take m (be 1 (lenN s) ++ s ++ rest)) = None).
  { intros s rest m Hs Hm. rewrite B1 by exact Hs. destruct (N.eq_dec m 0) as [->|]; [now rewrite take_0|].
    rewrite take_app_ge by (change (lenN [lenN s]) with 1; lia). cbn [app parse_short_string].
    rewrite lenN_take, lenN_app. change (lenN [lenN s]) with 1.
    destruct (N.ltb_spec (N.min (m - 1) (lenN s + lenN rest)) (lenN s)); [reflexivity|lia]. }
  unfold encode_metadata in *. rewrite !lenN_app in Hn. rewrite !B1 in Hn by assumption.
  change (lenN [ki_version ki]) with 1 in Hn. change (lenN [lenN (ki_id ki)]) with 1 in Hn. change (lenN [lenN (ki_ctx ki)]) with 1 in Hn.
  rewrite take_app_ge by (change (lenN [ki_version ki]) with 1; lia). change (lenN [ki_version ki]) with 1. cbn [app parse_metadata].
  destruct (N.ltb_spec 1 (ki_version ki)); [lia|].
  destruct (N.lt_ge_cases (n - 1) (1 + lenN (ki_id ki))) as [Hs|Hs].
  { now rewrite Q. }
  rewrite (app_assoc (be 1 (lenN (ki_id ki)))). rewrite take_app_ge by (rewrite lenN_app, B1 by assumption; exact Hs).
  rewrite <- app_assoc. rewrite parse_short_app by exact H2.
  rewrite <- (app_nil_r (ki_ctx ki)) at 2. rewrite Q; [reflexivity|exact H3|]. rewrite lenN_app, B1 by assumption.
  change (lenN [lenN (ki_id ki)]) with 1. lia.
Qed.
Print Assumptions C46_cut.

(** An encrypted file: its metadata is read back. *)
Definition ex_ki : keyinfo := KeyInfo 1 [107; 101; 121] [1; 2; 3; 4] 77.
Definition ex_gk (v : N) (id ctx : bytes) : res N := if (v =? 1) && (lenN id =? 3) then Ok 77 else Err E_DECRYPT.
Definition ex_m0 : state :=
  let d := snd (@open_new env0 (empty_file []) (Some ex_ki) false false) in State d [] None [Commit (dbh d) [] (empty_file [])] [] [].
Definition ex_m1 : state := after_commit ex_m0 (@commit_ex env0 (s_db ex_m0) 10 0) 10.
Lemma ex_m_reach : @reach env0 (Some ex_ki) ex_gk ex_m1.
Proof.
  apply (@reach_commit env0 (Some ex_ki) ex_gk ex_m0); [|vm_compute; reflexivity..].
  apply (@reach_new env0 (Some ex_ki) ex_gk [] false false); [now right| |vm_compute; reflexivity]. apply pair_eq. vm_compute. reflexivity.
Qed.
Example C46_ex : key_ok (Some ex_ki) ex_gk /\ reach (E := env0) (Some ex_ki) ex_gk ex_m1 /\ (exists c, s_ack ex_m1 = Some c) /\
  @read_metadata_header env0 (dbf (s_db ex_m1)) = Ok (1, [107; 101; 121], [1; 2; 3; 4]).
Proof.
  split; [vm_compute; repeat split; discriminate|]. split; [exact ex_m_reach|]. split; [|vm_compute; reflexivity].
  assert (X : match s_ack ex_m1 with Some _ => True | None => False end) by (vm_compute; exact I).
  destruct (s_ack ex_m1) as [c|]; [eauto|destruct X].
Qed.

(** A context longer than 255 bytes (not produced by the current key derivations) is not read back: its length byte wraps around. *)
Theorem C46_context_refuted : exists ki, ki_version ki <= 1 /\ lenN (ki_id ki) <= 255 /\
  parse_metadata (encode_metadata ki) <> Ok (ki_version ki, ki_id ki, ki_ctx ki).
Proof.
  exists (KeyInfo 1 [1] (repeat 7 256) 5). split; [vm_compute; discriminate|]. split; [vm_compute; discriminate|]. vm_compute. discriminate.
Qed.
Print Assumptions C46_context_refuted.

(** A file created with both an encryption key and COUCHSTORE_OPEN_WITH_LEGACY_CRC: the disk version 11 header cannot say that there is a
    metadata header, so that the reopened file has no cipher and what was written cannot be read. *)
Definition ex_l0 : db := snd (@open_new env0 (empty_file []) (Some ex_ki) true false).
Definition ex_l1 : file := snd (@db_write_buf env0 (dbf ex_l0) [1; 2; 3]).
Definition ex_l2 : db := snd (@commit_ex env0 (Db ex_l1 (dbh ex_l0) false) 1 0).
Theorem C46_legacy_refuted : exists (E : Env) d0 p n f1 d2 d3,
  EnvOk E /\ key_ok (Some ex_ki) ex_gk /\
  open_new (empty_file []) (Some ex_ki) true false = (Ok tt, d0) /\
  db_write_buf (dbf d0) [1; 2; 3] = (Ok (p, n), f1) /\
  commit_ex (Db f1 (dbh d0) false) 1 0 = (Ok tt, d2) /\
  pread_bin (dbf d2) p = Ok [1; 2; 3] /\
  open_existing (image (cur (dbf d2)) (size (dbf d2)) []) ex_gk false false = Ok d3 /\
  read_metadata_header (dbf d3) = Ok (ki_version ex_ki, ki_id ex_ki, ki_ctx ex_ki) /\
  fkey (dbf d3) = None /\ (forall b, pread_bin (dbf d3) p <> Ok b).
Proof.
  assert (X : match @open_existing env0 (image (cur (dbf ex_l2)) (size (dbf ex_l2)) []) ex_gk false false with
              | Ok d3 => @read_metadata_header env0 (dbf d3) = Ok (ki_version ex_ki, ki_id ex_ki, ki_ctx ex_ki) /\ fkey (dbf d3) = None /\
                  @pread_bin env0 (dbf d3) (match fst (@db_write_buf env0 (dbf ex_l0) [1; 2; 3]) with Ok (p, _) => p | Err _ => 0 end) = Err E_CORRUPT
              | Err _ => False end) by (vm_compute; auto).
  destruct (@open_existing env0 (image (cur (dbf ex_l2)) (size (dbf ex_l2)) []) ex_gk false false) as [d3|] eqn:Eo; [|destruct X].
  destruct X as (X1 & X2 & X3).
  destruct (fst (@db_write_buf env0 (dbf ex_l0) [1; 2; 3])) as [[p n]|] eqn:Ew.
  2:{ vm_compute in Ew. discriminate. }
  exists env0, ex_l0, p, n, ex_l1, ex_l2, d3. split; [exact env0_ok|]. split; [vm_compute; repeat split; discriminate|].
  split; [unfold ex_l0; apply pair_eq; vm_compute; reflexivity|].
  split; [unfold ex_l1; rewrite <- Ew; now destruct (@db_write_buf env0 (dbf ex_l0) [1; 2; 3])|].
  split; [unfold ex_l2; apply pair_eq; vm_compute; reflexivity|]. split.
  { assert (p = match fst (@db_write_buf env0 (dbf ex_l0) [1; 2; 3]) with Ok (p, _) => p | Err _ => 0 end) as -> by now rewrite Ew.
    vm_compute. reflexivity. }
  split; [exact Eo|]. split; [exact X1|]. split; [exact X2|]. intros b. rewrite X3. discriminate.
Qed.
Print Assumptions C46_legacy_refuted.
