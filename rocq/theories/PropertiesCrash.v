(** Properties C01, C02, C03, C24, C48: commits and crashes. *)
From Verif Require Import Base Codec File FileFacts ChunkFacts Header HeaderFacts History CrashFacts OpenFacts NavFacts SpecFile DataFacts
  SpecCrash ReachNav CommitFacts EnvExample.
Local Open Scope N_scope.

(** ** Example execution *)

(** Not part of the code: an example. A file is created, a chunk written, a commit made, another chunk
    written whose bytes look like headers, and a second commit is made whose last sync fails. *)
Definition gk0 : N -> bytes -> bytes -> res N := fun _ _ _ => Err E_DECRYPT.
Definition ok_step : wstep := WStep 65536 false None false false.
Definition bad_step : wstep := WStep 0 false (Some E_WRITE) false false.
(** One write at creation; two for the first chunk; five for the first commit; four for the second chunk; four for the
    second commit; then a failure. *)
Definition ex_plan : list wstep := repeat ok_step 17 ++ [bad_step].
Definition ex_forge : bytes := repeat 1 5000.

(** Steps as functions. *)
Definition after_write (s : state) (w : res (N * N) * file) (b : bytes) : state :=
  State (Db (snd w) (dbh (s_db s)) (dropped (s_db s))) (match fst w with Ok (p, _) => (p, b) :: s_log s | Err _ => s_log s end)
    (s_ack s) (s_old s) (s_pend s) (s_fail s).
Definition this_commit (s : state) (ts : N) : commit :=
  Commit (committed (dbh (s_db s)) ts (align (fpos (dbf (s_db s))))) (s_log s) (dbf (s_db s)).
Definition after_commit (s : state) (w : res unit * db) (ts : N) : state :=
  match fst w with
  | Ok _ => State (snd w) (s_log s) (Some (this_commit s ts)) (opt_list (s_ack s) ++ s_old s) [] (s_fail s)
  | Err _ => if fpos (dbf (snd w)) =? fpos (dbf (s_db s))
             then State (snd w) (s_log s) (s_ack s) (s_old s) (s_pend s) (s_fail s)
             else State (snd w) (s_log s) (s_ack s) (s_old s) (this_commit s ts :: s_pend s) (this_commit s ts :: s_fail s)
  end.
Lemma reach_write (E : Env) key getkey s b : reach key getkey s ->
  let w := db_write_buf (dbf (s_db s)) b in big (snd w) = false -> lost (snd w) = false -> reach key getkey (after_write s w b).
Proof.
  intros R w Hb Hl. eapply reach_step; [exact R|]. unfold after_write.
  apply (@step_write E getkey s b (fst w) (snd w)); auto. apply surjective_pairing.
Qed.
Lemma reach_commit (E : Env) key getkey s ts n : reach key getkey s -> ts < 2^64 -> fpos (dbf (s_db s)) + BLOCK < 2^47 ->
  let w := commit_ex (s_db s) ts n in lost (dbf (snd w)) = false -> reach key getkey (after_commit s w ts).
Proof.
  intros R Ht Hf w Hl. eapply reach_step; [exact R|]. unfold after_commit.
  apply (@step_commit E getkey s ts n (fst w) (snd w)); auto. apply surjective_pairing.
Qed.

Definition ex_db0 : db := snd (@open_new env0 (empty_file ex_plan) None false false).
Definition ex_s0 : state := State ex_db0 [] None [Commit (dbh ex_db0) [] (empty_file ex_plan)] [] [].
Definition ex_s1 : state := after_write ex_s0 (@db_write_buf env0 (dbf (s_db ex_s0)) [65;66;67]) [65;66;67].
Definition ex_s2 : state := after_commit ex_s1 (@commit_ex env0 (s_db ex_s1) 1000 0) 1000.
Definition ex_s3 : state := after_write ex_s2 (@db_write_buf env0 (dbf (s_db ex_s2)) ex_forge) ex_forge.
Definition ex_s4 : state := after_commit ex_s3 (@commit_ex env0 (s_db ex_s3) 2000 0) 2000.

Lemma pair_eq {A B} (x : A * B) a : fst x = a -> x = (a, snd x).
Proof. destruct x. cbn. now intros ->. Qed.

Lemma ex_reach0 : @reach env0 None gk0 ex_s0.
Proof.
  apply (@reach_new env0 None gk0 ex_plan false false ex_db0); [now left| |vm_compute; reflexivity].
  unfold ex_db0. apply pair_eq. vm_compute. reflexivity.
Qed.
Lemma ex_reach1 : @reach env0 None gk0 ex_s1.
Proof. apply (@reach_write env0 None gk0 ex_s0); [exact ex_reach0| |]; vm_compute; reflexivity. Qed.
Lemma ex_reach2 : @reach env0 None gk0 ex_s2.
Proof. apply (@reach_commit env0 None gk0 ex_s1); [exact ex_reach1| | |]; vm_compute; reflexivity. Qed.
Lemma ex_reach3 : @reach env0 None gk0 ex_s3.
Proof. apply (@reach_write env0 None gk0 ex_s2); [exact ex_reach2| |]; vm_compute; reflexivity. Qed.
Lemma ex_reach4 : @reach env0 None gk0 ex_s4.
Proof. apply (@reach_commit env0 None gk0 ex_s3); [exact ex_reach3| | |]; vm_compute; reflexivity. Qed.

Lemma image_now f : wf f -> crash_image f (cur f) (size f).
Proof.
  intros W. split; [split; [apply (wf_dsize W)|lia]|]. split; [intros i _; apply (wf_cur W)|].
  intros i Hi. exact (@wf_end _ W i _ Hi (wf_cur W i)).
Qed.
Lemma image_durable f : wf f -> crash_image f (fun i => if i <? dsize f then cur f i else 0) (dsize f).
Proof.
  intros W. split; [split; [lia|apply (wf_dsize W)]|]. split.
  - intros i Hi. apply N.ltb_lt in Hi. rewrite Hi. apply (wf_cur W).
  - intros i Hi. apply N.ltb_ge in Hi. now rewrite Hi.
Qed.

(** ** C01 *)

(** In every execution of a writer, whatever a crash leaves of the unsynced bytes, opening succeeds and shows
    completely either the last acknowledged commit or a commit that was started after it. *)
Theorem C01_crash : forall (E : Env), EnvOk E ->
  forall key getkey, key_ok key getkey -> forall s, reach key getkey s ->
  forall c0, s_ack s = Some c0 ->
  forall g gsz pl recovery, crash_image (dbf (s_db s)) g gsz ->
  exists c d, (c = c0 \/ In c (s_pend s)) /\
    open_existing (image g gsz pl) getkey recovery false = Ok d /\ shows d c.
Proof.
  intros E EO key getkey KO s R c0 Ha g gsz pl recovery G.
  destruct (@reach_inv E EO key getkey KO s R) as [B I].
  destruct (@open_image E key getkey KO B s c0 g gsz pl recovery I Ha G) as (c & H1 & H2 & H3 & H4 & _).
  eexists c, _. split; [exact H1|]. split; [exact H2|]. exact (opened_shows EO pl H3 H4 G).
Qed.
Print Assumptions C01_crash.

(** Without a failed commit in between, it is exactly the last acknowledged commit. *)
Theorem C01_no_pending : forall (E : Env), EnvOk E ->
  forall key getkey, key_ok key getkey -> forall s, reach key getkey s ->
  forall c0, s_ack s = Some c0 -> s_pend s = [] ->
  forall g gsz pl recovery, crash_image (dbf (s_db s)) g gsz ->
  exists d, open_existing (image g gsz pl) getkey recovery false = Ok d /\ shows d c0.
Proof.
  intros E EO key getkey KO s R c0 Ha Hp g gsz pl recovery G.
  destruct (@C01_crash E EO key getkey KO s R c0 Ha g gsz pl recovery G) as (c & d & [->|Hin] & H2 & H3); [eauto|].
  rewrite Hp in Hin. destruct Hin.
Qed.
Print Assumptions C01_no_pending.

(** At most the commits attempted since the last acknowledged one are pending, each at its own position above the
    acknowledged one. *)
Theorem C01_pending : forall (E : Env), EnvOk E ->
  forall key getkey, key_ok key getkey -> forall s, reach key getkey s ->
  forall c0, s_ack s = Some c0 ->
  NoDup (map (fun c => h_position (c_hdr c)) (s_pend s)) /\
  forall c, In c (s_pend s) -> In c (s_fail s) /\ h_position (c_hdr c0) < h_position (c_hdr c).
Proof.
  intros E EO key getkey KO s R c0 Ha. destruct (@reach_inv E EO key getkey KO s R) as [B I].
  split; [exact (i_nodup I)|]. intros c Hc. split; [exact (i_pend I c Hc)|].
  destruct (i_ackB I Ha) as [HB _]. pose proof (i_pendB I c Hc). unfold cpos in *. lia.
Qed.
Print Assumptions C01_pending.

(** Both outcomes of a failed commit occur: the first image has all unsynced bytes, the second has the old block
    type byte of the header of the failed commit. *)
Definition ex_g : N -> N := fun i => if i =? 12288 then 0 else cur (dbf (s_db ex_s4)) i.
Example C01_ex :
  @reach env0 None gk0 ex_s4 /\ key_ok None gk0 /\
  match s_ack ex_s4 with Some c => h_timestamp (c_hdr c) = 1000 /\ c_log c = [(48, [65;66;67])] | None => False end /\
  map (fun c => h_timestamp (c_hdr c)) (s_pend ex_s4) = [2000] /\
  crash_image (dbf (s_db ex_s4)) (cur (dbf (s_db ex_s4))) 12336 /\
  crash_image (dbf (s_db ex_s4)) ex_g 12336 /\
  match @open_existing env0 (image (cur (dbf (s_db ex_s4))) 12336 []) gk0 false false with
  | Ok d => h_timestamp (dbh d) = 2000 /\ @pread_bin env0 (dbf d) 48 = Ok [65;66;67] | Err _ => False end /\
  match @open_existing env0 (image ex_g 12336 []) gk0 false false with
  | Ok d => h_timestamp (dbh d) = 1000 /\ h_position (dbh d) = 4096 | Err _ => False end.
Proof.
  split; [exact ex_reach4|]. split; [exact I|]. split; [vm_compute; auto|]. split; [vm_compute; reflexivity|].
  destruct (@reach_inv env0 env0_ok None gk0 I _ ex_reach4) as [B Iv]. pose proof (proj1 (i_good Iv)) as W.
  assert (Hz : size (dbf (s_db ex_s4)) = 12336) by (vm_compute; reflexivity).
  pose proof (image_now W) as Im. rewrite Hz in Im. split; [exact Im|]. split.
  { destruct Im as (A1 & A2 & A3). split; [exact A1|]. unfold ex_g. split.
    - intros i Hi. destruct (N.eqb_spec i 12288) as [->|_]; [vm_compute; auto|auto].
    - intros i Hi. destruct (N.eqb_spec i 12288) as [->|_]; auto. }
  split; vm_compute; auto.
Qed.

(** ** C02 *)

(** After a successful commit, whatever crash follows, opening gives the committing handle's header: the fields
    from before the commit together with the time and the link to the previous header, as far as the disk version has them. *)
Theorem C02_commit_open : forall (E : Env), EnvOk E ->
  forall key getkey, key_ok key getkey -> forall s, reach key getkey s ->
  forall ts n u d', ts < 2^64 -> fpos (dbf (s_db s)) + 4096 < 2^47 ->
  commit_ex (s_db s) ts n = (Ok u, d') -> lost (dbf d') = false ->
  forall g gsz pl recovery, crash_image (dbf d') g gsz ->
  exists d, open_existing (image g gsz pl) getkey recovery false = Ok d /\
    same_header (dbh d) (dbh d') /\
    (let h := dbh (s_db s) in let h' := dbh d' in
     h_version h' = h_version h /\ h_update_seq h' = h_update_seq h /\ h_purge_seq h' = h_purge_seq h /\
     h_purge_ptr h' = h_purge_ptr h /\ h_by_id h' = h_by_id h /\ h_by_seq h' = h_by_seq h /\ h_local h' = h_local h /\
     (13 <= h_version h -> h_timestamp h' = ts) /\ (h_version h < 13 -> h_timestamp h' = 0) /\
     (h_version h = 14 -> h_prev h' = h_position h) /\ (h_version h < 14 -> h_prev h' = 2^64 - 1) /\
     h_position h' mod 4096 = 0 /\ fpos (dbf (s_db s)) <= h_position h' < fpos (dbf (s_db s)) + 4096) /\
    (forall p b, In (p, b) (s_log s) -> pread_bin (dbf d) p = Ok b).
Proof.
  intros E EO key getkey KO s R ts n u d' Hts Hf Hc Hl g gsz pl recovery G.
  destruct (@reach_inv E EO key getkey KO s R) as [B I].
  assert (S1 := @step_commit E getkey s ts n (Ok u) d' Hts Hf Hc Hl). cbv zeta in S1.
  set (c := Commit _ _ _) in S1. pose proof (reach_step R S1) as R1.
  destruct (@C01_no_pending E EO key getkey KO _ R1 c eq_refl eq_refl g gsz pl recovery G) as (d & H1 & H2 & H3).
  exists d. split; [exact H1|]. destruct (@commit_header E EO key B s ts n (Ok u) d' I Hc) as [_ Hh].
  split; [rewrite Hh; exact H2|]. split; [|exact H3]. rewrite Hh. cbv zeta. unfold committed. cbn -[N.leb N.modulo N.add N.lt N.le align].
  pose proof (ho_version (i_hok I)) as Hv. pose proof (align_ge (fpos (dbf (s_db s)))) as A1. pose proof (align_mod (fpos (dbf (s_db s)))) as A2.
  change BLOCK with 4096 in *.
  assert (V12 : (h_version (dbh (s_db s)) <=? 12) = true \/ (h_version (dbh (s_db s)) <=? 12) = false) by (destruct (_ <=? 12); auto).
  repeat match goal with |- _ /\ _ => split end; auto; try lia.
  - intros H. destruct (N.leb_spec (h_version (dbh (s_db s))) 12); [lia|reflexivity].
  - intros H. destruct (N.leb_spec (h_version (dbh (s_db s))) 12); [reflexivity|lia].
  - intros H. destruct (N.leb_spec (h_version (dbh (s_db s))) 13); [lia|reflexivity].
  - intros H. destruct (N.leb_spec (h_version (dbh (s_db s))) 13); [reflexivity|lia].
Qed.
Print Assumptions C02_commit_open.

Example C02_ex :
  @reach env0 None gk0 ex_s1 /\ fst (@commit_ex env0 (s_db ex_s1) 1000 0) = Ok tt /\
  lost (dbf (snd (@commit_ex env0 (s_db ex_s1) 1000 0))) = false /\
  let d' := snd (@commit_ex env0 (s_db ex_s1) 1000 0) in
  match @open_existing env0 (image (cur (dbf d')) (size (dbf d')) []) gk0 false false with
  | Ok d => dbh d = Header 14 0 None None None 0 0 4096 1000 0 false | Err _ => False end.
Proof. split; [exact ex_reach1|]. vm_compute. auto. Qed.

(** ** C03 *)

(** Any file at all: the header taken by opening is valid, and no valid header stands at a higher block. *)
Theorem C03_newest : forall (E : Env) f getkey recovery legacy d,
  open_existing f getkey recovery legacy = Ok d ->
  let f0 := set_fpos (set_fkey (set_crcm f CRC_UNKNOWN) None) (size f) in
  let p := h_position (dbh d) in
  p mod 4096 = 0 /\ p + 2 <= size f /\ valid_header f0 p (dbh d) /\
  forall q hq, q mod 4096 = 0 -> p < q -> q + 2 <= size f -> ~ valid_header f0 q hq.
Proof. intros E f getkey recovery legacy d. exact (@open_newest E f getkey recovery legacy d). Qed.
Print Assumptions C03_newest.

(** A file built by any operations with any chunk contents: a position at which the scan sees a header
    (a block start holding the byte 1) holds the header of a commit, now and in every crash image. *)
Theorem C03_no_forgery : forall (E : Env), EnvOk E ->
  forall key getkey, key_ok key getkey -> forall s, reach key getkey s ->
  forall g gsz, crash_image (dbf (s_db s)) g gsz ->
  forall q, q < gsz -> q mod 4096 = 0 -> g q = 1 ->
  exists c, In c (opt_list (s_ack s) ++ s_old s ++ s_fail s) /\ h_position (c_hdr c) = q.
Proof.
  intros E EO key getkey KO s R g gsz (_ & G & _) q Hq Hm H1. destruct (@reach_inv E EO key getkey KO s R) as [B I].
  destruct (i_blocks I q (g q) Hm (G q Hq)) as [H|[[H _]|(_ & c & A1 & A2 & _)]]; try (rewrite H1 in H; discriminate H).
  exists c. split; [exact A1|exact A2].
Qed.
Print Assumptions C03_no_forgery.

(** The chunk of 5000 bytes with the value 1 crosses a block start. *)
Example C03_ex :
  @reach env0 None gk0 ex_s3 /\ In (4144, ex_forge) (s_log ex_s3) /\
  cur (dbf (s_db ex_s3)) 8191 = 1 /\ cur (dbf (s_db ex_s3)) 8192 = 0 /\ cur (dbf (s_db ex_s3)) 8193 = 1 /\
  cur (dbf (s_db ex_s3)) 4096 = 1 /\ map (fun c => h_position (c_hdr c)) (effective ex_s3) = [4096; 0] /\
  match @open_existing env0 (image (cur (dbf (s_db ex_s3))) 9153 []) gk0 true false with
  | Ok d => h_position (dbh d) = 4096 | Err _ => False end.
Proof. split; [exact ex_reach3|]. split; [vm_compute; now left|]. vm_compute. auto 10. Qed.

(** ** C24 *)

(** A commit that fails, at whatever step, leaves the handle's header as it was. *)
Theorem C24_handle : forall (E : Env), EnvOk E ->
  forall key getkey, key_ok key getkey -> forall s, reach key getkey s ->
  forall ts n e d', commit_ex (s_db s) ts n = (Err e, d') -> dbh d' = dbh (s_db s) /\ dropped d' = dropped (s_db s).
Proof.
  intros E EO key getkey KO s R ts n e d' H. destruct (@reach_inv E EO key getkey KO s R) as [B I].
  destruct (@commit_header E EO key B s ts n (Err e) d' I H). auto.
Qed.
Print Assumptions C24_handle.

(** After it, opening still finds the previously committed state, unless the failed commit itself, or one that failed before it
    since then, has reached the medium completely. *)
Theorem C24_previous : forall (E : Env), EnvOk E ->
  forall key getkey, key_ok key getkey -> forall s, reach key getkey s ->
  forall c0, s_ack s = Some c0 -> s_pend s = [] ->
  forall ts n e d', ts < 2^64 -> fpos (dbf (s_db s)) + 4096 < 2^47 ->
  commit_ex (s_db s) ts n = (Err e, d') -> lost (dbf d') = false ->
  forall g gsz pl recovery, crash_image (dbf d') g gsz ->
  exists d, open_existing (image g gsz pl) getkey recovery false = Ok d /\
    (shows d c0 \/
     shows d (Commit (committed (dbh (s_db s)) ts (align (fpos (dbf (s_db s))))) (s_log s) (dbf (s_db s)))).
Proof.
  intros E EO key getkey KO s R c0 Ha Hp ts n e d' Hts Hf Hc Hl g gsz pl recovery G.
  assert (S1 := @step_commit E getkey s ts n (Err e) d' Hts Hf Hc Hl). cbv zeta in S1.
  set (c := Commit _ _ _) in *. pose proof (reach_step R S1) as R1.
  destruct (fpos (dbf d') =? fpos (dbf (s_db s))).
  - destruct (@C01_crash E EO key getkey KO _ R1 c0 Ha g gsz pl recovery G) as (c' & d & H1 & H2 & H3).
    exists d. split; [exact H2|]. cbn [s_pend] in H1. rewrite Hp in H1. destruct H1 as [->|[]]. now left.
  - destruct (@C01_crash E EO key getkey KO _ R1 c0 Ha g gsz pl recovery G) as (c' & d & H1 & H2 & H3).
    exists d. split; [exact H2|]. cbn [s_pend] in H1. rewrite Hp in H1. destruct H1 as [->|[<-|[]]]; [now left|now right].
Qed.
Print Assumptions C24_previous.

(** A later successful commit makes everything saved so far durable, also what was saved before the failure. *)
Theorem C24_retry : forall (E : Env), EnvOk E ->
  forall key getkey, key_ok key getkey -> forall s, reach key getkey s ->
  forall ts n e d1 ts2 n2 u d2, ts < 2^64 -> fpos (dbf (s_db s)) + 4096 < 2^47 ->
  commit_ex (s_db s) ts n = (Err e, d1) -> ts2 < 2^64 -> fpos (dbf d1) + 4096 < 2^47 ->
  commit_ex d1 ts2 n2 = (Ok u, d2) -> lost (dbf d1) = false -> lost (dbf d2) = false ->
  forall g gsz pl recovery, crash_image (dbf d2) g gsz ->
  exists d, open_existing (image g gsz pl) getkey recovery false = Ok d /\ same_header (dbh d) (dbh d2) /\
    h_update_seq (dbh d) = h_update_seq (dbh (s_db s)) /\
    forall p b, In (p, b) (s_log s) -> pread_bin (dbf d) p = Ok b.
Proof.
  intros E EO key getkey KO s R ts n e d1 ts2 n2 u d2 Hts Hf Hc Hts2 Hf2 Hc2 Hl1 Hl2 g gsz pl recovery G.
  destruct (@C24_handle E EO key getkey KO s R ts n e d1 Hc) as [Hh _].
  assert (S1 := @step_commit E getkey s ts n (Err e) d1 Hts Hf Hc Hl1). cbv zeta in S1.
  pose proof (reach_step R S1) as R1. clear S1.
  match type of R1 with reach _ _ (if ?b then _ else _) => destruct b end;
  (destruct (@C02_commit_open E EO key getkey KO _ R1 ts2 n2 u d2 Hts2 Hf2 Hc2 Hl2 g gsz pl recovery G) as (d & A1 & A2 & A3 & A4);
   exists d; split; [exact A1|]; split; [exact A2|]; split; [|exact A4];
   rewrite (sh_update_seq A2); cbn [s_db] in A3; rewrite <- Hh; apply A3).
Qed.
Print Assumptions C24_retry.

(** The last sync fails; retried, the commit succeeds. *)
Example C24_ex :
  @reach env0 None gk0 ex_s3 /\ s_pend ex_s3 = [] /\
  fst (@commit_ex env0 (s_db ex_s3) 2000 0) = Err E_WRITE /\ lost (dbf (snd (@commit_ex env0 (s_db ex_s3) 2000 0))) = false /\
  fst (@commit_ex env0 (snd (@commit_ex env0 (s_db ex_s3) 2000 0)) 3000 0) = Ok tt /\
  h_position (dbh (snd (@commit_ex env0 (snd (@commit_ex env0 (s_db ex_s3) 2000 0)) 3000 0))) = 16384.
Proof. split; [exact ex_reach3|]. vm_compute. auto 10. Qed.

(** When the failing sync makes the kernel forget the unsynced pages, a later successful commit is not enough: data saved
    before the failure is lost although the later commit was acknowledged. *)
Definition lossy_step : wstep := WStep 0 false (Some E_WRITE) false true.
Definition lossy_db0 : db := snd (@open_new env0 (empty_file (repeat ok_step 6 ++ [lossy_step])) None false false).
Definition lossy_w : res (N * N) * file := @db_write_buf env0 (dbf lossy_db0) [65;66;67].
Definition lossy_d1 : res unit * db := @commit_ex env0 (Db (snd lossy_w) (dbh lossy_db0) false) 1000 0.
Definition lossy_d2 : res unit * db := @commit_ex env0 (snd lossy_d1) 2000 0.
Definition lossy_g : N -> N := fun i => if (48 <=? i) && (i <? 59) then 0 else cur (dbf (snd lossy_d2)) i.

Lemma lossy_appends : @appends env0 (dbf lossy_db0) (dbf (snd lossy_d2)).
Proof.
  assert (C : forall f0 d ts n, @appends env0 f0 (dbf d) -> @appends env0 f0 (dbf (snd (@commit_ex env0 d ts n)))).
  { intros f0 d ts n A. unfold commit_ex.
    match goal with |- context [db_write_header ?x B_DATA] => set (d1 := x) end.
    assert (A1 : @appends env0 f0 (dbf (snd (@db_write_header env0 d1 B_DATA)))).
    { unfold db_write_header. cbv zeta. destruct (_ || _); [|exact A].
      match goal with |- context [write_header ?x ?y ?z] => destruct (@write_header env0 x y z) as [[p|e] f'] eqn:Ew end;
      eapply app_header; [exact A|exact Ew|exact A|exact Ew]. }
    destruct (@db_write_header env0 d1 B_DATA) as [[u|e] d2]; [|exact A1]. cbn [snd] in A1.
    destruct (fsync (dbf d2)) as [[u2|e] f3] eqn:Es; [|eapply app_sync; [exact A1|exact Es]].
    assert (A3 : @appends env0 f0 f3) by (eapply app_sync; [exact A1|exact Es]).
    assert (A4 : forall k f q, q mod BLOCK = 0 -> @appends env0 f0 f -> @appends env0 f0 (snd (commit_flip k f q))).
    { clear. induction k as [|k IH]; intros f q Hq A; cbn [commit_flip];
      destruct (write_disk_block_type f q B_HEADER) as [[u|e] f1] eqn:Ew;
      try (eapply app_type; [exact A|exact Hq|exact Ew]);
      (destruct (fsync f1) as [[u2|e] f2] eqn:Es;
       assert (A2 : @appends env0 f0 f2) by (eapply app_sync; [eapply app_type; [exact A|exact Hq|exact Ew]|exact Es]); auto). }
    specialize (A4 n f3 (align (fpos (dbf d))) (align_mod _) A3).
    destruct (commit_flip n f3 (align (fpos (dbf d)))) as [[u3|e] f4]; exact A4. }
  unfold lossy_d2, lossy_d1. apply C, C. cbn [dbf]. eapply app_chunk; [apply app_refl|]. unfold lossy_w. apply surjective_pairing.
Qed.

Theorem C24_lossy_refuted : exists (E : Env) d0 p f b d1 d2 g gsz d,
  EnvOk E /\
  (exists pl, @open_new E (empty_file pl) None false false = (Ok tt, d0)) /\
  @db_write_buf E (dbf d0) b = (Ok (p, lenN b + 8), f) /\
  (exists e, @commit_ex E (Db f (dbh d0) false) 1000 0 = (Err e, d1)) /\
  @commit_ex E d1 2000 0 = (Ok tt, d2) /\
  crash_image (dbf d2) g gsz /\
  @open_existing E (image g gsz []) gk0 false false = Ok d /\
  same_header (dbh d) (dbh d2) /\ @pread_bin E (dbf d) p <> Ok b.
Proof.
  assert (X : match @open_existing env0 (image lossy_g 8240 []) gk0 false false with
              | Ok d => dbh d = dbh (snd lossy_d2) /\ @pread_bin env0 (dbf d) 48 = Err E_CORRUPT | Err _ => False end).
  { vm_compute. auto. }
  destruct (@open_existing env0 (image lossy_g 8240 []) gk0 false false) as [d|] eqn:Eo; [|destruct X]. destruct X as [X1 X2].
  exists env0, lossy_db0, 48, (snd lossy_w), [65;66;67], (snd lossy_d1), (snd lossy_d2), lossy_g, 8240, d.
  split; [exact env0_ok|].
  split; [eexists; unfold lossy_db0; apply pair_eq; vm_compute; reflexivity|].
  split; [unfold lossy_w; apply pair_eq; vm_compute; reflexivity|].
  split; [exists E_WRITE; unfold lossy_d1; apply pair_eq; vm_compute; reflexivity|].
  split; [unfold lossy_d2; apply pair_eq; vm_compute; reflexivity|].
  split.
  - assert (R : @reach env0 None gk0 (State lossy_db0 [] None [Commit (dbh lossy_db0) [] (empty_file (repeat ok_step 6 ++ [lossy_step]))] [] [])).
    { apply (@reach_new env0 None gk0 _ false false lossy_db0); [now left| |vm_compute; reflexivity].
      unfold lossy_db0. apply pair_eq. vm_compute. reflexivity. }
    destruct (@reach_inv env0 env0_ok None gk0 I _ R) as [B Iv].
    pose proof (i_good Iv) as Gd. cbn [s_db] in Gd.
    pose proof (@appends_good env0 env0_ok (dbf lossy_db0) (dbf (snd lossy_d2)) lossy_appends Gd) as ((W & _) & _).
    destruct (image_now W) as (A1 & A2 & A3).
    assert (Hz : size (dbf (snd lossy_d2)) = 8240) by (vm_compute; reflexivity). rewrite Hz in *.
    split; [exact A1|]. unfold lossy_g. split.
    + intros i Hi. destruct ((48 <=? i) && (i <? 59)) eqn:Er; [|auto].
      assert (In i [48;49;50;51;52;53;54;55;56;57;58]) as Hin.
      { cbn [In]. lia. }
      assert (F : forallb (fun i => existsb (N.eqb 0) (vals (dbf (snd lossy_d2)) i)) [48;49;50;51;52;53;54;55;56;57;58] = true)
        by (vm_compute; reflexivity).
      rewrite forallb_forall in F. specialize (F i Hin). rewrite existsb_exists in F. destruct F as (x & F1 & F2).
      apply N.eqb_eq in F2. subst x. exact F1.
    + intros i Hi. destruct ((48 <=? i) && (i <? 59)) eqn:Er; [reflexivity|auto].
  - split; [exact Eo|]. rewrite X1, X2. split; [|discriminate].
    constructor; auto using same_root_refl.
Qed.
Print Assumptions C24_lossy_refuted.

(** ** C48 *)

(** Every action keeps the disk version. *)
Theorem C48_version : forall (E : Env), EnvOk E ->
  forall key getkey, key_ok key getkey -> forall s, reach key getkey s ->
  forall s', step getkey s s' -> h_version (dbh (s_db s')) = h_version (dbh (s_db s)).
Proof.
  intros E EO key getkey KO s R s' S. destruct (@reach_inv E EO key getkey KO s R) as [B I].
  destruct S as [s b r f' Hw Hb Hl|s us id sq loc ps pp h f|s ts n r d' Ht Hf Hc Hl c|s g gsz pl recovery d' c G Ho Ha Hp|s g gsz pl recovery d' c0 c G Ho Ha Hin Hp];
    cbn [s_db dbh h_version]; auto.
  - destruct (@commit_header E EO key B s ts n r d' I Hc) as [_ Hh].
    destruct r as [u|e]; [|destruct (_ =? _)]; cbn [s_db]; rewrite Hh; reflexivity.
  - destruct (@open_image E key getkey KO B s c g gsz pl recovery I Ha G) as (x & H1 & H2 & _).
    rewrite H2 in Ho. injection Ho as <-. cbn [dbh]. change (h_version (strip (c_hdr x))) with (h_version (c_hdr x)).
    apply (i_ver I). unfold all_coms. rewrite !in_app_iff. destruct H1 as [->|H1]; [left; rewrite Ha; now left|].
    right; right. exact (i_pend I x H1).
  - destruct (@open_image E key getkey KO B s c0 g gsz pl recovery I Ha G) as (x & H1 & H2 & _).
    rewrite H2 in Ho. injection Ho as <-. cbn [dbh]. change (h_version (strip (c_hdr x))) with (h_version (c_hdr x)).
    apply (i_ver I). unfold all_coms. rewrite !in_app_iff. destruct H1 as [->|H1]; [left; rewrite Ha; now left|].
    right; right. exact (i_pend I x H1).
Qed.
Print Assumptions C48_version.

(** The checksum mode follows the version; every header in effect has the same version and, where the version has no
    such field, the defaults. *)
Theorem C48_defaults : forall (E : Env), EnvOk E ->
  forall key getkey, key_ok key getkey -> forall s, reach key getkey s ->
  let v := h_version (dbh (s_db s)) in
  (v = 11 \/ v = 12 \/ v = 13 \/ v = 14) /\
  crcm (dbf (s_db s)) = (if v =? 11 then CRC32 else CRC32C) /\
  forall c, In c (opt_list (s_ack s) ++ s_old s) ->
    h_version (c_hdr c) = v /\ (v < 13 -> h_timestamp (c_hdr c) = 0) /\
    (v < 14 -> h_prev (c_hdr c) = 2^64 - 1 /\ h_meta (c_hdr c) = false).
Proof.
  intros E EO key getkey KO s R v. destruct (@reach_inv E EO key getkey KO s R) as [B I]. pose proof (i_hok I) as K.
  pose proof (ho_version K) as Hv. fold v in Hv. split; [exact Hv|]. split.
  - rewrite (ho_mode K). fold v. destruct Hv as [->|[->|[->| ->]]]; reflexivity.
  - intros c Hc. assert (Ev : h_version (c_hdr c) = v).
    { apply (i_ver I). unfold all_coms. rewrite in_app_iff in Hc. rewrite !in_app_iff. tauto. }
    pose proof (cw_fits (chain_cw I c Hc)) as F. split; [exact Ev|]. rewrite <- Ev. split; [apply (hf_ts0 F)|].
    intros H. exact (hf_prev0 F H).
Qed.
Print Assumptions C48_defaults.

(** The version of a new file is chosen by the open flag. *)
Theorem C48_new : forall (E : Env), EnvOk E -> forall pl key legacy no_commit u d, open_new (empty_file pl) key legacy no_commit = (Ok u, d) ->
  h_version (dbh d) = (if legacy then 11 else 14).
Proof.
  intros E EO pl key legacy no_commit u d. unfold open_new.
  set (f0 := set_fpos _ 0). destruct (create_metadata_header f0 key) as [[meta|e] f1] eqn:Em; [|discriminate].
  assert (M : crcm f1 = if legacy then CRC32 else CRC32C).
  { assert (crcm f0 = if legacy then CRC32 else CRC32C) as H0 by reflexivity. rewrite <- H0. clear H0.
    unfold create_metadata_header in Em. destruct key as [k|]; [|inv Em; reflexivity].
    destruct (_ || _); [discriminate|]. destruct (write_header (set_fkey f0 (Some (ki_key k))) (encode_metadata k) B_META) as [[p|e] f2] eqn:Ew; inv Em.
    assert (G : good (set_fkey f0 (Some (ki_key k)))).
    { destruct (empty_good pl) as [W _]. split; [|cbn; lia]. destruct W. constructor; auto. }
    destruct (@write_header_spec _ EO _ _ _ _ _ G Ew) as (X & _). exact (ex_crcm X). }
  unfold create_header. set (h := Header _ 0 None None None 0 0 0 0 NO_PREV meta).
  assert (Hh : h_version h = if legacy then 11 else 14) by (subst h; cbn; rewrite M; destruct legacy; reflexivity).
  assert (Fin : forall d1 : db, h_version (dbh d1) = (if legacy then 11 else 14) ->
    (if fpos (dbf d1) =? 0 then match write_disk_block_type (dbf d1) 0 B_DATA with
       | (Ok _, f') => (Ok tt, Db (set_fpos f' 1) (dbh d1) false) | (Err e, f') => (Err e, Db f' (dbh d1) false) end
     else (Ok tt, d1)) = (Ok u, d) -> h_version (dbh d) = if legacy then 11 else 14).
  { intros d1 H1. destruct (fpos (dbf d1) =? 0); [|intros H; inv H; exact H1].
    destruct (write_disk_block_type (dbf d1) 0 B_DATA) as [[x|e] f']; intros H; inv H. exact H1. }
  destruct no_commit; [apply Fin; exact Hh|].
  destruct (db_write_header (Db f1 h false) B_HEADER) as [[x|e] d1] eqn:Ew; [|discriminate]. apply Fin.
  revert Ew. unfold db_write_header. cbn [dbh dbf dropped]. cbv zeta.
  set (hh := if (h_version _ =? 11) || (h_version _ =? 12) || (h_version _ =? 13) then _ else _).
  assert (Hhh : h_version hh = h_version h).
  { subst hh. destruct ((h_version h =? 11) || (h_version h =? 12)); destruct (_ || _ || _); reflexivity. }
  clearbody hh. destruct (_ || _ || _ || _); [|discriminate].
  destruct (write_header f1 (encode_header hh) B_HEADER) as [[p|e] f2]; intros H; inv H. cbn. congruence.
Qed.
Print Assumptions C48_new.

(** A version 13 file. *)
Definition ex_old : db :=
  snd (@db_write_header env0 (Db (set_crcm (empty_file []) CRC32C) (Header 13 0 None None None 0 0 0 0 NO_PREV false) false) B_HEADER).
Definition ex_o1 : state := State ex_old [] None [Commit (dbh ex_old) [] (empty_file [])] [] [].
Definition ex_o2 : state := after_commit ex_o1 (@commit_ex env0 (s_db ex_o1) 77 0) 77.
Example C48_ex :
  @reach env0 None gk0 ex_o2 /\
  map (fun c => (h_version (c_hdr c), h_timestamp (c_hdr c), h_prev (c_hdr c), h_position (c_hdr c))) (effective ex_o2)
    = [(13, 77, 2^64 - 1, 4096); (13, 0, 2^64 - 1, 0)].
Proof.
  split; [|vm_compute; reflexivity].
  apply (@reach_commit env0 None gk0 ex_o1); [|vm_compute; reflexivity|vm_compute; reflexivity|vm_compute; reflexivity].
  apply (@reach_old env0 None gk0 [] 13); [now right|reflexivity| |vm_compute; reflexivity].
  unfold ex_old. apply pair_eq. vm_compute. reflexivity.
Qed.
