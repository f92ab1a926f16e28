(** Property C66. *)
From Coq Require Import Relations.
From Verif Require Import Base Codec CodecFacts File FileFacts ChunkFacts Header HeaderFacts History CrashFacts OpenFacts SpecFile SpecCrash EnvExample PropertiesCrash.
Local Open Scope N_scope.
Unset Strict Implicit.

(** ** C66: nonces *)

Section Facts.
Context {E : Env} (EO : EnvOk E).
Definition nonces_of (l : list (N * bytes)) : list N := map (fun x => nonce (fst x)) l.
Definition apart (s : state) : Prop := NoDup (nonces_of (s_log s)) /\ (forall c, s_ack s = Some c -> NoDup (nonces_of (c_log c))) /\ (forall c, In c (s_pend s) -> NoDup (nonces_of (c_log c))).
Lemma nonce_between p : p <= nonce p <= p + 1.
Proof. unfold nonce. destruct (_ =? 0); lia. Qed.
Lemma chunk_room g m k q b e : chunk_at g m k q b e -> q + 4 <= e.
Proof.
  unfold chunk_at. destruct k as [k|].
  - intros (_ & _ & H). pose proof (adv_ge q (4 + length (encrypt k (nonce q) b))). lia.
  - intros (_ & c & _ & _ & _ & H). pose proof (adv_ge q (8 + length b)). lia.
Qed.
Lemma write_pos f b p n f' : db_write_buf f b = (Ok (p, n), f') -> p = fpos f.
Proof.
  unfold db_write_buf, write_encrypted. destruct (fkey f) as [k|].
  - destruct (_ <=? _); [discriminate|]. destruct (raw_write _ _ _ _) as [[e|e] f1]; [|discriminate]. intros H. injection H as <- _ _. reflexivity.
  - destruct (get_checksum _ _) as [c|e]; [|discriminate]. destruct (raw_write _ _ _ _) as [[e|e] f1]; [|discriminate]. destruct (raw_write _ _ e b) as [[e2|e2] f2]; [|discriminate]. intros H. injection H as <- _ _. reflexivity.
Qed.
Lemma step_apart key getkey (KO : key_ok key getkey) s s' : reach key getkey s -> step getkey s s' -> apart s -> apart s'.
Proof.
  intros R S (A1 & A2 & A3). destruct (reach_inv EO KO R) as [B I].
  destruct S as [s b r f' H Hb Hl|s us id sq loc ps pp h f|s ts n r d' Ht Hf H Hl c|s g gsz pl recovery d' c _ _ Hc _|s g gsz pl recovery d' c0 c _ _ _ Hc _].
  - split; [|split; [exact A2|exact A3]]. cbn [s_log]. destruct r as [[p n]|e]; [|exact A1]. cbn [nonces_of map fst]. constructor; [|exact A1]. rewrite (write_pos H). intros Hin. apply in_map_iff in Hin. destruct Hin as ((q & c) & Hq & Hin). cbn [fst] in Hq.
    pose proof (chunk_room (i_log I q c Hin)) as Hr. pose proof (nonce_between q). pose proof (nonce_between (fpos (dbf (s_db s)))). lia.
  - split; [exact A1|]. split; [exact A2|exact A3].
  - destruct r as [x|e]; [|destruct (_ =? _)].
    + split; [exact A1|]. split; [|intros c1 []]. cbn [s_ack]. intros c1 Hc1. injection Hc1 as <-. exact A1.
    + split; [exact A1|]. split; [exact A2|exact A3].
    + split; [exact A1|]. split; [exact A2|]. cbn [s_pend]. intros c1 [<-|Hi]; [exact A1|exact (A3 c1 Hi)].
  - split; [exact (A2 c Hc)|]. split; [|intros c1 []]. cbn [s_ack]. intros c1 Hc1. injection Hc1 as <-. exact (A2 c Hc).
  - split; [exact (A3 c Hc)|]. split; [|intros c1 []]. cbn [s_ack]. intros c1 Hc1. injection Hc1 as <-. exact (A3 c Hc).
Qed.
Lemma reach_apart key getkey (KO : key_ok key getkey) s : reach key getkey s -> apart s.
Proof.
  induction 1 as [pl legacy no_commit d _ _ _|pl v d _ _ _ _|s s' R IH S].
  - split; [constructor|]. split; [intros c Hc; discriminate Hc|intros c []].
  - split; [constructor|]. split; [intros c Hc; discriminate Hc|intros c []].
  - exact (step_apart KO R S IH).
Qed.
End Facts.

(** What stands in an encrypted file, in every state that can be reached: every chunk is encrypted with a nonce of its own. *)
Theorem C66_distinct : forall (E : Env), EnvOk E -> forall key getkey, key_ok key getkey -> forall s, reach key getkey s -> forall k, fkey (dbf (s_db s)) = Some k ->
  exists nonces, NoDup nonces /\ Forall2 (fun x n => exists e, read_skip (dbf (s_db s)) (fst x) (4 + lenN (snd x) + mac_size) = Ok (be 4 (lenN (snd x) + mac_size) ++ encrypt k n (snd x), e)) (s_log s) nonces.
Proof.
  intros E EO key getkey KO s R k Hk. exists (nonces_of (s_log s)). split; [exact (proj1 (reach_apart EO KO R))|]. destruct (reach_inv EO KO R) as [B I]. pose proof (i_log I) as Hlog. pose proof (i_good I) as G. revert Hlog. induction (s_log s) as [|[p b] l IH]; intros Hlog; [constructor|].
  cbn [nonces_of map]. constructor; [|apply IH; intros q c Hq; apply Hlog; now right]. cbn [fst snd]. pose proof (Hlog p b (or_introl eq_refl)) as H. unfold has, chunk_at in H. rewrite Hk in H. destruct H as (_ & Hb & He).
  destruct (@read_skip_body (dbf (s_db s)) p _ Hb) as (e & Hr & _).
  - rewrite app_length, be_length. destruct G as [_ G]. lia.
  - exists e. rewrite lenN_app, lenN_be, (ok_maclen EO) in Hr. change (N.of_nat 4) with 4 in Hr. rewrite <- N.add_assoc. exact Hr.
Qed.
Print Assumptions C66_distinct.

(** An encrypted file: a chunk and a commit, then another chunk of two blocks. *)
Definition nk : keyinfo := KeyInfo 1 [107] [99] 5.
Definition ngk : N -> bytes -> bytes -> res N := fun _ _ _ => Ok 5.
Definition n_db0 : db := snd (@open_new env0 (empty_file (repeat ok_step 30)) (Some nk) false false).
Definition n_s0 : state := State n_db0 [] None [Commit (dbh n_db0) [] (empty_file (repeat ok_step 30))] [] [].
Definition n_s1 : state := after_write n_s0 (@db_write_buf env0 (dbf (s_db n_s0)) [65;66;67]) [65;66;67].
Definition n_s2 : state := after_commit n_s1 (@commit_ex env0 (s_db n_s1) 1000 0) 1000.
Definition n_s3 : state := after_write n_s2 (@db_write_buf env0 (dbf (s_db n_s2)) [70;71]) [70;71].
Lemma n_reach0 : @reach env0 (Some nk) ngk n_s0.
Proof.
  apply (@reach_new env0 (Some nk) ngk (repeat ok_step 30) false false n_db0); [now right| |vm_compute; reflexivity]. unfold n_db0. apply pair_eq. vm_compute. reflexivity.
Qed.
Lemma n_reach1 : @reach env0 (Some nk) ngk n_s1.
Proof. apply (@reach_write env0 (Some nk) ngk n_s0); [exact n_reach0| |]; vm_compute; reflexivity. Qed.
Lemma n_reach2 : @reach env0 (Some nk) ngk n_s2.
Proof. apply (@reach_commit env0 (Some nk) ngk n_s1); [exact n_reach1| | |]; vm_compute; reflexivity. Qed.
Lemma n_reach3 : @reach env0 (Some nk) ngk n_s3.
Proof. apply (@reach_write env0 (Some nk) ngk n_s2); [exact n_reach2| |]; vm_compute; reflexivity. Qed.
Lemma n_key_ok : key_ok (Some nk) ngk.
Proof. cbn. repeat split; discriminate. Qed.
Example C66_distinct_ex : fkey (dbf (s_db n_s3)) = Some 5 /\ map fst (s_log n_s3) = [8240; 4144] /\ exists e, @read_skip (dbf (s_db n_s3)) 8240 7 = Ok (be 4 3 ++ @encrypt env0 5 8240 [70;71], e).
Proof. split; [vm_compute; reflexivity|]. split; [vm_compute; reflexivity|]. exists 8247. vm_compute. reflexivity. Qed.

(** The same over time: false. If the power fails, what was written after the last commit can be lost; the file is then continued at the same position, with the same key, and so the nonce of
    the lost chunk, which was on its way to the medium, is used again for another chunk. *)
Definition n_g : N -> N := fun i => if i <? 8240 then cur (dbf (s_db n_s2)) i else 0.
Definition n_open : res db := @open_existing env0 (image n_g 8240 (repeat ok_step 9)) ngk false false.
Definition n_db4 : db := match n_open with Ok d => d | Err _ => n_db0 end.
Definition n_c : commit := this_commit n_s1 1000.
Definition n_s4 : state := State n_db4 (c_log n_c) (Some n_c) (s_old n_s3) [] (s_fail n_s3).
Definition n_s5 : state := after_write n_s4 (@db_write_buf env0 (dbf (s_db n_s4)) [80;81]) [80;81].
Lemma n_image : crash_image (dbf (s_db n_s3)) n_g 8240.
Proof.
  split; [split; vm_compute; discriminate|]. split.
  - assert (H : forallb (fun i => existsb (N.eqb (n_g (N.of_nat i))) (vals (dbf (s_db n_s3)) (N.of_nat i))) (seq 0 (N.to_nat 8240)) = true) by (vm_compute; reflexivity).
    intros i Hi. rewrite forallb_forall in H. specialize (H (N.to_nat i)). rewrite Nnat.N2Nat.id in H. assert (Hin : In (N.to_nat i) (seq 0 (N.to_nat 8240))) by (apply in_seq; lia). apply H in Hin. apply existsb_exists in Hin. destruct Hin as (x & Hx & Heq). apply N.eqb_eq in Heq. rewrite Heq. exact Hx.
  - intros i Hi. unfold n_g. destruct (N.ltb_spec i 8240) as [Hx|_]; [|reflexivity]. lia.
Qed.
Lemma res_ok {A} (x : res A) d : (match x with Ok _ => true | Err _ => false end) = true -> x = Ok (match x with Ok a => a | Err _ => d end).
Proof. destruct x; [reflexivity|discriminate]. Qed.
Lemma n_step4 : @step env0 ngk n_s3 n_s4.
Proof.
  apply (@step_reopen_same env0 ngk n_s3 n_g 8240 (repeat ok_step 9) false n_db4 n_c n_image).
  - apply res_ok. vm_compute. reflexivity.
  - assert (H : fst (@commit_ex env0 (s_db n_s1) 1000 0) = Ok tt) by (vm_compute; reflexivity). unfold n_s3, after_write. cbn [s_ack]. unfold n_s2, after_commit. rewrite H. reflexivity.
  - vm_compute. reflexivity.
Qed.
Theorem C66_crash_refuted : exists (E : Env) key getkey s1 s2 k p b1 b2, EnvOk E /\ key_ok key getkey /\ reach key getkey s1 /\ clos_refl_trans_1n state (step getkey) s1 s2 /\
  fkey (dbf (s_db s1)) = Some k /\ fkey (dbf (s_db s2)) = Some k /\ b1 <> b2 /\
  read_skip (dbf (s_db s1)) p (4 + lenN b1 + mac_size) = Ok (be 4 (lenN b1 + mac_size) ++ encrypt k p b1, p + 4 + lenN b1 + mac_size) /\
  read_skip (dbf (s_db s2)) p (4 + lenN b2 + mac_size) = Ok (be 4 (lenN b2 + mac_size) ++ encrypt k p b2, p + 4 + lenN b2 + mac_size).
Proof.
  exists env0, (Some nk), ngk, n_s3, n_s5, 5, 8240, [70;71], [80;81]. split; [exact env0_ok|]. split; [exact n_key_ok|]. split; [exact n_reach3|]. split.
  - apply (Relation_Operators.rt1n_trans _ _ n_s3 n_s4 n_s5 n_step4). apply (Relation_Operators.rt1n_trans _ _ n_s4 n_s5 n_s5); [|apply Relation_Operators.rt1n_refl].
    unfold n_s5, after_write. apply (@step_write env0 ngk n_s4 [80;81] (fst (@db_write_buf env0 (dbf (s_db n_s4)) [80;81])) (snd (@db_write_buf env0 (dbf (s_db n_s4)) [80;81]))); [apply surjective_pairing|vm_compute; reflexivity|vm_compute; reflexivity].
  - split; [vm_compute; reflexivity|]. split; [vm_compute; reflexivity|]. split; [discriminate|]. split; vm_compute; reflexivity.
Qed.
Print Assumptions C66_crash_refuted.

(** A write that fails in its middle and is followed by the write of another chunk, as when a user tries the save again with a new body: the part of the first chunk that reached the file and
    the second one are encrypted with the same nonce. *)
Definition r_plan : list wstep := repeat ok_step 11 ++ [bad_step].
Definition r_db0 : db := snd (@open_new env0 (empty_file r_plan) (Some nk) false false).
Definition r_s0 : state := State r_db0 [] None [Commit (dbh r_db0) [] (empty_file r_plan)] [] [].
Definition r_s1 : state := after_write r_s0 (@db_write_buf env0 (dbf (s_db r_s0)) [65;66;67]) [65;66;67].
Definition r_s2 : state := after_commit r_s1 (@commit_ex env0 (s_db r_s1) 1000 0) 1000.
Definition r_body : bytes := repeat 1 (N.to_nat 5000).
Lemma r_reach2 : @reach env0 (Some nk) ngk r_s2.
Proof.
  apply (@reach_commit env0 (Some nk) ngk r_s1); [|vm_compute; reflexivity..]. apply (@reach_write env0 (Some nk) ngk r_s0); [|vm_compute; reflexivity..].
  apply (@reach_new env0 (Some nk) ngk r_plan false false r_db0); [now right| |vm_compute; reflexivity]. unfold r_db0. apply pair_eq. vm_compute. reflexivity.
Qed.
Theorem C66_retry_refuted : exists (E : Env) key getkey s k p b1 b2 e f1 f2 n, EnvOk E /\ key_ok key getkey /\ reach key getkey s /\ fkey (dbf (s_db s)) = Some k /\ b1 <> b2 /\
  db_write_buf (dbf (s_db s)) b1 = (Err e, f1) /\ db_write_buf f1 b2 = (Ok (p, n), f2) /\
  read_skip f1 p 1000 = Ok (take 1000 (be 4 (lenN b1 + mac_size) ++ encrypt k p b1), p + 1000) /\
  read_skip f2 p (4 + lenN b2 + mac_size) = Ok (be 4 (lenN b2 + mac_size) ++ encrypt k p b2, p + 4 + lenN b2 + mac_size).
Proof.
  exists env0, (Some nk), ngk, r_s2, 5, 8240, r_body, [80;81], E_WRITE, (snd (@db_write_buf env0 (dbf (s_db r_s2)) r_body)), (snd (@db_write_buf env0 (snd (@db_write_buf env0 (dbf (s_db r_s2)) r_body)) [80;81])), 7.
  split; [exact env0_ok|]. split; [exact n_key_ok|]. split; [exact r_reach2|]. split; [vm_compute; reflexivity|]. split; [intros H; apply (f_equal (@length N)) in H; vm_compute in H; discriminate H|].
  split; [apply pair_eq; vm_compute; reflexivity|]. split; [apply pair_eq; vm_compute; reflexivity|]. split; vm_compute; reflexivity.
Qed.
Print Assumptions C66_retry_refuted.
