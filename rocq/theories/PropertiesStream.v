(** Property C65. *)
From Verif Require Import Base Codec CodecFacts File IoBuffer TreeWriter TreeWriterFacts EnvExample Stream SpecStream StreamFacts StreamCutFacts.
Local Open Scope N_scope.
Unset Strict Implicit.

(** An example of a cipher: every byte is combined with the nonce; the code for authentication is a sum. *)
Definition z0_sum (x : bytes) : N := fold_right N.add 0 x mod 256.
Definition z0 : Sealer := MkSealer (fun n x => n mod 256 :: z0_sum x :: map (N.lxor (n mod 256)) x)
  (fun y => match y with n :: m :: r => let x := map (N.lxor n) r in if z0_sum x =? m then Some x else None | _ => None end) 2.
Lemma z0_ok : @SealOk z0.
Proof.
  constructor.
  - intros n x. cbn [unseal seal z0]. rewrite map_map. rewrite (map_ext _ (fun b => b)); [|intros b; rewrite <- N.lxor_assoc, N.lxor_nilpotent; apply N.lxor_0_l]. rewrite map_id, N.eqb_refl. reflexivity.
  - intros n x. cbn [seal sealing z0]. rewrite !lenN_cons. unfold lenN. rewrite map_length. lia.
Qed.
(** Files that answer with few bytes at a time. *)
Definition slow (d : bytes) : raw := Raw d [RStep 1 None; RStep 3 None; RStep 0 None; RStep 2 None; RStep 1 None].

(** ** C65: a stream of chunks is a sequence of bytes *)

(** Opened on the file of a stream, with a system that does not fail but may move fewer bytes than asked for: whatever is written, flushed, sought and read, the results are those of a plain
    sequence of bytes; and once nothing is left to be flushed, the file is again the file of a stream, with the written bytes added. Writes and flushes are to be made at the end only. *)
Theorem C65_stream : forall {E : Env} {Z : Sealer} k max r data l, EnvOk E -> SealOk -> 0 < max -> max + sealing + 4 < 2^32 -> quiet r -> stream_file k data (rw_data r) -> all_allowed l (Plain data 0 false) ->
  exists s', calls k max l (open_stream r) = (fst (plain_calls l (Plain data 0 false)), s') /\
    (p_dirty (snd (plain_calls l (Plain data 0 false))) = false -> stream_file k (p_data (snd (plain_calls l (Plain data 0 false)))) (rw_data (fs_raw (cs_under s')))).
Proof.
  intros E Z k max r data l EO ZO Hm Hl Q F Ha. destruct (calls_ok EO ZO Hm Hl (@begun E Z k max (FStream r 0) 0 data Q F eq_refl) Ha) as (s' & S1 & S2). exists s'. split; [exact S1|]. exact (clean_file S2).
Qed.
Print Assumptions C65_stream.
Definition x_calls := [SWrite [1;2;3;4;5]; SFlush; SWrite [6;7]; SRead 1; SBegin; SRead 4; SRead 2; SRead 5; SEnd; SWrite [8]; SBegin; SRead 8].
Example C65_stream_ex : forall k, (let '(l, s) := @calls env0 z0 k 3 x_calls (open_stream (slow [])) in l) =
  [Done; Done; Done; Failed E_INVALID_ARGUMENTS; Done; Got [1;2;3;4]; Got [5;6]; Eof; Done; Done; Done; Got [1;2;3;4;5;6;7;8]] /\
  all_allowed x_calls (Plain [] 0 false) /\ quiet (slow []) /\ (forall {E : Env} {Z : Sealer}, stream_file k [] (rw_data (slow []))).
Proof. intros k. split; [destruct k; vm_compute; reflexivity|]. split; [vm_compute; repeat split; exact I|]. split; [repeat constructor|]. intros E Z. apply stream_nil. Qed.

(** Whatever the file holds and however the system answers: what reads from its beginning return is the beginning of data that stands in the file in chunks whose checksum or code for authentication
    is right. *)
Theorem C65_verified : forall {E : Env} {Z : Sealer} k max r l bs s', is_bytes (rw_data r) -> calls k max (map SRead l) (open_stream r) = (map Got bs, s') ->
  map lenN bs = l /\ exists more b1 b2, rw_data r = b1 ++ b2 /\ verified k (concat bs ++ more) b1.
Proof.
  intros E Z k max r l bs s' HB H. assert (Hc : checked k (open_stream r) []).
  { exists 0, [], (rw_data r). split; [reflexivity|]. split; [reflexivity|]. split; [reflexivity|]. exists [], []. split; [constructor|]. split; reflexivity. }
  destruct (checked_reads (s := open_stream r) HB Hc H) as (H1 & H2 & p & b1 & b2 & _ & C2 & _ & C4). split; [exact H1|]. exists (drop p (cs_chunk s')), b1, b2. rewrite H2 in C2. split; [exact C2|exact C4].
Qed.
Print Assumptions C65_verified.
(** Two chunks, the second damaged. *)
Definition x_file := rw_data (fs_raw (cs_under (snd (@calls env0 z0 KSum 3 [SWrite [1;2;3;4;5]; SFlush] (open_stream (slow [])))))).
Definition x_bad := take (lenN x_file - 1) x_file ++ [9].
Example C65_verified_ex : fst (@calls env0 z0 KSum 3 (map SRead [1;2]) (open_stream (slow x_bad))) = map Got [[1]; [2;3]] /\
  fst (@calls env0 z0 KSum 3 (map SRead [1;2;1]) (open_stream (slow x_bad))) = [Got [1]; Got [2;3]; Failed E_CHECKSUM] /\ is_bytes x_bad.
Proof. split; [vm_compute; reflexivity|]. split; [vm_compute; reflexivity|]. vm_compute. repeat constructor. Qed.

(** A file that ends within the bytes of a chunk, after its header: whatever is asked for is read up to that chunk, and reading further fails. *)
Theorem C65_cut : forall {E : Env} {Z : Sealer} k max r data file c cb m l n, EnvOk E -> quiet r -> stream_file k data file -> chunk_of k c cb -> header_of k <= m < lenN cb -> rw_data r = file ++ take m cb ->
  fold_right N.add 0 l <= lenN data -> lenN data < fold_right N.add 0 l + n ->
  exists bs, concat bs = take (fold_right N.add 0 l) data /\ fst (calls k max (map SRead l ++ [SRead n]) (open_stream r)) = map Got bs ++ [Failed E_READ].
Proof.
  intros E Z k max r data file c cb m l n EO Q F Hc Hm Hr H1 H2. apply (cut_reads EO Hc Hm); [|exact H1|exact H2]. split; [exact Q|]. exists 0, data, [], file. split; [reflexivity|]. split; [reflexivity|]. split; [exact Hr|]. split; [reflexivity|]. split; [exact F|reflexivity].
Qed.
Print Assumptions C65_cut.
Example C65_cut_ex : fst (@calls env0 z0 KSum 3 (map SRead [1;2] ++ [SRead 2]) (open_stream (slow (take (lenN x_file - 1) x_file)))) = [Got [1]; Got [2;3]; Failed E_READ].
Proof. vm_compute. reflexivity. Qed.

(** Every chunk that is added to a file of sealed chunks is sealed with a nonce of its own. *)
Theorem C65_nonces : forall {E : Env} {Z : Sealer} max r data l, EnvOk E -> SealOk -> 0 < max -> max + sealing + 4 < 2^32 -> quiet r -> stream_file KSeal data (rw_data r) -> all_allowed l (Plain data 0 false) ->
  exists chunks, rw_data (fs_raw (cs_under (snd (calls KSeal max l (open_stream r))))) = rw_data r ++ sealed_from 0 chunks.
Proof.
  intros E Z max r data l EO ZO Hm Hl Q F Ha. destruct (calls_adds ZO Hm Hl EO (@begun E Z KSeal max (FStream r 0) 0 data Q F eq_refl) Ha) as (chunks & H & _). exists chunks. exact H.
Qed.
Print Assumptions C65_nonces.
Example C65_nonces_ex : rw_data (fs_raw (cs_under (snd (@calls env0 z0 KSeal 3 x_calls (open_stream (slow [])))))) = @sealed_from z0 0 [[1;2;3]; [4;5]; [6;7]; [8]].
Proof. vm_compute. reflexivity. Qed.

(** ** C65: the records of the temporary files *)

(** Reading records from the file of a stream is reading them from its bytes, with the same errors. *)
Theorem C65_refines : forall {E : Env} {Z : Sealer} k r data fuel, EnvOk E -> quiet r -> stream_file k data (rw_data r) ->
  read_all fuel k (open_stream r) = read_records fuel data.
Proof.
  intros E Z k r data fuel EO Q F. exact (read_all_ok EO fuel (@begun E Z k 0 (FStream r 0) 0 data Q F eq_refl) eq_refl).
Qed.
Print Assumptions C65_refines.
(** A record that ends early is an error, a beginning of a header of a record is not. *)
Example C65_refines_ex : let f d := rw_data (fs_raw (cs_under (snd (@calls env0 z0 KSeal 3 [SWrite d; SFlush] (open_stream (slow [])))))) in
  @read_all env0 z0 5 KSeal (open_stream (slow (f [0;0;0;1;0;0;0;2;7;8]))) = Err E_INVALID_ARGUMENTS /\ @read_all env0 z0 5 KSeal (open_stream (slow (f [0;0;0;1;0;0;0;0;7;8]))) = Ok [([7], [])].
Proof. vm_compute. split; reflexivity. Qed.

(** Records written to a new stream come back after rewinding, in their order. *)
Theorem C65_records : forall {E : Env} {Z : Sealer} k max r l, EnvOk E -> SealOk -> 0 < max -> max + sealing + 4 < 2^32 -> quiet r -> rw_data r = [] -> Forall (fun x => lenN (fst x) < 2^32 /\ lenN (snd x) < 2^32) l ->
  exists s1 s2, write_all k max l (open_stream r) = (Ok tt, s1) /\ cs_seek_begin k s1 = (Ok tt, s2) /\ read_all (S (length l)) k s2 = Ok l.
Proof.
  intros E Z k max r l EO ZO Hm Hl Q F Hr. assert (F0 : stream_file k [] (rw_data r)) by (rewrite F; apply stream_nil).
  destruct (write_all_ok ZO Hm Hl l (@begun E Z k max (FStream r 0) 0 [] Q F0 eq_refl) eq_refl) as (s1 & a1 & W1 & W2 & W3 & W4). cbn [p_data app] in W3. destruct (call_ok EO ZO Hm Hl (o := SBegin) W2 I) as (s2 & B1 & B2). cbn [plain_call fst snd call] in B1, B2.
  exists s1, s2. split; [exact W1|]. split.
  - unfold done in B1. destruct (cs_seek_begin k s1) as [[[]|e] s3]; [|discriminate B1]. cbn [fst snd] in B1. injection B1 as ->. reflexivity.
  - rewrite (read_all_ok EO _ B2 eq_refl). cbn [p_data p_pos]. rewrite drop_0, W3. apply read_records_ok; [exact Hr|apply le_n].
Qed.
Print Assumptions C65_records.
Definition x_records : list (bytes * bytes) := [([1;2], [3]); ([], [7;7;7;7;7]); ([9], [])].
Example C65_records_ex : forall k, (let '(_, s1) := @write_all env0 z0 k 3 x_records (open_stream (slow [])) in let '(_, s2) := @cs_seek_begin env0 z0 k s1 in @read_all env0 z0 4 k s2) = Ok x_records.
Proof. intros k. destruct k; vm_compute; reflexivity. Qed.

(** The names of temporary files do not repeat within 2^32 steps, whatever the first name is. *)
Theorem C65_names : forall path i j, (i < j)%nat -> N.of_nat (j - i) < 2^32 -> Nat.iter i next_tmp_path path <> Nat.iter j next_tmp_path path.
Proof. exact names_distinct. Qed.
Print Assumptions C65_names.
(** "x.9" is followed by "x.01", that by "x.11". *)
Example C65_names_ex : Nat.iter 1 next_tmp_path [120;46;57] = [120;46;48;49] /\ Nat.iter 2 next_tmp_path [120;46;57] = [120;46;49;49].
Proof. vm_compute. split; reflexivity. Qed.

(** ** C65: what the streams do not give *)

(** A file that ends within the header of a chunk is taken for a complete one: the data that follow are missing without an error. *)
Theorem C65_truncated_refuted : exists file d1 d2 n, d2 <> [] /\ @stream_file env0 z0 KSum (d1 ++ d2) file /\ n < lenN file /\ fst (@calls env0 z0 KSum 3 [SRead (lenN d1); SRead 1] (open_stream (Raw (take n file) []))) = [Got d1; Eof].
Proof.
  exists x_file, [1;2;3], [4;5], 14. split; [discriminate|]. split.
  - exists [[1;2;3]; [4;5]], [take 11 x_file; drop 11 x_file]. split; [constructor; [split; [vm_compute; reflexivity|vm_compute; reflexivity]|constructor; [split; vm_compute; reflexivity|constructor]]|]. split; [repeat constructor; discriminate|]. split; vm_compute; reflexivity.
  - split; vm_compute; reflexivity.
Qed.
Print Assumptions C65_truncated_refuted.

(** After a read has failed because of a wrong checksum, the next read returns the bytes that failed; or it leaves the bounds of the chunk. *)
Theorem C65_retry_refuted : (exists file b, fst (@calls env0 z0 KSum 3 [SRead 2; SRead 2] (open_stream (Raw file []))) = [Failed E_CHECKSUM; Got b]) /\
  (exists file b, fst (@calls env0 z0 KSum 3 [SRead 3; SRead 1; SRead 1] (open_stream (Raw file []))) = [Got b; Failed E_CHECKSUM; Failed E_UB]).
Proof. split; [exists (drop 11 x_bad), [4;9]; vm_compute; reflexivity|exists x_bad, [1;2;3]; vm_compute; reflexivity]. Qed.
Print Assumptions C65_retry_refuted.

(** Flushing a stream that has been read only skips the rest of the chunk. *)
Theorem C65_flush_refuted : exists file data, @stream_file env0 z0 KSum data file /\ fst (plain_calls [SRead 1; SFlush; SRead 1] (Plain data 0 false)) = [Got [1]; Done; Got [2]] /\
  fst (@calls env0 z0 KSum 3 [SRead 1; SFlush; SRead 1] (open_stream (Raw file []))) = [Got [1]; Done; Got [4]].
Proof.
  exists x_file, [1;2;3;4;5]. split; [|split; vm_compute; reflexivity].
  exists [[1;2;3]; [4;5]], [take 11 x_file; drop 11 x_file]. split; [constructor; [split; vm_compute; reflexivity|constructor; [split; vm_compute; reflexivity|constructor]]|]. split; [repeat constructor; discriminate|]. split; vm_compute; reflexivity.
Qed.
Print Assumptions C65_flush_refuted.

(** A file of sealed chunks in another order is read without an error: the codes do not cover the place of a chunk. *)
Theorem C65_swapped_refuted : exists b1 b2 d1 d2, d1 ++ d2 <> d2 ++ d1 /\ @stream_file env0 z0 KSeal (d1 ++ d2) (b1 ++ b2) /\
  fst (@calls env0 z0 KSeal 3 [SRead (lenN (d1 ++ d2)); SRead 1] (open_stream (Raw (b2 ++ b1) []))) = [Got (d2 ++ d1); Eof].
Proof.
  exists (be 4 5 ++ @seal z0 0 [1;2;3]), (be 4 4 ++ @seal z0 1 [4;5]), [1;2;3], [4;5]. split; [discriminate|]. split; [|vm_compute; reflexivity].
  exists [[1;2;3]; [4;5]], [be 4 5 ++ @seal z0 0 [1;2;3]; be 4 4 ++ @seal z0 1 [4;5]].
  split; [constructor; [exists (@seal z0 0 [1;2;3]); split; [split; vm_compute; reflexivity|split; vm_compute; reflexivity]|constructor; [exists (@seal z0 1 [4;5]); split; [split; vm_compute; reflexivity|split; vm_compute; reflexivity]|constructor]]|].
  split; [repeat constructor; discriminate|]. split; vm_compute; reflexivity.
Qed.
Print Assumptions C65_swapped_refuted.

(** A flush that fails and is made again successfully leaves a file from which the bytes can not be read. *)
Theorem C65_write_again_refuted : exists plan, fst (@calls env0 z0 KSum 3 [SWrite [1;2;3]; SFlush; SFlush; SBegin; SRead 3] (open_stream (Raw [] plan))) = [Done; Failed E_WRITE; Done; Done; Failed E_CHECKSUM].
Proof. exists [RStep 8 None; RStep 0 (Some E_WRITE)]. vm_compute. reflexivity. Qed.
Print Assumptions C65_write_again_refuted.
