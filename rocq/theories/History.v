(** Executions of a writer on a database file: appends, commits, crashes and reopening. *)
From Verif Require Import Base Codec File Header.
Local Open Scope N_scope.

(** What may be found on the medium after a crash: a length between the durable one and the current one,
    and at each position one of the values that may have reached the medium. Closing the file without a crash is the
    case where every byte has its current value. *)
Definition crash_image (f : file) (g : N -> N) (gsz : N) : Prop :=
  dsize f <= gsz <= size f /\ (forall i, i < gsz -> In (g i) (vals f i)) /\ (forall i, gsz <= i -> g i = 0).

(** The file as the operating system presents it after a restart; [pl]: behaviour of later writes. *)
Definition image (g : N -> N) (gsz : N) (pl : list wstep) : file :=
  File g gsz (fun i => [g i]) (fun _ => false) gsz false false false false pl 0 CRC_UNKNOWN None.

(** The header that a commit with timestamp [ts] is to store at position [pos], per disk version
    (couch_db.cc:702-777 and 360-380). *)
Definition committed (h : header) (ts pos : N) : header :=
  Header (h_version h) (h_update_seq h) (h_by_id h) (h_by_seq h) (h_local h) (h_purge_seq h) (h_purge_ptr h) pos
    (if h_version h <=? 12 then 0 else ts)
    (if h_version h <=? 13 then UNKNOWN_PREV else h_position h)
    (if h_version h <=? 13 then false else h_meta h).

(** A commit: the header it stores, the chunks (position and body) written before it and the handle at that
    time. *)
Record commit := Commit { c_hdr : header; c_log : list (N * bytes); c_file : file }.

(** State of an execution: the handle; the chunks written successfully; the last acknowledged commit; older headers (newest
    first; the one written when the file was created is included although it is not synced); the commits
    started since the last acknowledged one whose header was written but which were not acknowledged; all commits
    ever not acknowledged. *)
Record state := State {
  s_db : db;
  s_log : list (N * bytes);
  s_ack : option commit;
  s_old : list commit;
  s_pend : list commit;
  s_fail : list commit
}.

Definition root_ok (r : option node_pointer) (pos : N) : Prop :=
  match r with
  | None => True
  | Some p => np_pointer p < pos /\ np_pointer p < 2^48 /\ np_subtree p < 2^48
  end.

Definition opt_list {A} (o : option A) : list A := match o with Some a => [a] | None => [] end.

Section WithEnv.
Context {E : Env}.
Variable key : option keyinfo.
Variable getkey : N -> bytes -> bytes -> res N.

(** One action. Assumed throughout: no chunk of 2 GiB or more, file below 128 TiB, and no failing sync after which
    the kernel forgets unsynced data (other than the block-type byte of a commit). *)
Inductive step : state -> state -> Prop :=
| step_write s b r f' :
    db_write_buf (dbf (s_db s)) b = (r, f') -> big f' = false -> lost f' = false ->
    step s (State (Db f' (dbh (s_db s)) (dropped (s_db s)))
              (match r with Ok (p, _) => (p, b) :: s_log s | Err _ => s_log s end)
              (s_ack s) (s_old s) (s_pend s) (s_fail s))
| step_set s us id sq loc ps pp :
    (** the writer changes sequence numbers and index roots in memory *)
    let h := dbh (s_db s) in
    let f := dbf (s_db s) in
    us < 2^48 -> ps < 2^48 -> pp < 2^48 -> pp <= fpos f ->
    root_ok id (fpos f) -> root_ok sq (fpos f) -> root_ok loc (fpos f) ->
    39 + root_size id + root_size sq + root_size loc <= 1020 ->
    step s (State (Db f (Header (h_version h) us id sq loc ps pp (h_position h) (h_timestamp h) (h_prev h) (h_meta h))
                     (dropped (s_db s))) (s_log s) (s_ack s) (s_old s) (s_pend s) (s_fail s))
| step_commit s ts n r d' :
    ts < 2^64 -> fpos (dbf (s_db s)) + BLOCK < 2^47 ->
    commit_ex (s_db s) ts n = (r, d') -> lost (dbf d') = false ->
    let c := Commit (committed (dbh (s_db s)) ts (align (fpos (dbf (s_db s))))) (s_log s) (dbf (s_db s)) in
    step s (match r with
            | Ok _ => State d' (s_log s) (Some c) (opt_list (s_ack s) ++ s_old s) [] (s_fail s)
            | Err _ =>
                (** the header can only be found later if it was written completely *)
                if fpos (dbf d') =? fpos (dbf (s_db s))
                then State d' (s_log s) (s_ack s) (s_old s) (s_pend s) (s_fail s)
                else State d' (s_log s) (s_ack s) (s_old s) (c :: s_pend s) (c :: s_fail s)
            end)
| step_reopen_same s g gsz pl recovery d' c :
    (** crash or close, then opening the file again shows the last acknowledged commit *)
    crash_image (dbf (s_db s)) g gsz ->
    open_existing (image g gsz pl) getkey recovery false = Ok d' ->
    s_ack s = Some c -> h_position (c_hdr c) = h_position (dbh d') ->
    step s (State d' (c_log c) (Some c) (s_old s) [] (s_fail s))
| step_reopen_newer s g gsz pl recovery d' c0 c :
    (** crash, then opening the file again shows a commit that was not acknowledged *)
    crash_image (dbf (s_db s)) g gsz ->
    open_existing (image g gsz pl) getkey recovery false = Ok d' ->
    s_ack s = Some c0 -> In c (s_pend s) -> h_position (c_hdr c) = h_position (dbh d') ->
    step s (State d' (c_log c) (Some c) (c0 :: s_old s) [] (s_fail s)).

(** A new file: empty, any future behaviour of writes. *)
Definition empty_file (pl : list wstep) : file :=
  File (fun _ => 0) 0 (fun _ => [0]) (fun _ => false) 0 false false false false pl 0 CRC_UNKNOWN None.

(** Reachable states: a file is created (with or without encryption, with or without a first header), then any
    steps follow. Encryption together with the legacy checksum is excluded, see C46. *)
Inductive reach : state -> Prop :=
| reach_new pl legacy no_commit d :
    (key = None \/ legacy = false) ->
    open_new (empty_file pl) key legacy no_commit = (Ok tt, d) -> lost (dbf d) = false ->
    reach (State d [] None (if no_commit then [] else [Commit (dbh d) [] (empty_file pl)]) [] [])
| reach_old pl v d :
    (** a file of an earlier release with disk version 12 or 13: the header writer of couch_db.cc:313-380 run with
        that version on an empty file *)
    (v = 12 \/ v = 13) -> key = None ->
    db_write_header (Db (set_crcm (empty_file pl) CRC32C) (Header v 0 None None None 0 0 0 0 NO_PREV false) false) B_HEADER
      = (Ok tt, d) -> lost (dbf d) = false ->
    reach (State d [] None [Commit (dbh d) [] (empty_file pl)] [] [])
| reach_step s s' : reach s -> step s s' -> reach s'.

(** The key information is within the format limits and the key callback knows the key. *)
Definition key_ok : Prop :=
  match key with
  | None => True
  | Some k => ki_version k <= 1 /\ lenN (ki_id k) <= 255 /\ lenN (ki_ctx k) <= 255 /\
              getkey (ki_version k) (ki_id k) (ki_ctx k) = Ok (ki_key k)
  end.

End WithEnv.
