(** Model of src/dbinfo.cc, the program couch_dbinfo. *)
From Verif Require Import Base Codec File Header Btree BtreeRead SpecMap Db.
Local Open Scope N_scope.

(** What src/dbinfo.cc:102-133 and 49-56 print about one header: the position, the version, the two sequence numbers, the timestamp (from version 13 on), the two
    counts, the data size, the sizes of the three indexes and their sum. Sizes are numbers here (they are printed rounded, lines 36-47). *)
Record report := Report { rp_pos : N; rp_version : N; rp_seq : N; rp_purge : N; rp_time : option N; rp_docs : N; rp_deleted : N; rp_space : N;
  rp_index : N; rp_by_id : N; rp_by_seq : N; rp_local : N }.

(** src/dbinfo.cc:101-133. The result of couchstore_db_info is ignored (line 52); if it fails, the counts and the size have been set to 0 before
    (src/couch_db.cc:1857). *)
Definition report_header (d : db) : report :=
  let h := dbh d in
  let sub r := match r with Some p => np_subtree p | None => 0 end in
  let '(nd, dl, sz) := match db_info d with Ok i => (in_docs i, in_deleted i, in_space i) | Err _ => (0, 0, 0) end in
  Report (h_position h) (h_version h) (h_update_seq h) (h_purge_seq h) (if 13 <=? h_version h then Some (h_timestamp h) else None) nd dl sz
    ((sub (h_by_id h) + sub (h_by_seq h) + sub (h_local h)) mod 2^64) (sub (h_by_id h)) (sub (h_by_seq h)) (sub (h_local h)).

Section WithEnv.
Context {E : Env}.

(** src/dbinfo.cc:101-139: the loop over next_header. *)
Fixpoint list_headers (fuel : nat) (d : db) (dir : direction) : res (list report) :=
  match fuel with
  | O => Err E_FUEL
  | S n =>
      match seek_dir d dir with
      | (Ok _, d') => let* l := list_headers n d' dir in Ok (report_header d :: l)
      | (Err _, _) => Ok [report_header d]
      end
  end.

(** src/couch_cxx_util.cc:160-182 openDatabase on an existing non-empty file, for a non-negative offset. *)
Definition open_at (f : file) (getkey : N -> bytes -> bytes -> res N) (offset : option N) : res db :=
  let* d := open_existing f getkey false false in
  match offset with
  | None => Ok d
  | Some o => match seek d o with (Ok _, d') => Ok d' | (Err e, _) => Err e end
  end.

(** src/dbinfo.cc:58-142 process_file: what it prints about headers; an error if the program reports one. [offset]: --header-offset; [iterate]: the direction
    if --iterate-headers was given. The lines about the file as a whole (80-99) are left out. *)
Definition process_file (f : file) (getkey : N -> bytes -> bytes -> res N) (offset : option N) (iterate : option direction) : res (list report) :=
  let* d := open_at f getkey offset in
  match iterate with
  | Some dir => list_headers (S (N.to_nat (size f))) d dir
  | None => Ok [report_header d]
  end.
End WithEnv.
