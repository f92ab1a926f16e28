(** Model of file headers: encoding, search, open, commit, moving between headers. *)
From Verif Require Import Base Codec File.
Local Open Scope N_scope.

(** src/internal.h:40-60 constants. UNKNOWN_PREV_HEADER_POS is 2^64-1. *)
Definition MAX_DB_HEADER_SIZE : N := 1024.
Definition UNKNOWN_PREV : N := 2^64 - 1.
Definition NO_PREV : N := 2^47 - 1.

(** src/internal.h:122-144 struct db_header. *)
Record header := Header {
  h_version : N;
  h_update_seq : N;
  h_by_id : option node_pointer;
  h_by_seq : option node_pointer;
  h_local : option node_pointer;
  h_purge_seq : N;
  h_purge_ptr : N;
  h_position : N;
  h_timestamp : N;
  h_prev : N;
  h_meta : bool
}.

Definition set_roots (h : header) (i s l : option node_pointer) : header :=
  Header (h_version h) (h_update_seq h) i s l (h_purge_seq h) (h_purge_ptr h) (h_position h)
         (h_timestamp h) (h_prev h) (h_meta h).
Definition set_position (h : header) (p : N) : header :=
  Header (h_version h) (h_update_seq h) (h_by_id h) (h_by_seq h) (h_local h) (h_purge_seq h) (h_purge_ptr h)
         p (h_timestamp h) (h_prev h) (h_meta h).
Definition set_version (h : header) (v : N) : header :=
  Header v (h_update_seq h) (h_by_id h) (h_by_seq h) (h_local h) (h_purge_seq h) (h_purge_ptr h)
         (h_position h) (h_timestamp h) (h_prev h) (h_meta h).
Definition set_timestamp (h : header) (t : N) : header :=
  Header (h_version h) (h_update_seq h) (h_by_id h) (h_by_seq h) (h_local h) (h_purge_seq h) (h_purge_ptr h)
         (h_position h) t (h_prev h) (h_meta h).
Definition set_prev (h : header) (p : N) : header :=
  Header (h_version h) (h_update_seq h) (h_by_id h) (h_by_seq h) (h_local h) (h_purge_seq h) (h_purge_ptr h)
         (h_position h) (h_timestamp h) p (h_meta h).
Definition set_meta (h : header) (b : bool) : header :=
  Header (h_version h) (h_update_seq h) (h_by_id h) (h_by_seq h) (h_local h) (h_purge_seq h) (h_purge_ptr h)
         (h_position h) (h_timestamp h) (h_prev h) b.
(** src/internal.h:134-141 db_header::reset. *)
Definition reset_roots (h : header) : header := set_roots h None None None.

(** ** Reading a header *)

(** src/couch_db.cc:48-62 read_db_root on exactly [root_size] bytes: the new root value and whether it is
    acceptable. The root is assigned even when it is then found to be out of range. *)
Definition read_db_root (position : N) (data : bytes) : res unit * option node_pointer :=
  if 0 <? lenN data then
    if lenN data <? 12 then (Err E_CORRUPT, None)
    else match read_root data with
         | Ok (Some p) => (if np_pointer p <? position then Ok tt else Err E_CORRUPT, Some p)
         | _ => (Err E_ALLOC, None)
         end
  else (Ok tt, None).

(** sizeof(raw_file_header_vNN), node_types.h:18-57, by version. *)
Definition raw_header_size (v : N) : option N :=
  if v =? 14 then Some 39 else if v =? 13 then Some 33
  else if (v =? 12) || (v =? 11) then Some 25 else None.

(** src/couch_db.cc:64-115 raw_header_to_internal_header, the three overloads. Result: header and root sizes. *)
Definition raw_to_internal (h : header) (v : N) (buf : bytes) : res (header * (N * N * N)) :=
  let* us := rd_be 6 1 buf in
  let* ps := rd_be 6 7 buf in
  let* pp := rd_be 6 13 buf in
  let* s1 := rd_be 2 19 buf in
  let* s2 := rd_be 2 21 buf in
  let* s3 := rd_be 2 23 buf in
  let* ts := (if (v =? 13) || (v =? 14) then rd_be 8 25 buf else Ok 0) in
  let* pv := (if v =? 14 then rd_be 6 33 buf else Ok 0) in
  Ok (Header v us (h_by_id h) (h_by_seq h) (h_local h) ps pp (h_position h) ts
        (if v =? 14 then N.shiftr pv 1 else UNKNOWN_PREV)
        (if v =? 14 then N.odd pv else false),
      (s1, s2, s3)).

(** src/couch_db.cc:166-239, the part of find_header_at_pos after the header chunk has been read: [buf] is the
    chunk body. The handle's header is modified step by step, also when an error is reported. *)
Definition parse_header (h : header) (pos : N) (buf : bytes) : res unit * header :=
  let h := set_position h pos in
  match buf with
  | [] => (Err E_UB, h)
  | v :: _ =>
      let h := set_version h v in
      match raw_header_size v with
      | None => (Err E_HEADER_VERSION, h)
      | Some hs =>
          if lenN buf <? hs then (Err E_CORRUPT, h)
          else
            match raw_to_internal h v buf with
            | Err e => (Err e, h)
            | Ok (h, (s1, s2, s3)) =>
                if pos <? h_purge_ptr h then (Err E_CORRUPT, h)
                else if negb (lenN buf =? hs + s1 + s2 + s3) then (Err E_CORRUPT, h)
                else
                  match getb hs s1 buf, getb (hs + s1) s2 buf, getb (hs + s1 + s2) s3 buf with
                  | Ok d1, Ok d2, Ok d3 =>
                      let '(r1, root1) := read_db_root pos d1 in
                      let h1 := set_roots h (h_by_id h) root1 (h_local h) in
                      match r1 with
                      | Err e => (Err e, h1)
                      | Ok _ =>
                          let '(r2, root2) := read_db_root pos d2 in
                          let h2 := set_roots h1 root2 (h_by_seq h1) (h_local h1) in
                          match r2 with
                          | Err e => (Err e, h2)
                          | Ok _ =>
                              let '(r3, root3) := read_db_root pos d3 in
                              let h3 := set_roots h2 (h_by_id h2) (h_by_seq h2) root3 in
                              (r3, h3)
                          end
                      end
                  | _, _, _ => (Err E_UB, h)
                  end
            end
      end
  end.

(** ** Writing a header *)

Definition root_size (r : option node_pointer) : N :=
  match r with None => 0 | Some p => 12 + lenN (np_reduce p) end.

(** src/couch_db.cc:313-352 the buffer built by db_write_header_impl. *)
Definition encode_header (h : header) : bytes :=
  be 1 (h_version h) ++ be 6 (h_update_seq h) ++ be 6 (h_purge_seq h) ++ be 6 (h_purge_ptr h)
  ++ be 2 (root_size (h_by_seq h)) ++ be 2 (root_size (h_by_id h)) ++ be 2 (root_size (h_local h))
  ++ (if 14 <=? h_version h
      then be 8 (h_timestamp h) ++ be 6 (h_prev h * 2 + (if h_meta h then 1 else 0))
      else if h_version h =? 13 then be 8 (h_timestamp h) else [])
  ++ encode_root (h_by_seq h) ++ encode_root (h_by_id h) ++ encode_root (h_local h).

(** The open database handle: tree_file, header and the [dropped] flag (internal.h:147-152). *)
Record db := Db { dbf : file; dbh : header; dropped : bool }.

Section WithEnv.
Context {E : Env}.

(** src/couch_db.cc:117-239 find_header_at_pos. *)
Definition find_header_at_pos (f : file) (h : header) (pos : N) : res unit * header :=
  match pread f pos 1 with
  | [t] =>
      if (t =? B_DATA) || (t =? B_META) then (Err E_NO_HEADER, h)
      else if negb (t =? B_HEADER) then (Err E_CORRUPT, h)
      else
        match pread_header f pos MAX_DB_HEADER_SIZE with
        | Err e => (if pos =? 0 then Err E_NO_HEADER else Err e, h)
        | Ok buf => parse_header h pos buf
        end
  | _ => (Err E_READ, h)
  end.

(** src/couch_db.cc:245-278 find_header, from block number [n] downwards; [last] is last_header_errcode. *)
Fixpoint find_header_loop (f : file) (h : header) (n : nat) (skip : bool) (last : err) : res unit * header :=
  let '(r, h') := find_header_at_pos f h (N.of_nat n * BLOCK) in
  let next (l : err) :=
    match n with
    | O => (Err l, h')
    | S n' => find_header_loop f h' n' skip l
    end in
  match r with
  | Ok _ => (Ok tt, h')
  | Err E_NO_HEADER => next last
  | Err E_CHECKSUM | Err E_CORRUPT | Err E_READ => 
      match r with Err e => if skip then next e else (Err e, h') | Ok _ => (Ok tt, h') end
  | Err e => (Err e, h')
  end.
Definition find_header (f : file) (h : header) (start_pos : Z) (skip : bool) : res unit * header :=
  if (start_pos <? 0)%Z then (Err E_NO_HEADER, h)
  else find_header_loop f h (N.to_nat (Z.to_N start_pos / BLOCK)) skip E_NO_HEADER.

(** src/couch_db.cc:313-380 db_write_header and db_write_header_impl. The file and header after the call. *)
Definition db_write_header (d : db) (t : N) : res unit * db :=
  let h := dbh d in
  let h := if (h_version h =? 11) || (h_version h =? 12) then set_timestamp h 0 else h in
  let h := if (h_version h =? 11) || (h_version h =? 12) || (h_version h =? 13)
           then set_meta (set_prev h UNKNOWN_PREV) false else h in
  if (h_version h =? 11) || (h_version h =? 12) || (h_version h =? 13) || (h_version h =? 14) then
    match write_header (dbf d) (encode_header h) t with
    | (Err e, f') => (Err e, Db f' h (dropped d))
    | (Ok p, f') => (Ok tt, Db f' (set_position h p) (dropped d))
    end
  else (Err E_HEADER_VERSION, Db (dbf d) h (dropped d)).

(** src/couch_db.cc:743-768 the loop of couchstore_commit_ex that turns the written block into a header block.
    [retries]: how many times the callback asks for another attempt after a failed sync (none without
    a callback). *)
Fixpoint commit_flip (retries : nat) (f : file) (pos : N) : res unit * file :=
  match write_disk_block_type f pos B_HEADER with
  | (Err e, f') => (Err e, f')
  | (Ok _, f') =>
      match fsync f' with
      | (Ok _, f'') => (Ok tt, f'')
      | (Err e, f'') =>
          match retries with
          | O => (Err e, f'')
          | S k => commit_flip k f'' pos
          end
      end
  end.

(** src/couch_db.cc:702-777 couchstore_commit_ex. The error path restores three fields of the header. *)
Definition commit_ex (d : db) (timestamp : N) (retries : nat) : res unit * db :=
  let h0 := dbh d in
  let restore (x : db) : db :=
    Db (dbf x) (set_prev (set_timestamp (set_position (dbh x) (h_position h0)) (h_timestamp h0)) (h_prev h0))
       (dropped x) in
  let pre_pos := fpos (dbf d) in
  let d1 := Db (dbf d) (set_prev (set_timestamp h0 timestamp) (h_position h0)) (dropped d) in
  match db_write_header d1 B_DATA with
  | (Err e, d2) => (Err e, restore d2)
  | (Ok _, d2) =>
      match fsync (dbf d2) with
      | (Err e, f3) => (Err e, restore (Db f3 (dbh d2) (dropped d2)))
      | (Ok _, f3) =>
          match commit_flip retries f3 (align pre_pos) with
          | (Err e, f4) => (Err e, restore (Db f4 (dbh d2) (dropped d2)))
          | (Ok _, f4) => (Ok tt, Db f4 (dbh d2) (dropped d2))
          end
      end
  end.

(** A Db object before opening: couchstore_open_db_ex uses `new Db()`, all fields zero. *)
Definition header0 : header := Header 0 0 None None None 0 0 0 0 0 false.

(** ** Metadata header with the encryption key information *)

(** What is stored about the key of an encrypted file: format version (0: wrapped key, 1: derivation context), key
    identifier, context; and the cipher key that results. How the key is obtained from the context is outside the
    code (cb::crypto), see [getkey] below. *)
Record keyinfo := KeyInfo { ki_version : N; ki_id : bytes; ki_ctx : bytes; ki_key : N }.

(** src/couch_db.cc:612-632 the serialized metadata; the two lengths are stored as one byte each. *)
Definition encode_metadata (k : keyinfo) : bytes :=
  [ki_version k] ++ be 1 (lenN (ki_id k)) ++ ki_id k ++ be 1 (lenN (ki_ctx k)) ++ ki_ctx k.

(** src/couch_db.cc:388-401 parse_short_string: the string and the rest, None when the buffer is too short. *)
Definition parse_short_string (b : bytes) : option (bytes * bytes) :=
  match b with
  | [] => None
  | l :: r => if lenN r <? l then None else Some (take l r, drop l r)
  end.

(** src/couch_db.cc:434-462 the parsing part of read_metadata_header, given the header chunk. *)
Definition parse_metadata (b : bytes) : res (N * bytes * bytes) :=
  match b with
  | [] => Err E_NOT_SUPPORTED
  | v :: r =>
      if 1 <? v then Err E_NOT_SUPPORTED
      else match parse_short_string r with
           | None => Err E_CORRUPT
           | Some (id, r1) =>
               match parse_short_string r1 with
               | None => Err E_CORRUPT
               | Some (ctx, _) => Ok (v, id, ctx)
               end
           end
  end.

(** src/couch_db.cc:413-463 read_metadata_header. *)
Definition read_metadata_header (f : file) : res (N * bytes * bytes) :=
  match pread f 0 1 with
  | [t] =>
      if negb (t =? B_META) then Err E_NO_HEADER
      else let* b := pread_header f 0 BLOCK in parse_metadata b
  | _ => Err E_READ
  end.

(** src/couch_db.cc:478-573 read_and_set_encryption_key: the new cipher. [getkey version id context]: the key callback
    together with the key derivation or unwrapping of cb::crypto. COUCHSTORE_ERROR_NO_ENCRYPTION_KEY is
    reported as [E_DECRYPT]. *)
Definition read_encryption_key (f : file) (h : header) (getkey : N -> bytes -> bytes -> res N) : res (option N) :=
  match fkey f with
  | Some _ => Err E_INVALID_ARGUMENTS
  | None =>
      if h_version h <? 14 then Err E_INVALID_ARGUMENTS
      else if negb (h_meta h) then Err E_INVALID_ARGUMENTS
      else match read_metadata_header f with
           | Err E_NO_HEADER => Err E_DECRYPT
           | Err e => Err e
           | Ok (v, id, ctx) =>
               match id with
               | [] => Ok None
               | _ :: _ => let* k := getkey v id ctx in Ok (Some k)
               end
           end
  end.

(** src/couch_db.cc:579-647 create_metadata_header: [key] is None when no (active) key is given. Result: the value of
    have_metadata_header and the file. *)
Definition create_metadata_header (f : file) (key : option keyinfo) : res bool * file :=
  match key with
  | None => (Ok false, f)
  | Some k =>
      if (lenN (ki_id k) =? 0) || (255 <? lenN (ki_id k)) then (Err E_INVALID_ARGUMENTS, f)
      else
        let f := set_fkey f (Some (ki_key k)) in
        match write_header f (encode_metadata k) B_META with
        | (Ok _, f') => (Ok true, f')
        | (Err e, f') => (Err e, f')
        end
  end.

(** src/couch_db.cc:649-677 create_header on an empty file; [no_commit] is COUCHSTORE_OPEN_FLAG_NO_COMMIT_AT_CREATE. *)
Definition create_header (f : file) (meta no_commit : bool) : res unit * db :=
  let h := Header (match crcm f with CRC32 => 11 | _ => 14 end) 0 None None None 0 0 0 0 NO_PREV meta in
  let d := Db f h false in
  if no_commit then (Ok tt, d) else db_write_header d B_HEADER.

(** src/couch_db.cc:867-978 couchstore_open_db_ex on an existing non-empty file;
    [recovery] is COUCHSTORE_OPEN_RECOVERY_MODE, [legacy] is COUCHSTORE_OPEN_WITH_LEGACY_CRC. [f] is the file as
    the operating system presents it; the crc mode and the cipher are unknown until the header has been read. *)
Definition open_existing (f : file) (getkey : N -> bytes -> bytes -> res N) (recovery legacy : bool) : res db :=
  let f0 := set_fpos (set_fkey (set_crcm f CRC_UNKNOWN) None) (size f) in
  match find_header f0 header0 (Z.of_N (size f) - 2) recovery with
  | (Err e, _) => Err e
  | (Ok _, h) =>
      let m := if h_version h <=? 11 then CRC32 else CRC32C in
      if legacy && (match m with CRC32C => true | _ => false end) then Err E_INVALID_ARGUMENTS
      else
        let f1 := set_crcm f0 m in
        if h_meta h then
          let* k := read_encryption_key f1 h getkey in Ok (Db (set_fkey f1 k) h false)
        else Ok (Db f1 h false)
  end.

(** src/couch_db.cc:867-978 couchstore_open_db_ex on an empty file, read-write. *)
Definition open_new (f : file) (key : option keyinfo) (legacy no_commit : bool) : res unit * db :=
  let f0 := set_fpos (set_fkey (set_crcm f (if legacy then CRC32 else CRC32C)) None) 0 in
  match create_metadata_header f0 key with
  | (Err e, f1) => (Err e, Db f1 header0 false)
  | (Ok meta, f1) =>
      match create_header f1 meta no_commit with
      | (Err e, d) => (Err e, d)
      | (Ok _, d) =>
          if fpos (dbf d) =? 0 then
            match write_disk_block_type (dbf d) 0 B_DATA with
            | (Err e, f') => (Err e, Db f' (dbh d) false)
            | (Ok _, f') => (Ok tt, Db (set_fpos f' 1) (dbh d) false)
            end
          else (Ok tt, d)
      end
  end.

(** ** Moving between headers *)

(** src/couch_db.cc:1005-1033 couchstore_rewind_db_header_impl. *)
Definition rewind_impl (d : db) : res unit * db :=
  if dropped d then (Err E_FILE_CLOSED, d) else
  let h := reset_roots (dbh d) in
  let back (h : header) : res unit * db :=
    if h_position h <? BLOCK then (Err E_DB_NO_LONGER_VALID, Db (dbf d) h (dropped d))
    else let '(r, h') := find_header (dbf d) h (Z.of_N (h_position h) - 2) false in
         (r, Db (dbf d) h' (dropped d)) in
  if 14 <=? h_version h then
    if h_prev h =? NO_PREV then (Err E_DB_NO_LONGER_VALID, Db (dbf d) h (dropped d))
    else if negb (h_prev h =? UNKNOWN_PREV) && (h_prev h <? h_position h) then
      let '(r, h') := find_header_at_pos (dbf d) h (h_prev h) in
      match r with
      | Ok _ => (Ok tt, Db (dbf d) h' (dropped d))
      | Err E_ALLOC => (Err E_ALLOC, Db (dbf d) h' (dropped d))
      | Err _ => back h'
      end
    else back h
  else back h.

(** src/couch_db.cc:1035-1045 couchstore_rewind_db_header: on failure the handle is closed and released. *)
Definition rewind_db_header (d : db) : res db :=
  match rewind_impl d with
  | (Ok _, d') => Ok d'
  | (Err _, _) => Err E_DB_NO_LONGER_VALID
  end.

(** src/couch_db.cc:1047-1064 couchstore_fastforward_db_header_impl. *)
Fixpoint ff_loop (fuel : nat) (f : file) (h : header) (pos : N) : res unit * header :=
  match fuel with
  | O => (Err E_FUEL, h)
  | S fuel' =>
      if pos <? fpos f then
        let '(r, h') := find_header_at_pos f h pos in
        match r with
        | Err E_NO_HEADER => ff_loop fuel' f h' (pos + BLOCK)
        | _ => (r, h')
        end
      else (Err E_NO_HEADER, h)
  end.
Definition fastforward_impl (d : db) : res unit * db :=
  if dropped d then (Err E_FILE_CLOSED, d) else
  let h := reset_roots (dbh d) in
  let '(r, h') := ff_loop (S (N.to_nat (fpos (dbf d) / BLOCK + 1))) (dbf d) h (h_position h + BLOCK) in
  (r, Db (dbf d) h' (dropped d)).

(** src/couch_db.cc:1066-1076 couchstore_fastforward_db_header. *)
Definition fastforward_db_header (d : db) : res db :=
  match fastforward_impl d with
  | (Ok _, d') => Ok d'
  | (Err _, _) => Err E_DB_NO_LONGER_VALID
  end.

(** The tail shared by both seek functions (couch_db.cc:2169-2180, 2226-2237): try to return to the header
    that was current. *)
Definition reopen_current (d : db) (current : N) (e : err) : res unit * db :=
  let '(r, h) := find_header_at_pos (dbf d) (dbh d) current in
  match r with
  | Ok _ => (Err e, Db (dbf d) h (dropped d))
  | Err _ => (Err E_DB_NO_LONGER_VALID, Db (dbf d) h true)
  end.

(** src/couch_db.cc:2141-2181 seek(Db&, offset), for a non-negative offset. *)
Definition seek (d : db) (offset : N) : res unit * db :=
  if dropped d then (Err E_FILE_CLOSED, d)
  else if negb (offset mod BLOCK =? 0) then (Err E_INVALID_ARGUMENTS, d)
  else if fpos (dbf d) <=? offset then (Err E_NO_HEADER, d)
  else
    let current := h_position (dbh d) in
    let '(r, h) := find_header_at_pos (dbf d) (reset_roots (dbh d)) offset in
    let d1 := Db (dbf d) h (dropped d) in
    match r with
    | Ok _ => (Ok tt, d1)
    | Err e => reopen_current d1 current e
    end.

Inductive direction := DEnd | DForward | DBackward.

(** src/couch_db.cc:2183-2243 seek(Db&, Direction). Arithmetic on the position is modulo 2^64 (a file
    shorter than two bytes). *)
Definition seek_dir (d : db) (dir : direction) : res unit * db :=
  if dropped d then (Err E_FILE_CLOSED, d)
  else
    let current := h_position (dbh d) in
    let old_pos := fpos (dbf d) in
    let run : res unit * db :=
      match dir with
      | DEnd =>
          let sz := size (dbf d) in
          rewind_impl (Db (set_fpos (dbf d) sz)
                          (set_prev (set_position (dbh d) (if sz <? 2 then 2^64 + sz - 2 else sz - 2)) UNKNOWN_PREV)
                          (dropped d))
      | DForward => fastforward_impl d
      | DBackward => rewind_impl d
      end in
    match dir with
    | DBackward => if h_position (dbh d) =? 0 then (Err E_NO_HEADER, d) else
        match run with
        | (Ok _, d1) => (Ok tt, d1)
        | (Err e, d1) =>
            let d2 := Db (set_fpos (dbf d1) old_pos) (dbh d1) (dropped d1) in
            match e with
            | E_INVALID_ARGUMENTS => (Err e, d2)
            | _ => reopen_current d2 current e
            end
        end
    | _ =>
        match run with
        | (Ok _, d1) => (Ok tt, d1)
        | (Err e, d1) =>
            let d2 := Db (set_fpos (dbf d1) old_pos) (dbh d1) (dropped d1) in
            match e with
            | E_INVALID_ARGUMENTS => (Err e, d2)
            | _ => reopen_current d2 current e
            end
        end
    end.

(** src/couch_db.cc:2286-2296 the inner loop of seekFirstHeaderContaining: first block from [middle] on at which a
    header is found; any other result than "no header" is a thrown exception (here: E_CANCEL). *)
Fixpoint seek_up (fuel : nat) (d : db) (middle : N) : res N * db :=
  match fuel with
  | O => (Err E_FUEL, d)
  | S fuel' =>
      match seek d middle with
      | (Ok _, d') => (Ok middle, d')
      | (Err E_NO_HEADER, d') => seek_up fuel' d' (middle + BLOCK)
      | (Err _, d') => (Err E_CANCEL, d')
      end
  end.

(** src/couch_db.cc:2270-2347 the search loop of seekFirstHeaderContaining (C++ exceptions are E_CANCEL). *)
Fixpoint search_loop (fuel fuel2 : nat) (d : db) (seqno left right : N) : res unit * db :=
  match fuel with
  | O => (Err E_FUEL, d)
  | S fuel' =>
      if right <? left then (Err E_CANCEL, d) else
      let middle := (left + right) / 2 in
      let middle := middle - middle mod BLOCK in
      match seek_up fuel2 d middle with
      | (Err e, d1) => (Err e, d1)
      | (Ok middle, d1) =>
          if (middle <? left) || (right <? middle) then (Err E_CANCEL, d1) else
          let hs := h_update_seq (dbh d1) in
          if seqno <? hs then
            if right =? middle then (Ok tt, d1) else search_loop fuel' fuel2 d1 seqno left middle
          else if hs <? seqno then
            if left =? middle then
              match seek_dir d1 DForward with
              | (Ok _, d2) => (Ok tt, d2)
              | (Err _, d2) => (Err E_CANCEL, d2)
              end
            else search_loop fuel' fuel2 d1 seqno middle right
          else (Ok tt, d1)
      end
  end.

(** src/couch_db.cc:2245-2347 seekFirstHeaderContaining with granularity 1 (the part after the search only
    runs for larger granularities). *)
Definition seek_first (fuel : nat) (d : db) (seqno : N) : res unit * db :=
  search_loop fuel (S (N.to_nat (fpos (dbf d) / BLOCK + 1))) d seqno 0 (h_position (dbh d)).

End WithEnv.
