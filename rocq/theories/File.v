(** Model of the file: positioned writes with failures, block prefixes, data chunks. *)
From Verif Require Import Base Codec.
Local Open Scope N_scope.

(** External functions used by the storage layer (snappy, CRC32C and the cipher come from other
    libraries and are not in /repo). Laws about them are hypotheses of the theorems ([EnvOk]).
    [compress x = None] is a failing deflateSnappy; [encrypt key nonce text] gives cipher text followed
    by the MAC (crypto.h, couch_file_write.cc:157-160). *)
Class Env := MkEnv {
  compress : bytes -> option bytes;
  uncompress : bytes -> option bytes;
  crc32c : bytes -> N;
  crc32 : bytes -> N;
  encrypt : N -> N -> bytes -> bytes;
  decrypt : N -> N -> bytes -> option bytes;
  mac_size : N
}.

(** Laws of the external functions. *)
Record EnvOk (E : Env) : Prop := {
  ok_compress : forall x y, compress x = Some y -> uncompress y = Some x;
  ok_crc32c : forall x, crc32c x < 2^32;
  ok_crc32 : forall x, crc32 x < 2^32;
  ok_decrypt : forall k n x, decrypt k n (encrypt k n x) = Some x;
  ok_maclen : forall k n x, lenN (encrypt k n x) = lenN x + mac_size
}.

(** src/crc32.h:19-23 crc_mode_e. *)
Inductive crc_mode := CRC_UNKNOWN | CRC32 | CRC32C.

(** src/internal.h:30 COUCH_BLOCK_SIZE. *)
Definition BLOCK : N := 4096.

(** src/internal.h:164 DiskBlockType. *)
Definition B_DATA : N := 0.
Definition B_HEADER : N := 1.
Definition B_META : N := 2.

(** src/util.cc:137-143 align_to_next_block. *)
Definition align (p : N) : N := if p mod BLOCK =? 0 then p else p + BLOCK - p mod BLOCK.

(** One entry of the (arbitrary) behaviour of the operating system at the next write or sync call.
    [w_len]: how many bytes a write accepts (a successful one accepts at least one byte);
    [w_sync]: whether the periodic sync of os.cc:199-207 happens after it;
    [w_err]: the call reports this error (the bytes may have been written nevertheless, as when write
    validation or the periodic sync fails, os.cc:159-207);
    [w_die]: the machine stops at this point; nothing is written afterwards;
    [w_lossy]: for a failing sync (also a failing periodic sync after a write): the kernel forgets which data was dirty, so that a later
    successful sync does not cover it (see the note in couch_db.cc:740-742). *)
Record wstep := WStep {
  w_len : N; w_sync : bool; w_err : option err; w_die : bool; w_lossy : bool
}.

(** The file and the writing handle. [cur]/[size]: what a read sees. [vals i]: the values that may be found
    at position [i] on the medium after a crash; [dirty i]: a sync still has to write position [i];
    [dsize]: durable length. [ddirty]: something else than a single block-type byte was written since
    the last sync; [lost]: a failing sync has made the kernel forget such data; [big]: a chunk of 2 GiB or
    more was written (these three only record what happened, no operation depends on them). [fpos] is tree_file::pos (internal.h), [crcm]
    tree_file::crc_mode, [fkey] tree_file::cipher. *)
Record file := File {
  cur : N -> N;
  size : N;
  vals : N -> list N;
  dirty : N -> bool;
  dsize : N;
  ddirty : bool;
  lost : bool;
  big : bool;
  dead : bool;
  plan : list wstep;
  fpos : N;
  crcm : crc_mode;
  fkey : option N
}.

Definition set_fpos (f : file) (p : N) : file :=
  File (cur f) (size f) (vals f) (dirty f) (dsize f) (ddirty f) (lost f) (big f) (dead f) (plan f) p (crcm f) (fkey f).
Definition set_crcm (f : file) (m : crc_mode) : file :=
  File (cur f) (size f) (vals f) (dirty f) (dsize f) (ddirty f) (lost f) (big f) (dead f) (plan f) (fpos f) m (fkey f).
Definition set_plan (f : file) (p : list wstep) : file :=
  File (cur f) (size f) (vals f) (dirty f) (dsize f) (ddirty f) (lost f) (big f) (dead f) p (fpos f) (crcm f) (fkey f).
Definition set_fkey (f : file) (k : option N) : file :=
  File (cur f) (size f) (vals f) (dirty f) (dsize f) (ddirty f) (lost f) (big f) (dead f) (plan f) (fpos f) (crcm f) k.
Definition note_big (f : file) (sz : N) : file :=
  File (cur f) (size f) (vals f) (dirty f) (dsize f) (ddirty f) (lost f) (big f || (2^31 <? sz))
       (dead f) (plan f) (fpos f) (crcm f) (fkey f).
Definition set_dead (f : file) : file :=
  File (cur f) (size f) (vals f) (dirty f) (dsize f) (ddirty f) (lost f) (big f) true (plan f) (fpos f) (crcm f) (fkey f).

(** Is [i] inside [off, off + len)? *)
Definition inr (off len i : N) : bool := (off <=? i) && (i <? off + len).

(** The bytes [b] written at [off] over [g]. *)
Definition overlay (g : N -> N) (off : N) (b : bytes) : N -> N :=
  fun i => if inr off (lenN b) i then nth (N.to_nat (i - off)) b 0 else g i.

(** Effect of the kernel accepting the bytes [b] at [off] (POSIX pwrite; a write beyond the end leaves
    zeroes in between because [cur] is zero there). An empty write has no effect. *)
Definition put (f : file) (off : N) (b : bytes) : file :=
  if lenN b =? 0 then f else
  File (overlay (cur f) off b) (N.max (size f) (off + lenN b))
       (fun i => if inr off (lenN b) i then nth (N.to_nat (i - off)) b 0 :: vals f i else vals f i)
       (fun i => inr off (lenN b) i || dirty f i)
       (dsize f) (ddirty f || negb ((lenN b =? 1) && (off mod BLOCK =? 0)))
       (lost f) (big f) (dead f) (plan f) (fpos f) (crcm f) (fkey f).

(** Effect of a completed fdatasync (os.cc:322-338). *)
Definition do_sync (f : file) : file :=
  File (cur f) (size f)
       (fun i => if dirty f i then [cur f i] else vals f i)
       (fun _ => false) (size f) false (lost f) (big f) (dead f) (plan f) (fpos f) (crcm f) (fkey f).

(** Effect of a failing fdatasync after which the kernel considers the data clean. *)
Definition lose (f : file) : file :=
  File (cur f) (size f) (vals f) (fun _ => false) (dsize f) false (lost f || ddirty f) (big f)
       (dead f) (plan f) (fpos f) (crcm f) (fkey f).

Definition next_step (f : file) : option wstep * file :=
  match plan f with
  | [] => (None, f)
  | s :: p => (Some s, set_plan f p)
  end.

(** src/os.cc:130-210 PosixFileOps::pwrite of a non-empty buffer: number of bytes accepted or an error.
    The write-validation read-back only turns a success into an error and is covered by [w_err]. *)
Definition pwrite (f : file) (off : N) (b : bytes) : res N * file :=
  if dead f then (Err E_WRITE, f) else
  let '(s, f1) := next_step f in
  match s with
  | None => (Ok (lenN b), put f1 off b)
  | Some s =>
      let failing := w_die s || match w_err s with Some _ => true | None => false end in
      let n := N.min (lenN b) (if failing then w_len s else N.max 1 (w_len s)) in
      let f2 := put f1 off (take n b) in
      let f3 := if w_sync s then do_sync f2 else f2 in
      if w_die s then (Err E_WRITE, set_dead f3)
      else match w_err s with
           | Some e => (Err e, if w_lossy s then lose f3 else f3)
           | None => (Ok n, f3)
           end
  end.

(** src/os.cc:322-338 PosixFileOps::sync. *)
Definition fsync (f : file) : res unit * file :=
  if dead f then (Err E_WRITE, f) else
  let '(s, f1) := next_step f in
  match s with
  | None => (Ok tt, do_sync f1)
  | Some s =>
      if w_die s then (Err E_WRITE, set_dead (if w_sync s then do_sync f1 else f1))
      else match w_err s with
           | Some e => (Err e, if w_lossy s then lose f1 else f1)
           | None => (Ok tt, do_sync f1)
           end
  end.

(** src/couch_file_write.cc:30-60 write_entire_buffer: repeats short writes. [fuel] is at least the number
    of bytes plus one; each successful write accepts at least one byte. *)
Fixpoint write_entire (fuel : nat) (f : file) (off : N) (b : bytes) : res unit * file :=
  match b with
  | [] => (Ok tt, f)
  | _ :: _ =>
      match fuel with
      | O => (Err E_FUEL, f)
      | S fuel' =>
          match pwrite f off b with
          | (Err e, f') => (Err e, f')
          | (Ok n, f') => write_entire fuel' f' (off + n) (drop n b)
          end
      end
  end.

(** write_entire_buffer with enough fuel. *)
Definition write_all (f : file) (off : N) (b : bytes) : res unit * file :=
  write_entire (S (length b)) f off b.

(** src/couch_file_write.cc:62-95 raw_write: [wp] is write_pos; result: the end position (write_pos when the
    loop ends; the C++ function returns the difference to the start). Two units of fuel per byte. *)
Fixpoint raw_write_loop (fuel : nat) (t : N) (f : file) (wp : N) (b : bytes) : res N * file :=
  match b with
  | [] => (Ok wp, f)
  | _ :: _ =>
      match fuel with
      | O => (Err E_FUEL, f)
      | S fuel' =>
          let block_remain := N.min (BLOCK - wp mod BLOCK) (lenN b) in
          if wp mod BLOCK =? 0 then
            match write_all f wp [t] with
            | (Err e, f') => (Err e, f')
            | (Ok _, f') => raw_write_loop fuel' t f' (wp + 1) b
            end
          else
            match write_all f wp (take block_remain b) with
            | (Err e, f') => (Err e, f')
            | (Ok _, f') => raw_write_loop fuel' t f' (wp + block_remain) (drop block_remain b)
            end
      end
  end.
Definition raw_write (t : N) (f : file) (pos : N) (b : bytes) : res N * file :=
  raw_write_loop (2 * length b + 1) t f pos b.

(** ** Reading *)

(** src/os.cc:107-128 PosixFileOps::pread: [n] bytes from [off], cut at the end of the file. (The kernel
    returning fewer bytes than available is not modelled; the callers repeat the read, see theorem
    [C04_short_reads] in PropertiesFile.v.) *)
Fixpoint rdn (g : N -> N) (off : N) (n : nat) : bytes :=
  match n with O => [] | S n' => g off :: rdn g (off + 1) n' end.
Definition pread (f : file) (off n : N) : bytes :=
  rdn (cur f) off (N.to_nat (N.min n (size f - off))).

(** src/couch_file_read.cc:120-147 read_skipping_prefixes: bytes read and the new position. *)
Definition skip_prefix (p : N) : N := if p mod BLOCK =? 0 then p + 1 else p.
Fixpoint read_skip_loop (fuel : nat) (f : file) (pos len : N) (acc : bytes) : res (bytes * N) :=
  if len =? 0 then Ok (acc, pos) else
  match fuel with
  | O => Err E_FUEL
  | S fuel' =>
      let read_size := N.min (BLOCK - pos mod BLOCK) len in
      let got := pread f pos read_size in
      if lenN got =? 0 then Err E_READ
      else read_skip_loop fuel' f (skip_prefix (pos + lenN got)) (len - lenN got) (acc ++ got)
  end.
Definition read_skip (f : file) (pos len : N) : res (bytes * N) :=
  read_skip_loop (S (N.to_nat len)) f (skip_prefix pos) len [].

Section WithEnv.
Context {E : Env}.

(** src/crc32.cc:125-133 get_checksum; mode UNKNOWN stops the process (cb_assert). *)
Definition get_checksum (m : crc_mode) (b : bytes) : res N :=
  match m with
  | CRC32C => Ok (crc32c b)
  | CRC32 => Ok (crc32 b)
  | CRC_UNKNOWN => Err E_UB
  end.

(** src/crc32.cc:104-118 perform_integrity_check. *)
Definition integrity (m : crc_mode) (b : bytes) (c : N) : bool :=
  match m with
  | CRC_UNKNOWN => (c =? crc32c b) || (c =? crc32 b)
  | CRC32C => c =? crc32c b
  | CRC32 => c =? crc32 b
  end.

(** src/crypto.h:26-29 offset2nonce. *)
Definition nonce (p : N) : N := if p mod BLOCK =? 0 then p + 1 else p.

(** high_bit_set, couch_file_read.cc:156. *)
Definition HIGH : N := 2147483648.

(** src/couch_file_write.cc:139-180 write_encrypted: result is position and disk size.
    gsl::narrow throws above 2^32. *)
Definition write_encrypted (k : N) (f : file) (b : bytes) : res (N * N) * file :=
  let wp := fpos f in
  let c := encrypt k (nonce wp) b in
  let chunkLen := lenN b + mac_size in
  if 2^32 <=? chunkLen then (Err E_ENCRYPT, f) else
  match raw_write B_DATA f wp (be 4 chunkLen ++ c) with
  | (Err e, f') => (Err e, f')
  | (Ok e, f') => (Ok (wp, chunkLen + 4), note_big (set_fpos f' e) (chunkLen + 4))
  end.

(** src/couch_file_write.cc:182-236 db_write_buf. *)
Definition db_write_buf (f : file) (b : bytes) : res (N * N) * file :=
  match fkey f with
  | Some k => write_encrypted k f b
  | None =>
      match get_checksum (crcm f) b with
      | Err e => (Err e, f)
      | Ok c =>
          let wp := fpos f in
          match raw_write B_DATA f wp (be 4 (N.lor (lenN b mod 2^32) HIGH) ++ be 4 c) with
          | (Err e, f') => (Err e, f')
          | (Ok e1, f') =>
              match raw_write B_DATA f' e1 b with
              | (Err e, f'') => (Err e, f'')
              | (Ok e2, f'') => (Ok (wp, 8 + lenN b), note_big (set_fpos f'' e2) (8 + lenN b))
              end
          end
      end
  end.

(** src/couch_file_write.cc:238-259 db_write_buf_compressed. *)
Definition db_write_buf_compressed (f : file) (b : bytes) : res (N * N) * file :=
  match compress b with
  | None => (Err E_CORRUPT, f)
  | Some z => db_write_buf f z
  end.

(** src/couch_file_read.cc:158-216 pread_encrypted. *)
Definition pread_encrypted (k : N) (f : file) (pos : N) : res bytes :=
  let* r := read_skip f pos 4 in
  let '(l, p1) := r in
  let chunkLen := unbe l in
  if (negb (N.land chunkLen HIGH =? 0)) || (chunkLen <? mac_size) then Err E_CORRUPT
  else
    let* r2 := read_skip f p1 chunkLen in
    match decrypt k (nonce pos) (fst r2) with
    | Some b => Ok b
    | None => Err E_CHECKSUM
    end.

(** src/couch_file_read.cc:224-298 pread_bin_internal; [maxh] is max_header_size (0: not a header). *)
Definition pread_bin_internal (f : file) (pos maxh : N) : res bytes :=
  match fkey f, maxh with
  | Some k, 0 => pread_encrypted k f pos
  | _, _ =>
      let* r := read_skip f pos 8 in
      let '(info, p1) := r in
      let* l := getb 0 4 info in
      let* c := getb 4 4 info in
      let chunk_len := unbe l in
      let c := unbe c in
      if Bool.eqb (negb (maxh =? 0)) (negb (N.land chunk_len HIGH =? 0)) then Err E_CORRUPT
      else
        let len := N.ldiff chunk_len HIGH in
        if (negb (maxh =? 0)) && ((len <? 4) || (maxh <? len)) then Err E_CORRUPT
        else
          let len := if maxh =? 0 then len else len - 4 in
          let* r2 := read_skip f p1 len in
          if integrity (crcm f) (fst r2) c then Ok (fst r2) else Err E_CHECKSUM
  end.

(** src/couch_file_read.cc:348-351 pread_bin. *)
Definition pread_bin (f : file) (pos : N) : res bytes := pread_bin_internal f pos 0.

(** src/couch_file_read.cc:313-346 pread_compressed. *)
Definition pread_compressed (f : file) (pos : N) : res bytes :=
  let* z := pread_bin_internal f pos 0 in
  match uncompress z with Some b => Ok b | None => Err E_CORRUPT end.

(** src/couch_file_read.cc:300-311 pread_header. *)
Definition pread_header (f : file) (pos maxh : N) : res bytes :=
  if maxh =? 0 then Err E_INVALID_ARGUMENTS else pread_bin_internal f (pos + 1) maxh.

(** src/couch_file_write.cc:97-137 write_header: the position of the header, stored even on failure in
    *pos by the C++ code but only used by the callers on success. *)
Definition write_header (f : file) (b : bytes) (t : N) : res N * file :=
  match get_checksum (crcm f) b with
  | Err e => (Err e, f)
  | Ok c =>
      let wp := align (fpos f) in
      match write_all f wp (t :: be 4 ((lenN b + 4) mod 2^32) ++ be 4 c) with
      | (Err e, f') => (Err e, f')
      | (Ok _, f') =>
          match raw_write t f' (wp + 9) b with
          | (Err e, f'') => (Err e, f'')
          | (Ok e2, f'') => (Ok wp, set_fpos f'' e2)
          end
      end
  end.

(** src/couch_db.cc:688-700 write_disk_block_type (a write returning 0 is retried; the plan model of
    one-byte writes never returns 0). *)
Definition write_disk_block_type (f : file) (pos t : N) : res unit * file :=
  match pwrite f pos [t] with
  | (Ok _, f') => (Ok tt, f')
  | (Err e, f') => (Err e, f')
  end.

End WithEnv.
