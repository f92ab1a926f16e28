(** Model of src/stream.cc: files of chunks with a checksum or encrypted, as used for the temporary files of src/tree_writer.cc. FileStream, which only tests use, is left out; so are
    allocation failures. Exceptions are the errors that handle_exceptions of src/tree_writer.cc:73-101 makes of them. *)
From Verif Require Import Base Codec File IoBuffer TreeWriter.
Local Open Scope N_scope.
Unset Strict Implicit.

(** cb::crypto::SymmetricCipher::encrypt and decrypt (external): [seal n x] is the nonce [n] together with the encrypted bytes and the code for authentication; [sealing] is the number of bytes
    that it is longer than [x] (getNonceSize() + getMacSize()). *)
Class Sealer := MkSealer { seal : N -> bytes -> bytes; unseal : bytes -> option bytes; sealing : N }.

(** src/stream.cc:62-104 class FileOpsStream: the file and pos. *)
Record fstream := FStream { fs_raw : raw; fs_pos : N }.
(** The loop of src/stream.cc:276-288: [n] bytes remain, [acc] are those read. Every call reads at least one byte up to the end of the file; [fuel] bounds their number. The result is false at the
    end of the file. *)
Fixpoint fs_read_loop (fuel : nat) (n : N) (acc : bytes) (s : fstream) : res bool * bytes * fstream :=
  if n =? 0 then (Ok true, acc, s) else
  match fuel with
  | O => (Err E_FUEL, acc, s)
  | S fuel' =>
      let '(x, r) := raw_pread (fs_raw s) n (fs_pos s) in
      match x with
      | Err e => (Err e, acc, FStream r (fs_pos s))
      | Ok [] => (Ok false, acc, FStream r (fs_pos s))
      | Ok b => fs_read_loop fuel' (n - lenN b) (acc ++ b) (FStream r (fs_pos s + lenN b))
      end
  end.
(** src/stream.cc:273-290 FileOpsStream::read; the buffer before and after the call. *)
Definition fs_read (buf : bytes) (s : fstream) : res bool * bytes * fstream :=
  let '(x, acc, s') := fs_read_loop (S (length (rw_data (fs_raw s)))) (lenN buf) [] s in (x, acc ++ drop (lenN acc) buf, s').
(** The loop of src/stream.cc:295-304. *)
Fixpoint fs_write_loop (fuel : nat) (b : bytes) (s : fstream) : res unit * fstream :=
  match b with
  | [] => (Ok tt, s)
  | _ =>
      match fuel with
      | O => (Err E_FUEL, s)
      | S fuel' =>
          let '(x, r) := raw_pwrite (fs_raw s) b (fs_pos s) in
          match x with
          | Err e => (Err e, FStream r (fs_pos s))
          | Ok k => fs_write_loop fuel' (drop k b) (FStream r (fs_pos s + k))
          end
      end
  end.
(** src/stream.cc:292-305 FileOpsStream::write. *)
Definition fs_write (b : bytes) (s : fstream) : res unit * fstream := fs_write_loop (S (length b)) b s.
(** src/stream.cc:311-318 FileOpsStream::seek_end. *)
Definition fs_seek_end (s : fstream) : res unit * fstream :=
  let '(x, r) := raw_eof (fs_raw s) in
  match x with Err e => (Err e, FStream r (fs_pos s)) | Ok n => (Ok tt, FStream r n) end.

(** src/stream.cc:154-168 class ChecksumStream, :178-201 class EncryptedStream. *)
Inductive kind := KSum | KSeal.
(** src/stream.cc:114-146 class ChunkedStream: underlying, chunk, read_pos ([None]: -1). [cs_draws]: the number of nonces drawn so far. *)
Record cstream := CStream { cs_under : fstream; cs_chunk : bytes; cs_rpos : option N; cs_draws : N }.
(** src/stream.cc:206-212 make_fileops_stream for a file that is there, and the constructor in :116-122. *)
Definition open_stream (r : raw) : cstream := CStream (FStream r 0) [] (Some 0) 0.
(** std::string::resize. *)
Definition resize (n : N) (l : bytes) : bytes := take n l ++ repeat 0 (N.to_nat (n - lenN l)).

Section WithEnv.
Context {E : Env} {Z : Sealer}.

(** src/stream.cc:384-411 ChecksumStream::read_chunk. *)
Definition read_chunk_sum (s : cstream) : res bool * cstream :=
  let '(x, h, u) := fs_read (repeat 0 8) (cs_under s) in
  match x with
  | Err e => (Err e, CStream u (cs_chunk s) (cs_rpos s) (cs_draws s))
  | Ok false => (Ok false, CStream u (cs_chunk s) (cs_rpos s) (cs_draws s))
  | Ok true =>
      let len := unbe (take 4 h) in
      let sum := unbe (drop 4 h) in
      if len <? 4 then (Err E_CORRUPT, CStream u (cs_chunk s) (cs_rpos s) (cs_draws s)) else
      let '(y, c, u') := fs_read (resize (len - 4) (cs_chunk s)) u in
      let s' := CStream u' c (cs_rpos s) (cs_draws s) in
      match y with
      | Err e => (Err e, s')
      | Ok false => (Err E_READ, s')
      | Ok true => if sum =? crc32c c then (Ok true, s') else (Err E_CHECKSUM, s')
      end
  end.
(** src/stream.cc:425-445 EncryptedStream::read_chunk. A failing decrypt throws; the chunk then has the encrypted bytes. *)
Definition read_chunk_seal (s : cstream) : res bool * cstream :=
  let '(x, h, u) := fs_read (repeat 0 4) (cs_under s) in
  match x with
  | Err e => (Err e, CStream u (cs_chunk s) (cs_rpos s) (cs_draws s))
  | Ok false => (Ok false, CStream u (cs_chunk s) (cs_rpos s) (cs_draws s))
  | Ok true =>
      let len := unbe h in
      if len <? sealing + 1 then (Err E_CORRUPT, CStream u (cs_chunk s) (cs_rpos s) (cs_draws s)) else
      let '(y, c, u') := fs_read (resize len (cs_chunk s)) u in
      let s' := CStream u' c (cs_rpos s) (cs_draws s) in
      match y with
      | Err e => (Err e, s')
      | Ok false => (Err E_READ, s')
      | Ok true => match unseal c with Some p => (Ok true, CStream u' p (cs_rpos s) (cs_draws s)) | None => (Err E_CORRUPT, s') end
      end
  end.
Definition read_chunk (k : kind) : cstream -> res bool * cstream := match k with KSum => read_chunk_sum | KSeal => read_chunk_seal end.
(** src/stream.cc:413-423 ChecksumStream::write_chunk. *)
Definition write_chunk_sum (s : cstream) : res unit * cstream :=
  let c := cs_chunk s in
  let '(x, u) := fs_write (be 4 ((lenN c + 4) mod 2^32) ++ be 4 (crc32c c)) (cs_under s) in
  match x with
  | Err e => (Err e, CStream u c (cs_rpos s) (cs_draws s))
  | Ok _ => let '(y, u') := fs_write c u in (y, CStream u' c (cs_rpos s) (cs_draws s))
  end.
(** src/stream.cc:447-456 EncryptedStream::write_chunk. *)
Definition write_chunk_seal (s : cstream) : res unit * cstream :=
  let c := cs_chunk s in
  match c with
  | [] => (Ok tt, s)
  | _ =>
      let y := seal (cs_draws s) c in
      let '(x, u) := fs_write (be 4 (lenN y mod 2^32)) (cs_under s) in
      match x with
      | Err e => (Err e, CStream u c (cs_rpos s) (cs_draws s + 1))
      | Ok _ => let '(z, u') := fs_write y u in (z, CStream u' c (cs_rpos s) (cs_draws s + 1))
      end
  end.
Definition write_chunk (k : kind) : cstream -> res unit * cstream := match k with KSum => write_chunk_sum | KSeal => write_chunk_seal end.

(** The loop of src/stream.cc:329-343: [n] bytes of the buffer are left, [acc] are those copied. Every round copies a byte or consumes bytes of the file; [fuel] bounds their number. [None]: the
    end of the file. *)
Fixpoint cs_read_loop (fuel : nat) (k : kind) (n : N) (acc : bytes) (s : cstream) : res (option bytes) * cstream :=
  if n =? 0 then (Ok (Some acc), s) else
  match fuel, cs_rpos s with
  | O, _ => (Err E_FUEL, s)
  | _, None => (Err E_UB, s)
  | S fuel', Some p =>
      if lenN (cs_chunk s) <? p then (Err E_UB, s) else
      let m := N.min n (lenN (cs_chunk s) - p) in
      if m =? 0 then
        let '(x, s') := read_chunk k s in
        match x with
        | Err e => (Err e, s')
        | Ok false => (Ok None, s')
        | Ok true => cs_read_loop fuel' k n acc (CStream (cs_under s') (cs_chunk s') (Some 0) (cs_draws s'))
        end
      else cs_read_loop fuel' k (n - m) (acc ++ take m (drop p (cs_chunk s))) (CStream (cs_under s) (cs_chunk s) (Some (p + m)) (cs_draws s))
  end.
(** src/stream.cc:320-345 ChunkedStream::read of a buffer of [n] bytes. *)
Definition cs_read (k : kind) (n : N) (s : cstream) : res (option bytes) * cstream :=
  match cs_rpos s with
  | None => (Err E_INVALID_ARGUMENTS, s)
  | Some _ => cs_read_loop (S (N.to_nat n + length (rw_data (fs_raw (cs_under s))))) k n [] s
  end.
(** The loop of src/stream.cc:352-362. *)
Fixpoint cs_write_loop (fuel : nat) (k : kind) (max : N) (b : bytes) (s : cstream) : res unit * cstream :=
  match b with
  | [] => (Ok tt, s)
  | _ =>
      match fuel with
      | O => (Err E_FUEL, s)
      | S fuel' =>
          if max <? lenN (cs_chunk s) then (Err E_UB, s) else
          let m := N.min (lenN b) (max - lenN (cs_chunk s)) in
          if m =? 0 then
            let '(x, s') := write_chunk k s in
            match x with
            | Err e => (Err e, s')
            | Ok _ => cs_write_loop fuel' k max b (CStream (cs_under s') [] (cs_rpos s') (cs_draws s'))
            end
          else cs_write_loop fuel' k max (drop m b) (CStream (cs_under s) (cs_chunk s ++ take m b) (cs_rpos s) (cs_draws s))
      end
  end.
(** src/stream.cc:347-363 ChunkedStream::write. *)
Definition cs_write (k : kind) (max : N) (b : bytes) (s : cstream) : res unit * cstream :=
  cs_write_loop (S (2 * length b)) k max b (match cs_rpos s with Some _ => CStream (cs_under s) [] None (cs_draws s) | None => s end).
(** src/stream.cc:365-372 ChunkedStream::flush; the one of the underlying stream does nothing. *)
Definition cs_flush (k : kind) (s : cstream) : res unit * cstream :=
  let '(x, s') := match cs_rpos s, cs_chunk s with None, _ :: _ => write_chunk k s | _, _ => (Ok tt, s) end in
  match x with Err e => (Err e, s') | Ok _ => (Ok tt, CStream (cs_under s') [] (Some 0) (cs_draws s')) end.
(** src/stream.cc:374-377 ChunkedStream::seek_begin. *)
Definition cs_seek_begin (k : kind) (s : cstream) : res unit * cstream :=
  let '(x, s') := cs_flush k s in
  match x with Err e => (Err e, s') | Ok _ => (Ok tt, CStream (FStream (fs_raw (cs_under s')) 0) (cs_chunk s') (cs_rpos s') (cs_draws s')) end.
(** src/stream.cc:379-382 ChunkedStream::seek_end. *)
Definition cs_seek_end (k : kind) (s : cstream) : res unit * cstream :=
  let '(x, s') := cs_flush k s in
  match x with
  | Err e => (Err e, s')
  | Ok _ => let '(y, u) := fs_seek_end (cs_under s') in (y, CStream u (cs_chunk s') (cs_rpos s') (cs_draws s'))
  end.

(** ** The records of the temporary files *)

(** src/tree_writer.cc:57-66 TreeWriter::write_record on a stream. *)
Definition stream_write_record (k : kind) (max : N) (x : bytes * bytes) (s : cstream) : res unit * cstream :=
  let '(r1, s1) := cs_write k max (be 4 (lenN (fst x) mod 2^32) ++ be 4 (lenN (snd x) mod 2^32)) s in
  match r1 with
  | Err e => (Err e, s1)
  | Ok _ =>
      let '(r2, s2) := cs_write k max (fst x) s1 in
      match r2 with Err e => (Err e, s2) | Ok _ => cs_write k max (snd x) s2 end
  end.
(** src/tree_writer.cc:42-55 TreeWriter::read_record on a stream. *)
Definition stream_read_record (k : kind) (s : cstream) : res (option (bytes * bytes)) * cstream :=
  let '(r1, s1) := cs_read k 8 s in
  match r1 with
  | Err e => (Err e, s1)
  | Ok None => (Ok None, s1)
  | Ok (Some h) =>
      let '(r2, s2) := cs_read k (unbe (take 4 h)) s1 in
      match r2 with
      | Err e => (Err e, s2)
      | Ok None => (Err E_INVALID_ARGUMENTS, s2)
      | Ok (Some key) =>
          let '(r3, s3) := cs_read k (unbe (drop 4 h)) s2 in
          match r3 with
          | Err e => (Err e, s3)
          | Ok None => (Err E_INVALID_ARGUMENTS, s3)
          | Ok (Some v) => (Ok (Some (key, v)), s3)
          end
      end
  end.
End WithEnv.

(** The loop of src/tree_writer.cc:309-316: the characters in front of the digits at the end, and the number that the digits give from the last one on; a character is its code. The number is an
    unsigned int. *)
Fixpoint strip_digits (rev_str : bytes) (suffix : N) : bytes * N :=
  match rev_str with
  | c :: r => if (c <? 48) || (57 <? c) then (rev rev_str, suffix) else strip_digits r ((suffix * 10 + (c - 48)) mod 2^32)
  | [] => ([], suffix)
  end.
(** The loop of src/tree_writer.cc:320-323; a number of 32 bits has at most ten digits. *)
Fixpoint digits_reversed (fuel : nat) (n : N) : bytes :=
  match fuel with
  | O => []
  | S fuel' => if n =? 0 then [] else (n mod 10 + 48) :: digits_reversed fuel' (n / 10)
  end.
(** src/tree_writer.cc:301-325 next_tmp_path. *)
Definition next_tmp_path (path : bytes) : bytes :=
  let '(str, suffix) := strip_digits (rev path) 0 in str ++ digits_reversed 10 ((suffix + 1) mod 2^32).
