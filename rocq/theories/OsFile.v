(** Model of src/os.cc: the default file operations on top of the system calls. Not modelled: tracing output, memory protection, offsets below 0 and
    from 2^63 on, os_win.cc. *)
From Verif Require Import Base File IoBuffer.
Local Open Scope N_scope.
Unset Strict Implicit.

(** ** The system *)

(** Not part of the code: the error numbers of the system that os.cc distinguishes, and another one. *)
Inductive errno := EINTR | ENOENT | EPERM | EINVAL | ESPIPE | EBADF | EIO.
Definition errno_eqb (a b : errno) : bool :=
  match a, b with
  | EINTR, EINTR | ENOENT, ENOENT | EPERM, EPERM | EINVAL, EINVAL | ESPIPE, ESPIPE | EBADF, EBADF | EIO, EIO => true
  | _, _ => false
  end.
(** Not part of the code: how the system answers one call of pread or pwrite: it fails; or moves at most [k] bytes; or says that it has moved [k] bytes although it has
    stored the bytes [w], or delivers the bytes [w] instead of those of the file. *)
Inductive answer := Fails (e : errno) | Moves (k : N) | Lies (k : N) (w : bytes).

(** src/os.cc:81-99 File with the state of the system: bytes of the file, the answers to the next calls of pread and pwrite (when there are no more: all bytes are moved)
    and of fdatasync, errno, and couchstore_error_info_t::error. *)
Record os := Os {
  o_data : bytes; o_io : list answer; o_sync : list (option errno); o_errno : option errno; o_saved : option errno;
  o_period : N; o_count : N; o_tracing : bool; o_validate : bool }.
Definition set_data d o := Os d (o_io o) (o_sync o) (o_errno o) (o_saved o) (o_period o) (o_count o) (o_tracing o) (o_validate o).
Definition set_io l o := Os (o_data o) l (o_sync o) (o_errno o) (o_saved o) (o_period o) (o_count o) (o_tracing o) (o_validate o).
Definition set_sync l o := Os (o_data o) (o_io o) l (o_errno o) (o_saved o) (o_period o) (o_count o) (o_tracing o) (o_validate o).
Definition set_errno e o := Os (o_data o) (o_io o) (o_sync o) e (o_saved o) (o_period o) (o_count o) (o_tracing o) (o_validate o).
Definition set_saved e o := Os (o_data o) (o_io o) (o_sync o) (o_errno o) e (o_period o) (o_count o) (o_tracing o) (o_validate o).
Definition set_count n o := Os (o_data o) (o_io o) (o_sync o) (o_errno o) (o_saved o) (o_period o) n (o_tracing o) (o_validate o).

(** Not part of the code: the system calls pread, pwrite and fdatasync; [None]: -1, with errno. *)
Definition sys_pread (n off : N) (o : os) : option bytes * os :=
  match o_io o with
  | [] => (Some (take n (drop off (o_data o))), o)
  | Fails e :: t => (None, set_errno (Some e) (set_io t o))
  | Moves k :: t => (Some (take (N.min k n) (drop off (o_data o))), set_io t o)
  | Lies _ w :: t => (Some (take n w), set_io t o)
  end.
Definition sys_pwrite (b : bytes) (off : N) (o : os) : option N * os :=
  match o_io o with
  | [] => (Some (lenN b), set_data (overwrite (o_data o) off b) o)
  | Fails e :: t => (None, set_errno (Some e) (set_io t o))
  | Moves k :: t => (Some (N.min k (lenN b)), set_data (overwrite (o_data o) off (take k b)) (set_io t o))
  | Lies k w :: t => (Some (N.min k (lenN b)), set_data (overwrite (o_data o) off w) (set_io t o))
  end.
Definition sys_fdatasync (o : os) : bool * os :=
  match o_sync o with
  | [] => (true, o)
  | None :: t => (true, set_sync t o)
  | Some e :: t => (false, set_errno (Some e) (set_sync t o))
  end.

(** ** Reading, writing, syncing *)

(** src/os.cc:41-45 save_errno. *)
Definition save_errno (o : os) : os := set_saved (o_errno o) o.
(** Not part of the code: errno == EINTR. *)
Definition interrupted (o : os) : bool := match o_errno o with Some e => errno_eqb e EINTR | None => false end.

(** src/os.cc:119-121: the loop around ::pread. *)
Fixpoint pread_loop (fuel : nat) (n off : N) (o : os) : res (option bytes) * os :=
  match fuel with
  | O => (Err E_FUEL, o)
  | S fuel' => match sys_pread n off o with
      | (Some b, o') => (Ok (Some b), o')
      | (None, o') => if interrupted o' then pread_loop fuel' n off o' else (Ok None, o')
      end
  end.
(** src/os.cc:107-128 PosixFileOps::pread. *)
Definition os_pread (n off : N) (o : os) : res bytes * os :=
  match pread_loop (S (length (o_io o))) n off o with
  | (Ok (Some b), o') => (Ok b, o')
  | (Ok None, o') => (Err E_READ, save_errno o')
  | (Err e, o') => (Err e, o')
  end.

(** src/os.cc:142-144: the loop around ::pwrite. *)
Fixpoint pwrite_loop (fuel : nat) (b : bytes) (off : N) (o : os) : res (option N) * os :=
  match fuel with
  | O => (Err E_FUEL, o)
  | S fuel' => match sys_pwrite b off o with
      | (Some k, o') => (Ok (Some k), o')
      | (None, o') => if interrupted o' then pwrite_loop fuel' b off o' else (Ok None, o')
      end
  end.

(** src/os.cc:322-338 PosixFileOps::sync. *)
Definition os_sync (o : os) : res unit * os :=
  let '(ok, o') := sys_fdatasync o in if ok then (Ok tt, o') else (Err E_WRITE, save_errno o').

(** src/os.cc:167-180: the loop that reads back what has been written, into the array [tmp] from [pos] on. A failed call counts as -1 bytes: the position goes back by
    one, which is undefined at the beginning of the array. If nothing is read the loop goes on in the same way ([E_FUEL]: for ever). *)
Fixpoint read_back (fuel : nat) (tmp : bytes) (pos len off : N) (o : os) : res bytes * os :=
  match fuel with
  | O => (Err E_FUEL, o)
  | S fuel' =>
      if len =? 0 then (Ok tmp, o)
      else match sys_pread len off o with
        | (None, o') =>
            if o_tracing o' then (Ok tmp, o')
            else if pos =? 0 then (Err E_UB, o') else read_back fuel' tmp (pos - 1) (len + 1) (off - 1) o'
        | (Some g, o') =>
            if o_tracing o' && (lenN g =? 0) then (Ok tmp, o')
            else read_back fuel' (overwrite tmp pos g) (pos + lenN g) (len - lenN g) (off + lenN g) o'
        end
  end.

Section WithEnv.
Context {E : Env}.
(** src/os.cc:158-199: write validation of [k] written bytes; [tmp]: the array of 8192 bytes, which is not initialised. *)
Definition validate (tmp : bytes) (b : bytes) (k off : N) (o : os) : res unit * os :=
  let len := if k <? 8192 then k else 8192 in
  match read_back (length (o_io o) + 3) tmp 0 len off o with
  | (Err e, o') => (Err e, o')
  | (Ok got, o') => if crc32c (take len b) =? crc32c (take len got) then (Ok tt, o') else (Err E_CHECKSUM, o')
  end.
(** src/os.cc:131-213 PosixFileOps::pwrite. *)
Definition os_pwrite (tmp : bytes) (b : bytes) (off : N) (o : os) : res N * os :=
  match pwrite_loop (S (length (o_io o))) b off o with
  | (Err e, o1) => (Err e, o1)
  | (Ok None, o1) => (Err E_WRITE, save_errno o1)
  | (Ok (Some k), o1) =>
      let '(v, o2) := if o_validate o1 then validate tmp b k off o1 else (Ok tt, o1) in
      match v with
      | Err e => (Err e, o2)
      | Ok _ =>
          let o3 := set_count ((o_count o2 + k) mod 2^64) o2 in
          if (0 <? o_period o3) && (o_period o3 <=? o_count o3) then
            let '(r, o4) := os_sync o3 in
            match r with Ok _ => (Ok k, set_count 0 o4) | Err e => (Err e, set_count 0 o4) end
          else (Ok k, o3)
      end
  end.
End WithEnv.

(** src/os.cc:357-379 PosixFileOps::advise. posix_fadvise returns the error number and does not set errno. *)
Definition os_advise (e : option errno) (o : os) : res unit * os :=
  let o' := match e with Some _ => save_errno o | None => o end in
  match e with
  | Some EINVAL | Some ESPIPE => (Err E_INVALID_ARGUMENTS, o')
  | Some EBADF => (Err E_OPEN_FILE, o')
  | _ => (Ok tt, o')
  end.

(** ** Opening and closing *)

(** Not part of the code: the result of a call of ::open. *)
Inductive opened := Fd (n : N) | No (e : errno).
(** Not part of the code: how the system answers ::open: [interrupts] calls are interrupted; a call with O_NOATIME by another user than the owner is refused; otherwise
    the result is that of the file: a descriptor or an error. *)
Record file_state := FileState { fi_interrupts : nat; fi_owner : bool; fi_result : opened }.
Definition sys_open (noatime : bool) (f : file_state) : (opened) * file_state :=
  match fi_interrupts f with
  | S n => (No EINTR, FileState n (fi_owner f) (fi_result f))
  | O => (if noatime && negb (fi_owner f) then No EPERM else fi_result f, f)
  end.
(** src/os.cc:230-246: the loop around ::open. *)
Fixpoint open_loop (fuel : nat) (noatime : bool) (f : file_state) : res (opened) :=
  match fuel with
  | O => Err E_FUEL
  | S fuel' =>
      match sys_open noatime f with
      | (Fd fd, _) => Ok (Fd fd)
      | (No e, f') =>
          if noatime && errno_eqb e EPERM then open_loop fuel' false f'
          else if errno_eqb e EINTR then open_loop fuel' noatime f' else Ok (No e)
      end
  end.
(** src/os.cc:215-262 PosixFileOps::open; [rdwr]: the flag O_RDWR. The result: the descriptor or the error, and the saved errno. *)
Definition os_open (rdwr : bool) (f : file_state) : res N * option errno :=
  match open_loop (fi_interrupts f + 2) (negb rdwr) f with
  | Err e => (Err e, None)
  | Ok (Fd fd) => (Ok fd, None)
  | Ok (No e) => (Err (if errno_eqb e ENOENT then E_NO_SUCH_FILE else E_OPEN_FILE), Some e)
  end.

(** Not part of the code: the open descriptors of the process with the files they stand for. *)
Definition table := list (N * N).
Definition file_at (fd : N) (t : table) : option N := match find (fun x => fst x =? fd) t with Some x => Some (snd x) | None => None end.
(** Not part of the code: how the system answers ::close of an open descriptor, and what other threads open afterwards. As on Linux, the descriptor is released in every case. *)
Record close_step := CloseStep { cl_error : option errno; cl_others : table }.
Definition sys_close (fd : N) (s : close_step) (t : table) : option errno * table :=
  match file_at fd t with
  | None => (Some EBADF, t ++ cl_others s)
  | Some _ => (cl_error s, filter (fun x => negb (fst x =? fd)) t ++ cl_others s)
  end.
(** src/os.cc:264-283 PosixFileOps::close of a handle with a descriptor: COUCHSTORE_SUCCESS, COUCHSTORE_ERROR_FILE_CLOSE, or the end of the process by cb_assert. *)
Inductive closing := Closed | Close_failed (e : errno) | Aborted.
(** src/os.cc:274-277: the loop around ::close. *)
Fixpoint os_close (fd : N) (steps : list close_step) (t : table) : closing * table :=
  if fd <? 3 then (Aborted, t)
  else
    let s := match steps with s :: _ => s | [] => CloseStep None [] end in
    match sys_close fd s t with
    | (None, t') => (Closed, t')
    | (Some e, t') =>
        match steps with
        | _ :: rest => if errno_eqb e EINTR then os_close fd rest t' else (Close_failed e, t')
        | [] => (Close_failed e, t')
        end
    end.
