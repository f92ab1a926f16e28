(** Model of the automatic sync in src/os.cc: how many bytes are written between two syncs. *)
From Verif Require Import Base.
Local Open Scope N_scope.

(** src/os.cc:81-99 File: periodic_sync_bytes and bytes_written_since_last_sync. [pf_unsynced] is not part of the code: the bytes written
    since fdatasync last succeeded. *)
Record pfile := Pfile { pf_period : N; pf_count : N; pf_unsynced : N }.

(** src/os.cc:322-338 sync; [ok]: the result of fdatasync. *)
Definition ps_sync (ok : bool) (f : pfile) : res unit * pfile :=
  if ok then (Ok tt, Pfile (pf_period f) (pf_count f) 0) else (Err E_WRITE, f).

(** src/os.cc:131-211 pwrite, without write validation: the system writes [n] bytes ([None]: it reports an error); [sync_ok]: the result of
    fdatasync if it is called. The counter has 64 bits. *)
Definition ps_pwrite (n : option N) (sync_ok : bool) (f : pfile) : res N * pfile :=
  match n with
  | None => (Err E_WRITE, f)
  | Some n =>
      let f1 := Pfile (pf_period f) ((pf_count f + n) mod 2^64) (pf_unsynced f + n) in
      if (0 <? pf_period f1) && (pf_period f1 <=? pf_count f1) then
        let '(r, f2) := ps_sync sync_ok f1 in
        let f3 := Pfile (pf_period f2) 0 (pf_unsynced f2) in
        match r with Ok _ => (Ok n, f3) | Err e => (Err e, f3) end
      else (Ok n, f1)
  end.

(** src/os.cc:283-288 set_periodic_sync. *)
Definition ps_set (period : N) (f : pfile) : pfile := Pfile period (pf_count f) (pf_unsynced f).
(** A new handle, src/os.cc:81-99. *)
Definition ps_open : pfile := Pfile 0 0 0.
