(** Specification vocabulary for commits, crashes and moving between headers. *)
From Verif Require Import Base Codec File Header History.
Local Open Scope N_scope.

(** Two index roots are the same: the key that the in-memory root carries is not stored. *)
Definition same_root (a b : option node_pointer) : Prop :=
  match a, b with
  | None, None => True
  | Some x, Some y => np_pointer x = np_pointer y /\ np_reduce x = np_reduce y /\ np_subtree x = np_subtree y
  | _, _ => False
  end.

(** Two headers say the same. *)
Record same_header (a b : header) : Prop := {
  sh_version : h_version a = h_version b;
  sh_update_seq : h_update_seq a = h_update_seq b;
  sh_purge_seq : h_purge_seq a = h_purge_seq b;
  sh_purge_ptr : h_purge_ptr a = h_purge_ptr b;
  sh_position : h_position a = h_position b;
  sh_timestamp : h_timestamp a = h_timestamp b;
  sh_prev : h_prev a = h_prev b;
  sh_meta : h_meta a = h_meta b;
  sh_by_id : same_root (h_by_id a) (h_by_id b);
  sh_by_seq : same_root (h_by_seq a) (h_by_seq b);
  sh_local : same_root (h_local a) (h_local b)
}.

Section WithEnv.
Context {E : Env}.

(** The handle [d] shows the commit [c]: its header, and every chunk that had been written before it is read
    back with its contents. *)
Definition shows (d : db) (c : commit) : Prop :=
  same_header (dbh d) (c_hdr c) /\ forall p b, In (p, b) (c_log c) -> pread_bin (dbf d) p = Ok b.

(** [k] times couchstore_rewind_db_header. *)
Fixpoint rewinds (k : nat) (d : db) : res db :=
  match k with
  | O => Ok d
  | S k' => match rewind_db_header d with Ok d' => rewinds k' d' | Err e => Err e end
  end.

(** A valid header [h] stands at [pos] of a file. *)
Definition valid_header (f : file) (pos : N) (h : header) : Prop := find_header_at_pos f header0 pos = (Ok tt, h).

End WithEnv.

(** The commits in effect, newest first. *)
Definition effective (s : state) : list commit := opt_list (s_ack s) ++ s_old s.

(** A handle that reads the file of [s]: the writer's own, or one opened on the file as it is now. *)
Record reads (s : state) (d : db) : Prop := {
  r_cur : cur (dbf d) = cur (dbf (s_db s));
  r_size : size (dbf d) = size (dbf (s_db s));
  r_crcm : crcm (dbf d) = crcm (dbf (s_db s));
  r_fkey : fkey (dbf d) = fkey (dbf (s_db s));
  r_fpos : fpos (dbf (s_db s)) <= fpos (dbf d) <= size (dbf d);
  r_open : dropped d = false
}.
