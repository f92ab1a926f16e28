(** Specification vocabulary for the file layer: the data bytes of a block-structured file. The first part is
    independent of the model; the rest only names states and operations of it. *)
From Verif Require Import Base File History.
Local Open Scope N_scope.

(** Every 4096th byte of a file is a block-type byte and carries no data. *)
Definition data_pos (p : N) : N := if p mod 4096 =? 0 then p + 1 else p.

(** The [n] data bytes of the contents [g] from position [p] on. *)
Fixpoint data (g : N -> N) (p : N) (n : nat) : list N :=
  match n with
  | O => []
  | S n' => g (data_pos p) :: data g (data_pos p + 1) n'
  end.

(** The position just after these bytes. *)
Fixpoint data_end (p : N) (n : nat) : N :=
  match n with
  | O => p
  | S n' => data_end (data_pos p + 1) n'
  end.

(** Big-endian number. *)
Definition big_endian (l : list N) : N := fold_left (fun a b => a * 256 + b) l 0.

(** The length and checksum fields stored at [p]. *)
Definition stored_len (g : N -> N) (p : N) : N := big_endian (data g p 4).
Definition stored_sum (g : N -> N) (p : N) : N := big_endian (data g (data_end p 4) 4).

(** Which checksums a file in the given mode accepts. *)
Definition accepts {E : Env} (m : crc_mode) (b : bytes) (c : N) : Prop :=
  match m with
  | CRC_UNKNOWN => c = crc32c b \/ c = crc32 b
  | CRC32C => c = crc32c b
  | CRC32 => c = crc32 b
  end.

(** A handle opened on a file with arbitrary contents [g] of length [gsz], positioned at its end. *)
Definition opened_on (g : N -> N) (gsz : N) (pl : list wstep) (m : crc_mode) (k : option N) : file :=
  set_fpos (set_fkey (set_crcm (image g gsz pl) m) k) gsz.

(** Anything a handle does to a file: chunks, headers, syncs and block-type bytes (each successful or not), and
    moving to the end of the file as reopening does. *)
Inductive appends {E : Env} : file -> file -> Prop :=
| app_refl f : appends f f
| app_chunk f f1 b r f2 : appends f f1 -> db_write_buf f1 b = (r, f2) -> appends f f2
| app_header f f1 b t r f2 : appends f f1 -> write_header f1 b t = (r, f2) -> appends f f2
| app_sync f f1 r f2 : appends f f1 -> fsync f1 = (r, f2) -> appends f f2
| app_type f f1 q t r f2 : appends f f1 -> q mod 4096 = 0 -> write_disk_block_type f1 q t = (r, f2) -> appends f f2
| app_end f f1 : appends f f1 -> appends f (set_fpos f1 (size f1)).

(** No failure and no stop lies ahead; writes may still be short. *)
Definition calm (f : file) : Prop :=
  dead f = false /\ Forall (fun s => w_err s = None /\ w_die s = false) (plan f).
