(** Model of the open flags: src/couch_db.cc:779-858. *)
From Verif Require Import Base.
Local Open Scope N_scope.

(** include/libcouchstore/couch_db.h:60-155 (those used below). *)
Definition F_UNBUFFERED : N := 8.
Definition F_CUSTOM_BUFFER : N := 0xff00.
Definition F_CUSTOM_NODESIZE : N := 0xff0000.
Definition F_PERIODIC_SYNC : N := 0x1f000000.
Definition F_TRACING : N := 0x20000000.
Definition F_WRITE_VALIDATION : N := 0x40000000.
Definition F_MPROTECT : N := 0x800000000.

(** src/internal.h:75-98 tree_file_options. *)
Record options := Options {
  op_buffered : bool; op_read_unit : N; op_read_buffers : N; op_kp : N; op_kv : N; op_sync : N;
  op_tracing : bool; op_validation : bool; op_mprotect : bool
}.

(** Not part of the code: the test [flags & f]. *)
Definition has_flag (flags f : N) : bool := negb (N.land flags f =? 0).

(** src/couch_db.cc:779-844 get_tree_file_options_from_flags (not on Windows). The defaults are those of internal.h:49-51, 75-98 and
    couch_btree.h:18-20. [x << (n - 1)] for n >= 1. *)
Definition get_tree_file_options_from_flags (flags : N) : options :=
  let unit_index := N.land (N.shiftr flags 12) 0xf in
  let count_index := N.land (N.shiftr flags 8) 0xf in
  let buffered := negb (has_flag flags F_UNBUFFERED) in
  let custom := buffered && has_flag flags F_CUSTOM_BUFFER in
  let nodes := has_flag flags F_CUSTOM_NODESIZE in
  let kp_flag := N.land (N.shiftr flags 20) 0xf in
  let kv_flag := N.land (N.shiftr flags 16) 0xf in
  let sync_flag := N.land (N.shiftr flags 24) 0x1f in
  Options buffered
    (if custom && negb (unit_index =? 0) then 1024 * N.shiftl 1 (unit_index - 1) else 4 * 1024)
    (if custom && negb (count_index =? 0) then 8 * N.shiftl 1 (count_index - 1) else 16)
    (if nodes && negb (kp_flag =? 0) then kp_flag * 1024 else 1279)
    (if nodes && negb (kv_flag =? 0) then kv_flag * 1024 else 1279)
    (if has_flag flags F_PERIODIC_SYNC then N.shiftl 1024 (sync_flag - 1) else 0)
    (has_flag flags F_TRACING) (has_flag flags F_WRITE_VALIDATION) (has_flag flags F_MPROTECT).

(** src/couch_db.cc:846-858 couchstore_encode_periodic_sync_flags. std::log2 is computed exactly here (the argument is
    converted to a double in the code, which is exact below 2^53; above that the result is saturated anyway). The sum is taken in 64 bits. The
    conversion of log2(0), minus infinity, to an integer is undefined. *)
Definition encode_periodic_sync_flags (b : N) : res N :=
  let kilobytes := ((b + 1023) mod 2^64) / 1024 in
  if kilobytes =? 0 then Err E_UB
  else Ok (N.shiftl (N.min (N.log2 kilobytes) 30 + 1) 24).
