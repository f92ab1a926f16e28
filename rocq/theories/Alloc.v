(** Model of the two allocators: src/util.cc (fatbuf) and src/arena.cc. *)
From Verif Require Import Base.
Local Open Scope N_scope.

(** ** Fatbuf *)

(** src/fatbuf.h:18-22 fatbuf: size and position; the bytes follow the structure. *)
Record fatbuf := Fatbuf { fb_size : N; fb_pos : N }.

(** src/util.cc:51-64 fatbuf_alloc; the allocation is assumed to succeed, and the size with the structure to fit in 64 bits. *)
Definition fatbuf_alloc (bytes : N) : fatbuf := Fatbuf bytes 0.

(** src/util.cc:66-79 fatbuf_get: the offset in the buffer, [None] for a null pointer. *)
Definition fatbuf_get (fb : fatbuf) (bytes : N) : option N * fatbuf :=
  if (fb_size fb <? fb_pos fb) || (fb_size fb - fb_pos fb <? bytes) then (None, fb)
  else (Some (fb_pos fb), Fatbuf (fb_size fb) (fb_pos fb + bytes)).

(** ** Arena *)

(** src/arena.cc:23-26 arena_chunk: address of the first byte after the header (16 bytes), and size. *)
Record chunk := Chunk { ch_start : N; ch_size : N }.
Definition ch_end (c : chunk) : N := ch_start c + ch_size c.

(** src/arena.cc:29-38 arena: next_block (0 is the null pointer), end, chunks (newest first: cur_chunk and its prev_chunk links), chunk_size. *)
Record arena := Arena { ar_next : N; ar_end : N; ar_chunks : list chunk; ar_size : N }.
Definition HDR : N := 16.

(** src/arena.cc:75-88 new_arena. *)
Definition new_arena (chunk_size : N) : arena :=
  let n := if chunk_size =? 0 then 32768 else (chunk_size + HDR + 4096) / 4096 * 4096 in
  Arena 0 0 [] (n - HDR).

(** src/arena.cc:54-72 add_chunk; [base] is the address that malloc returns (it is assumed to succeed). *)
Definition add_chunk (a : arena) (size base : N) : N * arena :=
  let n := N.max size (ar_size a) in
  let c := Chunk (base + HDR) n in
  (ch_start c, Arena (ch_start c + size) (ch_end c) (c :: ar_chunks a) (ar_size a)).

(** src/arena.cc:112-132 arena_alloc_unaligned; [base]: the result of malloc if it is called. *)
Definition arena_alloc_unaligned (a : arena) (size base : N) : N * arena :=
  if ar_next a =? 0 then add_chunk a size base
  else if (ar_end a <? ar_next a + size) || (ar_size a <? size) then add_chunk a size base
  else (ar_next a, Arena (ar_next a + size) (ar_end a) (ar_chunks a) (ar_size a)).

(** src/arena.cc:134-142 arena_alloc. *)
Definition arena_alloc (a : arena) (size base : N) : N * arena :=
  let padding := ar_next a mod 4 in
  if padding =? 0 then arena_alloc_unaligned a size base
  else
    let '(r, a') := arena_alloc_unaligned a (size + (4 - padding)) base in
    (r + (4 - padding), a').

(** src/arena.cc:163-166 arena_mark. *)
Definition arena_mark (a : arena) : N := ar_next a.

(** src/arena.cc:170-176: the loop of arena_free_from_mark. *)
Fixpoint pop_chunks (mark : N) (l : list chunk) : list chunk :=
  match l with
  | [] => []
  | c :: r => if (mark <? ch_start c) || (ch_end c <? mark) then pop_chunks mark r else l
  end.

(** src/arena.cc:168-186 arena_free_from_mark; the failure of the assertion (lines 177-178) stops the process. *)
Definition arena_free_from_mark (a : arena) (mark : N) : res arena :=
  match pop_chunks mark (ar_chunks a) with
  | [] => if mark =? 0 then Ok (Arena 0 0 [] (ar_size a)) else Err E_UB
  | c :: r => Ok (Arena mark (ch_end c) (c :: r) (ar_size a))
  end.

(** src/arena.cc:188-191 arena_free_all. *)
Definition arena_free_all (a : arena) : res arena := arena_free_from_mark a 0.
