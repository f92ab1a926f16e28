(** Model of src/iobuffer.cc: file access through one write buffer and a set of read buffers. Not modelled: tracing, memory protection, allocation failures, offsets
    beyond 2^63. *)
From Verif Require Import Base.
Local Open Scope N_scope.

(** ** The file underneath *)

(** Not part of the code: the bytes of [l] from [off] on replaced by [b]; a gap behind the end is filled with zeros, as the system does. *)
Definition overwrite (l : bytes) (off : N) (b : bytes) : bytes :=
  match b with
  | [] => l
  | _ => take off l ++ repeat 0 (N.to_nat (off - lenN l)) ++ b ++ drop (off + lenN b) l
  end.

(** Not part of the code: how the system answers one call: it moves at most [rs_count] bytes, and then reports an error or not. *)
Record rstep := RStep { rs_count : N; rs_err : option err }.
(** Not part of the code: the bytes of the file and the answers to the next calls (when there are no more: without a limit, without errors). *)
Record raw := Raw { rw_data : bytes; rw_plan : list rstep }.
Definition next_step (r : raw) (n : N) : rstep * list rstep :=
  match rw_plan r with s :: p => (s, p) | [] => (RStep n None, []) end.

(** src/os.cc:130-213 PosixFileOps::pwrite; it can also report an error after having written (validation, periodic sync); otherwise it writes something. *)
Definition raw_pwrite (r : raw) (b : bytes) (off : N) : res N * raw :=
  let '(s, p) := next_step r (lenN b) in
  let k := N.min (match rs_err s with Some _ => rs_count s | None => N.max 1 (rs_count s) end) (lenN b) in
  (match rs_err s with Some e => Err e | None => Ok k end, Raw (overwrite (rw_data r) off (take k b)) p).
(** src/os.cc:107-128 PosixFileOps::pread; nothing is read only at the end of the file. *)
Definition raw_pread (r : raw) (n off : N) : res bytes * raw :=
  let '(s, p) := next_step r n in
  (match rs_err s with Some e => Err e | None => Ok (take (N.min (N.max 1 (rs_count s)) n) (drop off (rw_data r))) end, Raw (rw_data r) p).
(** src/os.cc:322-338 PosixFileOps::sync, :309-319 goto_eof. *)
Definition raw_sync (r : raw) : res unit * raw :=
  let '(s, p) := next_step r 0 in (match rs_err s with Some e => Err e | None => Ok tt end, Raw (rw_data r) p).
Definition raw_eof (r : raw) : res N * raw :=
  let '(s, p) := next_step r 0 in (match rs_err s with Some e => Err e | None => Ok (lenN (rw_data r)) end, Raw (rw_data r) p).

(** ** Buffers *)

(** src/iobuffer.cc:79-170 struct FileBuffer, as the write buffer: offset, bytes up to length, dirty. *)
Record wbuf := WBuf { wb_off : N; wb_data : bytes; wb_dirty : bool }.
(** The same as a read buffer; [None] stands for the offset -1 of a new buffer. [rb_key]: where the map of ReadBufferManager has it. *)
Record rbuf := RBuf { rb_key : option N; rb_off : option N; rb_data : bytes }.

(** src/iobuffer.h:25-45 buffered_file_ops_params; [bp_write]: capacity of the write buffer, src/iobuffer.cc:594-595. *)
Record params := Params { bp_read : N; bp_max : N; bp_write : N }.

(** src/iobuffer.cc:222-233 struct BufferedFileHandle and :203-219 ReadBufferManager. The read buffers are in the order of the list readLRU, the first is the front;
    nBuffers is their number. *)
Record handle := Handle { h_params : params; h_write : option wbuf; h_read : option (list rbuf); h_raw : raw }.
Definition set_write (h : handle) (w : option wbuf) : handle := Handle (h_params h) w (h_read h) (h_raw h).
Definition set_read (h : handle) (b : option (list rbuf)) : handle := Handle (h_params h) (h_write h) b (h_raw h).
Definition set_raw (h : handle) (r : raw) : handle := Handle (h_params h) (h_write h) (h_read h) r.

(** src/iobuffer.cc:559-566, 568 constructor and open. *)
Definition new_handle (p : params) (r : raw) : handle := Handle p None None r.

(** Not part of the code: the index of the buffer that the map has at a key. *)
Definition same_key (k : option N) (b : rbuf) : bool :=
  match k, rb_key b with Some x, Some y => x =? y | None, None => true | _, _ => false end.
Fixpoint index_of (k : option N) (l : list rbuf) : option nat :=
  match l with
  | [] => None
  | b :: r => if same_key k b then Some 0%nat else match index_of k r with Some i => Some (S i) | None => None end
  end.
(** Not part of the code: changing an element of a list, and taking one out. *)
Fixpoint change {A} (i : nat) (f : A -> A) (l : list A) : list A :=
  match l, i with [], _ => [] | x :: r, O => f x :: r | x :: r, S j => x :: change j f r end.
Fixpoint without {A} (i : nat) (l : list A) : list A :=
  match l, i with [], _ => [] | _ :: r, O => r | x :: r, S j => x :: without j r end.
Definition no_buffer : rbuf := RBuf None None [].

(** src/iobuffer.cc:248-299 findBuffer: the buffers afterwards, and the index of the one returned. A recycled buffer stays where it is: the iterator handed to splice
    is the end of the list (the base of a reverse iterator is the element after it), for which boost's circular list does nothing. Recycling from an empty list, and
    a second new buffer at the key -1, are undefined. *)
Definition find_buffer (p : params) (l : list rbuf) (off : N) : res (list rbuf * nat) :=
  if bp_read p =? 0 then Err E_UB else
  let off := off - off mod bp_read p in
  match index_of (Some off) l with
  | Some i => Ok (nth i l no_buffer :: without i l, 0%nat)
  | None =>
      if lenN l <? bp_max p then
        match index_of None l with Some _ => Err E_UB | None => Ok (no_buffer :: l, 0%nat) end
      else match l with [] => Err E_UB | _ => Ok (l, (length l - 1)%nat) end
  end.

(** src/iobuffer.cc:301-313 relocateBuffer; if there is another buffer at the new key, the moved one is freed while still in use. *)
Definition relocate (l : list rbuf) (old : option N) (new : N) : res (list rbuf) :=
  match index_of old l with
  | None => Ok l
  | Some i =>
      match index_of (Some new) (without i l) with
      | Some _ => Err E_UB
      | None => Ok (change i (fun _ => RBuf (Some new) (Some new) []) l)
      end
  end.

(** src/iobuffer.cc:315-328 invalidateRange. *)
Definition empty_at (k : N) (l : list rbuf) : list rbuf :=
  match index_of (Some k) l with Some i => change i (fun b => RBuf (rb_key b) (rb_off b) []) l | None => l end.
Fixpoint invalidate_loop (fuel : nat) (blk stop cap : N) (l : list rbuf) : list rbuf :=
  match fuel with
  | O => l
  | S m => if blk <? stop then invalidate_loop m (blk + cap) stop cap (empty_at blk l) else l
  end.
Definition invalidate (off n cap : N) (l : list rbuf) : list rbuf :=
  if (n =? 0) || (cap =? 0) then l
  else invalidate_loop (N.to_nat (off mod cap + n)) (off - off mod cap) (off + n) cap l.

(** ** Writing *)

(** src/iobuffer.cc:334-372 write_to_buffer; result: the number of bytes taken. *)
Definition write_to_buffer (cap : N) (w : wbuf) (b : bytes) (off : N) : N * wbuf :=
  let start := if lenN (wb_data w) =? 0 then off else wb_off w in
  if negb (lenN (wb_data w) =? 0) && ((off <? wb_off w) || (wb_off w + lenN (wb_data w) <? off)) then (0, w)
  else
    let i := off - start in
    let k := N.min (cap - i) (lenN b) in
    (k, WBuf start (take i (wb_data w) ++ take k b ++ drop (i + k) (wb_data w)) true).

(** src/iobuffer.cc:374-429 flush_buffer. *)
Fixpoint flush_loop (fuel : nat) (w : wbuf) (r : raw) : res unit * wbuf * raw :=
  if (lenN (wb_data w) =? 0) || negb (wb_dirty w) then (Ok tt, WBuf (wb_off w) (wb_data w) false, r)
  else
    match fuel with
    | O => (Err E_FUEL, w, r)
    | S m =>
        match raw_pwrite r (wb_data w) (wb_off w) with
        | (Err e, r1) => (Err e, w, r1)
        | (Ok k, r1) => flush_loop m (WBuf (wb_off w + k) (drop k (wb_data w)) (wb_dirty w)) r1
        end
    end.
Definition flush_buffer (w : wbuf) (r : raw) : res unit * wbuf * raw := flush_loop (length (wb_data w)) w r.
(** Not part of the code: flushing the write buffer of a handle if it has one, as in src/iobuffer.cc:650-656, 771-774. *)
Definition flush (h : handle) : res unit * handle :=
  match h_write h with
  | None => (Ok tt, h)
  | Some w => let '(x, w1, r1) := flush_buffer w (h_raw h) in (x, Handle (h_params h) (Some w1) (h_read h) r1)
  end.

(** src/iobuffer.cc:694-757 pwrite. *)
Definition buf_pwrite (h : handle) (b : bytes) (off : N) : res N * handle :=
  if lenN b =? 0 then (Ok 0, h)
  else
    let cap := bp_write (h_params h) in
    let rd := match h_read h with Some l => Some (invalidate off (lenN b) (bp_read (h_params h)) l) | None => None end in
    let w0 := match h_write h with Some w => w | None => WBuf 0 [] false end in
    let '(k, w1) := write_to_buffer cap w0 b off in
    let '(x, w2, r2) := if (lenN (wb_data w1) =? cap) || (k =? 0) then flush_buffer w1 (h_raw h) else (Ok tt, w1, h_raw h) in
    match x with
    | Err e => (Err e, Handle (h_params h) (Some w2) rd r2)
    | Ok _ =>
        let rest := drop k b in
        if lenN rest =? 0 then (Ok k, Handle (h_params h) (Some w2) rd r2)
        else if lenN rest <=? cap - lenN (wb_data w2) then
          let '(m, w3) := write_to_buffer cap w2 rest (off + k) in (Ok (k + m), Handle (h_params h) (Some w3) rd r2)
        else
          match raw_pwrite r2 rest (off + k) with
          | (Err e, r3) => (Err e, Handle (h_params h) (Some w2) rd r3)
          | (Ok m, r3) => (Ok (k + m), Handle (h_params h) (Some w2) rd r3)
          end
    end.

(** ** Reading *)

(** src/iobuffer.cc:433-446 read_from_buffer; a buffer at the offset -1 is empty. *)
Definition read_from_buffer (b : rbuf) (n off : N) : bytes :=
  match rb_off b with
  | None => []
  | Some o => if (off <? o) || (o + lenN (rb_data b) <=? off) then [] else take (N.min (lenN (rb_data b) - (off - o)) n) (drop (off - o) (rb_data b))
  end.

(** src/iobuffer.cc:466-493, the loop of load_buffer_from: the bytes in the buffer afterwards. *)
Fixpoint load_loop (fuel : nat) (r : raw) (o cap : N) (d : bytes) : res unit * bytes * raw :=
  match fuel with
  | O => (Err E_FUEL, d, r)
  | S m =>
      match raw_pread r (cap - lenN d) (o + lenN d) with
      | (Err e, r1) => (Err e, d, r1)
      | (Ok b, r1) =>
          if lenN b =? 0 then (Ok tt, d, r1)
          else if lenN (d ++ b) <? cap then load_loop m r1 o cap (d ++ b) else (Ok tt, d ++ b, r1)
      end
  end.
(** src/iobuffer.cc:448-494 load_buffer_from; a read buffer is never dirty. *)
Definition load_buffer_from (r : raw) (cap : N) (b : rbuf) (off n : N) : res unit * rbuf * raw :=
  let moved := match rb_off b with None => true | Some o => (off <? o) || (o + cap <? off + n) end in
  let o := if moved then off else match rb_off b with Some o => o | None => off end in
  let d := if moved then [] else rb_data b in
  let '(x, d1, r1) := load_loop (S (N.to_nat cap)) r o cap d in (x, RBuf (rb_key b) (Some o) d1, r1).

(** src/iobuffer.cc:662-691, the loop of pread; [acc]: what has been read. *)
Fixpoint pread_loop (fuel : nat) (p : params) (l : list rbuf) (r : raw) (n off : N) (acc : bytes) : res bytes * list rbuf * raw :=
  if n =? 0 then (Ok acc, l, r)
  else
    match fuel with
    | O => (Err E_FUEL, l, r)
    | S m =>
        match find_buffer p l off with
        | Err e => (Err e, l, r)
        | Ok (l1, i) =>
            let got := read_from_buffer (nth i l1 no_buffer) n off in
            if negb (lenN got =? 0) then pread_loop m p l1 r (n - lenN got) (off + lenN got) (acc ++ got)
            else
              let start := off - off mod bp_read p in
              match relocate l1 (rb_off (nth i l1 no_buffer)) start with
              | Err e => (Err e, l1, r)
              | Ok l2 =>
                  let '(x, b, r1) := load_buffer_from r (bp_read p) (nth i l2 no_buffer) start (off + n - start) in
                  let l3 := change i (fun _ => b) l2 in
                  match x with
                  | Err e => (Err e, l3, r1)
                  | Ok _ =>
                      let got := read_from_buffer b n off in
                      if lenN got =? 0 then (Ok acc, l3, r1) else pread_loop m p l3 r1 (n - lenN got) (off + lenN got) (acc ++ got)
                  end
              end
        end
    end.
(** src/iobuffer.cc:639-692 pread. *)
Definition buf_pread (h : handle) (n off : N) : res bytes * handle :=
  match flush h with
  | (Err e, h1) => (Err e, h1)
  | (Ok _, h1) =>
      let l := match h_read h1 with Some l => l | None => [] end in
      let '(x, l1, r1) := pread_loop (N.to_nat n) (h_params h1) l (h_raw h1) n off [] in
      (x, Handle (h_params h1) (h_write h1) (Some l1) r1)
  end.

(** ** The rest *)

(** src/iobuffer.cc:766-780 sync. *)
Definition buf_sync (h : handle) : res unit * handle :=
  match flush h with
  | (Err e, h1) => (Err e, h1)
  | (Ok _, h1) => let '(x, r) := raw_sync (h_raw h1) in (x, set_raw h1 r)
  end.
(** src/iobuffer.cc:759-764 goto_eof. *)
Definition buf_eof (h : handle) : res N * handle := let '(x, r) := raw_eof (h_raw h) in (x, set_raw h r).
(** src/iobuffer.cc:601-608 free_buffers. *)
Definition buf_free (h : handle) : handle := set_read (set_write h None) None.
(** src/iobuffer.cc:568-580 close, up to the closing of the file: the result of the flush is not looked at. *)
Definition buf_close (h : handle) : handle := snd (flush h).
