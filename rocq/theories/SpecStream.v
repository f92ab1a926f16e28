(** Specification vocabulary for streams of chunks. *)
From Verif Require Import Base Codec File IoBuffer Stream.
Local Open Scope N_scope.
Unset Strict Implicit.

(** Every sealed message can be opened, and is longer by a fixed number of bytes. *)
Record SealOk {Z : Sealer} : Prop := { so_open : forall n x, unseal (seal n x) = Some x; so_len : forall n x, lenN (seal n x) = lenN x + sealing }.
(** No call of the system fails; calls may still move fewer bytes than asked for. *)
Definition quiet (r : raw) : Prop := Forall (fun s => rs_err s = None) (rw_plan r).

Section Spec.
Context {E : Env} {Z : Sealer}.
(** The bytes [b] are the form in the file of the chunk [c]. *)
Definition chunk_of (k : kind) (c b : bytes) : Prop :=
  match k with
  | KSum => lenN c + 4 < 2^32 /\ b = be 4 (lenN c + 4) ++ be 4 (crc32c c) ++ c
  | KSeal => exists y, sealing < lenN y < 2^32 /\ unseal y = Some c /\ b = be 4 (lenN y) ++ y
  end.
(** The bytes of the file are a sequence of chunks that together are the data. *)
Definition verified (k : kind) (data file : bytes) : Prop := exists cs bs, Forall2 (chunk_of k) cs bs /\ data = concat cs /\ file = concat bs.
(** The same, and no chunk is empty. *)
Definition stream_file (k : kind) (data file : bytes) : Prop := exists cs bs, Forall2 (chunk_of k) cs bs /\ Forall (fun c => c <> []) cs /\ data = concat cs /\ file = concat bs.

(** The length of the header of a chunk. *)
Definition header_of (k : kind) : N := match k with KSum => 8 | KSeal => 4 end.
(** Chunks, each sealed with a nonce of its own: the [n]th, the next one, and so on. *)
Fixpoint sealed_from (n : N) (l : list bytes) : bytes := match l with [] => [] | c :: r => be 4 (lenN (seal n c)) ++ seal n c ++ sealed_from (n + 1) r end.

(** The calls of a stream and their results. *)
Inductive sop := SWrite (b : bytes) | SFlush | SBegin | SEnd | SRead (n : N).
Inductive sresult := Done | Got (b : bytes) | Eof | Failed (e : err).
Definition done (x : res unit * cstream) : sresult * cstream := (match fst x with Ok _ => Done | Err e => Failed e end, snd x).
Definition call (k : kind) (max : N) (o : sop) (s : cstream) : sresult * cstream :=
  match o with
  | SWrite b => done (cs_write k max b s)
  | SFlush => done (cs_flush k s)
  | SBegin => done (cs_seek_begin k s)
  | SEnd => done (cs_seek_end k s)
  | SRead n => let '(x, s') := cs_read k n s in (match x with Ok (Some b) => Got b | Ok None => Eof | Err e => Failed e end, s')
  end.
Fixpoint calls (k : kind) (max : N) (l : list sop) (s : cstream) : list sresult * cstream :=
  match l with
  | [] => ([], s)
  | o :: r => let '(x, s1) := call k max o s in let '(xs, s2) := calls k max r s1 in (x :: xs, s2)
  end.

(** Writing records, and reading records to the end. *)
Fixpoint write_all (k : kind) (max : N) (l : list (bytes * bytes)) (s : cstream) : res unit * cstream :=
  match l with
  | [] => (Ok tt, s)
  | x :: r => let '(y, s') := stream_write_record k max x s in match y with Err e => (Err e, s') | Ok _ => write_all k max r s' end
  end.
Fixpoint read_all (fuel : nat) (k : kind) (s : cstream) : res (list (bytes * bytes)) :=
  match fuel with
  | O => Err E_FUEL
  | S fuel' => match stream_read_record k s with (Err e, _) => Err e | (Ok None, _) => Ok [] | (Ok (Some x), s') => let* l := read_all fuel' k s' in Ok (x :: l) end
  end.
End Spec.

(** What the user is to see: a sequence of bytes, a position, and whether something has been written since the last flush or seek. *)
Record plain := Plain { p_data : bytes; p_pos : N; p_dirty : bool }.
(** Writing and flushing are allowed at the end only. *)
Definition allowed (o : sop) (a : plain) : Prop := match o with SWrite _ | SFlush => p_pos a = lenN (p_data a) | _ => True end.
(** Reading before a flush or seek is refused; a read of more than is left is the end of the file. *)
Definition plain_call (o : sop) (a : plain) : sresult * plain :=
  match o with
  | SWrite b => (Done, Plain (p_data a ++ b) (lenN (p_data a ++ b)) true)
  | SFlush => (Done, Plain (p_data a) (p_pos a) false)
  | SBegin => (Done, Plain (p_data a) 0 false)
  | SEnd => (Done, Plain (p_data a) (lenN (p_data a)) false)
  | SRead n =>
      if p_dirty a then (Failed E_INVALID_ARGUMENTS, a)
      else if p_pos a + n <=? lenN (p_data a) then (Got (take n (drop (p_pos a) (p_data a))), Plain (p_data a) (p_pos a + n) false)
      else (Eof, Plain (p_data a) (lenN (p_data a)) false)
  end.
Fixpoint plain_calls (l : list sop) (a : plain) : list sresult * plain :=
  match l with
  | [] => ([], a)
  | o :: r => let '(x, a1) := plain_call o a in let '(xs, a2) := plain_calls r a1 in (x :: xs, a2)
  end.
Fixpoint all_allowed (l : list sop) (a : plain) : Prop :=
  match l with
  | [] => True
  | o :: r => allowed o a /\ all_allowed r (snd (plain_call o a))
  end.
