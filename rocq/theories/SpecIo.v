(** What direct access to a file does, to compare buffered access with. *)
From Verif Require Import Base IoBuffer.
Local Open Scope N_scope.

(** The calls, and another process or handle that appends to the file. *)
Inductive call := CRead (n off : N) | CWrite (b : bytes) (off : N) | CSync | CEof | CFree | CAppend (b : bytes).
Inductive answer := ABytes (x : res bytes) | ACount (x : res N) | ADone (x : res unit) | ANone.

(** The calls made through a handle, one after the other, with the answers. Others append only while nothing is in the write buffer. *)
Definition pending (h : handle) : bytes := match h_write h with Some w => wb_data w | None => [] end.
Inductive calls : handle -> list (call * answer) -> handle -> Prop :=
| calls_nil h : calls h [] h
| calls_read h n off x h1 t h2 : buf_pread h n off = (x, h1) -> calls h1 t h2 -> calls h ((CRead n off, ABytes x) :: t) h2
| calls_write h b off x h1 t h2 : buf_pwrite h b off = (x, h1) -> calls h1 t h2 -> calls h ((CWrite b off, ACount x) :: t) h2
| calls_sync h x h1 t h2 : buf_sync h = (x, h1) -> calls h1 t h2 -> calls h ((CSync, ADone x) :: t) h2
| calls_eof h x h1 t h2 : buf_eof h = (x, h1) -> calls h1 t h2 -> calls h ((CEof, ACount x) :: t) h2
| calls_free h t h2 : calls (buf_free h) t h2 -> calls h ((CFree, ANone) :: t) h2
| calls_append h b t h2 : pending h = [] -> calls (set_raw h (Raw (rw_data (h_raw h) ++ b) (rw_plan (h_raw h)))) t h2 -> calls h ((CAppend b, ANone) :: t) h2.

(** Direct access to a file with the bytes [l]: a successful read gives all the bytes there are, a successful write writes at least one byte and says how many, a failed one
    writes any number of them. [bad]: the errors that the system reports. The calls that buffering does not serve as it should, the end of the file and giving up the buffers, are
    made only when the last successful read or sync is after the last write ([clean]). *)
Inductive direct (bad : err -> Prop) : bytes -> bool -> list (call * answer) -> bytes -> bool -> Prop :=
| dir_nil l c : direct bad l c [] l c
| dir_read l c n off t l' c' : direct bad l true t l' c' -> direct bad l c ((CRead n off, ABytes (Ok (take n (drop off l)))) :: t) l' c'
| dir_read_err l c n off e t l' c' : bad e -> direct bad l c t l' c' -> direct bad l c ((CRead n off, ABytes (Err e)) :: t) l' c'
| dir_write l c b off k t l' c' : k <= lenN b -> (b <> [] -> 1 <= k) -> direct bad (overwrite l off (take k b)) (c && (lenN b =? 0)) t l' c' ->
    direct bad l c ((CWrite b off, ACount (Ok k)) :: t) l' c'
| dir_write_err l c b off k e t l' c' : bad e -> k <= lenN b -> direct bad (overwrite l off (take k b)) false t l' c' ->
    direct bad l c ((CWrite b off, ACount (Err e)) :: t) l' c'
| dir_sync l c t l' c' : direct bad l true t l' c' -> direct bad l c ((CSync, ADone (Ok tt)) :: t) l' c'
| dir_sync_err l c e t l' c' : bad e -> direct bad l c t l' c' -> direct bad l c ((CSync, ADone (Err e)) :: t) l' c'
| dir_eof l t l' c' : direct bad l true t l' c' -> direct bad l true ((CEof, ACount (Ok (lenN l))) :: t) l' c'
| dir_eof_err l c e t l' c' : bad e -> direct bad l c t l' c' -> direct bad l c ((CEof, ACount (Err e)) :: t) l' c'
| dir_free l t l' c' : direct bad l true t l' c' -> direct bad l true ((CFree, ANone) :: t) l' c'
| dir_append l c b t l' c' : direct bad (l ++ b) c t l' c' -> direct bad l c ((CAppend b, ANone) :: t) l' c'.

(** Whether the end of the file is asked for and the buffers are given up only when clean, in this list of calls. *)
Fixpoint careful (c : bool) (t : list (call * answer)) : bool :=
  match t with
  | [] => true
  | (CRead _ _, ABytes (Ok _)) :: r => careful true r
  | (CSync, ADone (Ok _)) :: r => careful true r
  | (CWrite b _, _) :: r => careful (c && (lenN b =? 0)) r
  | (CEof, _) :: r | (CFree, _) :: r => c && careful c r
  | _ :: r => careful c r
  end.
