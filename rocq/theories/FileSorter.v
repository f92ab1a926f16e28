(** Model of src/file_sorter.cc: sorting a file of records with temporary files and two threads that sort and write the runs.

    Threads: a run is handed to a thread and the caller waits until it was taken; the temporary files are read only after all threads are idle or have ended. What a thread writes depends on
    nothing else, so that the result does not depend on the timing and the runs are taken here as written at once. Allocation, opening, removing and renaming files are assumed to succeed,
    and so are the writes of merge_files. How the writing of run number [j] ends is given by [outcome j]. *)
From Verif Require Import Base Codec Reducers FileMerger.
Local Open Scope N_scope.
Unset Strict Implicit.

(** src/file_sorter.cc:567-608 write_record_list. [J_error n]: write_record failed when [n] bytes had reached the file; [J_lost n]: only [n] bytes reached the file when its buffer was
    written out by fclose, the result of which is ignored (lines 600, 605). *)
Inductive job_end := J_done | J_error (n : N) | J_lost (n : N).
(** src/file_sorter.cc:40-43 tmp_file_t with the contents of the file; the names are numbers (sorter_tmp_file_path adds them to a fixed prefix). *)
Record tmp := Tmp { t_name : option N; t_level : N; t_data : bytes }.
Definition no_tmp : tmp := Tmp None 0 [].
(** src/file_sorter.cc:828-841 sorter_random_name: the number has to be printed with the dot into less than seven characters. The result is the name and the next value of the counter. *)
Definition sorter_random_name (value : N) : option (N * N) :=
  if 1 + lenN (print_u64 value) <? 7 then Some (value, if 2 * 2^18 <? value + 1 then 0 else value + 1) else None.
(** The variables of a sort: ctx->tmp_files, ctx->active_tmp_files, the counter of the names, the number of runs written, and the threads that have not ended. *)
Record sstate := SState { s_tmp : list tmp; s_active : nat; s_value : N; s_jobs : nat; s_workers : nat }.

(** src/file_sorter.cc:647-660 tmp_file_cmp, as an order: level zero comes last. *)
Definition tmp_le (x y : tmp) : Prop := t_level y = 0 \/ (t_level x <> 0 /\ t_level x <= t_level y).

Section Sort_.
Variable A : Type.
Variable cmp : A -> A -> comparison.
Variable wr : A -> bytes.
Variable rd : bytes -> rdres A.
(** The result of read_record for a record: its length. *)
Variable sz : A -> N.
(** src/file_sorter.cc:640-644 sort_records: quicksort of src/quicksort.c or qsort_r. *)
Variable sort_recs : list A -> list A.
(** qsort of the C library with tmp_file_cmp. *)
Variable sort_tmp : list tmp -> list tmp.
Variable outcome : nat -> job_end.
(** ctx->num_tmp_files, ctx->max_buffer_size. *)
Variable num : nat.
Variable max_buffer : N.

(** src/file_sorter.cc:611-629 create_tmp_file: the index of the new file. *)
Definition create_tmp_file (s : sstate) : fres (nat * sstate) :=
  if negb (Nat.ltb (s_active s) num) then Bad F_ASSERT else
  match nth_error (s_tmp s) (s_active s) with
  | None => Bad F_ASSERT
  | Some t =>
      match t_name t with Some _ => Bad F_ASSERT | None =>
      if negb (t_level t =? 0) then Bad F_ASSERT else
      match sorter_random_name (s_value s) with
      | None => Bad F_MK_TMP_FILE
      | Some (n, value') =>
          Good (s_active s, SState (firstn (s_active s) (s_tmp s) ++ Tmp (Some n) 1 [] :: skipn (S (s_active s)) (s_tmp s)) (S (s_active s)) value' (s_jobs s) (s_workers s))
      end end
  end.
(** src/file_sorter.cc:268-310 sort_worker, 323-357 parallel_sorter_add_job, 567-608 write_record_list: a thread that had an error ends, and if none is left the run is never taken. *)
Definition add_job (records : list A) (s : sstate) : fres sstate :=
  fbind (create_tmp_file s) (fun p =>
  let '(i, s1) := p in
  match s_workers s1 with
  | O => Bad F_HANG
  | S w =>
      let all := concat (map wr (sort_recs records)) in
      let '(data, workers) := match outcome (s_jobs s1) with J_done => (all, S w) | J_error n => (take n all, w) | J_lost n => (take n all, S w) end in
      match nth_error (s_tmp s1) i with
      | None => Bad F_ASSERT
      | Some t => Good (SState (firstn i (s_tmp s1) ++ Tmp (t_name t) (t_level t) data :: skipn (S i) (s_tmp s1)) (s_active s1) (s_value s1) (S (s_jobs s1)) workers)
      end
  end).
(** src/file_sorter.cc:369-383 parallel_sorter_wait: a thread that has ended is never free again; s->finished is not set by it. *)
Definition wait (n : nat) (s : sstate) : fres sstate := if Nat.ltb (s_workers s) n then Bad F_HANG else Good s.

(** src/file_sorter.cc:675-683: the number of files from the beginning of the list that have the level. *)
Fixpoint same_level (level : N) (l : list tmp) : nat :=
  match l with
  | t :: r => if t_level t =? level then S (same_level level r) else O
  | [] => O
  end.
(** src/file_sorter.cc:672-691 the loop of pick_merge_files; [i] is the position of the first element of [l]. The assertions on the levels of the files that are looked at (lines 674,
    678) are the test for zero. *)
Fixpoint pick (fuel i : nat) (l : list tmp) : fres (option (nat * nat * N)) :=
  match fuel with
  | O => Bad F_FUEL
  | S k =>
      match l with
      | [] => Good None
      | t :: r =>
          if existsb (fun t => t_level t =? 0) (t :: firstn (S (same_level (t_level t) r)) r) then Bad F_ASSERT else
          let n := S (same_level (t_level t) r) in
          if Nat.ltb 1 n then Good (Some (i, (i + n)%nat, N.of_nat n * t_level t)) else pick k (i + n) (skipn n l)
      end
  end.
(** src/file_sorter.cc:663-699 pick_merge_files. *)
Definition pick_merge_files (s : sstate) : fres (nat * nat * N * sstate) :=
  let act := sort_tmp (firstn (s_active s) (s_tmp s)) in
  let s' := SState (act ++ skipn (s_active s) (s_tmp s)) (s_active s) (s_value s) (s_jobs s) (s_workers s) in
  fbind (pick (S (length act)) 0 act) (fun o =>
  match o with
  | Some p => Good (p, s')
  | None =>
      if negb (Nat.eqb (s_active s) num) then Bad F_ASSERT
      else match act with t0 :: t1 :: _ => Good ((O, 2%nat, t_level t0 + t_level t1), s') | _ => Bad F_ASSERT end
  end).
(** src/file_sorter.cc:702-787 merge_tmp_files with next_level > 0. *)
Definition merge_tmp_files (first last : nat) (level : N) (s : sstate) : fres sstate :=
  let files := firstn (last - first) (skipn first (s_tmp s)) in
  if existsb (fun t => match t_name t with None => true | Some _ => false end) files then Bad F_ASSERT else
  match sorter_random_name (s_value s) with
  | None => Bad F_MK_TMP_FILE
  | Some (n, value') =>
      fbind (merge_files cmp rd None (map t_data files)) (fun out =>
      let cleared := map (fun _ => no_tmp) files in
      let arr := firstn first (s_tmp s) ++ sort_tmp (cleared ++ skipn last (s_tmp s)) in
      let active := (s_active s - (last - first))%nat in
      match nth_error arr active with
      | None => Bad F_ASSERT
      | Some _ => Good (SState (firstn active arr ++ Tmp (Some n) level (concat (map wr out)) :: skipn (S active) arr) (S active) value' (s_jobs s) (s_workers s))
      end)
  end.

(** src/file_sorter.cc:436-497 the reading loop of do_sort_file: [records] are those of the next run in reverse order, [size] is buffer_size (32 bits). *)
Fixpoint read_loop (fuel : nat) (b : bytes) (records : list A) (size : N) (s : sstate) : fres (list A * N * sstate) :=
  match fuel with
  | O => Bad F_FUEL
  | S k =>
      match rd b with
      | R_err e => Bad e
      | R_eof => Good (rev records, size, s)
      | R_rec a rest =>
          let records := a :: records in
          let size := (size + sz a) mod 2^32 in
          fbind (if max_buffer <=? size then fbind (add_job (rev records) s) (fun s1 => fbind (wait 1 s1) (fun s2 => Good ([], 0, s2))) else Good (records, size, s)) (fun p =>
          let '(records, size, s) := p in
          fbind (if Nat.leb num (s_active s)
                 then fbind (wait 2 s) (fun s1 => fbind (pick_merge_files s1) (fun q =>
                      let '(first, last, level, s2) := q in
                      if negb (1 <? level) then Bad F_ASSERT else merge_tmp_files first last level s2))
                 else Good s) (fun s' =>
          read_loop k rest records size s'))
      end
  end.
(** src/file_sorter.cc:789-826 iterate_records_file: the records given to the callback. *)
Fixpoint iterate (fuel : nat) (b : bytes) : fres (list A) :=
  match fuel with
  | O => Bad F_FUEL
  | S k =>
      match rd b with
      | R_err e => Bad e
      | R_eof => Good []
      | R_rec a rest => fbind (iterate k rest) (fun l => Good (a :: l))
      end
  end.
(** src/file_sorter.cc:154-228 sort_file with 407-564 do_sort_file. [src] is the source file, [feed] tells whether there is a callback, [value] is the counter of the names. The result:
    the source file afterwards and the records given to the callback. parallel_sorter_finish (lines 387-404) always reports success. *)
Definition sort_file (src : bytes) (feed skip_writeback : bool) (value : N) : fres (bytes * list A) :=
  if Nat.leb num 1 then Bad F_BAD_ARG else
  if skip_writeback && negb feed then Bad F_MISSING_CALLBACK else
  fbind (read_loop (S (length src)) src [] 0 (SState (repeat no_tmp num) O value O 2%nat)) (fun p =>
  let '(records, size, s) := p in
  if Nat.eqb (s_active s) 0 && (size =? 0) then Good (src, []) else
  fbind (if 0 <? size then add_job records s else Good s) (fun s =>
  match s_active s with
  | O => Bad F_ASSERT
  | 1%nat =>
      match s_tmp s with
      | t :: _ =>
          fbind (if feed then iterate (S (length (t_data t))) (t_data t) else Good []) (fun fed =>
          Good (if skip_writeback then src else t_data t, fed))
      | [] => Bad F_ASSERT
      end
  | S (S _) =>
      let files := firstn (s_active s) (s_tmp s) in
      if existsb (fun t => match t_name t with None => true | Some _ => false end) files then Bad F_ASSERT else
      fbind (merge_files cmp rd None (map t_data files)) (fun out =>
      Good (if skip_writeback then src else concat (map wr out), if feed then out else []))
  end)).
End Sort_.
