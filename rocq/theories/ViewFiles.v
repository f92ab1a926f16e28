(** Model of src/views/file_sorter.cc and src/views/file_merger.cc: sorting and merging the files of records of a view. *)
From Verif Require Import Base Codec FileMerger Quicksort FileSorter.
Local Open Scope N_scope.
Unset Strict Implicit.

(** src/views/util.cc:159-172 compare_view_records with the comparison of keys of the context. *)
Definition compare_view_records (key_cmp : bytes -> bytes -> comparison) (r1 r2 : vrec) : comparison := key_cmp (v_key r1) (v_key r2).
(** src/file_sorter.cc:640-644 sort_records. The model of quicksort has a result for the failures that the code does not have; they do not occur (QuicksortFacts.quicksort_ok). *)
Definition sort_records (key_cmp : bytes -> bytes -> comparison) (l : list vrec) : list vrec :=
  match quicksort (compare_view_records key_cmp) l with Good a => a | Bad _ => [] end.
(** src/views/util.cc:121 the result of read_view_record for a record. *)
Definition record_size (r : vrec) : N := lenN (v_key r) + lenN (v_val r).
(** src/views/file_sorter.cc:25-26. *)
Definition SORT_MAX_BUFFER_SIZE : N := 64 * 1024 * 1024.
Definition SORT_MAX_NUM_TMP_FILES : nat := 16.
(** src/views/file_sorter.cc:110-127 do_sort_file with 35-107 the functions that call it: [incr] for the files of an incremental update, which are written back and have no callback.
    [sort_tmp] is qsort of the C library, [outcome] and [value] as in FileSorter.sort_file. *)
Definition sort_view_file (key_cmp : bytes -> bytes -> comparison) (sort_tmp : list tmp -> list tmp) (outcome : nat -> job_end) (incr : bool) (src : bytes) (value : N) : fres (bytes * list vrec) :=
  sort_file (compare_view_records key_cmp) (write_view_record incr) (read_view_record incr) record_size (sort_records key_cmp) sort_tmp outcome SORT_MAX_NUM_TMP_FILES SORT_MAX_BUFFER_SIZE
    src (negb incr) (negb incr) value.
(** src/views/file_merger.cc:83-100 merge_view_files: the contents of the destination. *)
Definition merge_view_files (key_cmp : bytes -> bytes -> comparison) (files : list bytes) : fres bytes :=
  fbind (merge_files (compare_view_records key_cmp) (read_view_record true) (Some dedup_view_records_merger) files) (fun out => Good (concat (map (write_view_record true) out))).
