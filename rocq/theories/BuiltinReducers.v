(** Model of the reduce functions "_sum" and "_stats" of src/views/reducers.cc and of the choice of the reduce functions. "_count" is in [Reducers]. The arithmetic of the type double
    and the conversions of the C library are parameters: they are not code of the project. The message that names the key of a bad value is left out. *)
From Verif Require Import Base Codec ViewCodec Reducers.
Local Open Scope N_scope.
Unset Strict Implicit.

(** Not part of the code: the type double and the functions of the C library for it. [d_strtod]: strtod, [d_scan]: the conversion "%lg" of sscanf: the number read and what is left, or [None]
    if nothing could be converted. [d_print p]: the conversion "%.<p>g" of snprintf; "%g" is "%.6g". *)
Class Double := {
  dbl : Type;
  d_zero : dbl;
  d_add : dbl -> dbl -> dbl;
  d_mul : dbl -> dbl -> dbl;
  d_lt : dbl -> dbl -> bool;
  d_strtod : bytes -> option (dbl * bytes);
  d_scan : bytes -> option (dbl * bytes);
  d_print : N -> dbl -> bytes
}.

Section WithDouble.
Context {D : Double}.

(** src/views/reducers.cc:95-106 json_to_double. *)
Definition json_to_double (b : bytes) : option dbl :=
  if (lenN b <? 1) || (31 <? lenN b) then None
  else match d_strtod (c_string b) with Some (n, []) => Some n | _ => None end.

(** src/views/reducers.cc:177-204: the loop of builtin_sum_reducer. *)
Fixpoint sum_values (vs : list bytes) (sum : dbl) : res dbl :=
  match vs with
  | [] => Ok sum
  | v :: r => match json_to_double v with Some n => sum_values r (d_add sum n) | None => Err E_REDUCER_FAILURE end
  end.
(** src/views/reducers.cc:168-216 builtin_sum_reducer; DOUBLE_FMT is "%.15g" (line 76). Reducing and reducing again do the same. *)
Definition builtin_sum_reducer : reducer := fun _ vs =>
  let* s := sum_values vs d_zero in Ok (d_print 15 s).

(** src/views/reducers.h:39-42 stats_t. *)
Record stats := Stats { s_count : N; s_sum : dbl; s_min : dbl; s_max : dbl; s_sumsqr : dbl }.
(** src/views/reducers.cc:269 memset. *)
Definition no_stats : stats := Stats 0 d_zero d_zero d_zero d_zero.

(** Not part of the code: the texts of the formats on lines 77-79 and 342-343. *)
Definition t_sum : bytes := [123; 34; 115; 117; 109; 34; 58].
Definition t_count : bytes := [44; 34; 99; 111; 117; 110; 116; 34; 58].
Definition t_min : bytes := [44; 34; 109; 105; 110; 34; 58].
Definition t_max : bytes := [44; 34; 109; 97; 120; 34; 58].
Definition t_sumsqr : bytes := [44; 34; 115; 117; 109; 115; 113; 114; 34; 58].
Definition t_end : bytes := [125].
(** Not part of the code: sscanf compares the text of the format with the input. *)
Fixpoint literal (t l : bytes) : option bytes :=
  match t, l with
  | [], _ => Some l
  | x :: t', y :: l' => if x =? y then literal t' l' else None
  | _, _ => None
  end.
Definition obind {A B} (x : option A) (g : A -> option B) : option B := match x with Some a => g a | None => None end.
Notation "'let?' x ':=' e 'in' k" := (obind e (fun x => k)) (at level 200, x pattern, e at level 100, k at level 200, right associativity).
(** src/views/reducers.cc:77-79 scan_stats with a result of 5: sscanf counts the conversions only, so what follows the last number does not matter. *)
Definition scan_stats (l : bytes) : option stats :=
  let? l := literal t_sum l in let? (sum, l) := d_scan l in
  let? l := literal t_count l in let? (count, l) := strtoull l in
  let? l := literal t_min l in let? (min, l) := d_scan l in
  let? l := literal t_max l in let? (max, l) := d_scan l in
  let? l := literal t_sumsqr l in let? (sumsqr, l) := d_scan l in
  Some (Stats count sum min max sumsqr).

(** src/views/reducers.cc:305-314: a value when reducing. The count is a uint64_t. *)
Definition stats_add (s : stats) (n : dbl) : stats :=
  let '(mn, mx) := if s_count s =? 0 then (n, n) else if d_lt (s_max s) n then (s_min s, n) else if d_lt n (s_min s) then (n, s_max s) else (s_min s, s_max s) in
  Stats ((s_count s + 1) mod 2^64) (d_add (s_sum s) n) mn mx (d_add (s_sumsqr s) (d_mul n n)).
(** src/views/reducers.cc:289-297: a value when reducing again. *)
Definition stats_join (s r : stats) : stats :=
  Stats ((s_count s + s_count r) mod 2^64) (d_add (s_sum s) (s_sum r))
    (if d_lt (s_min r) (s_min s) || (s_count s =? 0) then s_min r else s_min s)
    (if d_lt (s_max s) (s_max r) || (s_count s =? 0) then s_max r else s_max s)
    (d_add (s_sumsqr s) (s_sumsqr r)).
(** src/views/reducers.cc:271-338: the loop; [again]: keys is null. *)
Fixpoint stats_values (again : bool) (vs : list bytes) (s : stats) : res stats :=
  match vs with
  | [] => Ok s
  | v :: r =>
      if again then match scan_stats (c_string v) with Some x => stats_values again r (stats_join s x) | None => Err E_REDUCER_FAILURE end
      else match json_to_double v with Some n => stats_values again r (stats_add s n) | None => Err E_REDUCER_FAILURE end
  end.
(** src/views/reducers.cc:340-348. *)
Definition print_stats (s : stats) : bytes :=
  t_sum ++ d_print 6 (s_sum s) ++ t_count ++ print_u64 (s_count s) ++ t_min ++ d_print 6 (s_min s) ++ t_max ++ d_print 6 (s_max s) ++ t_sumsqr ++ d_print 6 (s_sumsqr s) ++ t_end.
(** src/views/reducers.cc:259-358 builtin_stats_reducer. *)
Definition builtin_stats_reducer : reducer := fun keys vs =>
  let* s := stats_values (match keys with None => true | Some _ => false end) vs no_stats in Ok (print_stats s).

(** src/views/reducers.cc:462-481: the choice of one reduce function by its text: "_count", "_sum", "_stats" or a program for the JavaScript engine, [js] ([None]: it does not
    compile). *)
Definition pick_reducer (js : bytes -> option reducer) (fn : bytes) : option reducer :=
  if list_eq_dec N.eq_dec fn [95; 99; 111; 117; 110; 116] then Some builtin_count_reducer
  else if list_eq_dec N.eq_dec fn [95; 115; 117; 109] then Some builtin_sum_reducer
  else if list_eq_dec N.eq_dec fn [95; 115; 116; 97; 116; 115] then Some builtin_stats_reducer
  else js fn.
(** src/views/reducers.cc:435-505 make_view_reducer_ctx. *)
Fixpoint make_view_reducer_ctx (js : bytes -> option reducer) (fns : list bytes) : option (list reducer) :=
  match fns with
  | [] => Some []
  | fn :: r => let? x := pick_reducer js fn in let? xs := make_view_reducer_ctx js r in Some (x :: xs)
  end.
End WithDouble.
