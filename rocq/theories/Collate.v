(** Model of src/views/collate_json.cc: the order of JSON texts. Reading after the end of a text is [E_UB]. The functions of ICU and strtod are parameters. *)
From Coq Require Import ZArith.
From Verif Require Import Base Codec.
Local Open Scope N_scope.
Unset Strict Implicit.

(** src/views/collate_json.h:16-21. *)
Inductive collate_mode := M_unicode | M_raw | M_ascii.
(** src/views/collate_json.cc:28-43 ValueType. *)
Inductive vtype := kEndArray | kEndObject | kComma | kColon | kNull | kFalse | kTrue | kNumber | kString | kArray | kObject | kIllegal.
(** src/views/collate_json.cc:28-43: the values of the enumeration. *)
Definition type_order (t : vtype) : Z :=
  match t with
  | kEndArray => 0 | kEndObject => 1 | kComma => 2 | kColon => 3 | kNull => 4 | kFalse => 5 | kTrue => 6 | kNumber => 7 | kString => 8 | kArray => 9 | kObject => 10 | kIllegal => 11
  end%Z.
(** src/views/collate_json.cc:46-53 kRawOrderOfValueType. *)
Definition raw_order (t : vtype) : Z :=
  match t with
  | kEndArray => -4 | kEndObject => -3 | kComma => -2 | kColon => -1 | kNull => 2 | kFalse => 1 | kTrue => 3 | kNumber => 0 | kString => 6 | kArray => 5 | kObject => 4 | kIllegal => 7
  end%Z.
(** src/views/collate_json.cc:56-77 valueTypeOf, with the message left out. *)
Definition value_type_of (c : N) : vtype :=
  if c =? 110 then kNull
  else if c =? 102 then kFalse
  else if c =? 116 then kTrue
  else if ((48 <=? c) && (c <=? 57)) || (c =? 45) then kNumber
  else if c =? 34 then kString
  else if c =? 93 then kEndArray
  else if c =? 125 then kEndObject
  else if c =? 44 then kComma
  else if c =? 58 then kColon
  else if c =? 91 then kArray
  else if c =? 123 then kObject
  else kIllegal.
(** src/views/collate_json.cc:80-88 digitToInt. Simplified: 0 also for bytes of 128 and more, which as a char are outside of the domain of isdigit. *)
Definition digit_to_int (c : N) : N :=
  if (48 <=? c) && (c <=? 57) then c - 48
  else if (97 <=? c) && (c <=? 102) then 10 + c - 97
  else if (65 <=? c) && (c <=? 70) then 10 + c - 65
  else 0.
(** src/views/collate_json.cc:91-113 ConvertJSONEscape: [s] starts after the backslash. The result is the character and what follows the escape sequence. A number above 255 is cut
    to eight bits by the conversion to char. *)
Definition convert_json_escape (s : bytes) : res (N * bytes) :=
  match s with
  | [] => Err E_UB
  | c :: r =>
      if c =? 117 then
        match r with
        | d0 :: d1 :: d2 :: d3 :: r' =>
            Ok ((digit_to_int d0 * 2^12 + digit_to_int d1 * 2^8 + digit_to_int d2 * 2^4 + digit_to_int d3) mod 256, r')
        | _ => Err E_UB
        end
      else if c =? 98 then Ok (8, r)
      else if c =? 110 then Ok (10, r)
      else if c =? 114 then Ok (13, r)
      else if c =? 116 then Ok (9, r)
      else Ok (c, r)
  end.
(** A byte as a char, which is taken as signed (as on x86). *)
Definition schar (c : N) : Z := if c <? 128 then Z.of_N c else (Z.of_N c - 256)%Z.
(** src/views/collate_json.cc:116-151 compareStringsASCII: [s1] and [s2] start after the quotation marks. [fuel] is more than the length of [s1]. *)
Fixpoint compare_strings_ascii (fuel : nat) (s1 s2 : bytes) : res (comparison * bytes * bytes) :=
  match fuel with
  | O => Err E_FUEL
  | S k =>
      match s1, s2 with
      | c1 :: r1, c2 :: r2 =>
          if c1 =? 34 then (if c2 =? 34 then Ok (Eq, r1, r2) else Ok (Lt, s1, s2))
          else if c2 =? 34 then Ok (Gt, s1, s2)
          else
            bind (if c1 =? 92 then convert_json_escape r1 else Ok (c1, r1)) (fun p1 =>
            bind (if c2 =? 92 then convert_json_escape r2 else Ok (c2, r2)) (fun p2 =>
            match Z.compare (schar (fst p1)) (schar (fst p2)) with
            | Eq => compare_strings_ascii k (snd p1) (snd p2)
            | c => Ok (c, s1, s2)
            end))
      | _, _ => Err E_UB
      end
  end.
(** src/views/collate_json.cc:163-173 the first loop of createStringFromJSON: the number of bytes before the quotation mark, the bytes that the escape sequences have too many, and
    what follows the quotation mark. *)
Fixpoint scan_string (s : bytes) : res (N * N * bytes) :=
  match s with
  | [] => Err E_UB
  | c :: r =>
      if c =? 34 then Ok (0, 0, r)
      else if c =? 92 then
        match r with
        | [] => Err E_UB
        | c' :: r' =>
            if c' =? 117 then
              match r' with
              | _ :: _ :: _ :: _ :: r'' => bind (scan_string r'') (fun p => let '(n, e, rest) := p in Ok (n + 6, e + 5, rest))
              | _ => Err E_UB
              end
            else bind (scan_string r') (fun p => let '(n, e, rest) := p in Ok (n + 2, e + 1, rest))
        end
      else bind (scan_string r) (fun p => let '(n, e, rest) := p in Ok (n + 1, e, rest))
  end.
(** src/views/collate_json.cc:182-186 the second loop. *)
Fixpoint convert_string (fuel : nat) (s : bytes) : res bytes :=
  match fuel with
  | O => Err E_FUEL
  | S k =>
      match s with
      | [] => Err E_UB
      | c :: r =>
          if c =? 34 then Ok []
          else bind (if c =? 92 then convert_json_escape r else Ok (c, r)) (fun p => bind (convert_string k (snd p)) (fun l => Ok (fst p :: l)))
      end
  end.
(** src/views/collate_json.cc:154-194 createStringFromJSON: the string and what follows it. The assertion of line 187 is [E_UB]; writing more than the length is the same case. *)
Definition create_string_from_json (s : bytes) : res (bytes * bytes) :=
  bind (scan_string s) (fun p =>
  let '(n, escapes, rest) := p in
  if 0 <? escapes then
    bind (convert_string (S (length s)) s) (fun l => if lenN l =? n - escapes then Ok (l, rest) else Err E_UB)
  else Ok (take n s, rest)).

Section Collate_.
(** The numbers of type double with their order (lines 22-25), and strtod: the number at the beginning of the text and what follows it. *)
Variable D : Type.
Variable d_cmp : D -> D -> comparison.
Variable strtod : bytes -> D * bytes.
(** The comparison by ICU of two strings that are not empty (lines 196-229, 278-320). *)
Variable u_cmp : bytes -> bytes -> comparison.

(** src/views/collate_json.cc:268-321 compareUnicode. *)
Definition compare_unicode (s1 s2 : bytes) : comparison :=
  match s1, s2 with
  | [], [] => Eq
  | [], _ => Lt
  | _, [] => Gt
  | _, _ => u_cmp s1 s2
  end.
(** src/views/collate_json.cc:324-341 compareStringsUnicode. *)
Definition compare_strings_unicode (s1 s2 : bytes) : res (comparison * bytes * bytes) :=
  bind (create_string_from_json s1) (fun p1 => bind (create_string_from_json s2) (fun p2 => Ok (compare_unicode (fst p1) (fst p2), snd p1, snd p2))).

(** src/views/collate_json.cc:381-454 the loop of CollateJSON: one round reads a token of each text. readNumber (lines 344-370) is strtod on what is left of the buffer; inside of arrays
    and objects strtod is called without the end of the buffer, which makes no difference if a bracket follows. *)
Fixpoint collate_loop (mode : collate_mode) (fuel : nat) (s1 s2 : bytes) (depth : nat) : res comparison :=
  match fuel with
  | O => Err E_FUEL
  | S k =>
      let next s1 s2 depth := match depth with O => Ok Eq | S _ => collate_loop mode k s1 s2 depth end in
      match s1, s2 with
      | c1 :: r1, c2 :: r2 =>
          let t1 := value_type_of c1 in
          let t2 := value_type_of c2 in
          match Z.compare (type_order t1) (type_order t2) with
          | Eq =>
              match t1 with
              | kNull | kTrue => next (drop 4 s1) (drop 4 s2) depth
              | kFalse => next (drop 5 s1) (drop 5 s2) depth
              | kNumber =>
                  let '(n1, next1) := strtod s1 in
                  let '(n2, next2) := strtod s2 in
                  match d_cmp n1 n2 with Eq => next next1 next2 depth | c => Ok c end
              | kString =>
                  bind (match mode with M_unicode => compare_strings_unicode r1 r2 | _ => compare_strings_ascii (S (length r1)) r1 r2 end) (fun p =>
                  let '(c, next1, next2) := p in
                  match c with Eq => next next1 next2 depth | _ => Ok c end)
              | kArray | kObject => next r1 r2 (S depth)
              | kEndArray | kEndObject => next r1 r2 (pred depth)
              | kComma | kColon => next r1 r2 depth
              | kIllegal => Ok Eq
              end
          | c => match mode with M_raw => Ok (Z.compare (raw_order t1) (raw_order t2)) | _ => Ok c end
          end
      | _, _ => Err E_UB
      end
  end.
(** src/views/collate_json.cc:374-455 CollateJSON. Simplified: an end of an array or object without a beginning leaves the depth at zero, where the code has -1; both end the loop. *)
Definition collate_json (mode : collate_mode) (b1 b2 : bytes) : res comparison := collate_loop mode (S (length b1)) b1 b2 O.
End Collate_.
