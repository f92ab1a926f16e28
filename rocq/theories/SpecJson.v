(** Specification of JSON values, their texts and their order. *)
From Verif Require Import Base Codec Collate.
Local Open Scope N_scope.
Unset Strict Implicit.

(** The characters of a string as they are written: a character, a backslash and a letter, or \u with four hexadecimal digits. *)
Inductive jchar := Plain (c : N) | Esc (c : N) | Uni (a b c d : N).
(** Numbers are given by their text. *)
Inductive json :=
| JNull | JFalse | JTrue
| JNum (text : bytes)
| JStr (s : list jchar)
| JArr (l : list json)
| JObj (l : list (list jchar * json)).

(** ** Texts *)
Definition show_char (x : jchar) : bytes := match x with Plain c => [c] | Esc c => [92; c] | Uni a b c d => [92; 117; a; b; c; d] end.
Definition show_str (s : list jchar) : bytes := [34] ++ concat (map show_char s) ++ [34].
Fixpoint sep (l : list bytes) : bytes := match l with [] => [] | [x] => x | x :: r => x ++ [44] ++ sep r end.
Fixpoint show (j : json) : bytes :=
  match j with
  | JNull => [110; 117; 108; 108]
  | JFalse => [102; 97; 108; 115; 101]
  | JTrue => [116; 114; 117; 101]
  | JNum t => t
  | JStr s => show_str s
  | JArr l => [91] ++ sep (map show l) ++ [93]
  | JObj l => [123] ++ sep (map (fun kv => show_str (fst kv) ++ [58] ++ show (snd kv)) l) ++ [125]
  end.

(** ** Which are valid *)
Definition digit (c : N) : Prop := 48 <= c <= 57.
Definition hex (c : N) : Prop := digit c \/ 97 <= c <= 102 \/ 65 <= c <= 70.
Definition some_digits (l : bytes) : Prop := l <> [] /\ Forall digit l.
(** The grammar of numbers: minus, integer part without leading zeros, fraction, exponent. *)
Definition number_text (t : bytes) : Prop :=
  exists minus int frac exp, t = minus ++ int ++ frac ++ exp /\
    (minus = [] \/ minus = [45]) /\
    (int = [48] \/ exists d l, int = d :: l /\ digit d /\ d <> 48 /\ Forall digit l) /\
    (frac = [] \/ exists l, frac = 46 :: l /\ some_digits l) /\
    (exp = [] \/ exists e sign l, exp = e :: sign ++ l /\ (e = 101 \/ e = 69) /\ (sign = [] \/ sign = [43] \/ sign = [45]) /\ some_digits l).
Definition valid_char (x : jchar) : Prop :=
  match x with
  | Plain c => 32 <= c < 256 /\ c <> 34 /\ c <> 92
  | Esc c => In c [34; 92; 47; 98; 102; 110; 114; 116]
  | Uni a b c d => hex a /\ hex b /\ hex c /\ hex d
  end.
Inductive valid : json -> Prop :=
| valid_null : valid JNull
| valid_false : valid JFalse
| valid_true : valid JTrue
| valid_num t : number_text t -> valid (JNum t)
| valid_str s : Forall valid_char s -> valid (JStr s)
| valid_arr l : Forall valid l -> valid (JArr l)
| valid_obj l : Forall (fun kv => Forall valid_char (fst kv) /\ valid (snd kv)) l -> valid (JObj l).
(** What holds for all strings of a value, keys included. *)
Inductive strings (P : list jchar -> Prop) : json -> Prop :=
| strings_null : strings P JNull
| strings_false : strings P JFalse
| strings_true : strings P JTrue
| strings_num t : strings P (JNum t)
| strings_str s : P s -> strings P (JStr s)
| strings_arr l : Forall (strings P) l -> strings P (JArr l)
| strings_obj l : Forall (fun kv => P (fst kv) /\ strings P (snd kv)) l -> strings P (JObj l).

(** What can follow a number: nothing, a comma, or the end of an array or object. *)
Definition ends_number (r : bytes) : Prop := r = [] \/ exists c t, r = c :: t /\ (c = 44 \/ c = 93 \/ c = 125).

(** ** Meaning *)
Definition hex_value (c : N) : N := if c <=? 57 then c - 48 else if c <=? 70 then c - 55 else c - 87.
(** The byte of a text in UTF-8 for [Plain], otherwise the code point (RFC 8259, section 7). *)
Definition char_of (x : jchar) : N :=
  match x with
  | Plain c => c
  | Esc c => match c with 98 => 8 | 102 => 12 | 110 => 10 | 114 => 13 | 116 => 9 | _ => c end
  | Uni a b c d => hex_value a * 4096 + hex_value b * 256 + hex_value c * 16 + hex_value d
  end.
Definition text_of (s : list jchar) : bytes := map char_of s.
(** No \f, and \u only for code points below 128: then [text_of] is the text in UTF-8. *)
Definition simple (s : list jchar) : Prop := Forall (fun x => match x with Plain _ => True | Esc c => c <> 102 | Uni _ _ _ _ => char_of x < 128 end) s.
Definition ascii (s : list jchar) : Prop := Forall (fun x => char_of x < 128) s.

(** ** The order: by type, then by value; arrays and objects like words, by their elements. *)
Definition type_rank (mode : collate_mode) (j : json) : N :=
  match mode, j with
  | M_raw, JNum _ => 0 | M_raw, JFalse => 1 | M_raw, JNull => 2 | M_raw, JTrue => 3 | M_raw, JObj _ => 4 | M_raw, JArr _ => 5 | M_raw, JStr _ => 6
  | _, JNull => 0 | _, JFalse => 1 | _, JTrue => 2 | _, JNum _ => 3 | _, JStr _ => 4 | _, JArr _ => 5 | _, JObj _ => 6
  end.
(** The order of words over an order of letters. *)
Section Words.
Variable A : Type.
Variable c : A -> A -> comparison.
Fixpoint words (a b : list A) {struct a} : comparison :=
  match a, b with
  | [], [] => Eq
  | [], _ :: _ => Lt
  | _ :: _, [] => Gt
  | x :: a', y :: b' => match c x y with Eq => words a' b' | r => r end
  end.
End Words.
Section Order.
(** The value of the text of a number and the order of numbers; the order of texts of ICU. *)
Variable D : Type.
Variable d_cmp : D -> D -> comparison.
Variable dval : bytes -> D.
Variable u_cmp : bytes -> bytes -> comparison.
Definition text_order (mode : collate_mode) (a b : bytes) : comparison :=
  match mode with
  | M_unicode => match a, b with [], [] => Eq | [], _ => Lt | _, [] => Gt | _, _ => u_cmp a b end
  | _ => words N.compare a b
  end.
Fixpoint json_order (mode : collate_mode) (a b : json) {struct a} : comparison :=
  match a, b with
  | JNum t, JNum t' => d_cmp (dval t) (dval t')
  | JStr s, JStr s' => text_order mode (text_of s) (text_of s')
  | JArr l, JArr l' => words (json_order mode) l l'
  | JObj l, JObj l' => words (fun p q => match text_order mode (text_of (fst p)) (text_of (fst q)) with Eq => json_order mode (snd p) (snd q) | r => r end) l l'
  | _, _ => N.compare (type_rank mode a) (type_rank mode b)
  end.
End Order.
(** A total preorder. *)
Definition preorder {A} (c : A -> A -> comparison) : Prop := (forall x y, c y x = CompOpp (c x y)) /\ (forall x y z, c x y <> Gt -> c y z <> Gt -> c x z <> Gt).
