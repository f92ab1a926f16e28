(** Specification vocabulary for the reduce values of view indexes. *)
From Coq Require Import String Ascii.
From Verif Require Import Base Codec Bitmap SpecMap ViewCodec Reducers BuiltinReducers.
Local Open Scope N_scope.
Unset Strict Implicit.

(** What an entry of a view has emitted: its key with each of its values. *)
Definition emitted (x : kv) : list (bytes * bytes) :=
  match decode_view_btree_json_key (fst x), decode_view_btree_value (snd x) with
  | Ok k, Ok v => map (fun y => (k, y)) (vv_values v)
  | _, _ => []
  end.
(** The emitted keys and values of a list of entries. *)
Definition keys_of (kvs : list kv) : list bytes := map fst (flat_map emitted kvs).
Definition values_of (kvs : list kv) : list bytes := map snd (flat_map emitted kvs).

(** [b] is a result of the reduce function [r] for the entries [kvs]: the function has been applied to the keys and values of consecutive entries, and then again to the results
    of consecutive pieces, any number of times, without leaving out or repeating or exchanging entries. *)
Inductive reduces (r : reducer) : list kv -> bytes -> Prop :=
| reduce_once kvs b : kvs <> [] -> r (Some (keys_of kvs)) (values_of kvs) = Ok b -> reduces r kvs b
| reduce_again kss bs b : kss <> [] -> Forall2 (reduces r) kss bs -> r None bs = Ok b -> reduces r (concat kss) b.

(** ** Numbers *)

(** The decimal digits of a number. *)
Fixpoint dec (fuel : nat) (n : N) : bytes :=
  match fuel with
  | O => []
  | S k => if n <? 10 then [48 + n] else dec k (n / 10) ++ [48 + n mod 10]
  end.
Definition decimal (n : N) : bytes := dec (S (N.size_nat n)) n.
Definition integer (z : Z) : bytes := (if (z <? 0)%Z then 45 :: decimal (Z.abs_N z) else decimal (Z.abs_N z)).
Definition zsum (l : list Z) : Z := fold_right Z.add 0%Z l.
Definition zmin (z : Z) (l : list Z) : Z := fold_right Z.min z l.
Definition zmax (z : Z) (l : list Z) : Z := fold_right Z.max z l.
Definition squares (l : list Z) : Z := zsum (map (fun z => (z * z)%Z) l).
Definition magnitude (l : list Z) : Z := zsum (map Z.abs l).
(** The text that "_stats" gives for the numbers z and l. *)
Definition text (s : string) : bytes := map N_of_ascii (list_ascii_of_string s).
Definition quoted (s : string) : bytes := [34] ++ text s ++ [34; 58].
Definition stats_json (z : Z) (l : list Z) : bytes :=
  text "{" ++ quoted "sum" ++ integer (zsum (z :: l)) ++ text "," ++ quoted "count" ++ decimal (lenN (z :: l)) ++ text "," ++ quoted "min" ++ integer (zmin z l) ++
  text "," ++ quoted "max" ++ integer (zmax z l) ++ text "," ++ quoted "sumsqr" ++ integer (squares (z :: l)) ++ text "}".

(** What is assumed of the type double and of the C library, with the double [d z] for each integer: integers up to 2^53 are added, squared and compared exactly and are read from
    decimal notation; those with at most [p] digits (6 or 15) are printed in decimal notation. Reading stops at the end, at a comma and at a brace. *)
Definition stops (l : bytes) : Prop := l = [] \/ exists r, l = 44 :: r \/ l = 125 :: r.
Record DoubleOk (D : Double) (d : Z -> dbl) : Prop := {
  dok_zero : d_zero = d 0%Z;
  dok_add : forall a b, (Z.abs a <= 2^53)%Z -> (Z.abs b <= 2^53)%Z -> (Z.abs (a + b) <= 2^53)%Z -> d_add (d a) (d b) = d (a + b)%Z;
  dok_sqr : forall a, (a * a <= 2^53)%Z -> d_mul (d a) (d a) = d (a * a)%Z;
  dok_lt : forall a b, (Z.abs a <= 2^53)%Z -> (Z.abs b <= 2^53)%Z -> d_lt (d a) (d b) = (a <? b)%Z;
  dok_strtod : forall a l, (Z.abs a <= 2^53)%Z -> stops l -> d_strtod (integer a ++ l) = Some (d a, l);
  dok_scan : forall a l, (Z.abs a <= 2^53)%Z -> stops l -> d_scan (integer a ++ l) = Some (d a, l);
  dok_print6 : forall a, (Z.abs a < 10^6)%Z -> d_print 6 (d a) = integer a;
  dok_print15 : forall a, (Z.abs a < 10^15)%Z -> d_print 15 (d a) = integer a
}.
(** The text of a number that the functions "_sum" and "_stats" accept: 1 to 31 bytes, and strtod takes all of it. *)
Definition number_text {D : Double} (b : bytes) : Prop := 1 <= lenN b <= 31 /\ exists x, d_strtod (c_string b) = Some (x, []).
