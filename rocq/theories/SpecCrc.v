(** Specification of the IEEE 802.3 CRC-32: the remainder of a division of polynomials over the field with two elements. A number stands for
    the polynomial whose coefficient of x^i is its bit i; addition of polynomials is [N.lxor]. *)
From Verif Require Import Base.
Local Open Scope N_scope.

Fixpoint ppos (p : positive) (b : N) : N :=
  match p with
  | xH => b
  | xO p' => N.double (ppos p' b)
  | xI p' => N.lxor b (N.double (ppos p' b))
  end.
(** Product. *)
Definition pmul (a b : N) : N := match a with 0 => 0 | Npos p => ppos p b end.

(** x^32 + x^26 + x^23 + x^22 + x^16 + x^12 + x^11 + x^10 + x^8 + x^7 + x^5 + x^4 + x^2 + x + 1. *)
Definition crc_poly : N := fold_left (fun a i => a + 2^i) [32;26;23;22;16;12;11;10;8;7;5;4;2;1;0] 0.

(** The bits of a byte in the order of transmission: lowest first. *)
Definition byte_bits (x : N) : list bool := map (N.testbit x) [0;1;2;3;4;5;6;7].
Definition bits (msg : bytes) : list bool := flat_map byte_bits msg.
(** The polynomial of a sequence of bits; the first one is the highest coefficient. *)
Definition poly (l : list bool) : N := fold_left (fun a b => 2 * a + N.b2n b) l 0.

(** The 32 bits of a number in reversed order. *)
Definition reflected (r c : N) : Prop := c < 2^32 /\ forall i, i < 32 -> N.testbit c i = N.testbit r (31 - i).

(** [c] is the CRC-32 of [msg]: the message times x^32, its first 32 coefficients inverted, divided by the polynomial leaves the remainder [r]; [c] is [r]
    inverted and reflected. *)
Definition is_crc32 (msg : bytes) (c : N) : Prop :=
  exists q r, r < 2^32 /\
    N.lxor (poly (bits msg) * 2^32) (0xFFFFFFFF * 2^(8 * lenN msg)) = N.lxor (pmul q crc_poly) r /\
    reflected (N.lxor r 0xFFFFFFFF) c.
