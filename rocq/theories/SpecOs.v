(** Specification vocabulary for the default file operations. *)
From Verif Require Import Base IoBuffer OsFile.
Local Open Scope N_scope.
Unset Strict Implicit.

(** The answer is not an interruption by a signal. *)
Definition not_interrupt (a : answer) : bool := match a with Fails EINTR => false | _ => true end.
(** The same state of the system, with no signals to come and none that has come. *)
Definition without_signals (o : os) : os := set_errno None (set_io (filter not_interrupt (o_io o)) o).
(** The system stores and delivers the right bytes, or fails. *)
Definition honest (a : answer) : Prop := match a with Lies _ _ => False | _ => True end.
(** The answer moves at least one byte. *)
Definition moving (a : answer) : Prop := match a with Moves k => 1 <= k | _ => False end.
(** The answer moves at least one byte, or fails. *)
Definition moving_or_failing (a : answer) : Prop := match a with Moves k => 1 <= k | Fails _ => True | Lies _ _ => False end.
(** A write of the bytes [b]: the number of bytes the system says it has written, and the bytes it has stored. *)
Definition stores (b : bytes) (a : answer) : option (N * bytes) :=
  match a with Fails _ => None | Moves k => Some (N.min k (lenN b), take k b) | Lies k w => Some (N.min k (lenN b), w) end.
