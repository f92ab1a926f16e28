(** Model of src/dbdump.cc, the program couch_dbdump with --iterate-headers: any of its passes over one header, for this header and all older ones. *)
From Verif Require Import Base Codec File Header Btree BtreeRead SpecMap Db Walk Dbinfo DbdumpLocal DbdumpTree.
Local Open Scope N_scope.
Unset Strict Implicit.

Section Loop.
Variable A : Type.
(** The pass over the current header, src/dbdump.cc:958-1036. *)
Variable pass : db -> res unit * A.
Context {E : Env}.
(** src/dbdump.cc:945-1059: the loop over next_header with --iterate-headers; with every pass the position of its header. The outcome of a pass is overwritten by that of the seek (lines 1037-1039).
    The program has one counter for all passes; here every pass has its own. *)
Fixpoint pass_loop (fuel : nat) (d : db) : res unit * list (N * A) :=
  match fuel with
  | O => (Err E_FUEL, [])
  | S n =>
      let here := (h_position (dbh d), snd (pass d)) in
      match seek_dir d DBackward with
      | (Ok _, d') => let '(y, l) := pass_loop n d' in (y, here :: l)
      | (Err E_NO_HEADER, _) => (Ok tt, [here])
      | (Err e, _) => (Err e, [here])
      end
  end.
End Loop.

Section WithEnv.
Context {E : Env}.
(** src/dbdump.cc:995-1000, 1037-1059: --tree --iterate-headers, after opening. *)
Definition tree_loop (m : tree_mode) (fuel : nat) (d : db) : res unit * list (N * tstate) := pass_loop (dump_tree m) fuel d.
(** src/dbdump.cc:1001-1007, 1037-1059: --local --iterate-headers, after opening. *)
Definition local_loop (decode : bytes -> bytes -> option bytes) (parses : bytes -> bool) (json : bool) (fuel : nat) (d : db) : res unit * list (N * list lprinted) :=
  pass_loop (print_local_docs decode parses json None) fuel d.
End WithEnv.
