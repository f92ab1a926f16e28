(** A concrete environment for the examples: "compression" that adds a tag byte, sums as checksums, and a
    "cipher" that shifts bytes and appends a one-byte code. *)
From Verif Require Import Base File.
Local Open Scope N_scope.

Definition sum (l : bytes) : N := fold_right N.add 0 l.

(** Not part of the code: stands for the external libraries. *)
Definition env0 : Env := MkEnv
  (fun x => Some (7 :: x))
  (fun y => match y with 7 :: x => Some x | _ => None end)
  (fun x => (sum x * 31 + lenN x) mod 2^32)
  (fun x => (sum x * 17 + 3) mod 2^32)
  (fun k n x => map (fun b => b + k + n) x ++ [k])
  (fun k n y => match rev y with
                | c :: r => if c =? k then Some (map (fun b => b - (k + n)) (rev r)) else None
                | [] => None
                end)
  1.

Lemma env0_ok : EnvOk env0.
Proof.
  constructor; cbn.
  - intros x y H. inv H. reflexivity.
  - intros x. apply N.mod_lt. discriminate.
  - intros x. apply N.mod_lt. discriminate.
  - intros k n x. rewrite rev_app_distr. cbn. rewrite N.eqb_refl, rev_involutive, map_map. f_equal.
    rewrite <- (map_id x) at 2. apply map_ext. intros a. lia.
  - intros k n x. now rewrite lenN_app, lenN_map.
Qed.
