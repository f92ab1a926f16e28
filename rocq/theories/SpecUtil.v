(** Specification vocabulary for the small components. *)
From Verif Require Import Base Alloc Bitmap SortedList PSync.
From Coq Require Export Sorting.Sorted Permutation.
Local Open Scope N_scope.

(** ** Fatbuf: a sequence of requests, each with its result. *)
Fixpoint fatbuf_gets (fb : fatbuf) (sizes : list N) : list (N * option N) :=
  match sizes with
  | [] => []
  | n :: r => let '(o, fb') := fatbuf_get fb n in (n, o) :: fatbuf_gets fb' r
  end.
(** Bytes granted. *)
Definition granted (l : list (N * option N)) : N := fold_right (fun x a => match snd x with Some _ => fst x + a | None => a end) 0 l.

(** ** Arena *)

(** A block given out: address and size. *)
Definition block : Type := N * N.
Definition disjoint (x y : block) : Prop := fst x + snd x <= fst y \/ fst y + snd y <= fst x.
(** The block lies in the chunk. *)
Definition inside (x : block) (c : chunk) : Prop := ch_start c <= fst x /\ fst x + snd x <= ch_end c.
(** The system hands out separate pieces of memory: header and bytes of the one are apart from those of the other. *)
Definition apart (c d : chunk) : Prop := ch_end c <= ch_start d - HDR \/ ch_end d <= ch_start c - HDR.
Definition system_ok (a : arena) : Prop := ForallOrdPairs apart (ar_chunks a) /\ Forall (fun c => HDR < ch_start c) (ar_chunks a).

(** Use of an arena: the blocks in use, and the marks taken with the blocks in use at that time (newest first). *)
Inductive arena_use : arena -> list block -> list (N * list block) -> Prop :=
| au_new n : arena_use (new_arena n) [] []
| au_alloc a bs ms n base p a' : arena_use a bs ms -> arena_alloc a n base = (p, a') -> system_ok a' -> arena_use a' ((p, n) :: bs) ms
| au_alloc_unaligned a bs ms n base p a' : arena_use a bs ms -> arena_alloc_unaligned a n base = (p, a') -> system_ok a' -> arena_use a' ((p, n) :: bs) ms
| au_mark a bs ms : arena_use a bs ms -> arena_use a bs ((arena_mark a, bs) :: ms)
| au_free a bs newer m old ms a' : arena_use a bs (newer ++ (m, old) :: ms) -> arena_free_from_mark a m = Ok a' -> arena_use a' old ((m, old) :: ms)
| au_free_all a bs ms a' : arena_use a bs ms -> arena_free_all a = Ok a' -> arena_use a' [] [].

(** ** Bitmaps *)

Definition bitmap_ok (bm : bitmap) : Prop := length bm = 128%nat /\ is_bytes bm.
(** The number written in 1024 binary digits, highest byte first. *)
Definition number (bm : bytes) : N := fold_left (fun a b => 256 * a + b) bm 0.

(** ** Sorted lists *)

(** A total preorder. *)
Record total_order {A} (cmp : A -> A -> comparison) : Prop := {
  to_refl : forall x, cmp x x = Eq;
  to_anti : forall x y, cmp y x = CompOpp (cmp x y);
  to_trans : forall x y z, cmp x y = Lt -> cmp y z = Lt -> cmp x z = Lt;
  to_eq : forall x y z, cmp x y = Eq -> cmp x z = cmp y z
}.
Inductive slist_use {A} (cmp : A -> A -> comparison) : slist A -> Prop :=
| su_new : slist_use cmp (sorted_list_create A)
| su_add l e : slist_use cmp l -> slist_use cmp (sorted_list_add cmp l e)
| su_remove l e : slist_use cmp l -> slist_use cmp (sorted_list_remove cmp l e).
Definition all_of {A} (l : slist A) : list A := iterate (S (length (sl_elems l))) (sorted_list_iterator l).

(** ** Periodic sync *)

(** Operations on a handle: a write of which the system takes [n] bytes (or fails), with the result of a sync made by it; an explicit sync. *)
Inductive ps_op := PsWrite (n : option N) (sync_ok : bool) | PsSync (ok : bool).
Definition ps_step (o : ps_op) (f : pfile) : pfile := match o with PsWrite n ok => snd (ps_pwrite n ok f) | PsSync ok => snd (ps_sync ok f) end.
Definition ps_run (l : list ps_op) (f : pfile) : pfile := fold_left (fun f o => ps_step o f) l f.
Definition ps_fine (o : ps_op) : Prop := match o with PsWrite (Some n) ok => n < 2^63 /\ ok = true | _ => True end.

(** ** Open flags *)

(** The number in the [n] bits of [flags] from bit [k] on. *)
Definition field (flags k n : N) : N := (flags / 2^k) mod 2^n.
(** A documented setting with a default: 0 stands for the default, [i] for [unit * 2^(i-1)]. *)
Definition power_setting (i unit default : N) : N := if i =? 0 then default else unit * 2^(i - 1).
