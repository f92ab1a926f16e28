(** What couch_compact is to do with old deletions. *)
From Verif Require Import Base Codec SpecMap Db SpecDb SpecCompact.
Local Open Scope N_scope.

(** The time in the metadata of a document: the big-endian number in the bytes 8 to 11, if there are 16 bytes at least. *)
Definition meta_time (r : revision) : option N :=
  match rv_rev_meta r with
  | _ :: _ :: _ :: _ :: _ :: _ :: _ :: _ :: a :: b :: c :: d :: _ :: _ :: _ :: _ :: _ => Some (((a * 256 + b) * 256 + c) * 256 + d)
  | _ => None
  end.
(** An old deletion: deleted before the time [ts], with a sequence number up to [upto] (0: any). *)
Definition old_deletion (ts upto : N) (r : revision) : bool :=
  rv_deleted r && match meta_time r with Some t => t <? ts | None => false end && ((upto =? 0) || (rv_seq r <=? upto)).
Definition keep_recent (ts upto : N) : policy := Policy (fun r => negb (old_deletion ts upto r)) rv_rev_meta.
(** The highest sequence number of documents; 0 if there are none. *)
Definition highest (rs : list revision) : N := fold_right (fun r m => N.max (rv_seq r) m) 0 rs.
