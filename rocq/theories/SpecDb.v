(** What a database is to its user: documents by id, local documents by id, and the last sequence number; and what
    saving does to them. Nothing here refers to files or indexes. *)
From Verif Require Import Base Codec File SpecMap Db.
Local Open Scope N_scope.

(** A document body: as given by the user, or compressed by couchstore. *)
Inductive content := Raw (b : bytes) | Packed (b : bytes).

(** The current revision of a document; no body for one that was deleted without a body. *)
Record revision := Rev {
  rv_id : bytes;
  rv_seq : N;
  rv_rev_seq : N;
  rv_rev_meta : bytes;
  rv_deleted : bool;
  rv_content_meta : N;
  rv_body : option content
}.

Record contents := Contents { v_docs : list revision; v_locals : list kv; v_seq : N }.
Definition no_contents : contents := Contents [] [] 0.

(** ** Maps as lists *)

Definition same (a b : bytes) : bool := if list_eq_dec N.eq_dec a b then true else false.
Definition put (r : revision) (l : list revision) : list revision := r :: filter (fun x => negb (same (rv_id x) (rv_id r))) l.
Definition find_doc (id : bytes) (l : list revision) : option revision := find (fun x => same (rv_id x) id) l.
Definition put_local (x : local_doc) (l : list kv) : list kv :=
  let rest := filter (fun y => negb (same (fst y) (ld_id x))) l in
  if ld_deleted x then rest else (ld_id x, ld_json x) :: rest.
Definition find_local (id : bytes) (l : list kv) : option kv := find (fun x => same (fst x) id) l.

(** ** Saving *)

(** The revision that saving [x] under the sequence number [seq] makes current. *)
Definition new_rev (o : saveopts) (x : submit) (seq : N) : revision :=
  let i := sb_info x in
  Rev (di_id i) seq (di_rev_seq i) (di_rev_meta i)
    (match sb_body x with None => true | Some _ => di_deleted i end) (di_content_meta i)
    (match sb_body x with
     | None => None
     | Some b => Some (if so_compress o && flagged i then Packed b else Raw b)
     end).

(** Sequence numbers: consecutive, or the given ones; the last sequence number afterwards. *)
Fixpoint new_revs (o : saveopts) (seq : N) (l : list submit) : list revision :=
  match l with
  | [] => []
  | x :: r =>
      if so_as_is o then new_rev o x (di_db_seq (sb_info x)) :: new_revs o seq r
      else new_rev o x (seq + 1) :: new_revs o (seq + 1) r
  end.
Definition last_seq (o : saveopts) (seq : N) (l : list submit) : N :=
  if so_as_is o then fold_left (fun a x => N.max a (di_db_seq (sb_info x))) l seq else seq + lenN l.

Definition save (o : saveopts) (l : list submit) (v : contents) : contents :=
  Contents (fold_left (fun d r => put r d) (new_revs o (v_seq v) l) (v_docs v)) (v_locals v) (last_seq o (v_seq v) l).
Definition save_locals (l : list local_doc) (v : contents) : contents :=
  Contents (v_docs v) (fold_left (fun d x => put_local x d) l (v_locals v)) (v_seq v).

(** The information that the library reports about a revision (its position and stored size are not
    fixed by the contents). *)
Record about (i : doc_info) (r : revision) : Prop := {
  ab_id : di_id i = rv_id r;
  ab_seq : di_db_seq i = rv_seq r;
  ab_rev_seq : di_rev_seq i = rv_rev_seq r;
  ab_rev_meta : di_rev_meta i = rv_rev_meta r;
  ab_deleted : di_deleted i = rv_deleted r;
  ab_content_meta : di_content_meta i = rv_content_meta r
}.

Section WithEnv.
Context {E : Env}.

(** The bytes to be stored for a body. *)
Definition stored_as (c : content) (z : bytes) : Prop :=
  match c with Raw b => z = b | Packed b => compress b = Some z end.

(** What reading the body gives; [dec]: with decompression. *)
Definition body_read (r : revision) (dec : bool) (x : res bytes) : Prop :=
  match rv_body r with
  | None => x = Err E_DOC_NOT_FOUND
  | Some c =>
      if dec && negb (N.land (rv_content_meta r) DOC_IS_COMPRESSED =? 0)
      then match c with
           | Packed b => x = Ok b
           | Raw b => x = match uncompress b with Some y => Ok y | None => Err E_CORRUPT end
           end
      else exists z, stored_as c z /\ x = Ok z
  end.

(** ** Limits of the format *)

Definition fits (o : saveopts) (x : submit) : Prop :=
  let i := sb_info x in
  lenN (di_id i) < 2^12 /\ di_rev_seq i < 2^48 /\ lenN (di_rev_meta i) < 2^27 /\ di_content_meta i < 2^8 /\
  (so_as_is o = true -> di_db_seq i < 2^48) /\
  match rv_body (new_rev o x 0) with
  | None => True
  | Some c => forall z, stored_as c z -> lenN z + mac_size + 8 < 2^28
  end.
(** A batch: all documents fit, no id occurs twice, and sequence numbers stay below 2^48; given sequence numbers are distinct and none of
    them belongs to a document that stays. *)
Record batch_ok (o : saveopts) (l : list submit) (v : contents) : Prop := {
  bt_fits : Forall (fits o) l;
  bt_ids : NoDup (map (fun x => di_id (sb_info x)) l);
  bt_seq : last_seq o (v_seq v) l < 2^48;
  bt_given : so_as_is o = true ->
    NoDup (map (fun x => di_db_seq (sb_info x)) l) /\
    forall r x, In r (v_docs v) -> In x l -> rv_seq r = di_db_seq (sb_info x) ->
      exists y, In y l /\ di_id (sb_info y) = rv_id r
}.
Definition local_fits (x : local_doc) : Prop := lenN (ld_id x) < 2^12 /\ lenN (ld_json x) < 2^28.

(** ** Enumerations *)

(** Calling the user's function on each element until it fails. *)
Fixpoint feed {A U} (cb : A -> U -> res unit * U) (l : list A) (u : U) : res unit * U :=
  match l with
  | [] => (Ok tt, u)
  | i :: r => match cb i u with
              | (Ok _, u') => feed cb r u'
              | (Err e, u') => (Err e, u')
              end
  end.
End WithEnv.
