(** Model of src/check.cc: the program couch_check, which goes through the indexes and the documents of a file. *)
From Verif Require Import Base Codec File Header Btree BtreeRead SpecMap Db Walk.
Local Open Scope N_scope.
Unset Strict Implicit.

(** The options 0 of the enumerations, src/check.cc:106, 114, 122. *)
Definition no_options : enumopts := EnumOpts false false false.

Section Check.
Context {E : Env}.

(** src/check.cc:40-57 callback_and_access_document; the context is a counter. [Err]: exit(1) with a message. *)
Definition access_document (d : db) (i : doc_info) (n : N) : res unit * N :=
  match open_doc_with_docinfo d i true with
  | Ok _ => (Ok tt, n)
  | Err e => if di_deleted i && match e with E_DOC_NOT_FOUND => true | _ => false end then (Ok tt, n) else (Err e, n)
  end.
(** src/check.cc:59-78 callback_and_access_local_document. [Err]: exit(1) with a message. *)
Definition access_local (d : db) (depth : N) (x : item) (u : unit) : res unit * unit :=
  match x with
  | INode _ _ => (Ok tt, u)
  | IDoc i => match open_local_document d (di_id i) with
      | Ok _ => (Ok tt, u)
      | Err E_DOC_NOT_FOUND => (Ok tt, u)
      | Err e => (Err e, u)
      end
  end.
(** src/check.cc:80-82 callback; the context is a counter. *)
Definition look_at (i : doc_info) (n : N) : res unit * N := (Ok tt, n).

(** src/check.cc:102-143, main with an open database: the exit code. *)
Definition check (d : db) : N :=
  match walk_local_tree d [] no_options (access_local d) tt with
  | (Err _, _) => 1
  | (Ok _, _) =>
      match changes_since d 0 no_options (access_document d) 0 with
      | (Err _, _) => 1
      | (Ok _, seq_count) =>
          match all_docs d [] no_options look_at 0 with
          | (Err _, _) => 1
          | (Ok _, id_count) => if seq_count =? id_count then 0 else 1
          end
      end
  end.
(** src/check.cc:84-143 main with one argument; [opened]: the result of couchstore_open_db, without which the database is a null pointer (src/couch_db.cc:965), to which
    print_error (src/check.cc:31-38) refers. *)
Definition check_main (opened : res db) : res N := match opened with Err _ => Err E_UB | Ok d => Ok (check d) end.
End Check.
