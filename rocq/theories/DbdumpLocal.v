(** Model of src/dbdump.cc, the program couch_dbdump: listing local documents (--local). *)
From Verif Require Import Base Codec File Header Btree BtreeRead SpecMap Db Dbinfo.
Local Open Scope N_scope.

(** What src/dbdump.cc:770-850 prints about one local document: its key; its value and the size of the stored value, unless decoding fails after the key has been printed. *)
Record lprinted := LPrinted { lp_key : bytes; lp_value : option (bytes * N) }.

(** The two parameters of the callbacks. [decode] stands for maybe_decode_local_doc (not in /repo), called in src/dbdump.cc:784-786 and 815-817: [None] if it fails, else the decoded value, which is empty
    if there was nothing to decode. [parses]: whether nlohmann::json::parse accepts a value, src/dbdump.cc:829-838. *)
Section Print.
Variable decode : bytes -> bytes -> option bytes.
Variable parses : bytes -> bool.

(** src/dbdump.cc:791-794, 822-825: the value that is printed. *)
Definition local_value (b x : bytes) : bytes := match x with [] => b | _ => x end.

(** src/dbdump.cc:770-803 local_doc_print. *)
Definition local_doc_print (k : bytes) (v : option bytes) (u : list lprinted) : res unit * list lprinted :=
  match v with
  | None => (Err E_DOC_NOT_FOUND, u)
  | Some b =>
      match decode k b with
      | None => (Err E_CORRUPT, u ++ [LPrinted k None])
      | Some x => (Ok tt, u ++ [LPrinted k (Some (local_value b x, lenN b))])
      end
  end.

(** src/dbdump.cc:805-850 local_doc_print_json: nothing is printed if decoding or parsing fails. The size is not printed; here it is recorded as 0. How an id that is not UTF-8 is printed is not modelled. *)
Definition local_doc_print_json (k : bytes) (v : option bytes) (u : list lprinted) : res unit * list lprinted :=
  match v with
  | None => (Err E_DOC_NOT_FOUND, u)
  | Some b =>
      match decode k b with
      | None => (Err E_CORRUPT, u)
      | Some x => if parses (local_value b x) then (Ok tt, u ++ [LPrinted k (Some (local_value b x, 0))]) else (Err E_CORRUPT, u)
      end
  end.

Context {E : Env}.

(** src/dbdump.cc:863-899 couchstore_print_local_docs with one of the two callbacks (lines 1001-1006); [key]: --key. *)
Definition print_local_docs (json : bool) (key : option bytes) (d : db) : res unit * list lprinted :=
  match h_local (dbh d) with
  | None => (match key with Some _ => Err E_DOC_NOT_FOUND | None => Ok tt end, [])
  | Some p =>
      let rq := LReq ebin_cmp (if json then local_doc_print_json else local_doc_print) None true in
      match key with
      | None => btree_lookup rq (dbf d) (np_pointer p) [[]] true []
      | Some k => btree_lookup rq (dbf d) (np_pointer p) [k] false []
      end
  end.

(** src/dbdump.cc:901-1059 process_vbucket_file in the mode DumpLocals, on an existing non-empty file, without --iterate-headers and --tree; [offset]: --header-offset. *)
Definition dump_locals_file (f : file) (getkey : N -> bytes -> bytes -> res N) (offset : option N) (json : bool) (key : option bytes) : res unit * list lprinted :=
  match open_at f getkey offset with
  | Err e => (Err e, [])
  | Ok d => print_local_docs json key d
  end.
End Print.
