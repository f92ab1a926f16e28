(** Model of src/dbdump.cc, the program couch_dbdump: listing documents with --json. *)
From Verif Require Import Base Codec File Header Btree BtreeRead SpecMap Db Dbinfo Dbdump.
Local Open Scope N_scope.

(** src/dbdump.cc:587-662, the body of one document with --json: null; left out, since the function returns before it prints (line 613); the program is ended by an exception that nothing catches
    (lines 619-624, 639); the size of the document, the text of its extended attributes, and its value. *)
Inductive jbody := JNull | JSkip | JAbort | JBody (n : N) (xattrs value : bytes).
(** What is printed about one document: its information and its body. *)
Record jprinted := JPrinted { jp_info : doc_info; jp_body : jbody }.
(** The output so far; whether the program has been ended by an exception. *)
Record jstate := JState { js_out : list jprinted; js_dead : bool }.

(** src/dbdump.cc:427, 493-511: the datatype, from metadata of at least 18 bytes. *)
Definition datatype (m : bytes) : N := if 18 <=? lenN m then nth 17 m 0 else 0.

Section Print.
(** Libraries that are not in /repo: cb::compression::inflateSnappy (src/dbdump.cc:604-607; [None] if it fails); cb::xattr::Blob and its text (lines 619-624; [None] if it throws; else the text and what
    follows the attributes); nlohmann::json::parse (line 639; false if it throws). The bits of the datatype, also not in /repo: 1 JSON, 2 snappy, 4 xattr. *)
Variable inflate : bytes -> option bytes.
Variable xattr : bytes -> option (bytes * bytes).
Variable parses : bytes -> bool.
Context {E : Env}.

(** src/dbdump.cc:587-662: the body of a document with --json. *)
Definition json_body (d : db) (i : doc_info) : jbody :=
  match open_doc_with_docinfo d i true with
  | Err _ => JNull
  | Ok data =>
      let t := datatype (di_rev_meta i) in
      match (if negb (N.land t 2 =? 0) && negb (flagged i) then inflate data else Some data) with
      | None => JSkip
      | Some b =>
          match (if negb (N.land t 4 =? 0) then xattr b else Some ([], b)) with
          | None => JAbort
          | Some (x, b') => if negb (N.land t 1 =? 0) && negb (parses b') then JAbort else JBody (lenN data) x b'
          end
      end
  end.

(** src/dbdump.cc:421-691 foldprint with --json; [body] is false with --no-body. After an exception nothing happens any more. How ids, metadata and values are formatted is not modelled. *)
Definition foldprint_json (body : bool) (d : db) (i : doc_info) (u : jstate) : res unit * jstate :=
  if js_dead u then (Ok tt, u) else
  match (if body then json_body d i else JNull) with
  | JSkip => (Ok tt, u)
  | JAbort => (Ok tt, JState (js_out u) true)
  | b => (Ok tt, JState (js_out u ++ [JPrinted i b]) false)
  end.

(** src/dbdump.cc:959-993 with --json: one pass over the documents of the current header. *)
Definition dump_once_json (body : bool) (m : dump_mode) (d : db) : res unit * jstate :=
  let u0 := JState [] false in
  match m with
  | BySequence => changes_since d 0 (EnumOpts false false true) (foldprint_json body d) u0
  | ById => all_docs d [] (EnumOpts false false true) (foldprint_json body d) u0
  | OneKey k => match docinfo_by_id d k with Ok i => (Ok tt, snd (foldprint_json body d i u0)) | Err e => (Err e, u0) end
  end.

(** src/dbdump.cc:901-1059 process_vbucket_file with --json and without --iterate-headers, on an existing non-empty file; [offset]: --header-offset. *)
Definition dump_json_file (f : file) (getkey : N -> bytes -> bytes -> res N) (offset : option N) (body : bool) (m : dump_mode) : res unit * jstate :=
  match open_at f getkey offset with
  | Err e => (Err e, JState [] false)
  | Ok d => dump_once_json body m d
  end.
End Print.
