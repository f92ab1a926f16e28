(** Sessions: what a user does with one database over its lifetime - create it, save documents and local documents, commit,
    crash or close, open it again, compact it into a new file, and replay there what has changed since - together with the contents that each of these actions is to produce. *)
From Verif Require Import Base SpecOrder Codec File Header History Btree BtreeRead SpecMap Db SpecDb Compact SpecCompact Replay SpecReplay.
Local Open Scope N_scope.

(** A header in the file and the contents it is to show. *)
Record version := Version { vn_pos : N; vn_contents : contents }.

(** The handle; its contents, uncommitted changes included; the last acknowledged commit; older ones, newest first; commits
    that failed after their header had been written, since the last acknowledged one. *)
Record session := Session {
  ss_db : db;
  ss_now : contents;
  ss_ack : option version;
  ss_old : list version;
  ss_pend : list version
}.

Definition small_root (r : option node_pointer) : Prop := match r with Some p => np_subtree p < 2^48 | None => True end.

(** Limits of the format: a file below 128 TiB without chunks of 2 GiB, indexes below 256 TiB; and the kernel did not drop unsynced
    data. *)
Record room (d : db) : Prop := {
  rm_big : big (dbf d) = false;
  rm_lost : lost (dbf d) = false;
  rm_pos : fpos (dbf d) < 2^47;
  rm_id : small_root (h_by_id (dbh d));
  rm_seq : small_root (h_by_seq (dbh d));
  rm_local : small_root (h_local (dbh d))
}.

Definition outcome {A} (r : res A) (yes no : contents) : contents := match r with Ok _ => yes | Err _ => no end.

Section WithEnv.
Context {E : Env}.
Variable key : option keyinfo.
Variable getkey : N -> bytes -> bytes -> res N.

(** Writing through the open handle. Each call may succeed or fail. *)
Inductive write : session -> session -> Prop :=
| write_docs s c o cb l R :
    2 <= c_kv c -> save_documents c o cb l (ss_db s) = R -> batch_ok o l (ss_now s) -> room (sv_db R) ->
    write s (Session (sv_db R) (outcome (sv_res R) (save o l (ss_now s)) (ss_now s)) (ss_ack s) (ss_old s) (ss_pend s))
| write_local s c x r d :
    2 <= c_kv c -> save_local_document c (ss_db s) x = (r, d) -> local_fits x -> room d ->
    write s (Session d (outcome r (save_locals [x] (ss_now s)) (ss_now s)) (ss_ack s) (ss_old s) (ss_pend s))
| write_locals s c l r d :
    2 <= c_kv c -> save_local_documents c (ss_db s) l = (r, d) -> Forall local_fits l -> NoDup (map ld_id l) -> room d ->
    write s (Session d (outcome r (save_locals l (ss_now s)) (ss_now s)) (ss_ack s) (ss_old s) (ss_pend s))
| write_commit s ts n r d :
    ts < 2^64 -> fpos (dbf (ss_db s)) + BLOCK < 2^47 -> commit_ex (ss_db s) ts n = (r, d) -> lost (dbf d) = false ->
    let v := Version (align (fpos (dbf (ss_db s)))) (ss_now s) in
    write s (match r with
             | Ok _ => Session d (ss_now s) (Some v) (opt_list (ss_ack s) ++ ss_old s) []
             | Err _ =>
                 if fpos (dbf d) =? fpos (dbf (ss_db s)) then Session d (ss_now s) (ss_ack s) (ss_old s) (ss_pend s)
                 else Session d (ss_now s) (ss_ack s) (ss_old s) (v :: ss_pend s)
             end).

(** A crash or a close at any time, then opening what is left of the file. *)
Inductive reopen : session -> session -> Prop :=
| reopen_same s g gsz pl recovery d v :
    crash_image (dbf (ss_db s)) g gsz -> open_existing (image g gsz pl) getkey recovery false = Ok d ->
    ss_ack s = Some v -> vn_pos v = h_position (dbh d) ->
    reopen s (Session d (vn_contents v) (Some v) (ss_old s) [])
| reopen_newer s g gsz pl recovery d v0 v :
    crash_image (dbf (ss_db s)) g gsz -> open_existing (image g gsz pl) getkey recovery false = Ok d ->
    ss_ack s = Some v0 -> In v (ss_pend s) -> vn_pos v = h_position (dbh d) ->
    reopen s (Session d (vn_contents v) (Some v) (v0 :: ss_old s) []).

(** Any number of writes. *)
Inductive writing : session -> session -> Prop :=
| wg_refl s : writing s s
| wg_step s s1 s2 : writing s s1 -> write s1 s2 -> writing s s2.

(** ** Snapshots *)

(** [h] is the header of the handle, or the one that the file has at the position of a commit in effect. *)
Definition snapshot (s : session) (h : header) (v : contents) : Prop :=
  (h = dbh (ss_db s) /\ v = ss_now s) \/
  exists x, In x (opt_list (ss_ack s) ++ ss_old s) /\ find_header_at_pos (dbf (ss_db s)) header0 (vn_pos x) = (Ok tt, h) /\ v = vn_contents x.

(** A handle with the header [h] on the file of [s]; [p]: its own append position. *)
Definition reader (s : session) (h : header) (p : N) : db := Db (set_fpos (dbf (ss_db s)) p) h false.

End WithEnv.

Inductive sessions {E : Env} (key : option keyinfo) (getkey : N -> bytes -> bytes -> res N) : session -> Prop :=
| sess_new pl legacy no_commit d :
    (key = None \/ legacy = false) -> open_new (empty_file pl) key legacy no_commit = (Ok tt, d) -> lost (dbf d) = false ->
    sessions key getkey (Session d no_contents None (if no_commit then [] else [Version (h_position (dbh d)) no_contents]) [])
| sess_old pl v d :
    (v = 12 \/ v = 13) -> key = None ->
    db_write_header (Db (set_crcm (empty_file pl) CRC32C) (Header v 0 None None None 0 0 0 0 NO_PREV false) false) B_HEADER = (Ok tt, d) ->
    lost (dbf d) = false ->
    sessions key getkey (Session d no_contents None [Version (h_position (dbh d)) no_contents] [])
| sess_write s s' : sessions key getkey s -> write s s' -> sessions key getkey s'
| sess_reopen s s' : sessions key getkey s -> reopen getkey s s' -> sessions key getkey s'
| sess_compact key0 getkey0 s h v p c o pol pl d :
    (** successful compaction of a snapshot of a session into a new file, which may have another key; the file is then the target *)
    key_ok key0 getkey0 -> sessions key0 getkey0 s -> snapshot s h v -> fpos (dbf (ss_db s)) <= p <= size (dbf (ss_db s)) ->
    (key0 = None <-> key = None) -> (key = None \/ 11 < h_version h \/ co_upgrade o = true) ->
    co_recovery o = false -> Forall (follows o pol) (v_docs v) ->
    h_purge_ptr h = 0 -> h_purge_seq h + 1 < 2^48 -> h_timestamp h < 2^64 ->
    compact c o (reader s h p) (empty_file pl) key = (Ok tt, d) -> room d -> fpos (dbf d) + BLOCK < 2^47 ->
    sessions key getkey (Session d (compacted pol v) (Some (Version (h_position (dbh d)) (compacted pol v))) [] [])
| sess_replay key0 getkey0 s0 h1 v1 p c limit hook since s d :
    (** successful replay, into this database, of what a snapshot of a session has above the sequence number [since]; the commit is a write of its own *)
    key_ok key0 getkey0 -> sessions key0 getkey0 s0 -> sessions key getkey s -> snapshot s0 h1 v1 ->
    fpos (dbf (ss_db s0)) <= p <= size (dbf (ss_db s0)) -> 2 <= c_kv c -> v_seq (ss_now s) <= since -> since + 1 < 2^48 ->
    Forall storable (v_docs v1) ->
    replay_changes c limit hook (reader s0 h1 p) since (ss_db s) = (Ok tt, d) -> room d ->
    sessions key getkey (Session d (caught_up since v1 (ss_now s)) (ss_ack s) (ss_old s) (ss_pend s)).

Section WithEnv.
Context {E : Env}.

(** ** What a handle shows *)

(** Document information [i] given out for the revision [r]: it describes the revision and opens its body. *)
Definition shown (d : db) (i : doc_info) (r : revision) : Prop :=
  about i r /\ forall dec, body_read r dec (open_doc_with_docinfo d i dec).

(** Enumerating: the delivered infos stand for exactly the revisions that satisfy [sel], in ascending order. *)
Definition delivers (d : db) (v : contents) (before : revision -> revision -> Prop) (sel : revision -> Prop)
    (run : forall U : Type, (doc_info -> U -> res unit * U) -> U -> res unit * U) : Prop :=
  exists rs is, (forall r, In r rs <-> In r (v_docs v) /\ sel r) /\ StronglySorted before rs /\ Forall2 (shown d) is rs /\
    forall U cb (u : U), run U cb u = feed cb is u.
Definition id_before (a b : revision) : Prop := lex (rv_id a) (rv_id b).
Definition seq_before (a b : revision) : Prop := rv_seq a < rv_seq b.

(** Selected by the options of the enumeration. *)
Definition picked (o : enumopts) (r : revision) : Prop :=
  (eo_deletes_only o = true -> rv_deleted r = true) /\ (eo_no_deletes o = true -> rv_deleted r = false).

(** The handle [d] shows the contents [v]. *)
Record shows_contents (d : db) (v : contents) : Prop := {
  sc_seq : h_update_seq (dbh d) = v_seq v;
  (** a lookup by id finds the current revision, and its body can be opened *)
  sc_id : forall id,
    match find_doc id (v_docs v) with
    | Some r => exists i, docinfo_by_id d id = Ok i /\ shown d i r /\ forall dec, open_document d id dec = open_doc_with_docinfo d i dec
    | None => docinfo_by_id d id = Err E_DOC_NOT_FOUND /\ forall dec, open_document d id dec = Err E_DOC_NOT_FOUND
    end;
  (** a lookup by sequence number finds the document whose current revision has it *)
  sc_by_seq : forall n, n < 2^48 ->
    match find (fun r => rv_seq r =? n) (v_docs v) with
    | Some r => exists i, docinfo_by_sequence d n = Ok i /\ shown d i r
    | None => docinfo_by_sequence d n = Err E_DOC_NOT_FOUND
    end;
  (** the two enumerations *)
  sc_all : forall start o, eo_tolerate o = false ->
    delivers d v id_before (fun r => lex_le start (rv_id r) /\ picked o r) (fun U cb u => all_docs d start o cb u);
  sc_changes : forall since o, eo_tolerate o = false -> since < 2^48 ->
    delivers d v seq_before (fun r => since <= rv_seq r /\ picked o r) (fun U cb u => changes_since d since o cb u);
  (** local documents *)
  sc_local : forall id, open_local_document d id =
    match find_local id (v_locals v) with Some x => Ok (LocalDoc (fst x) (snd x) false) | None => Err E_DOC_NOT_FOUND end
}.

(** Database information without the file size. *)
Definition but_size (x : res dbinfo) : res dbinfo :=
  match x with Ok i => Ok (DbInfo (in_seq i) (in_purge i) (in_docs i) (in_deleted i) (in_space i) 0 (in_pos i)) | Err e => Err e end.

(** Every read of documents gives the same through both handles. *)
Record same_docs (a b : db) : Prop := {
  sr_id : forall id, docinfo_by_id a id = docinfo_by_id b id;
  sr_seq : forall n, n < 2^48 -> docinfo_by_sequence a n = docinfo_by_sequence b n;
  sr_open : forall id dec, open_document a id dec = open_document b id dec;
  sr_open_info : forall id i dec, docinfo_by_id a id = Ok i -> open_doc_with_docinfo a i dec = open_doc_with_docinfo b i dec;
  sr_all : forall start o U cb (u : U), eo_tolerate o = false -> all_docs a start o cb u = all_docs b start o cb u;
  sr_changes : forall since o U cb (u : U), eo_tolerate o = false -> since < 2^48 -> changes_since a since o cb u = changes_since b since o cb u;
  sr_ids : forall ids U cb (u : U), docinfos_by_id a ids false false cb u = docinfos_by_id b ids false false cb u;
  sr_seqs : forall ns U cb (u : U), Forall (fun n => n < 2^48) ns -> docinfos_by_sequence a ns false false cb u = docinfos_by_sequence b ns false false cb u;
  sr_id_range : forall lo hi U cb (u : U), docinfos_by_id a [lo; hi] true false cb u = docinfos_by_id b [lo; hi] true false cb u;
  sr_seq_range : forall lo hi U cb (u : U), lo < 2^48 -> hi < 2^48 ->
    docinfos_by_sequence a [lo; hi] true false cb u = docinfos_by_sequence b [lo; hi] true false cb u;
  sr_count : forall x y, x < 2^48 -> y < 2^48 -> changes_count a x y = changes_count b x y
}.

(** Every read gives the same through both handles. *)
Record same_reads (a b : db) : Prop := {
  sr_docs : same_docs a b;
  sr_local : forall id, open_local_document a id = open_local_document b id;
  sr_info : but_size (db_info a) = but_size (db_info b)
}.

(** ** Calls of the save callback *)

(** The arguments of the calls: old information if any, new information, the user's request (src/btree_modify.cc:441-466). *)
Definition save_call (e : event) : list (res (option doc_info) * res doc_info * N) :=
  match e with
  | EvFetch _ _ | EvPurgeKv _ _ | EvPurgeKp _ => []
  | EvSave k old new req =>
      [(match old with Some b => let* i := by_id_read_docinfo k b in Ok (Some i) | None => Ok None end, by_id_read_docinfo k new, req)]
  end.
Definition save_calls (l : list event) : list (res (option doc_info) * res doc_info * N) := flat_map save_call l.

(** The old information of a call, when looking the id up before the save gives [x]. *)
Definition before_of (x : res doc_info) : res (option doc_info) := match x with Ok i => Ok (Some i) | Err _ => Ok None end.

(** ** Errors *)

(** The system reports failed writes with the error code for writes (src/os.cc:130-210). *)
Definition plan_ok (f : file) : Prop := Forall (fun s => match w_err s with Some e => e = E_WRITE | None => True end) (plan f).
(** A write has failed; compressing has failed; a chunk is too large for encryption. *)
Definition io_error (e : err) : Prop := match e with E_WRITE | E_CORRUPT | E_ENCRYPT => True | _ => False end.

(** ** Index nodes *)

(** The subtree at [pos] has all its leaves at depth [d], holds the entries [kvs] in this order, and its nodes occupy [n] bytes of the file
    (per node: the stored bytes and the chunk overhead). *)
Definition overhead (f : file) : N := match fkey f with None => 8 | Some _ => 4 + mac_size end.
Inductive subtree (f : file) : nat -> N -> list kv -> N -> Prop :=
| sub_leaf pos z b kvs : pread_bin f pos = Ok z -> uncompress z = Some b -> hd_error b = Some KV_NODE -> node_items b = (kvs, TEnd) -> kvs <> [] ->
    subtree f 0 pos kvs (overhead f + lenN z)
| sub_inner d pos z b entries cs kss ns : pread_bin f pos = Ok z -> uncompress z = Some b -> hd_error b = Some KP_NODE ->
    node_items b = (entries, TEnd) -> entries <> [] -> Forall2 (fun e c => read_pointer (fst e) (snd e) = Ok c) entries cs ->
    subtrees f d cs kss ns -> subtree f (S d) pos (concat kss) (overhead f + lenN z + fold_right N.add 0 ns)
with subtrees (f : file) : nat -> list node_pointer -> list (list kv) -> list N -> Prop :=
| subs_nil d : subtrees f d [] [] []
| subs_cons d c cs ks kss n ns : subtree f d (np_pointer c) ks n -> np_key c = last (map fst ks) [] -> subtrees f d cs kss ns ->
    subtrees f d (c :: cs) (ks :: kss) (n :: ns).

(** The index with the root [r] holds the entries [kvs] in this order in nodes of together [n] bytes. *)
Definition index (f : file) (r : option node_pointer) (kvs : list kv) (n : N) : Prop :=
  match r with
  | None => kvs = [] /\ n = 0
  | Some p => exists d, subtree f d (np_pointer p) kvs n
  end.

(** The space that a document body takes in the file. *)
Definition body_size (d : db) (i : doc_info) : N :=
  if di_bp i =? 0 then 0 else match pread_bin (dbf d) (di_bp i) with Ok z => overhead (dbf d) + lenN z | Err _ => 0 end.
Definition total {A} (g : A -> N) (l : list A) : N := fold_right (fun x a => g x + a) 0 l.
End WithEnv.
