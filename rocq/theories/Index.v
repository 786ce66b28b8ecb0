(** Index files, the combined ("master") index, blob lookup maps and the
    indexing loop.  Models src/index.rs. *)

From Verif Require Import Base OMap Cbor Formats Hashing Pack.

(** src/index.rs:42 *)
Definition index_magic : bytes := ascii_bytes "MKBAKIDX1".

(** src/index.rs:53 [Default for Index]. *)
Definition index_default : index := mkIndex [] [].

(** src/index.rs:59-64 [is_empty]. *)
Definition index_is_empty (ix : index) : bool :=
  match ix_supersedes ix, ix_packs ix with [], [] => true | _, _ => false end.

Section files.
Variable H : bytes -> oid.
Variable zdec : bytes -> bytes * bool.

(** src/index.rs:173-188 [to_file]: the id of an index; [z] is the compressed stream. *)
Definition index_id (ix : index) : oid := H (enc_index ix).
Definition index_file (z : bytes) : bytes := index_magic ++ z.

(** src/index.rs:326-335 [from_reader]. *)
Definition index_from_reader (file : bytes) : result (index * oid) :=
  let* body := check_magic index_magic file in
  let* (ix, id, _) := from_hashing_reader H dec_index (zdec body).1 in
  Ok (ix, id).

(** src/index.rs:337-350 [read_wip]; [file] is the WIP file's content, if there is one. *)
Definition read_wip (file : option bytes) : result (option index) :=
  match file with
  | None => Ok None
  | Some f => let* (ix, _) := index_from_reader f in Ok (Some ix)
  end.

(** src/index.rs:354-365 [load]; [file] is what the backend returns for [id]. *)
Definition index_load (id : oid) (file : option bytes) : result index :=
  let* f := of_option file in
  let* (ix, cid) := index_from_reader f in
  let* _ := ensure (bool_decide (id = cid)) in
  Ok ix.

End files.

(** ** The combined index (src/index.rs:199-260)

    [Results] of the loading threads: superseded ids and loaded indexes. *)

Record results := mkResults { rs_superseded : list oid; rs_loaded : list (oid * list (oid * manifest)) }.

(** One loading thread's critical section (lines 221-234). *)
Definition results_add (rs : results) (f : oid * index) : result results :=
  let sup := foldl (fun s k => os_insert k s) (rs_superseded rs) (ix_supersedes f.2) in
  let* _ := ensure (match om_get f.1 (rs_loaded rs) with None => true | Some _ => false end) in
  Ok (mkResults sup (om_insert f.1 (ix_packs f.2) (rs_loaded rs))).

Fixpoint results_of (rs : results) (files : list (oid * index)) : result results :=
  match files with
  | [] => Ok rs
  | f :: files' => let* rs' := results_add rs f in results_of rs' files'
  end.

(** [BTreeMap::remove]. *)
Definition om_remove {A} (k : bytes) (m : list (bytes * A)) : list (bytes * A) :=
  filter (fun kv => kv.1 <> k) m.

(** [BTreeMap::append]: the appended map's values win. *)
Definition om_append {A} (m m' : list (bytes * A)) : list (bytes * A) :=
  foldl (fun m kv => om_insert kv.1 kv.2 m) m m'.

(** Lines 241-259. *)
Definition master_of (rs : results) : index :=
  let kept := foldl (fun l s => om_remove s l) (rs_loaded rs) (rs_superseded rs) in
  mkIndex (rs_superseded rs) (foldl (fun m kv => om_append m kv.2) [] kept).

(** [files]: the listed indexes with their contents, in the order in which the
    loading threads take the lock. *)
Definition build_master_index (files : list (oid * index)) : result index :=
  let* rs := results_of (mkResults [] []) files in Ok (master_of rs).

(** ** Lookup maps (src/index.rs:268-322) *)

(** Blobs in iteration order, each with its pack. *)
Definition index_entries (ix : index) : list (oid * entry) :=
  concat (map (fun kv => map (fun e => (kv.1, e)) kv.2) (ix_packs ix)).

Definition blob_to_pack_map (ix : index) : result (gmap oid oid) :=
  foldl (fun acc pe =>
    let* m := acc in
    match m !! e_id pe.2 with
    | Some _ => Err
    | None => Ok (<[e_id pe.2 := pe.1]> m)
    end) (Ok ∅) (index_entries ix).

Definition blob_id_set (ix : index) : result (gset oid) :=
  foldl (fun acc pe =>
    let* s := acc in
    if bool_decide (e_id pe.2 ∈ s) then Err else Ok ({[e_id pe.2]} ∪ s)) (Ok ∅) (index_entries ix).

Definition blob_to_size_map (ix : index) : result (gmap oid N) :=
  foldl (fun acc pe =>
    let* m := acc in
    match m !! e_id pe.2 with
    | Some _ => Err
    | None => Ok (<[e_id pe.2 := e_len pe.2]> m)
    end) (Ok ∅) (index_entries ix).

(** ** The indexing loop (src/index.rs:78-152) *)

Record indexer := mkIndexer {
  in_resumable : bool;          (* Resumable::Yes *)
  in_index : index;             (* the index being built *)
  in_persisted : option index;  (* [persisted]: what was last written *)
  in_wip : option index }.      (* content of the WIP file on disk *)

(** Lines 85-93; [wip] is the WIP file found on disk. *)
Definition indexer_start (resumable : bool) (start : index) (wip : option index) : indexer :=
  if negb (index_is_empty start) && resumable
  then mkIndexer resumable start (Some start) (Some start)
  else mkIndexer resumable start None wip.

(** Lines 96-111: one received pack. *)
Definition indexer_recv (st : indexer) (pm : oid * manifest) : result indexer :=
  let* _ := ensure (match om_get pm.1 (ix_packs (in_index st)) with None => true | Some _ => false end) in
  let ix := mkIndex (ix_supersedes (in_index st)) (om_insert pm.1 pm.2 (ix_packs (in_index st))) in
  if in_resumable st
  then Ok (mkIndexer true ix (Some ix) (Some ix))
  else Ok (mkIndexer false ix (in_persisted st) (in_wip st)).

Fixpoint indexer_recv_all (st : indexer) (pms : list (oid * manifest)) : result indexer :=
  match pms with
  | [] => Ok st
  | pm :: pms' => let* st' := indexer_recv st pm in indexer_recv_all st' pms'
  end.

(** Lines 112-151, after the channel closes: the index sent to the uploader, if any. *)
Definition indexer_end (st : indexer) : indexer * option index :=
  let st' :=
    if negb (index_is_empty (in_index st)) && negb (in_resumable st)
    then mkIndexer (in_resumable st) (in_index st) (Some (in_index st)) (Some (in_index st))
    else st in
  (st', in_persisted st').
