(** Walking a file system: src/fs_tree.rs, the backup walk of src/ui/backup.rs,
    src/filter.rs and the skip lists of src/config.rs. *)

From Verif Require Import Base OMap Formats Hashing Pack Meta Forest.

(** ** The file system, as the walk sees it

    One directory entry with what [tree::get_metadata] (src/tree.rs:229-252) says
    about it and what [read_dir], [read_link] or reading the file returns.  The
    constructor is what [metadata.kind()] answers.  Simplifications: the file
    system does not change during the walk and no I/O error occurs.  With
    [Symlink::Dereference] the tree is what one sees through the links. *)
Inductive fsnode :=
| FsFile (m : metadata) (content : bytes)
| FsDir (m : metadata) (entries : list (bytes * fsnode))
| FsLink (m : metadata) (target : bytes)
| FsOther (m : metadata).

Definition fs_meta (n : fsnode) : metadata :=
  match n with FsFile m _ | FsDir m _ | FsLink m _ | FsOther m => m end.

Definition slash : byte := x2f.

(** [Utf8Path::join] with a plain name, as [read_dir] makes the paths of entries. *)
Definition join (path name : bytes) : bytes :=
  if bool_decide (path = []) then name
  else if bool_decide (last path = Some slash) then path ++ name
  else path ++ slash :: name.

(** A loop that stops at the first failure. *)
Definition rfold {A St} (f : A -> St -> result St) : list A -> St -> result St :=
  fix go (l : list A) (st : St) : result St :=
    match l with
    | [] => Ok st
    | a :: l' => let* st' := f a st in go l' st'
    end.

(** src/fs_tree.rs:17-49.  The assert on line 22 holds: only files get here. *)
Definition file_changed (m : metadata) (prev : option node) : result bool :=
  match prev with
  | None => Ok true
  | Some p =>
      let* k := node_kind p in
      Ok (if negb (bool_decide (k = KFile)) then true
          else if negb (bool_decide (meta_mtime m = meta_mtime (n_meta p))) then true
          else negb (bool_decide (meta_size m = meta_size (n_meta p))))
  end.

(** src/fs_tree.rs:53-61 [DirectoryEntry]; a changed file comes with what
    reading it gives. *)
Inductive dentry (T : Type) :=
| DDir (t : T)
| DLink (target : bytes)
| DUnchanged
| DChanged (content : bytes).
Arguments DDir {T}. Arguments DLink {T}. Arguments DUnchanged {T}. Arguments DChanged {T}.

(** src/fs_tree.rs:131-141 *)
Definition previous_subtree (prev : option node) : option oid :=
  match prev with
  | Some p => match n_contents p with CDir s => Some s | _ => None end
  | None => None
  end.

(** A path given to the walk: the path, its [file_name] and what is there. *)
Notation fspath := (bytes * bytes * fsnode)%type.

(** src/fs_tree.rs:78-177 [walk_fs].  [S] is the state the closures capture, [I]
    the intermediate value of the directory being walked. *)
Section walk.
Context {S I T : Type}.
Variable pf : forest.
Variable filter : bytes -> bool.
Variable init : I.
Variable visit : S * I -> bytes -> bytes -> metadata -> option node -> dentry T -> result (S * I).
Variable finalize : S -> I -> result (S * T).

(** One iteration of the loop over paths. *)
Fixpoint walk_entry (path name : bytes) (prev : option node) (n : fsnode) (st : S * I) {struct n}
    : result (S * I) :=
  if negb (filter path) then Ok st
  else match n with
  | FsDir m es =>
      let ptree := previous_subtree prev ≫= (fun id => pf !! id) in
      let* (s, i) := rfold (fun (e : bytes * fsnode) st' =>
          walk_entry (join path e.1) e.1 (ptree ≫= om_get e.1) e.2 st') es (st.1, init) in
      let* (s', t) := finalize s i in
      visit (s', st.2) path name m prev (DDir t)
  | FsLink m target => visit st path name m prev (DLink target)
  | FsFile m content =>
      let* changed := file_changed m prev in
      visit st path name m prev (if changed then DChanged content else DUnchanged)
  | FsOther m => Ok st
  end.

Definition walk_fs (paths : list fspath) (ptree : option oid) (s : S) : result (S * T) :=
  let pt := ptree ≫= (fun id => pf !! id) in
  let* (s', i) := rfold (fun (e : fspath) st =>
      walk_entry e.1.1 e.1.2 (pt ≫= om_get e.1.2) e.2 st) paths (s, init) in
  finalize s' i.
End walk.

(** Inserting into a tree under construction (src/ui/backup.rs:504-519,
    src/fs_tree.rs:219-223). *)
Definition tree_insert (name : bytes) (n : node) (t : tree) : result tree :=
  match om_get name t with
  | Some _ => Err
  | None => Ok (om_insert name n t)
  end.

(** ** The backup walk *)

Section backup.
Variable H : bytes -> oid.
(** Where the chunker cuts (src/chunk.rs; see Chunker.v). *)
Variable cuts : bytes -> list bytes.

(** src/chunk.rs:162-176 [chunk_to_blob], for every chunk of a file. *)
Definition chunk_blob (b : bytes) : blob := mkBlob Chunk (H b) b.
Definition tree_blob (t : tree) : blob := mkBlob Tree (tree_id H t) (enc_tree t).
Definition chunk_file (content : bytes) : list blob := map chunk_blob (cuts content).

(** The blobs known to be packed and the blobs handed to the packers, in order;
    each goes to the packer of its type. *)
Record bstate := mkBstate { bs_packed : gset oid; bs_sent : list blob }.

(** [if packed_blobs.insert(id) { send }] (lines 477-487, 533-547). *)
Definition send_new (s : bstate) (b : blob) : bstate :=
  if decide (b_id b ∈ bs_packed s) then s
  else mkBstate ({[b_id b]} ∪ bs_packed s) (bs_sent s ++ [b]).

(** src/ui/backup.rs:426-521 *)
Definition backup_visit (deref : bool) (st : bstate * tree) (path name : bytes) (m : metadata)
    (prev : option node) (e : dentry oid) : result (bstate * tree) :=
  let '(s, t) := st in
  let* (s', c) :=
    match e with
    | DDir sub => Ok (s, CDir sub)
    | DLink target => let* _ := rassert (negb deref) in Ok (s, CSymlink target)
    | DUnchanged =>
        match meta_size m, prev with
        | Some _, Some p => Ok (s, n_contents p)
        | _, _ => Panic
        end
    | DChanged content =>
        let bs := chunk_file content in
        Ok (foldl send_new s bs, CFile (map b_id bs))
    end in
  let* t' := tree_insert name (mkNode c m) t in
  Ok (s', t').

(** src/ui/backup.rs:523-549 *)
Definition backup_finalize (s : bstate) (t : tree) : result (bstate * oid) :=
  match t with
  | [] => Ok (s, empty_id H)
  | _ => Ok (send_new s (tree_blob t), tree_id H t)
  end.

(** src/ui/backup.rs:402-560 [backup_tree], given the filter. *)
Definition backup_tree (deref : bool) (filter : bytes -> bool) (pf : forest) (ptree : option oid)
    (paths : list fspath) (packed : gset oid) : result (bstate * oid) :=
  walk_fs pf filter [] (backup_visit deref) backup_finalize paths ptree (mkBstate packed []).

(** src/fs_tree.rs:181-250 [forest_from_fs] (the [debug_assert] on line 236 is
    left out: release builds drop it). *)
Definition forest_visit (st : unit * (tree * forest)) (path name : bytes) (m : metadata)
    (prev : option node) (e : dentry (oid * forest)) : result (unit * (tree * forest)) :=
  let '(_, (t, fo)) := st in
  let* (fo', c) :=
    match e with
    | DDir (sub, subforest) => Ok (subforest ∪ fo, CDir sub)
    | DLink target => Ok (fo, CSymlink target)
    | DUnchanged => match prev with Some p => Ok (fo, n_contents p) | None => Panic end
    | DChanged content => Ok (fo, CFile (map b_id (chunk_file content)))
    end in
  let* t' := tree_insert name (mkNode c m) t in
  Ok (tt, (t', fo')).

Definition forest_finalize (s : unit) (i : tree * forest) : result (unit * (oid * forest)) :=
  let '(t, fo) := i in
  Ok (tt, (tree_id H t, <[tree_id H t := t]> fo)).

Definition forest_from_fs (pf : forest) (ptree : option oid) (paths : list fspath)
    : result (oid * forest) :=
  let* (_, r) := walk_fs pf (fun _ => true) ([], ∅) forest_visit forest_finalize paths ptree tt in
  Ok r.

End backup.

(** src/ui/backup.rs:362-399 [check_paths]: the bytes counted.  The previous
    tree is absent and nothing is remembered. *)
Definition check_visit (st : N * unit) (path name : bytes) (m : metadata) (prev : option node)
    (e : dentry unit) : result (N * unit) :=
  match e with
  | DUnchanged | DChanged _ =>
      match meta_size m with Some n => Ok (st.1 + n, tt)%N | None => Panic end
  | _ => Ok st
  end.
Definition check_paths (filter : bytes -> bool) (paths : list fspath) : result N :=
  let* (n, _) := walk_fs ∅ filter tt check_visit (fun s i => Ok (s, i)) paths None 0%N in
  Ok n.

(** src/ui/backup.rs:336-348 [reject_matching_directories]. *)
Fixpoint reject_matching (seen : gset bytes) (names : list bytes) : result unit :=
  match names with
  | [] => Ok tt
  | n :: names' => if decide (n ∈ seen) then Err else reject_matching ({[n]} ∪ seen) names'
  end.

(** src/ui/backup.rs:350-360 [parent_snapshot]; the snapshots in chronological order. *)
Definition parent_snapshot (paths : list bytes) (snaps : list (snapshot * oid)) : option snapshot :=
  match List.find (fun s : snapshot * oid => bool_decide (sn_paths s.1 = paths)) (rev snaps) with
  | Some (s, _) => Some s
  | None => None
  end.

(** ** Skip rules *)

(** src/config.rs:106-122 [merge_skips]; sorting and removing duplicates is
    building an ordered set. *)
Definition merge_skips (config args : list bytes) : list bytes :=
  match config with
  | [] => args
  | _ => os_of_list (config ++ args)
  end.

(** src/filter.rs:5-10.  [valid] and [matches] are what the regex crate answers. *)
Definition skip_matching_paths (valid : bytes -> bool) (matches : bytes -> bytes -> bool)
    (skips : list bytes) : result (bytes -> bool) :=
  if forallb valid skips
  then Ok (fun path => negb (existsb (fun r => matches r path) skips))
  else Err.
