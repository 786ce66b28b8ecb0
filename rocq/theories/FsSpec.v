(** What backing up and reading back a file tree should mean, independent of how
    the program walks. *)

From Verif Require Import Base OMap Formats Hashing Pack Meta Forest FsTree.

(** ** Reading a snapshot back

    A repository's blobs: type and contents under each id. *)
Notation store := (gmap oid (blob_type * bytes)).

Definition store_of (bs : list blob) : store :=
  list_to_map (map (fun b => (b_id b, (b_type b, b_bytes b))) bs).

(** The tree with a given id.  The empty tree need not be stored. *)
Definition stored_as (H : bytes -> oid) (st : store) (id : oid) (t : tree) : Prop :=
  if decide (id = empty_id H) then t = []
  else exists b, st !! id = Some (Tree, b) /\ dec_tree b = Some (t, []).

(** A tree the program could have stored: encodable, and every node's metadata
    is of the kind its contents are. *)
Definition tree_sane (t : tree) : Prop :=
  tree_wf t /\ Forall (fun kv : bytes * node => meta_kind (n_meta kv.2) = contents_kind (n_contents kv.2)) t.
Definition forest_sane (pf : forest) : Prop := map_Forall (fun _ t => tree_sane t) pf.

(** [reads H st nd n]: reading everything [nd] refers to gives the file tree [n]. *)
Inductive reads (H : bytes -> oid) (st : store) : node -> fsnode -> Prop :=
| reads_file m cs ps :
    Forall2 (fun c p => st !! c = Some (Chunk, p)) cs ps ->
    reads H st (mkNode (CFile cs) m) (FsFile m (concat ps))
| reads_link m t : reads H st (mkNode (CSymlink t) m) (FsLink m t)
| reads_dir m id t es :
    stored_as H st id t ->
    Forall2 (fun (a : bytes * node) (b : bytes * fsnode) => a.1 = b.1 /\ reads H st a.2 b.2) t es ->
    reads H st (mkNode (CDir id) m) (FsDir m es).

Definition reads_root (H : bytes -> oid) (st : store) (root : oid) (es : list (bytes * fsnode)) : Prop :=
  exists t, stored_as H st root t /\
  Forall2 (fun (a : bytes * node) (b : bytes * fsnode) => a.1 = b.1 /\ reads H st a.2 b.2) t es.

(** A repository's blobs are named by their hash and its trees are proper. *)
Definition store_sane (H : bytes -> oid) (st : store) : Prop :=
  forall id ty x, st !! id = Some (ty, x) ->
    id = H x /\ (ty = Tree -> exists t, dec_tree x = Some (t, []) /\ tree_sane t).

(** ** What should be in a snapshot *)

(** Keep the entries on which [f] is defined. *)
Definition collect {A B} (key : A -> bytes) (f : A -> option B) : list A -> list (bytes * B) :=
  fix go l :=
    match l with
    | [] => []
    | a :: l' => match f a with Some b => (key a, b) :: go l' | None => go l' end
    end.

(** A file tree without what the filter rejects and without special files,
    every directory sorted by name. *)
Fixpoint kept (filter : bytes -> bool) (path : bytes) (n : fsnode) : option fsnode :=
  if negb (filter path) then None
  else match n with
  | FsDir m es =>
      Some (FsDir m (om_of_list (collect fst (fun e : bytes * fsnode => kept filter (join path e.1) e.2) es)))
  | FsOther _ => None
  | _ => Some n
  end.

Definition kept_paths (filter : bytes -> bool) (paths : list fspath) : list (bytes * fsnode) :=
  om_of_list (collect (fun e : fspath => e.1.2) (fun e : fspath => kept filter e.1.1 e.2) paths).

(** ** The nodes and blobs a file tree consists of *)

Inductive item := IChunk (b : bytes) | ITree (t : tree).

(** A file that looks as it did: a file then too, same modification time, same size. *)
Definition looks_unchanged (prev : option node) (m : metadata) : bool :=
  match prev with
  | Some p => bool_decide (contents_kind (n_contents p) = KFile) &&
              bool_decide (meta_mtime m = meta_mtime (n_meta p)) &&
              bool_decide (meta_size m = meta_size (n_meta p))
  | None => false
  end.

Section plan.
Variable H : bytes -> oid.
Variable cuts : bytes -> list bytes.
Variable filter : bytes -> bool.
Variable pf : forest.

Definition plan_tree (l : list (bytes * (node * list item))) : tree :=
  om_of_list (map (fun x => (x.1, x.2.1)) l).
Definition plan_items (l : list (bytes * (node * list item))) : list item :=
  concat (map (fun x => x.2.2) l) ++ [ITree (plan_tree l)].

(** The tree the parent has at this place. *)
Definition ptree_of (prev : option node) : option tree := previous_subtree prev ≫= (fun id => pf !! id).

(** The node an entry becomes, and everything its bytes are needed for, in the
    order of the walk; an unchanged file needs nothing. *)
Fixpoint plan (path : bytes) (prev : option node) (n : fsnode) : option (node * list item) :=
  if negb (filter path) then None
  else match n with
  | FsFile m c =>
      Some (match prev with
            | Some p => if looks_unchanged prev m then (mkNode (n_contents p) m, [])
                        else (mkNode (CFile (map H (cuts c))) m, map IChunk (cuts c))
            | None => (mkNode (CFile (map H (cuts c))) m, map IChunk (cuts c))
            end)
  | FsDir m es =>
      let l := collect fst (fun e : bytes * fsnode =>
                 plan (join path e.1) (ptree_of prev ≫= om_get e.1) e.2) es in
      Some (mkNode (CDir (tree_id H (plan_tree l))) m, plan_items l)
  | FsLink m t => Some (mkNode (CSymlink t) m, [])
  | FsOther _ => None
  end.

Definition plan_list (ptree : option oid) (paths : list fspath) : list (bytes * (node * list item)) :=
  collect (fun e : fspath => e.1.2)
    (fun e : fspath => plan e.1.1 ((ptree ≫= (fun id => pf !! id)) ≫= om_get e.1.2) e.2) paths.

(** The root's id and all items. *)
Definition plan_root (ptree : option oid) (paths : list fspath) : oid :=
  tree_id H (plan_tree (plan_list ptree paths)).
Definition plan_all (ptree : option oid) (paths : list fspath) : list item :=
  plan_items (plan_list ptree paths).

(** An item as a blob; the empty tree is never stored. *)
Definition item_blobs (i : item) : list blob :=
  match i with
  | IChunk b => [chunk_blob H b]
  | ITree [] => []
  | ITree t => [tree_blob H t]
  end.
Definition plan_blobs (ptree : option oid) (paths : list fspath) : list blob :=
  concat (map item_blobs (plan_all ptree paths)).
End plan.

(** ** File trees the types can hold *)

Section ok.
Variable cuts : bytes -> list bytes.
Variable deref : bool.

Fixpoint fs_ok (n : fsnode) : Prop :=
  match n with
  | FsFile m c => meta_kind m = KFile /\ metadata_wf m /\ is_Some (meta_size m) /\ len_wf (cuts c)
  | FsDir m es =>
      meta_kind m = KDirectory /\ metadata_wf m /\ len_wf es /\ NoDup es.*1 /\
      foldr (fun (e : bytes * fsnode) P => (text_wf e.1 /\ fs_ok e.2) /\ P) True es
  | FsLink m t => deref = false /\ meta_kind m = KSymlink /\ metadata_wf m /\ text_wf t
  | FsOther _ => True
  end.

Definition paths_ok (paths : list fspath) : Prop :=
  len_wf paths /\ NoDup (map (fun e : fspath => e.1.2) paths) /\
  Forall (fun e : fspath => text_wf e.1.2 /\ fs_ok e.2) paths.
End ok.

(** ** Finding things by path *)

Fixpoint fs_sub (n : fsnode) (p : list bytes) : option fsnode :=
  match p with
  | [] => Some n
  | x :: p' => match n with FsDir _ es => om_get x es ≫= (fun n' => fs_sub n' p') | _ => None end
  end.
Definition fs_at (es : list (bytes * fsnode)) (p : list bytes) : option fsnode :=
  match p with
  | [] => None
  | x :: p' => om_get x es ≫= (fun n => fs_sub n p')
  end.

(** Between two states of the files, whatever kept its size and modification
    time kept its contents. *)
Definition stamps_honest (before after : list (bytes * fsnode)) : Prop :=
  forall p m0 c0 m c,
    fs_at before p = Some (FsFile m0 c0) -> fs_at after p = Some (FsFile m c) ->
    meta_mtime m = meta_mtime m0 -> meta_size m = meta_size m0 -> c = c0.

(** The same in stored trees. *)
Fixpoint node_sub (fo : forest) (nd : node) (p : list bytes) : option node :=
  match p with
  | [] => Some nd
  | x :: p' =>
      match n_contents nd with
      | CDir s => (fo !! s ≫= om_get x) ≫= (fun nd' => node_sub fo nd' p')
      | _ => None
      end
  end.
Definition node_at (fo : forest) (root : oid) (p : list bytes) : option node :=
  match p with
  | [] => None
  | x :: p' => (fo !! root ≫= om_get x) ≫= (fun nd => node_sub fo nd p')
  end.
