(** What it means for a repository to be in order, independent of how the
    commands work. *)

From Verif Require Import Base OMap Formats Hashing Pack Index Meta Forest FsTree FsSpec Pipeline PipelineFacts Repo.

(** ** What a repository offers *)

(** The indexes that count: nobody says they are superseded. *)
Definition superseded (k : backend) : list oid :=
  concat (map (fun x : oid * index => ix_supersedes x.2) (map_to_list (k_indexes k))).
Definition live_indexes (k : backend) : list index :=
  map snd (List.filter (fun x : oid * index => negb (bool_decide (x.1 ∈ superseded k))) (map_to_list (k_indexes k))).
(** The packs they name, and the blobs in them. *)
Definition live_packs (k : backend) : list (oid * manifest) := concat (map ix_packs (live_indexes k)).
Definition live_blobs (k : backend) : list blob :=
  concat (map (fun pm : oid * manifest => default [] (k_packs k !! pm.1)) (live_packs k)).
Definition repo_store (k : backend) : store := store_of (live_blobs k).

(** Restoring the snapshot gives this file tree. *)
Definition restores (H : bytes -> oid) (k : backend) (sn : snapshot) (es : list (bytes * fsnode)) : Prop :=
  reads_root H (repo_store k) (sn_tree sn) es.

(** Everything the snapshot needs is there. *)
Definition snapshot_complete (H : bytes -> oid) (k : backend) (sn : snapshot) : Prop := exists es, restores H k sn es.

(** ** The blobs there are

    [U] is the set of all blobs that ever come up.  They are named by their
    hash; none is empty; equal names mean equal blobs (no hash collision, no file
    chunk with the bytes of a directory); directories are properly encoded; the
    empty directory is one of them. *)
Record universe (H : bytes -> oid) (U : blob -> Prop) : Prop := {
  un_id : forall b, U b -> b_id b = H (b_bytes b);
  un_bytes : forall b, U b -> b_bytes b <> [];
  un_inj : forall b b', U b -> U b' -> b_id b = b_id b' -> b = b';
  un_tree : forall b, U b -> b_type b = Tree -> exists t, tree_sane t /\ b_bytes b = enc_tree t;
  un_none : U (tree_blob H []) }.

(** ** A repository in order *)

Definition packs_from (H : bytes -> oid) (U : blob -> Prop) (ps : gmap oid (list blob)) : Prop :=
  forall p bs, ps !! p = Some bs -> p = pack_id H (manifest_of bs) /\ Forall U bs.

(** No blob is in two places. *)
Definition once (l : list (oid * manifest)) : Prop :=
  forall p m p' m' n n' e e', (p, m) ∈ l -> (p', m') ∈ l -> m !! n = Some e -> m' !! n' = Some e' ->
    e_id e = e_id e' -> p = p' /\ n = n'.

Record in_order (H : bytes -> oid) (U : blob -> Prop) (k : backend) : Prop := {
  io_packs : packs_from H U (k_packs k);
  io_sorted : forall i ix, k_indexes k !! i = Some ix -> os_sorted (ix_supersedes ix) /\ om_sorted (ix_packs ix);
  (* every index names packs that are there *)
  io_backed : forall i ix p m, k_indexes k !! i = Some ix -> (p, m) ∈ ix_packs ix ->
    exists bs, k_packs k !! p = Some bs /\ manifest_of bs = m;
  io_once : once (live_packs k);
  io_named : forall i sn, k_snaps k !! i = Some sn -> i = snapshot_id H sn;
  io_snaps : forall i sn, k_snaps k !! i = Some sn -> snapshot_complete H k sn }.

(** The same but for the last line: packs and indexes fit together, but what the
    snapshots need may be gone. *)
Record sound (H : bytes -> oid) (U : blob -> Prop) (k : backend) : Prop := {
  so_packs : packs_from H U (k_packs k);
  so_sorted : forall i ix, k_indexes k !! i = Some ix -> os_sorted (ix_supersedes ix) /\ om_sorted (ix_packs ix);
  so_backed : forall i ix p m, k_indexes k !! i = Some ix -> (p, m) ∈ ix_packs ix ->
    exists bs, k_packs k !! p = Some bs /\ manifest_of bs = m;
  so_once : once (live_packs k);
  so_named : forall i sn, k_snaps k !! i = Some sn -> i = snapshot_id H sn }.

(** Nothing to be found that this run did not put there: an index it may publish
    (it supersedes what the start does, and describes some of the blobs) has an id
    that is not taken and that no index calls superseded. *)
Definition fresh_index (H : bytes -> oid) (k : backend) (start : index) (bs : list blob) : Prop :=
  forall ix, ix_supersedes ix = ix_supersedes start -> om_sorted (ix_packs ix) ->
    (forall p m, (p, m) ∈ ix_packs ix -> p = pack_id H m) ->
    concat (map snd (ix_packs ix)) ⊆+ concat (map snd (ix_packs start)) ++ manifest_of bs ->
    index_is_empty ix = false ->
    index_id H ix ∉ superseded k /\ index_id H ix ∉ ix_supersedes ix /\
    forall jx, k_indexes k !! index_id H ix = Some jx -> jx = ix.

(** What a tree needs: itself, its subdirectories and the chunks of its files. *)
Inductive needs (H : bytes -> oid) (st : store) : oid -> oid -> Prop :=
| needs_self id : needs H st id id
| needs_chunk id t c : stored_as H st id t -> c ∈ tree_chunks t -> needs H st id c
| needs_sub id t s x : stored_as H st id t -> s ∈ subtrees t -> needs H st s x -> needs H st id x.

(** What some snapshot needs. *)
Definition needed (H : bytes -> oid) (k : backend) (x : oid) : Prop :=
  exists i sn, k_snaps k !! i = Some sn /\ needs H (repo_store k) (sn_tree sn) x.

(** ** Rewriting a tree

    What a stored tree becomes when the paths the filter rejects are taken out,
    and all blobs that consists of. *)
Section rplan.
Variable H : bytes -> oid.
Variable filter : bytes -> bool.
Variable chunk : oid -> bytes.

Fixpoint rplan_nodes (rec : bytes -> oid -> option (oid * list blob)) (path : bytes) (l : tree)
    : option (list (bytes * (node * list blob))) :=
  match l with
  | [] => Some []
  | (name, nd) :: l' =>
      let p := join path name in
      if negb (filter p) then rplan_nodes rec path l'
      else match (match n_contents nd with
                  | CFile cs => Some (nd, map (fun c => mkBlob Chunk c (chunk c)) cs)
                  | CSymlink _ => Some (nd, [])
                  | CDir sub => match rec p sub with
                                | Some (id, bs) => Some (mkNode (CDir id) (n_meta nd), bs)
                                | None => None
                                end
                  end), rplan_nodes rec path l' with
           | Some x, Some rest => Some ((name, x) :: rest)
           | _, _ => None
           end
  end.

Definition rplan_tree (l : list (bytes * (node * list blob))) : tree := map (fun x => (x.1, x.2.1)) l.

Fixpoint rplan (fo : forest) (fuel : nat) (path : bytes) (id : oid) : option (oid * list blob) :=
  match fuel with
  | O => None
  | S fuel' =>
      match fo !! id with
      | None => None
      | Some t =>
          match rplan_nodes (rplan fo fuel') path t with
          | Some l => Some (tree_id H (rplan_tree l), concat (map (fun x => x.2.2) l) ++ [tree_blob H (rplan_tree l)])
          | None => None
          end
      end
  end.
End rplan.

(** The file tree without what the filter rejects. *)
Definition kept_entries (filter : bytes -> bool) (es : list (bytes * fsnode)) : list (bytes * fsnode) :=
  collect fst (fun e : bytes * fsnode => kept filter e.1 e.2) es.

(** The working directory holds nothing, or what an interrupted backup or copy
    left there: packs, and a WIP index superseding nothing whose packs are here or
    on the backend and whose blobs are nowhere else. *)
Definition own_leftovers (H : bytes -> oid) (U : blob -> Prop) (k : backend) (w : workdir) : Prop :=
  packs_from H U (w_packs w) /\
  match w_wip w with
  | None => True
  | Some ix =>
      ix_supersedes ix = [] /\ om_sorted (ix_packs ix) /\ once (live_packs k ++ ix_packs ix) /\
      forall p m, (p, m) ∈ ix_packs ix ->
        exists bs, (w_packs w !! p = Some bs \/ k_packs k !! p = Some bs) /\ manifest_of bs = m
  end.

(** The same for prune: what is left there are packs, and a WIP index whose packs
    are here or on the backend.  If that index is meant to replace just the indexes
    there are now, then no blob is in it twice and each is still needed. *)
Definition prune_leftovers (H : bytes -> oid) (U : blob -> Prop) (k : backend) (w : workdir) : Prop :=
  packs_from H U (w_packs w) /\
  match w_wip w with
  | None => True
  | Some ix =>
      om_sorted (ix_packs ix) /\
      (forall p m, (p, m) ∈ ix_packs ix ->
        exists bs, (w_packs w !! p = Some bs \/ k_packs k !! p = Some bs) /\ manifest_of bs = m) /\
      ((forall i, i ∈ ix_supersedes ix <-> is_Some (k_indexes k !! i)) ->
        once (ix_packs ix) /\ forall p m e, (p, m) ∈ ix_packs ix -> e ∈ m -> needed H k (e_id e))
  end.

(** No two packs this command may deal with have the same id, the index it may
    publish is new, and so are its snapshots. *)
Definition no_clash (H : bytes -> oid) (k : backend) (w : workdir) (c : command) : Prop :=
  (forall m m', run_manifest k w (c_blobs c) m -> run_manifest k w (c_blobs c) m' -> pack_id H m = pack_id H m' -> m = m') /\
  fresh_index H k (c_start c) (c_blobs c) /\
  (forall sn sn', k_snaps k !! snapshot_id H sn = Some sn \/ PutSnap sn ∈ c_after c -> PutSnap sn' ∈ c_after c ->
     snapshot_id H sn = snapshot_id H sn' -> sn = sn').

(** What the chunks of a repository contain. *)
Definition chunk_of (st : store) (c : oid) : bytes := match st !! c with Some (_, x) => x | None => [] end.

(** All blobs the rewritten snapshots consist of. *)
Definition rplan_all (H : bytes -> oid) (filter : bytes -> bool) (chunk : oid -> bytes) (fuel : nat)
    (forests : list (snapshot * forest)) : list blob :=
  concat (map (fun x : snapshot * forest =>
    match rplan H filter chunk x.2 fuel [] (sn_tree x.1) with Some (_, bs) => bs | None => [] end) forests).
