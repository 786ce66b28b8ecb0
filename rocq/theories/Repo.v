(** The commands that change a repository, with every point at which they can
    be interrupted: src/ui/backup.rs, copy.rs, filter_snapshot.rs, forget.rs,
    prune.rs, rebuild_index.rs and src/repack.rs.

    Simplifications.  Files are represented by what they decode to (the formats
    are treated in Formats.v to Index.v, the tree cache in Forest.v), so reading a
    pack always succeeds if it is there.  Each write to or removal from the
    backend happens at once or not at all (C41). *)

From Verif Require Import Base OMap Formats Hashing Pack Index Meta Forest FsTree Pipeline.

Global Instance snapshot_eq_dec : EqDecision snapshot.
Proof. solve_decision. Defined.

(** ** Reading *)

(** src/index.rs:199-260; the listing's order does not matter (C10). *)
Definition master (k : backend) : result index := build_master_index (map_to_list (k_indexes k)).

(** The blob the index says is in some pack. *)
Definition find_blob (k : backend) (bmap : gmap oid oid) (id : oid) : result blob :=
  let* p := of_option (bmap !! id) in
  let* bs := of_option (k_packs k !! p) in
  of_option (List.find (fun b => bool_decide (b_id b = id)) bs).

(** src/read.rs:142-177 [read_blob]; the chunk cache is left out here.  Only
    chunks get into that cache, so the last line panics for a tree. *)
Definition read_chunk (k : backend) (bmap : gmap oid oid) (id : oid) : result bytes :=
  let* b := find_blob k bmap id in
  match b_type b with Chunk => Ok (b_bytes b) | Tree => Panic end.

(** src/read.rs:122-140 [blob_size] *)
Definition blob_size (ix : index) (bmap : gmap oid oid) (id : oid) : result N :=
  let* p := of_option (bmap !! id) in
  let* m := of_option (om_get p (ix_packs ix)) in
  let* e := of_option (List.find (fun e => bool_decide (e_id e = id)) m) in
  Ok (e_len e).

Section read.
Variable H : bytes -> oid.

(** src/tree.rs:364-426 [Cache::read], loading one tree at a time (the other
    trees of its pack make no difference, C28). *)
Definition read_tree (k : backend) (bmap : gmap oid oid) (c : forest) (id : oid) : result (tree * forest) :=
  match c !! id with
  | Some t => Ok (t, c)
  | None =>
      let* b := find_blob k bmap id in
      let* t := match b_type b with
                | Tree => match dec_tree (b_bytes b) with Some (t, _) => Ok t | None => Err end
                | Chunk => Err
                end in
      Ok (t, <[id := t]> c)
  end.

(** src/repack.rs:38-49, src/ui/backup.rs:130-135: one forest, from a fresh cache. *)
Definition load_forest (k : backend) (bmap : gmap oid oid) (fuel : nat) (root : oid) : option (result forest) :=
  match forest_from_root (read_tree k bmap) fuel (cache_new H) root with
  | Some (Ok (_, fo)) => Some (Ok fo)
  | Some Err => Some Err
  | Some Panic => Some Panic
  | None => None
  end.

(** src/repack.rs:28-36 [load_forests]; running out of fuel is [None]. *)
Fixpoint load_forests (k : backend) (bmap : gmap oid oid) (fuel : nat) (snaps : list snapshot)
    : option (result (list (snapshot * forest))) :=
  match snaps with
  | [] => Some (Ok [])
  | sn :: snaps' =>
      match load_forest k bmap fuel (sn_tree sn) with
      | Some (Ok fo) =>
          match load_forests k bmap fuel snaps' with
          | Some (Ok l) => Some (Ok ((sn, fo) :: l))
          | other => other
          end
      | Some Err => Some Err
      | Some Panic => Some Panic
      | None => None
      end
  end.
End read.

(** src/snapshot.rs:205-234 [load_chronologically]: sorted by time.  The order of
    equal times depends on the listing and on the loading threads, so it is left
    open. *)
Definition chronological (k : backend) (l : list (snapshot * oid)) : Prop :=
  Permutation (map (fun x : oid * snapshot => (x.2, x.1)) (map_to_list (k_snaps k))) l /\
  Sorted (fun a b => (sn_time a.1 <= sn_time b.1)%Z) l.

(** ** Rewriting stored trees *)

Section rewrite.
Variable H : bytes -> oid.
Variable filter : bytes -> bool.
(** What to do about a chunk. *)
Variable on_chunk : oid -> bstate -> result bstate.

(** The loop of [walk_tree] (src/repack.rs:166-231 and, with another treatment
    of chunks, src/ui/filter_snapshot.rs:188-230); [rec] is the recursive call. *)
Fixpoint rewrite_nodes (rec : bytes -> oid -> bstate -> option (result (bstate * oid)))
    (path : bytes) (l : tree) (s : bstate) (t : tree) : option (result (bstate * tree)) :=
  match l with
  | [] => Some (Ok (s, t))
  | (name, nd) :: l' =>
      let p := join path name in
      if negb (filter p) then rewrite_nodes rec path l' s t
      else
        let done := fun (s' : bstate) (nd' : node) =>
          match om_get name t with
          | Some _ => Some Panic
          | None => rewrite_nodes rec path l' s' (om_insert name nd' t)
          end in
        match n_contents nd with
        | CFile cs =>
            match rfold on_chunk cs s with
            | Ok s' => done s' nd
            | Err => Some Err
            | Panic => Some Panic
            end
        | CSymlink _ => done s nd
        | CDir sub =>
            match rec p sub s with
            | Some (Ok (s', sub')) => done s' (mkNode (CDir sub') (n_meta nd))
            | Some Err => Some Err
            | Some Panic => Some Panic
            | None => None
            end
        end
  end.

(** [walk_tree]: src/repack.rs:138-253, src/ui/filter_snapshot.rs:163-246. *)
Fixpoint rewrite_tree (fo : forest) (fuel : nat) (path : bytes) (id : oid) (s : bstate)
    : option (result (bstate * oid)) :=
  match fuel with
  | O => None
  | S fuel' =>
      match fo !! id with
      | None => Some Panic
      | Some t =>
          match rewrite_nodes (rewrite_tree fo fuel') path t s [] with
          | Some (Ok (s', t')) => Some (Ok (send_new s' (tree_blob H t'), tree_id H t'))
          | Some Err => Some Err
          | Some Panic => Some Panic
          | None => None
          end
      end
  end.

(** src/repack.rs:70-135 [walk_snapshots]: the new snapshots. *)
Fixpoint rewrite_snapshots (fuel : nat) (l : list (snapshot * forest)) (s : bstate)
    : option (result (bstate * list snapshot)) :=
  match l with
  | [] => Some (Ok (s, []))
  | (sn, fo) :: l' =>
      match rewrite_tree fo fuel [] (sn_tree sn) s with
      | Some (Ok (s', root)) =>
          match rewrite_snapshots fuel l' s' with
          | Some (Ok (s'', sns)) =>
              Some (Ok (s'', mkSnapshot (sn_time sn) (sn_tz sn) (sn_author sn) (sn_tags sn) (sn_paths sn) root :: sns))
          | other => other
          end
      | Some Err => Some Err
      | Some Panic => Some Panic
      | None => None
      end
  end.
End rewrite.

(** src/repack.rs:184-192 and 255-268: send what is not packed yet. *)
Definition repack_chunk (k : backend) (ix : index) (bmap : gmap oid oid) (c : oid) (s : bstate) : result bstate :=
  if decide (c ∈ bs_packed s)
  then let* _ := blob_size ix bmap c in Ok s
  else let* x := read_chunk k bmap c in Ok (send_new s (mkBlob Chunk c x)).

(** src/ui/filter_snapshot.rs:200-205: the chunks must be there. *)
Definition check_chunk (c : oid) (s : bstate) : result bstate :=
  let* _ := ensure (bool_decide (c ∈ bs_packed s)) in Ok s.

(** ** Changing the backend *)

(** What is done once everything was uploaded. *)
Inductive bop :=
| PutSnap (sn : snapshot)
| DelSnap (id : oid)
| DelIndex (id : oid)
| DelPack (id : oid).

Section commands.
Variable H : bytes -> oid.

Definition snapshot_id (sn : snapshot) : oid := H (enc_snapshot sn).

Definition apply_op (k : backend) (o : bop) : backend :=
  match o with
  | PutSnap sn => mkBackend (k_packs k) (k_indexes k) (<[snapshot_id sn := sn]> (k_snaps k))
  | DelSnap i => mkBackend (k_packs k) (k_indexes k) (delete i (k_snaps k))
  | DelIndex i => mkBackend (k_packs k) (delete i (k_indexes k)) (k_snaps k)
  | DelPack p => mkBackend (delete p (k_packs k)) (k_indexes k) (k_snaps k)
  end.
Definition apply_ops (k : backend) (os : list bop) : backend := foldl apply_op k os.

(** A command that stores blobs: the index it starts from, the packs of the
    working directory it uploads first, the blobs it sends, and what it does when
    all of that is on the backend. *)
Record command := mkCommand {
  c_start : index; c_ups : list oid; c_blobs : list blob; c_after : list bop }.

(** Everything one can find on the backend and in the working directory while
    the command runs, when it ends, and after it was interrupted anywhere. *)
Definition command_reaches (target : N) (live : bool) (cpus : nat) (errors : merror)
    (k : backend) (w : workdir) (c : command) (k' : backend) (w' : workdir) : Prop :=
  exists s n, during H target live cpus errors k w (c_start c) (c_ups c) (c_blobs c) s /\
    (ps_main s = MDone true \/ n = 0) /\
    k' = apply_ops (ps_back s) (take n (c_after c)) /\
    w' = mkWorkdir (ps_files s) (ps_wip s).

(** It ran to its end. *)
Definition command_done (target : N) (live : bool) (cpus : nat)
    (k : backend) (w : workdir) (c : command) (k' : backend) (w' : workdir) : Prop :=
  exists s, during H target live cpus NoError k w (c_start c) (c_ups c) (c_blobs c) s /\
    ps_main s = MDone true /\
    k' = apply_ops (ps_back s) (c_after c) /\
    w' = mkWorkdir (ps_files s) (ps_wip s).

(** src/ui/backup.rs:140-149, src/ui/copy.rs:87-98: where to go on, and what is
    packed already. *)
Definition resume (k : backend) (w : workdir) (ix : index) : result (index * list oid * gset oid) :=
  let* packed := blob_id_set ix in
  let* found := find_resumable k w in
  match found with
  | None => Ok (index_default, [], packed)
  | Some (wip, ups) => Ok (wip, ups, list_to_set (map (fun pe => e_id pe.2) (index_entries wip)) ∪ packed)
  end.

(** src/ui/backup.rs:72-288 [run], from line 121.  [paths] are the canonical
    paths, sorted, with what is there; [filter] comes from the skip rules; the snapshot
    taken as parent and the trees loaded for it are named so that one can speak
    about them.  The
    asserts before the two early returns are treated separately
    ([backup_asserts] below). *)
Definition backup_command (cuts : bytes -> list bytes) (dry deref allow_empty : bool) (filter : bytes -> bool)
    (author tz : bytes) (tags : list bytes) (now : Z) (paths : list fspath)
    (parent : option snapshot) (pf : forest) (k : backend) (w : workdir) (c : command) : Prop :=
  exists ix bmap snaps start ups packed s root,
    reject_matching ∅ (map (fun e : fspath => e.1.2) paths) = Ok tt /\
    master k = Ok ix /\ blob_to_pack_map ix = Ok bmap /\ chronological k snaps /\
    let given := map (fun e : fspath => e.1.1) paths in
    parent = parent_snapshot given snaps /\
    match parent with
    | None => pf = ∅
    | Some p => exists fuel, load_forest H k bmap fuel (sn_tree p) = Some (Ok pf)
    end /\
    resume k w ix = Ok (start, ups, packed) /\
    backup_tree H cuts deref filter pf (sn_tree <$> parent) paths packed = Ok (s, root) /\
    let sn := mkSnapshot now tz author tags given root in
    c = mkCommand start (if dry then [] else ups) (bs_sent s)
      (if bool_decide (root = empty_id H) && negb allow_empty then []
       else match last snaps with
            | Some (p, _) =>
                if bool_decide (mkSnapshot now tz (sn_author p) (sn_tags p) (sn_paths p) (sn_tree p) = sn) then []
                else if dry then [] else [PutSnap sn]
            | None => if dry then [] else [PutSnap sn]
            end).

(** src/ui/backup.rs:213-219 and 252-257: what is asserted before the two early
    returns, once the threads are done; in a live run nothing is left to do just
    then.  Packing, indexing and uploading nothing: no blob was sent, no pack was
    found in the working directory, and the index carried on from there has
    nothing to publish.  (Line 217 holds: an empty root reuses no file.) *)
Definition backup_asserts (c : command) : result unit :=
  match c_after c with
  | [] => rassert (Nat.eqb (length (c_blobs c)) 0 && Nat.eqb (length (c_ups c)) 0 && index_is_empty (c_start c))
  | _ => Ok tt
  end.

(** src/ui/copy.rs:49-163 [run]; [chosen] are the snapshots asked for, [src] the
    repository they are in. *)
Definition copy_command (dry : bool) (filter : bytes -> bool) (src : backend) (chosen : list snapshot) (fuel : nat)
    (forests : list (snapshot * forest)) (k : backend) (w : workdir) (c : command) : Prop :=
  exists sx sbmap ix start ups packed s sns,
    master src = Ok sx /\ blob_to_pack_map sx = Ok sbmap /\
    load_forests H src sbmap fuel chosen = Some (Ok forests) /\
    master k = Ok ix /\ resume k w ix = Ok (start, ups, packed) /\
    rewrite_snapshots H filter (repack_chunk src sx sbmap) fuel forests (mkBstate packed []) = Some (Ok (s, sns)) /\
    c = mkCommand start (if dry then [] else ups) (bs_sent s) (if dry then [] else map PutSnap sns).

(** src/ui/filter_snapshot.rs:45-130 [run]; [meta]: the author, tags and time
    the new snapshot gets unless --keep-metadata is given. *)
Definition filter_command (dry : bool) (filter : bytes -> bool) (target : snapshot)
    (meta : option (bytes * list bytes * Z * bytes)) (fuel : nat) (fo : forest) (k : backend) (c : command) : Prop :=
  exists ix bmap packed s root,
    master k = Ok ix /\ blob_to_pack_map ix = Ok bmap /\
    load_forest H k bmap fuel (sn_tree target) = Some (Ok fo) /\
    blob_id_set ix = Ok packed /\
    rewrite_tree H filter check_chunk fo fuel [] (sn_tree target) (mkBstate packed []) = Some (Ok (s, root)) /\
    c = mkCommand index_default [] (bs_sent s)
      (if bool_decide (root = sn_tree target) then []
       else if dry then []
       else match meta with
            | None => [PutSnap (mkSnapshot (sn_time target) (sn_tz target) (sn_author target) (sn_tags target) (sn_paths target) root)]
            | Some (author, tags, now, tz) => [PutSnap (mkSnapshot now tz author tags (sn_paths target) root)]
            end).

(** src/ui/prune.rs:243-259: the blobs of all snapshots. *)
Definition forest_blobs (fo : forest) : list oid :=
  concat (map (fun x : oid * tree => x.1 :: tree_chunks x.2) (map_to_list fo)).
Definition reachable_blobs (forests : list (snapshot * forest)) : gset oid :=
  list_to_set (concat (map (fun x => forest_blobs x.2) forests)).

(** src/ui/prune.rs:266-280 *)
Definition pack_in_use (reachable : gset oid) (pm : oid * manifest) : bool :=
  forallb (fun e => bool_decide (e_id e ∈ reachable)) pm.2.

(** src/ui/prune.rs:119-161: the index to start from, the packs of the working
    directory to upload, what is packed already. *)
Definition prune_start (k : backend) (w : workdir) (superseded : list oid) (reusable : list (oid * manifest))
    : result (index * list oid * gset oid) :=
  let new := mkIndex superseded reusable in
  let* packed := blob_id_set new in
  let* found := find_resumable k w in
  match found with
  | None => Ok (new, [], packed)
  | Some (wip, ups) =>
      if negb (bool_decide (ix_supersedes wip = superseded)) then Ok (new, [], packed)
      else if negb (forallb (fun p => bool_decide (p ∈ map fst (ix_packs wip))) (map fst reusable)) then Ok (new, [], packed)
      else Ok (wip, ups, list_to_set (map (fun pe => e_id pe.2) (index_entries wip)) ∪ packed)
  end.

(** src/ui/prune.rs:40-240 [run].  [None]: everything is in use, nothing is done. *)
Definition prune_command (dry : bool) (k : backend) (w : workdir) (c : option command) : Prop :=
  exists ix bmap snaps fuel forests,
    master k = Ok ix /\ blob_to_pack_map ix = Ok bmap /\ chronological k snaps /\
    load_forests H k bmap fuel (map fst snaps) = Some (Ok forests) /\
    let reachable := reachable_blobs forests in
    let reusable := List.filter (pack_in_use reachable) (ix_packs ix) in
    let to_prune := List.filter (fun pm => negb (pack_in_use reachable pm)) (ix_packs ix) in
    let superseded := os_of_list (map fst (map_to_list (k_indexes k))) in
    if decide (to_prune = []) then c = None
    else exists start ups packed s sns,
      prune_start k w superseded reusable = Ok (start, ups, packed) /\
      rewrite_snapshots H (fun _ => true) (repack_chunk k ix bmap) fuel forests (mkBstate packed []) = Some (Ok (s, sns)) /\
      c = Some (mkCommand start (if dry then [] else ups) (bs_sent s)
        (if dry then [] else map DelIndex superseded ++ map (fun pm : oid * manifest => DelPack pm.1) to_prune)).

(** src/ui/forget.rs:53-119: what is removed; [ids] are those found for the
    arguments, or the repeats below. *)
Definition forget_ops (dry : bool) (ids : list oid) : list bop :=
  if dry then [] else map DelSnap ids.
Fixpoint repeats (prev : option oid) (snaps : list (snapshot * oid)) : list oid :=
  match snaps with
  | [] => []
  | (sn, id) :: snaps' =>
      match prev with
      | Some t => if bool_decide (sn_tree sn = t) then id :: repeats prev snaps' else repeats (Some (sn_tree sn)) snaps'
      | None => repeats (Some (sn_tree sn)) snaps'
      end
  end.

(** src/ui/rebuild_index.rs:25-102 [run]: the new index, made of the manifests of
    all packs in whatever order the threads read them. *)
Definition rebuilt_index (k : backend) (packs : list oid) : result index :=
  let start := mkIndex (os_of_list (map fst (map_to_list (k_indexes k)))) [] in
  let pms := map (fun p => (p, manifest_of (default [] (k_packs k !! p)))) packs in
  let* st := indexer_recv_all (indexer_start false start None) pms in
  Ok (in_index st).

(** What there can be on the backend at any time: as before; with the new index
    (src/index.rs:113-151: unless it is empty); with some of the old ones gone
    (src/ui/rebuild_index.rs:94-99). *)
Definition rebuild_reaches (k : backend) (k' : backend) : Prop :=
  exists packs ix, Permutation packs (map fst (map_to_list (k_packs k))) /\ rebuilt_index k packs = Ok ix /\
    (k' = k \/ index_is_empty ix = false /\ exists n, k' = apply_ops (mkBackend (k_packs k) (<[index_id H ix := ix]> (k_indexes k)) (k_snaps k))
                                (take n (map DelIndex (ix_supersedes ix)))).

End commands.
