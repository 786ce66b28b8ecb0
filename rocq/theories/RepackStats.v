(** What copy and prune count while they run: src/repack.rs:58-63. *)

From Verif Require Import Base OMap Formats Hashing Pack Index Meta Forest FsTree Pipeline Repo BackupStats.

Section counted.
Variable H : bytes -> oid.
Variable filter : bytes -> bool.
Variable on_chunk : oid -> bstate * N -> result (bstate * N).

(** src/repack.rs:166-231, as [rewrite_nodes]. *)
Fixpoint counted_nodes (rec : bytes -> oid -> bstate * N -> option (result (bstate * N * oid)))
    (path : bytes) (l : tree) (s : bstate * N) (t : tree) : option (result (bstate * N * tree)) :=
  match l with
  | [] => Some (Ok (s, t))
  | (name, nd) :: l' =>
      let p := join path name in
      if negb (filter p) then counted_nodes rec path l' s t
      else
        let done := fun (s' : bstate * N) (nd' : node) =>
          match om_get name t with
          | Some _ => Some Panic
          | None => counted_nodes rec path l' s' (om_insert name nd' t)
          end in
        match n_contents nd with
        | CFile cs =>
            match rfold on_chunk cs s with
            | Ok s' => done s' nd
            | Err => Some Err
            | Panic => Some Panic
            end
        | CSymlink _ => done s nd
        | CDir sub =>
            match rec p sub s with
            | Some (Ok (s', sub')) => done s' (mkNode (CDir sub') (n_meta nd))
            | Some Err => Some Err
            | Some Panic => Some Panic
            | None => None
            end
        end
  end.

(** src/repack.rs:138-253, as [rewrite_tree]; lines 239-251 count a tree that is not sent. *)
Fixpoint counted_tree (fo : forest) (fuel : nat) (path : bytes) (id : oid) (s : bstate * N)
    : option (result (bstate * N * oid)) :=
  match fuel with
  | O => None
  | S fuel' =>
      match fo !! id with
      | None => Some Panic
      | Some t =>
          match counted_nodes (counted_tree fo fuel') path t s [] with
          | Some (Ok (s', t')) => Some (Ok (send_counted s' (tree_blob H t'), tree_id H t'))
          | Some Err => Some Err
          | Some Panic => Some Panic
          | None => None
          end
      end
  end.

(** src/repack.rs:70-135, as [rewrite_snapshots]. *)
Fixpoint counted_snapshots (fuel : nat) (l : list (snapshot * forest)) (s : bstate * N)
    : option (result (bstate * N * list snapshot)) :=
  match l with
  | [] => Some (Ok (s, []))
  | (sn, fo) :: l' =>
      match counted_tree fo fuel [] (sn_tree sn) s with
      | Some (Ok (s', root)) =>
          match counted_snapshots fuel l' s' with
          | Some (Ok (s'', sns)) =>
              Some (Ok (s'', mkSnapshot (sn_time sn) (sn_tz sn) (sn_author sn) (sn_tags sn) (sn_paths sn) root :: sns))
          | other => other
          end
      | Some Err => Some Err
      | Some Panic => Some Panic
      | None => None
      end
  end.
End counted.

(** src/repack.rs:184-192 and 255-268: a chunk that is not sent is counted with
    the length the index gives. *)
Definition counted_chunk (k : backend) (ix : index) (bmap : gmap oid oid) (c : oid) (s : bstate * N) : result (bstate * N) :=
  if decide (c ∈ bs_packed s.1)
  then let* n := blob_size ix bmap c in Ok (s.1, s.2 + n)%N
  else let* x := read_chunk k bmap c in Ok (send_new s.1 (mkBlob Chunk c x), s.2).

Section commands.
Variable H : bytes -> oid.

(** src/ui/copy.rs:49-163, as [copy_command], and the bytes counted as reused. *)
Definition copy_counted (dry : bool) (filter : bytes -> bool) (src : backend) (chosen : list snapshot) (fuel : nat)
    (forests : list (snapshot * forest)) (k : backend) (w : workdir) (c : command) (reused : N) : Prop :=
  exists sx sbmap ix start ups packed s sns,
    master src = Ok sx /\ blob_to_pack_map sx = Ok sbmap /\
    load_forests H src sbmap fuel chosen = Some (Ok forests) /\
    master k = Ok ix /\ resume k w ix = Ok (start, ups, packed) /\
    counted_snapshots H filter (counted_chunk src sx sbmap) fuel forests (mkBstate packed [], 0%N) = Some (Ok (s, reused, sns)) /\
    c = mkCommand start (if dry then [] else ups) (bs_sent s) (if dry then [] else map PutSnap sns).

(** src/ui/prune.rs:40-240, as [prune_command] when there is something to prune, and
    the bytes counted as reused.  The snapshots in order of time and their trees are named
    so that one can speak about them. *)
Definition prune_counted (dry : bool) (snaps : list (snapshot * oid)) (fuel : nat) (forests : list (snapshot * forest))
    (k : backend) (w : workdir) (c : command) (reused : N) : Prop :=
  exists ix bmap,
    master k = Ok ix /\ blob_to_pack_map ix = Ok bmap /\ chronological k snaps /\
    load_forests H k bmap fuel (map fst snaps) = Some (Ok forests) /\
    let reachable := reachable_blobs forests in
    let reusable := List.filter (pack_in_use reachable) (ix_packs ix) in
    let to_prune := List.filter (fun pm => negb (pack_in_use reachable pm)) (ix_packs ix) in
    let superseded := os_of_list (map fst (map_to_list (k_indexes k))) in
    to_prune <> [] /\ exists start ups packed s sns,
      prune_start k w superseded reusable = Ok (start, ups, packed) /\
      counted_snapshots H (fun _ => true) (counted_chunk k ix bmap) fuel forests (mkBstate packed [], 0%N) = Some (Ok (s, reused, sns)) /\
      c = mkCommand start (if dry then [] else ups) (bs_sent s)
        (if dry then [] else map DelIndex superseded ++ map (fun pm : oid * manifest => DelPack pm.1) to_prune).
End commands.
