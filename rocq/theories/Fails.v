(** Copying, filtering and pruning that meet an error on the way: what was sent
    by then.  [Repo.rewrite_snapshots] says what a walk that gets through does;
    here the state is kept when it does not. *)

From Verif Require Import Base OMap Formats Hashing Pack Index Meta Forest FsTree Pipeline Repo.

(** Some value or a failure, and the state at the end either way. *)
Notation ended A := (bstate * result A)%type.

Section walk.
Variable H : bytes -> oid.
Variable filter : bytes -> bool.
Variable on_chunk : oid -> bstate -> result bstate.

(** src/repack.rs:184-192, src/ui/filter_snapshot.rs:200-205: the loop over a
    file's chunks; the first failure ends it. *)
Fixpoint walk_chunks (cs : list oid) (s : bstate) : ended unit :=
  match cs with
  | [] => (s, Ok tt)
  | c :: cs' => match on_chunk c s with
                | Ok s' => walk_chunks cs' s'
                | Err => (s, Err)
                | Panic => (s, Panic)
                end
  end.

(** src/repack.rs:166-231, src/ui/filter_snapshot.rs:184-230: the loop over a
    directory's entries. *)
Fixpoint walk_nodes (rec : bytes -> oid -> bstate -> option (ended oid))
    (path : bytes) (l : tree) (s : bstate) (t : tree) : option (ended tree) :=
  match l with
  | [] => Some (s, Ok t)
  | (name, nd) :: l' =>
      let p := join path name in
      if negb (filter p) then walk_nodes rec path l' s t
      else
        let done := fun (s' : bstate) (nd' : node) =>
          match om_get name t with
          | Some _ => Some (s', Panic)
          | None => walk_nodes rec path l' s' (om_insert name nd' t)
          end in
        match n_contents nd with
        | CFile cs => match walk_chunks cs s with
                      | (s', Ok _) => done s' nd
                      | (s', Err) => Some (s', Err)
                      | (s', Panic) => Some (s', Panic)
                      end
        | CSymlink _ => done s nd
        | CDir sub => match rec p sub s with
                      | Some (s', Ok sub') => done s' (mkNode (CDir sub') (n_meta nd))
                      | Some (s', Err) => Some (s', Err)
                      | Some (s', Panic) => Some (s', Panic)
                      | None => None
                      end
        end
  end.

(** [walk_tree]: src/repack.rs:138-253, src/ui/filter_snapshot.rs:163-246. *)
Fixpoint walk_tree (fo : forest) (fuel : nat) (path : bytes) (id : oid) (s : bstate) : option (ended oid) :=
  match fuel with
  | O => None
  | S fuel' =>
      match fo !! id with
      | None => Some (s, Panic)
      | Some t =>
          match walk_nodes (walk_tree fo fuel') path t s [] with
          | Some (s', Ok t') => Some (send_new s' (tree_blob H t'), Ok (tree_id H t'))
          | Some (s', Err) => Some (s', Err)
          | Some (s', Panic) => Some (s', Panic)
          | None => None
          end
      end
  end.

(** src/repack.rs:70-135 [walk_snapshots] *)
Fixpoint walk_snapshots (fuel : nat) (l : list (snapshot * forest)) (s : bstate) : option (ended (list snapshot)) :=
  match l with
  | [] => Some (s, Ok [])
  | (sn, fo) :: l' =>
      match walk_tree fo fuel [] (sn_tree sn) s with
      | Some (s', Ok root) =>
          match walk_snapshots fuel l' s' with
          | Some (s'', Ok sns) =>
              Some (s'', Ok (mkSnapshot (sn_time sn) (sn_tz sn) (sn_author sn) (sn_tags sn) (sn_paths sn) root :: sns))
          | other => other
          end
      | Some (s', Err) => Some (s', Err)
      | Some (s', Panic) => Some (s', Panic)
      | None => None
      end
  end.
End walk.

Definition failure {A} (r : result A) : Prop := match r with Ok _ => False | _ => True end.

Section commands.
Variable H : bytes -> oid.

(** src/ui/copy.rs:107-154: when the walk fails, the channels are dropped with
    [backup], the threads finish what they got, and nothing else is done. *)
Definition copy_fails (dry : bool) (filter : bytes -> bool) (src : backend) (chosen : list snapshot) (fuel : nat)
    (k : backend) (w : workdir) (c : command) : Prop :=
  exists sx sbmap forests ix start ups packed s r,
    master src = Ok sx /\ blob_to_pack_map sx = Ok sbmap /\
    load_forests H src sbmap fuel chosen = Some (Ok forests) /\
    master k = Ok ix /\ resume k w ix = Ok (start, ups, packed) /\
    walk_snapshots H filter (repack_chunk src sx sbmap) fuel forests (mkBstate packed []) = Some (s, r) /\ failure r /\
    c = mkCommand start (if dry then [] else ups) (bs_sent s) [].

(** src/ui/filter_snapshot.rs:84-109 likewise. *)
Definition filter_fails (filter : bytes -> bool) (target : snapshot) (fuel : nat) (k : backend) (c : command) : Prop :=
  exists ix bmap fo packed s r,
    master k = Ok ix /\ blob_to_pack_map ix = Ok bmap /\
    load_forest H k bmap fuel (sn_tree target) = Some (Ok fo) /\
    blob_id_set ix = Ok packed /\
    walk_tree H filter check_chunk fo fuel [] (sn_tree target) (mkBstate packed []) = Some (s, r) /\ failure r /\
    c = mkCommand index_default [] (bs_sent s) [].

(** src/ui/prune.rs:170-223 likewise. *)
Definition prune_fails (dry : bool) (k : backend) (w : workdir) (c : command) : Prop :=
  exists ix bmap snaps fuel forests,
    master k = Ok ix /\ blob_to_pack_map ix = Ok bmap /\ chronological k snaps /\
    load_forests H k bmap fuel (map fst snaps) = Some (Ok forests) /\
    let reachable := reachable_blobs forests in
    let reusable := List.filter (pack_in_use reachable) (ix_packs ix) in
    let to_prune := List.filter (fun pm => negb (pack_in_use reachable pm)) (ix_packs ix) in
    let superseded := os_of_list (map fst (map_to_list (k_indexes k))) in
    to_prune <> [] /\
    exists start ups packed s r,
      prune_start k w superseded reusable = Ok (start, ups, packed) /\
      walk_snapshots H (fun _ => true) (repack_chunk k ix bmap) fuel forests (mkBstate packed []) = Some (s, r) /\ failure r /\
      c = mkCommand start (if dry then [] else ups) (bs_sent s) [].

(** How such a run ends: everything was sent, then the main thread drops the
    channels, waits for the others, and the WIP index stays. *)
Definition command_fails (target : N) (live : bool) (cpus : nat)
    (k : backend) (w : workdir) (c : command) (k' : backend) (w' : workdir) : Prop :=
  exists s0 s1, during H target live cpus NoError k w (c_start c) (c_ups c) (c_blobs c) s0 /\ ps_main s0 = MSend [] [] /\
    rtc (pstep H target live cpus NoError) (set_main (MWait false) s0) s1 /\ ps_main s1 = MDone false /\
    k' = ps_back s1 /\ w' = mkWorkdir (ps_files s1) (ps_wip s1).
End commands.
