(** Several runs of the program on one repository, at the same time.

    Each run has a working directory of its own and threads as in Pipeline.v; all
    write to the same backend.  Models what src/ui/{backup,copy,filter_snapshot,
    prune,forget}.rs do to a backend that others change meanwhile: nothing locks
    it, and no run looks at it again once it has started (src/ui/backup.rs:121-149,
    src/ui/copy.rs:75-98, src/ui/filter_snapshot.rs:60-88, src/ui/prune.rs:48-100).

    Simplification: what a run reads when it starts, it reads in one instant. *)

From Verif Require Import Base OMap Formats Hashing Pack Index Meta Forest FsTree FsSpec Pipeline Repo RepoSpec.

(** A run: what it set out to do, the pack size and number of CPUs, its threads
    (with the backend as it last saw it), and what it will do once they are done. *)
Record client := mkClient {
  cl_command : command;
  cl_target : N;
  cl_cpus : nat;
  cl_threads : pstate;
  cl_pending : list bop }.
Definition with_threads (s : pstate) (cl : client) : client :=
  mkClient (cl_command cl) (cl_target cl) (cl_cpus cl) s (cl_pending cl).
Definition with_pending (os : list bop) (cl : client) : client :=
  mkClient (cl_command cl) (cl_target cl) (cl_cpus cl) (cl_threads cl) os.
Definition new_client (target : N) (cpus : nat) (k : backend) (w : workdir) (c : command) : client :=
  mkClient c target cpus (pipeline_start target k w (c_start c) (c_ups c) (c_blobs c)) (c_after c).

(** No file is replaced by a different one of the same name.  As names are hashes
    of the contents, this is to say that no two of them collide. *)
Definition no_overwrite (k k' : backend) : Prop :=
  (forall p bs bs', k_packs k !! p = Some bs -> k_packs k' !! p = Some bs' -> bs' = bs) /\
  (forall i ix ix', k_indexes k !! i = Some ix -> k_indexes k' !! i = Some ix' -> ix' = ix) /\
  (forall i sn sn', k_snaps k !! i = Some sn -> k_snaps k' !! i = Some sn' -> sn' = sn).

(** A rebuild (src/ui/rebuild_index.rs): it has listed the indexes (lines 32-42);
    it has read the packs (lines 60-76); it has stored its index and removes the old
    ones (lines 83-99).  All packs are read in the instant they are listed: nothing
    here removes any. *)
Inductive rebuild :=
| RListed (old : list oid)
| RRead (ix : index)
| RRemoving (ix : index) (ids : list oid).

Definition rebuilt_over (old : list oid) (k : backend) (packs : list oid) : result index :=
  let pms := map (fun p => (p, manifest_of (default [] (k_packs k !! p)))) packs in
  let* st := indexer_recv_all (indexer_start false (mkIndex old []) None) pms in
  Ok (in_index st).

(** The backend, the runs going on, and a rebuild if one is going on. *)
Record system := mkSystem { sy_back : backend; sy_runs : list client; sy_rebuild : option rebuild }.

Section together.
Variable H : bytes -> oid.
(** The runs that may be started: by what they find, and by those going on. *)
Variable may : backend -> workdir -> command -> Prop.
Variable beside : list client -> command -> Prop.
(** Whether indexes are rebuilt meanwhile. *)
Variable rebuilds : Prop.

Definition publish (ix : index) (k : backend) : backend :=
  mkBackend (k_packs k) (<[index_id H ix := ix]> (k_indexes k)) (k_snaps k).

Inductive together : system -> system -> Prop :=
(* a run starts *)
| tg_start k cs r w c target cpus :
    may k w c -> beside cs c ->
    together (mkSystem k cs r) (mkSystem k (cs ++ [new_client target cpus k w c]) r)
(* a thread of one of them does something; reading what to back up may fail; an
   index about to be stored is none that another calls superseded *)
| tg_thread k before cl after r s' :
    pstep H (cl_target cl) true (cl_cpus cl) ErrorLater (set_back k (cl_threads cl)) s' ->
    no_overwrite k (ps_back s') ->
    (forall ix, ps_uploader (cl_threads cl) = UBusy (JIndex ix) -> index_id H ix ∉ superseded k) ->
    together (mkSystem k (before ++ cl :: after) r) (mkSystem (ps_back s') (before ++ with_threads s' cl :: after) r)
(* its threads are done: snapshots are stored, files removed *)
| tg_after k before cl after r o os :
    ps_main (cl_threads cl) = MDone true -> cl_pending cl = o :: os -> no_overwrite k (apply_op H k o) ->
    together (mkSystem k (before ++ cl :: after) r) (mkSystem (apply_op H k o) (before ++ with_pending os cl :: after) r)
(* a run ends, or is interrupted *)
| tg_stop k before cl after r :
    together (mkSystem k (before ++ cl :: after) r) (mkSystem k (before ++ after) r)
(* src/ui/forget.rs:104-119: one snapshot is removed *)
| tg_forget k cs r i :
    together (mkSystem k cs r) (mkSystem (apply_op H k (DelSnap i)) cs r)
(* src/ui/rebuild_index.rs *)
| tg_list k cs :
    rebuilds ->
    together (mkSystem k cs None) (mkSystem k cs (Some (RListed (os_of_list (map fst (map_to_list (k_indexes k)))))))
| tg_read k cs old packs ix :
    Permutation packs (map fst (map_to_list (k_packs k))) -> rebuilt_over old k packs = Ok ix ->
    together (mkSystem k cs (Some (RListed old))) (mkSystem k cs (Some (RRead ix)))
| tg_publish k cs ix :
    index_is_empty ix = false -> no_overwrite k (publish ix k) -> index_id H ix ∉ superseded (publish ix k) ->
    together (mkSystem k cs (Some (RRead ix))) (mkSystem (publish ix k) cs (Some (RRemoving ix (ix_supersedes ix))))
| tg_remove k cs ix i ids :
    together (mkSystem k cs (Some (RRemoving ix (i :: ids)))) (mkSystem (apply_op H k (DelIndex i)) cs (Some (RRemoving ix ids)))
| tg_rebuilt k cs r :
    together (mkSystem k cs r) (mkSystem k cs None).
End together.

(** The runs that only add: backups, copies into this repository, filtered
    snapshots.  Each may go on from what an earlier one left in its directory
    (filtering starts afresh). *)
Inductive adds_to (H : bytes -> oid) (U : blob -> Prop) : backend -> workdir -> command -> Prop :=
| ad_backup cuts deref allow_empty filter author tz tags now paths parent pf k w c :
    backup_command H cuts false deref allow_empty filter author tz tags now paths parent pf k w c ->
    paths_ok cuts deref paths -> Forall U (plan_blobs H cuts filter pf (sn_tree <$> parent) paths) ->
    own_leftovers H U k w -> no_clash H k w c -> adds_to H U k w c
| ad_copy filter src chosen fuel forests k w c :
    in_order H U src -> (forall sn, sn ∈ chosen -> exists i, k_snaps src !! i = Some sn) ->
    copy_command H false filter src chosen fuel forests k w c ->
    Forall U (rplan_all H filter (chunk_of (repo_store src)) fuel forests) ->
    own_leftovers H U k w -> no_clash H k w c -> adds_to H U k w c
| ad_filter filter sn i meta fuel fo k w c :
    w_wip w = None -> k_snaps k !! i = Some sn ->
    filter_command H false filter sn meta fuel fo k c ->
    Forall U (rplan_all H filter (chunk_of (repo_store k)) fuel [(sn, fo)]) ->
    own_leftovers H U k w -> no_clash H k w c -> adds_to H U k w c.

(** The blobs a run may store: those in the packs it goes on from, and those it
    sends.  Two runs are apart if they have none in common. *)
Definition stores (c : command) (x : oid) : Prop :=
  (exists p m e, (p, m) ∈ ix_packs (c_start c) /\ e ∈ m /\ e_id e = x) \/ (exists b, b ∈ c_blobs c /\ b_id b = x).
Definition apart (cs : list client) (c : command) : Prop :=
  forall cl x, cl ∈ cs -> stores (cl_command cl) x -> ~ stores c x.
Definition anything (cs : list client) (c : command) : Prop := True.

(** And prunes as well, in a directory where nothing was left. *)
Definition adds_or_prunes (H : bytes -> oid) (U : blob -> Prop) (k : backend) (w : workdir) (c : command) : Prop :=
  adds_to H U k w c \/ w = mkWorkdir ∅ None /\ prune_command H false k w (Some c) /\ no_clash H k w c.
