(** Histories of commands on one repository, each run to its end or interrupted
    anywhere, and what the program itself sees of a snapshot. *)

From Verif Require Import Base OMap Formats Hashing Pack Index Meta Forest FsTree FsSpec Pipeline PipelineFacts Repo RepoSpec.

(** ** What the program reads *)

(** The files a node stands for, taking trees from [fo] and chunks from [rd]. *)
Inductive assembles (rd : oid -> result bytes) (fo : forest) : node -> fsnode -> Prop :=
| asm_file m cs ps : Forall2 (fun c p => rd c = Ok p) cs ps -> assembles rd fo (mkNode (CFile cs) m) (FsFile m (concat ps))
| asm_link m t : assembles rd fo (mkNode (CSymlink t) m) (FsLink m t)
| asm_dir m id t es : fo !! id = Some t ->
    Forall2 (fun (a : bytes * node) (b : bytes * fsnode) => a.1 = b.1 /\ assembles rd fo a.2 b.2) t es ->
    assembles rd fo (mkNode (CDir id) m) (FsDir m es).

(** The program can load the indexes, the snapshot's trees and all its chunks,
    and this is what they say. *)
Definition program_reads (H : bytes -> oid) (k : backend) (sn : snapshot) (es : list (bytes * fsnode)) : Prop :=
  exists ix bmap fuel fo t,
    master k = Ok ix /\ blob_to_pack_map ix = Ok bmap /\
    load_forest H k bmap fuel (sn_tree sn) = Some (Ok fo) /\ fo !! sn_tree sn = Some t /\
    Forall2 (fun (a : bytes * node) (b : bytes * fsnode) => a.1 = b.1 /\ assembles (read_chunk k bmap) fo a.2 b.2) t es.

(** The indexes can be merged and no blob is listed twice, so commands get going. *)
Definition usable (k : backend) : Prop :=
  exists ix bmap packed, master k = Ok ix /\ blob_to_pack_map ix = Ok bmap /\ blob_id_set ix = Ok packed.

(** ** Histories *)

Definition empty_repo : backend := mkBackend ∅ ∅ ∅.
Definition clean : workdir := mkWorkdir ∅ None.
Definition all_packs (k : backend) : list (oid * manifest) :=
  map (fun x : oid * list blob => (x.1, manifest_of x.2)) (map_to_list (k_packs k)).

(** The rebuilt index is one nobody calls superseded. *)
Definition fresh_rebuild (H : bytes -> oid) (k : backend) : Prop :=
  forall packs ix, Permutation packs (map fst (map_to_list (k_packs k))) -> rebuilt_index k packs = Ok ix ->
    index_id H ix ∉ ix_supersedes ix /\ index_id H ix ∉ superseded k.

Section history.
Variables (H : bytes -> oid) (U : blob -> Prop).

(** One command, wherever it was stopped, or the user turning to an empty
    directory.  Backups and copies may go on from what an earlier one left;
    prune does not, and what it leaves is not gone on from here (see C21). *)
Inductive happens : backend * workdir -> backend * workdir -> Prop :=
| hp_backup cuts deref allow_empty filter author tz tags now paths parent pf k w c target cpus errors k' w' :
    backup_command H cuts false deref allow_empty filter author tz tags now paths parent pf k w c ->
    paths_ok cuts deref paths -> Forall U (plan_blobs H cuts filter pf (sn_tree <$> parent) paths) -> no_clash H k w c ->
    errors <> ErrorAny -> command_reaches H target true cpus errors k w c k' w' ->
    happens (k, w) (k', w')
| hp_copy filter src chosen fuel forests k w c target cpus errors k' w' :
    in_order H U src -> (forall sn, sn ∈ chosen -> exists i, k_snaps src !! i = Some sn) ->
    copy_command H false filter src chosen fuel forests k w c ->
    Forall U (rplan_all H filter (chunk_of (repo_store src)) fuel forests) -> no_clash H k w c ->
    errors <> ErrorAny -> command_reaches H target true cpus errors k w c k' w' ->
    happens (k, w) (k', w')
| hp_filter filter sn i meta fuel fo k w c target cpus errors k' w' :
    w_wip w = None -> k_snaps k !! i = Some sn ->
    filter_command H false filter sn meta fuel fo k c ->
    Forall U (rplan_all H filter (chunk_of (repo_store k)) fuel [(sn, fo)]) -> no_clash H k w c ->
    errors <> ErrorAny -> command_reaches H target true cpus errors k w c k' w' ->
    happens (k, w) (k', w')
| hp_prune k w c target cpus k' w' :
    prune_command H false k w (Some c) -> no_clash H k w c ->
    command_reaches H target true cpus NoError k w c k' w' ->
    happens (k, w) (k', clean)
| hp_forget k w ids n : happens (k, w) (apply_ops H k (take n (forget_ops false ids)), w)
| hp_rebuild k w k' : w_wip w = None -> once (all_packs k) -> fresh_rebuild H k -> rebuild_reaches H k k' -> happens (k, w) (k', w)
| hp_leave k w : happens (k, w) (k, clean).

Definition history : backend * workdir -> backend * workdir -> Prop := rtc happens.

(** One directory in which prune is run, each time stopped anywhere, again and
    again; in between others may work on the repository, as long as it is in order
    afterwards, no snapshot was removed, and no pack of which everything is needed. *)
Definition others_keep (k k' : backend) : Prop :=
  in_order H U k' /\ k_snaps k ⊆ k_snaps k' /\
  forall p bs, k_packs k !! p = Some bs -> (forall b, b ∈ bs -> needed H k (b_id b)) -> k_packs k' !! p = Some bs.
Inductive prunes_again : backend * workdir -> backend * workdir -> Prop :=
| pa_prune k w c target cpus k' w' :
    prune_command H false k w (Some c) -> no_clash H k w c ->
    command_reaches H target true cpus NoError k w c k' w' -> prunes_again (k, w) (k', w')
| pa_others k w k' : others_keep k k' -> prunes_again (k, w) (k', w).
Definition prunes : backend * workdir -> backend * workdir -> Prop := rtc prunes_again.
End history.

(** ** Paths *)

(** The path made of these names; a path is left out with any of its ancestors. *)
Definition path_of (p : list bytes) : bytes := foldl join [] p.
Definition passes (filter : bytes -> bool) (p : list bytes) : Prop :=
  forall q, q `prefix_of` p -> q <> [] -> filter (path_of q) = true.

(** The same file, link or directory; what is in the directory is another matter. *)
Definition same_entry (n n' : fsnode) : Prop :=
  match n, n' with
  | FsFile m c, FsFile m' c' => m' = m /\ c' = c
  | FsDir m _, FsDir m' _ => m' = m
  | FsLink m t, FsLink m' t' => m' = m /\ t' = t
  | _, _ => False
  end.
