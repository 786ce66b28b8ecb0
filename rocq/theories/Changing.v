(** Backups of files that change while they are looked at: src/fs_tree.rs:78-177 and
    src/ui/backup.rs:402-560 again, with what they read and when. *)

From Verif Require Import Base OMap Formats Hashing Pack Meta Forest FsTree FsSpec.

(** ** Files over time

    What is at each absolute path at each moment.  Other programs change it at will.  With [Symlink::Dereference] it is what one sees
    through the links. *)
Inductive thing_there :=
| TFile (m : metadata) (content : bytes)
| TDir (m : metadata) (names : list bytes)
| TLink (m : metadata) (target : bytes)
| TOther (m : metadata).
Notation world := (nat -> bytes -> option thing_there).

Section looks.
Variable w : world.
Variable filter : bytes -> bool.

(** The contents of the file, if they stay the same all the time. *)
Definition stays (path : bytes) (from to : nat) (c : bytes) : Prop :=
  forall t, from <= t <= to -> exists m, w t path = Some (TFile m c).

(** The walk looks at each place once: first at the metadata
    (src/fs_tree.rs:120), then, at some later time, at the names in a directory
    (line 126), a link's target (line 157) or, bit by bit, at a file's contents
    (src/ui/backup.rs:470).  What it has seen by the end is a file tree, the one it
    goes on with as in FsTree.v.  If the contents do not change meanwhile, they are
    what it reads; otherwise it may read anything.  What the filter rejects it does
    not look at.  If something disappears before it is looked at the run fails; that
    is no case here. *)
Inductive looks : nat -> bytes -> fsnode -> nat -> Prop :=
| looks_skip t path n : filter path = false -> looks t path n t
| looks_file t t1 t2 path m c0 c :
    t <= t1 <= t2 -> w t1 path = Some (TFile m c0) -> (forall c1, stays path t1 t2 c1 -> c = c1) ->
    looks t path (FsFile m c) t2
| looks_dir t t1 t2 t3 path m ns0 m2 ns es :
    t <= t1 <= t2 -> w t1 path = Some (TDir m ns0) -> w t2 path = Some (TDir m2 ns) ->
    looks_all t2 path es t3 -> es.*1 ≡ₚ ns -> looks t path (FsDir m es) t3
| looks_link t t1 t2 path m tgt0 m2 tgt :
    t <= t1 <= t2 -> w t1 path = Some (TLink m tgt0) -> w t2 path = Some (TLink m2 tgt) ->
    looks t path (FsLink m tgt) t2
| looks_other t t1 path m : t <= t1 -> w t1 path = Some (TOther m) -> looks t path (FsOther m) t1
with looks_all : nat -> bytes -> list (bytes * fsnode) -> nat -> Prop :=
| looks_nil t path : looks_all t path [] t
| looks_cons t1 t2 t3 path x n es :
    looks t1 (join path x) n t2 -> looks_all t2 path es t3 -> looks_all t1 path ((x, n) :: es) t3.

(** The paths given, in their order. *)
Inductive looks_paths : nat -> list fspath -> nat -> Prop :=
| looks_paths_nil t : looks_paths t [] t
| looks_paths_cons t1 t2 t3 path name n ps :
    looks t1 path n t2 -> looks_paths t2 ps t3 -> looks_paths t1 ((path, name, n) :: ps) t3.
End looks.

(** ** A history of backups

    [fo] has all trees ever stored.  Each backup has a parent that finished before it
    started, if any, was given the same paths (src/ui/backup.rs:350-360), and the trees of
    it are loaded; which paths a backup is given, what it skips and whether it follows
    links may differ otherwise. *)
Record backup_run := mkBackupRun {
  br_from : nat; br_to : nat; br_root : oid;
  br_deref : bool; br_filter : bytes -> bool; br_paths : list fspath;
}.
Section history.
Variable H : bytes -> oid.
Variable cuts : bytes -> list bytes.
Variable w : world.
Variable fo : forest.

Inductive history : list backup_run -> Prop :=
| history_nil : history []
| history_next rs r pf parent packed s :
    history rs ->
    (parent = None \/ exists r0, r0 ∈ rs /\ br_to r0 <= br_from r /\ map fst (br_paths r0) = map fst (br_paths r) /\ parent = Some (br_root r0)) ->
    pf ⊆ fo -> forest_sane pf -> paths_ok cuts (br_deref r) (br_paths r) ->
    looks_paths w (br_filter r) (br_from r) (br_paths r) (br_to r) ->
    backup_tree H cuts (br_deref r) (br_filter r) pf parent (br_paths r) packed = Ok (s, br_root r) ->
    (forall t, ITree t ∈ plan_all H cuts (br_filter r) pf parent (br_paths r) -> fo !! tree_id H t = Some t) ->
    history (rs ++ [r]).
End history.
