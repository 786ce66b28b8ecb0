(** Comparing a snapshot to another or to the files: src/ui/diff.rs. *)

From Verif Require Import Base OMap Formats Hashing Index Meta Forest FsTree Pack Pipeline Repo Select Snapshots Browse Restore.

Section diff.
Variable H : bytes -> oid.
Variable cuts : bytes -> list bytes.

(** src/ui/diff.rs:81-112 [load_snapshot2_or_paths].  The files are those at the
    snapshot's paths, symbolic links not followed. *)
Definition snapshot2_or_paths (k : backend) (bmap : gmap oid oid) (snaps : list (snapshot * oid)) (files : list (bytes * fsnode))
    (load_fuel : nat) (sn1 : snapshot) (fo1 : forest) (second : option bytes) : option (result (oid * forest)) :=
  match second with
  | Some name =>
      obind (Some (find_snapshot snaps name)) (fun x =>
      obind (load_forest H k bmap load_fuel (sn_tree x.1)) (fun fo2 =>
      Some (Ok (sn_tree x.1, fo2))))
  | None =>
      Some (let* ps := walk_all files (map path_location (sn_paths sn1)) in
            forest_from_fs H cuts fo1 (Some (sn_tree sn1)) ps)
  end.

(** src/ui/diff.rs:48-79 [run], after the index and the snapshots are loaded.  (Each
    forest is loaded with a cache of its own: what a cache holds is what is stored.) *)
Definition diff_command (k : backend) (bmap : gmap oid oid) (snaps : list (snapshot * oid)) (files : list (bytes * fsnode))
    (load_fuel fuel : nat) (show_meta : bool) (first : bytes) (second : option bytes) : option (result (list line)) :=
  obind (Some (find_snapshot snaps first)) (fun x =>
  obind (load_forest H k bmap load_fuel (sn_tree x.1)) (fun fo1 =>
  obind (snapshot2_or_paths k bmap snaps files load_fuel x.1 fo1 second) (fun y =>
  diff fo1 y.2 fuel show_meta (sn_tree x.1) y.1))).
End diff.
