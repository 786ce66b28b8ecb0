(** The paths given to a backup, before anything else is done. *)

From Verif Require Import Base OMap Formats Meta Forest FsTree Browse Restore.

(** A canonical path is absolute and has neither [.], [..] nor links in it: its names.  The
    order of [Utf8PathBuf]s is that of their components. *)
Fixpoint path_cmp (p q : list bytes) : comparison :=
  match p, q with
  | [], [] => Eq
  | [], _ :: _ => Lt
  | _ :: _, [] => Gt
  | x :: p', y :: q' => match bytes_cmp x y with Eq => path_cmp p' q' | c => c end
  end.

(** [BTreeSet::insert]. *)
Fixpoint set_insert (p : list bytes) (s : list (list bytes)) : list (list bytes) :=
  match s with
  | [] => [p]
  | q :: s' => match path_cmp p q with Lt => p :: s | Eq => s | Gt => q :: set_insert p s' end
  end.

(** Its text. *)
Definition path_text (p : list bytes) : bytes :=
  match p with [] => [slash] | _ => concat (map (fun x => slash :: x) p) end.

(** src/ui/backup.rs:75-82, in [run].  [canon] is [canonicalize_utf8], which looks at the file system
    (src/ui/backup.rs:79); nothing if it fails. *)
Definition canonical_paths (canon : bytes -> option (list bytes)) (args : list bytes) : result (list (list bytes)) :=
  rfold (fun a s => match canon a with Some p => Ok (set_insert p s) | None => Err end) args [].

(** src/ui/backup.rs:336-348 [reject_matching_directories]; [expect] panics of a path without a name.  (FsTree.v has it
    for names.) *)
Fixpoint reject_matching_directories (seen : gset bytes) (ps : list (list bytes)) : result unit :=
  match ps with
  | [] => Ok tt
  | p :: ps' =>
      match last p with
      | None => Panic
      | Some x => if decide (x ∈ seen) then Err else reject_matching_directories ({[x]} ∪ seen) ps'
      end
  end.

(** src/ui/backup.rs:72-84 [run] *)
Definition backup_paths (canon : bytes -> option (list bytes)) (args : list bytes) : result (list (list bytes)) :=
  let* ps := canonical_paths canon args in
  let* _ := reject_matching_directories ∅ ps in
  Ok ps.
