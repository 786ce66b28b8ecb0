(** What an interrupted run left in the working directory, by file names and bytes.
    Models src/backup.rs:261-332; Pipeline.v has the same on decoded contents. *)

From Verif Require Import Base OMap Formats Hashing Pack Index Locations.

(** src/backup.rs:314-318: the id in the name of an entry of the directory, if it is that
    of a pack; the flag says whether the entry is a file. *)
Definition left_pack (e : bytes * bool) : option oid :=
  match pieces dot e.1 with
  | [a; b] => if bool_decide (b = ascii_bytes "pack") && e.2 then oid_parse a else None
  | _ => None
  end.

(** src/backup.rs:306-332 [find_cwd_packfiles], in the order the directory is read.  That
    it cannot be read, or that its name or an entry's is not UTF-8, is an error before
    anything else and is left out. *)
Definition left_packs (dir : list (bytes * bool)) (ix : index) : list oid :=
  List.filter (fun id => bool_decide (id ∈ map fst (ix_packs ix))) (omap left_pack dir).

(** src/backup.rs:276-280: the set is a list; removing takes every occurrence. *)
Fixpoint not_left (missing cwd : list oid) : result (list oid) :=
  match cwd with
  | [] => Ok missing
  | p :: cwd => if bool_decide (p ∈ missing) then not_left (List.filter (fun q => negb (bool_decide (q = p))) missing) cwd else Panic
  end.

(** src/backup.rs:287-295: whether some pack is not in the backend's list. *)
Fixpoint probe_all (packs : list bytes) (missing : list oid) : result bool :=
  match missing with
  | [] => Ok false
  | p :: ms =>
      match probe_pack packs p with
      | Panic => Panic
      | Err => let* _ := probe_all packs ms in Ok true
      | Ok _ => probe_all packs ms
      end
  end.

(** src/backup.rs:261-304 [find_resumable]; [packs] is what the backend lists.  It is asked
    only if some pack is missing, and that it cannot be listed is left out. *)
Definition resume_from (H : bytes -> oid) (zdec : bytes -> bytes * bool) (file : option bytes)
    (dir : list (bytes * bool)) (packs : list bytes) : result (option (index * list oid)) :=
  let* wip := read_wip H zdec file in
  match wip with
  | None => Ok None
  | Some ix =>
      let cwd := left_packs dir ix in
      let* missing := not_left (map fst (ix_packs ix)) cwd in
      let* errs := probe_all packs missing in
      if errs then Err else Ok (Some (ix, cwd))
  end.
