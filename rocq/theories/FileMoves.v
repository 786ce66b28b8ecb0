(** Copying and moving files into place, as the system calls that are made.
    Models src/file_util.rs:63-142 (the Unix side of [move_opened]). *)

From Verif Require Import Base Formats Locations.

(** ** A file system: names lead to files, files have contents *)

Record file := mkFile { f_bytes : bytes; f_synced : bool }.
Record fsys := mkFsys { names : gmap bytes positive; files : gmap positive file }.

Definition content (s : fsys) (p : bytes) : option bytes := n ← names s !! p; f_bytes <$> files s !! n.

(** The calls.  [Create] is [O_CREAT | O_EXCL]; [Write] and [Sync] act on the file
    that was opened under the name (which [Rename] does not change). *)
Inductive call :=
| Create (p : bytes) (n : positive)
| Write (n : positive) (x : bytes)
| Sync (n : positive)
| Rename (p q : bytes)
| Unlink (p : bytes).

Definition exec (s : fsys) (c : call) : fsys :=
  match c with
  | Create p n => mkFsys (<[p := n]> (names s)) (<[n := mkFile [] false]> (files s))
  | Write n x => mkFsys (names s) (alter (fun f => mkFile (f_bytes f ++ x) false) n (files s))
  | Sync n => mkFsys (names s) (alter (fun f => mkFile (f_bytes f) true) n (files s))
  | Rename p q =>
      match names s !! p with
      | Some n => mkFsys (<[q := n]> (delete p (names s))) (files s)
      | None => s
      end
  | Unlink p => mkFsys (delete p (names s)) (files s)
  end.
Definition execs (s : fsys) (cs : list call) : fsys := foldl exec s cs.

(** ** src/file_util.rs:117-142 [safe_copy_to_file] *)

(** How it ends: everything works, reading or writing fails after some pieces, the
    rename fails, or the final sync fails.  When the copy is not renamed, dropping the
    temporary file unlinks it (crate tempfile). *)
Inductive ending := Works | CopyFails (after : nat) | RenameFails | SyncFails.

(** [tmp], [n]: the temporary name chosen, and its new file.  [xs]: the pieces that
    [io::copy] reads and writes. *)
Definition safe_copy (tmp : bytes) (n : positive) (xs : list bytes) (to : bytes) (e : ending) : list call * result unit :=
  match e with
  | Works => (Create tmp n :: map (Write n) xs ++ [Rename tmp to; Sync n], Ok tt)
  | CopyFails k => (Create tmp n :: map (Write n) (take k xs) ++ [Unlink tmp], Err)
  | RenameFails => (Create tmp n :: map (Write n) xs ++ [Unlink tmp], Err)
  | SyncFails => (Create tmp n :: map (Write n) xs ++ [Rename tmp to], Err)
  end.

(** Names of temporary files: "<to>.<random>.part", next to [to]. *)
Definition temp_name (to rand : bytes) : bytes := to ++ dot :: rand ++ dot :: ascii_bytes "part".

(** ** src/file_util.rs:69-111 [move_opened], [move_by_copy]

    [across]: whether the rename fails because the two names are on different file
    systems; [other]: or for another reason; [unlinks]: whether the last unlink works. *)
Definition move_opened (from tmp : bytes) (n : positive) (xs : list bytes) (to : bytes)
    (across other : bool) (e : ending) (unlinks : bool) : list call * result unit :=
  if other then ([], Err)
  else if across then
    let '(cs, r) := safe_copy tmp n xs to e in
    match r with
    | Ok _ => if unlinks then (cs ++ [Unlink from], Ok tt) else (cs, Err)
    | _ => (cs, r)
    end
  else ([Rename from to], Ok tt).

(** ** Crashes *)

(** When the machine stops, files that were not synced may have lost the end of
    what was written.  (Names are taken to survive in order; file systems
    promise less.) *)
Definition power_loss (s s' : fsys) : Prop :=
  names s' = names s /\
  forall n, match files s !! n, files s' !! n with
  | Some f, Some f' => if f_synced f then f' = f else exists k, f_bytes f' = take k (f_bytes f)
  | None, None => True
  | _, _ => False
  end.
