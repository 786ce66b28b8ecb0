(** What a backup counts while it runs: the numbers of src/ui/backup.rs and src/backup.rs:83-89. *)

From Verif Require Import Base OMap Formats Hashing Meta Forest FsTree Pack.

(** src/pack.rs:110-119: each packer adds up the sizes of the blobs it gets; one gets the
    chunks, the other the trees.  Counters are unbounded here, 64 bits in the program. *)
Definition count_packed (kind : blob_type) (bs : list blob) : N :=
  foldl (fun n b => if bool_decide (b_type b = kind) then n + N.of_nat (length (b_bytes b)) else n)%N 0%N bs.

Section counted.
Variable H : bytes -> oid.
Variable cuts : bytes -> list bytes.

(** src/ui/backup.rs:477-487 and 533-547: [send_new], counting what is not sent as reused. *)
Definition send_counted (s : bstate * N) (b : blob) : bstate * N :=
  if decide (b_id b ∈ bs_packed s.1) then (s.1, s.2 + N.of_nat (length (b_bytes b)))%N
  else (send_new s.1 b, s.2).

(** src/ui/backup.rs:426-521, as [backup_visit]. *)
Definition counted_visit (deref : bool) (st : (bstate * N) * tree) (path name : bytes) (m : metadata)
    (prev : option node) (e : dentry oid) : result ((bstate * N) * tree) :=
  let '(s, t) := st in
  let* (s', c) :=
    match e with
    | DDir sub => Ok (s, CDir sub)
    | DLink target => let* _ := rassert (negb deref) in Ok (s, CSymlink target)
    | DUnchanged =>
        match meta_size m, prev with
        | Some n, Some p => Ok ((s.1, s.2 + n)%N, n_contents p)
        | _, _ => Panic
        end
    | DChanged content =>
        let bs := chunk_file H cuts content in
        Ok (foldl send_counted s bs, CFile (map b_id bs))
    end in
  let* t' := tree_insert name (mkNode c m) t in
  Ok (s', t').

(** src/ui/backup.rs:523-549 *)
Definition counted_finalize (s : bstate * N) (t : tree) : result ((bstate * N) * oid) :=
  match t with
  | [] => Ok (s, empty_id H)
  | _ => Ok (send_counted s (tree_blob H t), tree_id H t)
  end.

(** src/ui/backup.rs:402-560 [backup_tree]: also gives the bytes counted as reused. *)
Definition backup_counted (deref : bool) (filter : bytes -> bool) (pf : forest) (ptree : option oid)
    (paths : list fspath) (packed : gset oid) : result ((bstate * N) * oid) :=
  walk_fs pf filter [] (counted_visit deref) counted_finalize paths ptree (mkBstate packed [], 0%N).
End counted.
