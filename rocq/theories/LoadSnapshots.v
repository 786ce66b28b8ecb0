(** Loading all snapshots of a repository, each in a thread of its own.
    Models src/snapshot.rs:70-128 and 169-234 with src/concurrently.rs:64-87 (Parallel.v). *)

From Verif Require Import Base OMap Formats Hashing Check Select Locations Parallel.

Section load.
Variable H : bytes -> oid.
(** The two ways in which jiff reads a time with its zone (src/snapshot.rs:78 and 79). *)
Variables (parse_zoned strptime : bytes -> option (Z * bytes)).

(** src/snapshot.rs:70-81 [deserialize_zoned] *)
Definition deserialize_zoned (t : bytes) : option (Z * bytes) :=
  match parse_zoned t with
  | Some z => Some z
  | None => strptime t
  end.

(** src/snapshot.rs:177-184, with 120-128 [undiskfmt]: what is in memory, from either version.
    A time is its instant and its zone's name, as in version 2. *)
Definition undisk (a : any_snapshot) : result snapshot :=
  match a with
  | Version1 s =>
      let* z := of_option (deserialize_zoned (s1_time s)) in
      Ok (mkSnapshot z.1 z.2 (s1_author s) (s1_tags s) (s1_paths s) (s1_tree s))
  | Version2 s => Ok s
  end.

(** src/snapshot.rs:223-228: one function of those run concurrently, for the file of this name
    and length.  The read is that of a backend without cache (C39 is about the cache). *)
Definition load_job (st : fstore) (f : bytes * N) : result (snapshot * oid * N) :=
  let* id := id_from_path f.1 in
  let* file := get_object st ASnapshot id in
  let* a := snapshot_load H id file in
  let* s := undisk a in
  Ok (s, id, f.2).

(** src/snapshot.rs:226 and src/concurrently.rs:77-80, when it went well: its length is added (64
    bits, wrapping) and its result pushed.  In the program these are two steps; nobody looks in
    between. *)
Definition keep (v : snapshot * oid * N) (s : list (snapshot * oid) * N) : result (list (snapshot * oid) * N) :=
  Ok (s.1 ++ [v.1], (s.2 + v.2) mod 2 ^ 64)%N.

(** src/snapshot.rs:231-233: what [load_chronologically_with_total_size] returns. *)
Definition load_result (s : list (snapshot * oid) * N) : list (snapshot * oid) * N := (sort_by_time s.1, s.2).
End load.
