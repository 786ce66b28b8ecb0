(** The [check] command, on the bytes a backend holds.
    Models src/ui/check.rs:42-222 and src/snapshot.rs:169-202. *)

From Verif Require Import Base OMap Cbor Formats Hashing Pack Index Meta Forest.

(** ** Loading a snapshot *)

(** src/snapshot.rs:130: eight bytes, then one for the version. *)
Definition snapshot_magic : bytes := ascii_bytes "MKBAKSNP".

(** What a snapshot file holds, by version (src/snapshot.rs:177-184). *)
Inductive any_snapshot := Version1 (s : snapshot1) | Version2 (s : snapshot).
Definition any_tree (s : any_snapshot) : oid :=
  match s with Version1 s => s1_tree s | Version2 s => sn_tree s end.

Section check.
Variable H : bytes -> oid.
Variable zdec : bytes -> bytes * bool.

(** src/snapshot.rs:171-187 [from_reader] *)
Definition snapshot_from_reader (file : bytes) : result (any_snapshot * oid) :=
  let* body := check_magic snapshot_magic file in
  match body with
  | [] => Err
  | v :: r =>
      if bool_decide (v = x31) then
        let* (s, id, _) := from_hashing_reader H dec_snapshot1 r in Ok (Version1 s, id)
      else if bool_decide (v = x32) then
        let* (s, id, _) := from_hashing_reader H dec_snapshot r in Ok (Version2 s, id)
      else Err
  end.

(** src/snapshot.rs:191-202 [load] *)
Definition snapshot_load (id : oid) (file : bytes) : result any_snapshot :=
  let* (s, cid) := snapshot_from_reader file in
  let* _ := ensure (bool_decide (id = cid)) in
  Ok s.

(** What is on the backend.  Indexes are in the order in which the loading threads
    finish, snapshots in the order of the listing.  Names that are not ids
    make the command fail (C50); here all of them are. *)
Record disk := mkDisk {
  d_packs : gmap oid bytes; d_indexes : list (oid * bytes); d_snapshots : list (oid * bytes) }.

(** src/index.rs:199-260, from the files. *)
Fixpoint load_all {A} (load : oid -> bytes -> result A) (files : list (oid * bytes)) : result (list (oid * A)) :=
  match files with
  | [] => Ok []
  | (id, f) :: files' =>
      let* a := load id f in
      let* l := load_all load files' in
      Ok ((id, a) :: l)
  end.
Definition disk_index (d : disk) : result index :=
  let* l := load_all (fun id f => index_load H zdec id (Some f)) (d_indexes d) in
  build_master_index l.

(** src/ui/check.rs:72-93 and 154-163, or 98-106: is this pack all right? *)
Definition pack_fine (read_packs : bool) (d : disk) (pm : oid * manifest) : bool :=
  match d_packs d !! pm.1 with
  | None => false
  | Some file =>
      if read_packs then match verify H zdec file pm.2 with Ok _ => true | _ => false end else true
  end.

(** src/ui/check.rs:197-222 [map_chunks_to_snapshots]: all chunks of all
    snapshots (which snapshots use them only matters to the messages).  The tree
    cache is kept from one snapshot to the next. *)
Fixpoint snapshot_chunks (read : forest -> oid -> result (tree * forest)) (fuel : nat) (cache : forest)
    (files : list (oid * bytes)) : option (result (list oid)) :=
  match files with
  | [] => Some (Ok [])
  | (id, f) :: files' =>
      match snapshot_load id f with
      | Err => Some Err
      | Panic => Some Panic
      | Ok s =>
          match forest_from_root read fuel cache (any_tree s) with
          | Some (Ok (cache', fo)) =>
              match snapshot_chunks read fuel cache' files' with
              | Some (Ok cs) => Some (Ok (concat (map (fun kv => tree_chunks kv.2) (map_to_list fo)) ++ cs))
              | other => other
              end
          | Some Err => Some Err
          | Some Panic => Some Panic
          | None => None
          end
      end
  end.

(** src/ui/check.rs:42-152 [run]: [Ok] if nothing was found.  Packs that no index
    names only cause a warning (lines 166-194). *)
Definition check (read_packs : bool) (fuel : nat) (d : disk) : option (result unit) :=
  match disk_index d with
  | Err => Some Err
  | Panic => Some Panic
  | Ok ix =>
      let packs_fine := forallb (pack_fine read_packs d) (ix_packs ix) in
      match blob_to_pack_map ix with
      | Err => Some Err
      | Panic => Some Panic
      | Ok bmap =>
          match snapshot_chunks (cache_read H zdec ix bmap (d_packs d)) fuel (cache_new H) (d_snapshots d) with
          | Some (Ok chunks) =>
              let none_missing := forallb (fun c => bool_decide (is_Some (bmap !! c))) chunks in
              Some (ensure (packs_fine && none_missing))
          | Some Err => Some Err
          | Some Panic => Some Panic
          | None => None
          end
      end
  end.
End check.
