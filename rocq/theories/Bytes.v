(** A repository as files: what bytes its objects have, where they are, how each
    change to the repository changes them, and how they are read.  This joins the
    formats (Pack.v, Index.v, Check.v) and the locations (Locations.v) to the
    commands (Repo.v), which speak of what the files decode to. *)

From Verif Require Import Base OMap Formats Hashing Pack Index Meta Forest FsTree Pipeline Repo Check Reader Locations PropsLocations History.

(** ** The bytes of an object *)

(** src/pack.rs:207-300: the blobs compressed, the manifest compressed and its
    length, which must fit 32 bits (line 283).  The compressor's output is any bytes
    that decompress to its input. *)
Definition pack_bytes (zdec : bytes -> bytes * bool) (bs : list blob) (x : bytes) : Prop :=
  exists z zm, x = pack_file z zm /\ zstream_of zdec z (concat (map b_bytes bs)) /\
    zstream_of zdec zm (enc_manifest (manifest_of bs)) /\ (N.of_nat (length zm) < 2 ^ 32)%N.
(** src/index.rs:265-321 [to_file] *)
Definition index_bytes (zdec : bytes -> bytes * bool) (ix : index) (x : bytes) : Prop :=
  exists z, x = index_file z /\ zstream_of zdec z (enc_index ix).
(** src/snapshot.rs:132-144 [to_file] *)
Definition snapshot_bytes (sn : snapshot) : bytes := snapshot_magic ++ x32 :: enc_snapshot sn.

(** ** The repository in files *)

(** Every object is in its file, and there are no other files but partial ones
    (src/file_util.rs:113-143). *)
Record stored_in (zdec : bytes -> bytes * bool) (st : fstore) (k : backend) : Prop := {
  si_packs : forall i, oid_wf i -> option_Forall2 (pack_bytes zdec) (k_packs k !! i) (st !! location APack i);
  si_indexes : forall i, oid_wf i -> option_Forall2 (index_bytes zdec) (k_indexes k !! i) (st !! location AnIndex i);
  si_snaps : forall i, oid_wf i -> st !! location ASnapshot i = snapshot_bytes <$> k_snaps k !! i;
  si_others : forall p x, st !! p = Some x ->
    (exists kd i, oid_wf i /\ p = location kd i) \/ extension p = Some (ascii_bytes "part") }.

(** ** Changing one object at a time *)

Inductive change :=
| NewPack (p : oid) (bs : list blob)
| NewIndex (ix : index)
| Op (o : bop)
(* a partial file comes or goes *)
| PartMade (p : bytes)
| PartGone (p : bytes).

Section changes.
Variable H : bytes -> oid.

(** What it is to the repository: Pipeline.v [upload_job], Repo.v [apply_op]. *)
Definition apply_change (k : backend) (c : change) : backend :=
  match c with
  | NewPack p bs => mkBackend (<[p := bs]> (k_packs k)) (k_indexes k) (k_snaps k)
  | NewIndex ix => mkBackend (k_packs k) (<[index_id H ix := ix]> (k_indexes k)) (k_snaps k)
  | Op o => apply_op H k o
  | PartMade _ | PartGone _ => k
  end.

(** What it is to the files, given the bytes written: src/backend.rs:236-273,
    src/backend/fs.rs:86-97, src/file_util.rs:113-143. *)
Definition change_files (st : fstore) (c : change) (x : bytes) : fstore :=
  match c with
  | NewPack p _ => act st (Store APack p x)
  | NewIndex ix => act st (Store AnIndex (index_id H ix) x)
  | Op (PutSnap sn) => act st (Store ASnapshot (snapshot_id H sn) x)
  | Op (DelSnap i) => act st (Remove ASnapshot i)
  | Op (DelIndex i) => act st (Remove AnIndex i)
  | Op (DelPack i) => act st (Remove APack i)
  | PartMade p => act st (CutShort p x)
  | PartGone p => delete p st
  end.

(** Which bytes are written. *)
Definition change_bytes (zdec : bytes -> bytes * bool) (c : change) (x : bytes) : Prop :=
  match c with
  | NewPack _ bs => pack_bytes zdec bs x
  | NewIndex ix => index_bytes zdec ix x
  | Op (PutSnap sn) => x = snapshot_bytes sn
  | _ => True
  end.

(** Names are ids; partial files are called that. *)
Definition change_wf (c : change) : Prop :=
  match c with
  | NewPack p _ => oid_wf p
  | NewIndex _ | Op (PutSnap _) => True
  | Op (DelSnap i) | Op (DelIndex i) | Op (DelPack i) => oid_wf i
  | PartMade p | PartGone p => extension p = Some (ascii_bytes "part")
  end.
End changes.

(** ** Reading the files *)

(** Listing the files of a kind, in any order; the ids are read off the names
    (src/index.rs:206-232, src/snapshot.rs:204-234, src/ui/check.rs:154-163). *)
Definition listed (st : fstore) (kd : kind) (files : list (oid * bytes)) : Prop :=
  exists names, Permutation names (list_objects st kd) /\
    Forall2 (fun p f => id_from_path p = Ok f.1 /\ get_object st kd f.1 = Ok f.2) names files.

(** What a command finds on the backend. *)
Definition found (st : fstore) (d : disk) : Prop :=
  (forall i, oid_wf i -> get_object st APack i = of_option (d_packs d !! i)) /\
  listed st AnIndex (d_indexes d) /\ listed st ASnapshot (d_snapshots d).

(** Reading a snapshot from those bytes gives this file tree: the indexes load and
    are combined; the snapshot's file loads; its trees load through the tree cache,
    at whatever depth; and any sequence of reads of their chunks through the chunk
    cache comes to an end, and always gives the bytes that make up the files. *)
Definition bytes_read (H : bytes -> oid) (zdec : bytes -> bytes * bool) (clock : nat -> N) (d : disk)
    (id : oid) (sn : snapshot) (es : list (bytes * fsnode)) : Prop :=
  exists ix bmap file fo t (bound : nat) (chunk : oid -> bytes),
    disk_index H zdec d = Ok ix /\ blob_to_pack_map ix = Ok bmap /\
    (id, file) ∈ d_snapshots d /\ snapshot_load H id file = Ok (Version2 sn) /\
    (forall fuel, bound < fuel -> exists c,
       forest_from_root (cache_read H zdec ix bmap (d_packs d)) fuel (cache_new H) (sn_tree sn) = Some (Ok (c, fo))) /\
    fo !! sn_tree sn = Some t /\
    Forall2 (fun (a : bytes * node) (b : bytes * fsnode) => a.1 = b.1 /\ assembles (fun i => Ok (chunk i)) fo a.2 b.2) t es /\
    forall ids, (forall i, i ∈ ids -> exists x u, fo !! x = Some u /\ i ∈ tree_chunks u) ->
      (exists rs s, read_blobs H zdec ix bmap (d_packs d) clock reader_new ids rs s) /\
      forall rs s, read_blobs H zdec ix bmap (d_packs d) clock reader_new ids rs s -> rs = map (fun i => Ok (chunk i)) ids.

(** The numbers in the formats do not overflow, and the texts are proper. *)
Record fits (k : backend) : Prop := {
  fit_packs : forall p bs, k_packs k !! p = Some bs -> len_wf bs;
  fit_indexes : forall i ix, k_indexes k !! i = Some ix -> index_wf ix;
  fit_snaps : forall i sn, k_snaps k !! i = Some sn -> snapshot_wf sn }.
