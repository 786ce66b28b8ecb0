(** Restoring: src/ui/restore.rs on Unix. *)

From Verif Require Import Base OMap Formats Hashing Meta Forest FsTree FsSpec Pack Pipeline Repo Browse Times.

(** ** The file system

    A location is the list of names from the root of the file system; the state is
    the entries of the root ([fs_at] of FsSpec.v finds things there) and a number that every change increases, so that
    [clock] and [fresh] can say something new each time.  Simplifications: no I/O
    error other than those that follow from what is there (permissions, a full
    disk); no other program changes the files meanwhile; a symbolic link within a
    location is not followed but an error, as is creating a file where there is a
    link or a special file (the theorems show that neither happens). *)
Notation fsworld := (nat * list (bytes * fsnode))%type.

(** Put something at a name, or nothing. *)
Definition om_put {A} (x : bytes) (o : option A) (es : list (bytes * A)) : list (bytes * A) :=
  match o with
  | Some n => om_insert x n es
  | None => filter (fun e : bytes * A => e.1 <> x) es
  end.

(** Change what is at a location; [tm] is what becomes of the metadata of the
    directory it is in. *)
Fixpoint fs_change (tm : metadata -> metadata) (f : option fsnode -> result (option fsnode))
    (loc : list bytes) (es : list (bytes * fsnode)) : result (list (bytes * fsnode)) :=
  match loc with
  | [] => Err
  | [x] => let* o := f (om_get x es) in Ok (om_put x o es)
  | x :: (y :: rest) as l =>
      match om_get x es with
      | Some (FsDir m es') =>
          let* es'' := fs_change tm f l es' in
          Ok (om_put x (Some (FsDir (match rest with [] => tm m | _ => m end) es'')) es)
      | _ => Err
      end
  end.

(** Metadata with another time, size or permissions. *)
Definition set_mtime (t : Z) (m : metadata) : metadata :=
  match m with
  | Posix p => Posix (mkPosix (p_mode p) (p_size p) (p_uid p) (p_gid p) (p_atime p) t)
  | Windows w => Windows (mkWindows (w_attributes w) (w_size w) (w_creation w) (w_access w) (Some t))
  end.
Definition set_atime (t : Z) (m : metadata) : metadata :=
  match m with
  | Posix p => Posix (mkPosix (p_mode p) (p_size p) (p_uid p) (p_gid p) t (p_mtime p))
  | Windows w => Windows (mkWindows (w_attributes w) (w_size w) (w_creation w) (Some t) (w_write w))
  end.
Definition set_size (n : N) (m : metadata) : metadata :=
  match m with
  | Posix p => Posix (mkPosix (p_mode p) (Some n) (p_uid p) (p_gid p) (p_atime p) (p_mtime p))
  | Windows w => Windows (mkWindows (w_attributes w) (Some n) (w_creation w) (w_access w) (w_write w))
  end.
(** chmod(2) changes the last twelve bits. *)
Definition set_mode (mode : N) (m : metadata) : metadata :=
  match m with
  | Posix p => Posix (mkPosix (p_mode p / 4096 * 4096 + mode mod 4096)%N (p_size p) (p_uid p) (p_gid p) (p_atime p) (p_mtime p))
  | Windows w => m
  end.
Definition set_meta_of (f : metadata -> metadata) (n : fsnode) : fsnode :=
  match n with
  | FsFile m c => FsFile (f m) c
  | FsDir m es => FsDir (f m) es
  | FsLink m t => FsLink (f m) t
  | FsOther m => FsOther (f m)
  end.

Section fs.
(** The time of each change; the metadata of something just created. *)
Variable clock : nat -> Z.
Variable fresh : nat -> kind -> posix.

Definition change (touch_parent : bool) (f : option fsnode -> result (option fsnode)) (loc : list bytes) (w : fsworld)
    : result fsworld :=
  let* es := fs_change (if touch_parent then set_mtime (clock w.1) else id) f loc w.2 in
  Ok (S w.1, es).

(** [File::create]: made if missing, emptied otherwise. *)
Definition create_file (loc : list bytes) (w : fsworld) : result fsworld :=
  change (match fs_at w.2 loc with None => true | Some _ => false end) (fun o =>
    match o with
    | None => Ok (Some (FsFile (Posix (fresh w.1 KFile)) []))
    | Some (FsFile m _) => Ok (Some (FsFile (set_mtime (clock w.1) (set_size 0 m)) []))
    | Some _ => Err
    end) loc w.

(** [Write::write_all] on the file just created there. *)
Definition append_file (b : bytes) (loc : list bytes) (w : fsworld) : result fsworld :=
  change false (fun o =>
    match o with
    | Some (FsFile m c) => Ok (Some (FsFile (set_mtime (clock w.1) (set_size (N.of_nat (length (c ++ b))) m)) (c ++ b)))
    | _ => Err
    end) loc w.

Definition create_dir (loc : list bytes) (w : fsworld) : result fsworld :=
  change true (fun o => match o with None => Ok (Some (FsDir (Posix (fresh w.1 KDirectory)) [])) | Some _ => Err end) loc w.
Definition create_link (target : bytes) (loc : list bytes) (w : fsworld) : result fsworld :=
  change true (fun o => match o with None => Ok (Some (FsLink (Posix (fresh w.1 KSymlink)) target)) | Some _ => Err end) loc w.
Definition remove_dir_all (loc : list bytes) (w : fsworld) : result fsworld :=
  change true (fun o => match o with Some (FsDir _ _) => Ok None | _ => Err end) loc w.
Definition remove_file (loc : list bytes) (w : fsworld) : result fsworld :=
  change true (fun o => match o with Some (FsDir _ _) | None => Err | Some _ => Ok None end) loc w.
Definition change_meta (f : metadata -> metadata) (loc : list bytes) (w : fsworld) : result fsworld :=
  change false (fun o => match o with Some n => Ok (Some (set_meta_of f n)) | None => Err end) loc w.

(** ** The restorer *)

(** src/ui/restore.rs:44-91, the switches. *)
Record restore_args := mkRestoreArgs { r_dry_run : bool; r_delete : bool; r_times : bool; r_permissions : bool }.

Variable args : restore_args.
(** Where each top-level name is restored to. *)
Variable path_map : gmap bytes (list bytes).
(** src/read.rs [ChunkReader::read_blob] *)
Variable read_chunk : oid -> result bytes.
Variable fo2 : forest.
(** As deep as trees may be nested. *)
Variable fuel : nat.

(** src/ui/restore.rs:298-316 [translate_path] *)
Definition translate (p : list bytes) : result (list bytes) :=
  match p with
  | [] => Panic
  | x :: rest => match path_map !! x with Some to => Ok (to ++ rest) | None => Panic end
  end.

(** src/ui/restore.rs:320-356 [set_metadata]; the present, used for a time that is
    missing, is after 1970, so utimensat(2) takes it. *)
Definition time_taken (t : option Z) : bool := match t with Some t => utimens_takes (to_timespec t) | None => true end.
Definition restore_times (m : metadata) (loc : list bytes) (w : fsworld) : result fsworld :=
  match meta_mtime m, meta_atime m with
  | None, None => Ok w
  | mt, at_ =>
      let* _ := ensure (time_taken mt && time_taken at_) in
      change_meta (fun old => set_atime (default (clock w.1) at_) (set_mtime (default (clock w.1) mt) old)) loc w
  end.
Definition set_metadata (n : node) (loc : list bytes) (w : fsworld) : result fsworld :=
  let* w1 := if r_times args then restore_times (n_meta n) loc w else Ok w in
  if r_permissions args then
    let* k := node_kind n in
    if bool_decide (k = KSymlink) then Ok w1
    else match n_meta n with
         | Posix p => change_meta (set_mode (p_mode p)) loc w1
         | Windows _ => Panic
         end
  else Ok w1.

(** src/ui/restore.rs:363-376 [remove_node] *)
Definition remove_node (old : node) (loc : list bytes) (w : fsworld) : result fsworld :=
  let* k := node_kind old in
  if bool_decide (k = KDirectory) then remove_dir_all loc w else remove_file loc w.

(** src/ui/restore.rs:439-445 [fill_file] *)
Definition fill_file (chunks : list oid) (loc : list bytes) (w : fsworld) : result fsworld :=
  rfold (fun c w => let* b := read_chunk c in append_file b loc w) chunks w.

(** src/ui/restore.rs:378-408 [add_node] *)
Fixpoint add_node (d : nat) (n : node) (loc : list bytes) (w : fsworld) : option (result fsworld) :=
  match n_contents n with
  | CFile chunks =>
      Some (let* w1 := create_file loc w in
            let* w2 := fill_file chunks loc w1 in
            set_metadata n loc w2)
  | CSymlink target => Some (create_link target loc w)
  | CDir sub =>
      match d with
      | O => None
      | S d' =>
          match create_dir loc w with
          | Ok w1 =>
              match fo2 !! sub with
              | None => Some Panic
              | Some t =>
                  match ofold (fun (e : bytes * node) w => add_node d' e.2 (loc ++ [e.1]) w) t w1 with
                  | Some (Ok w2) => Some (set_metadata n loc w2)
                  | other => other
                  end
              end
          | other => Some other
          end
      end
  end.

(** src/ui/restore.rs:410-436 [change_node_contents] *)
Definition change_node_contents (n : node) (loc : list bytes) (w : fsworld) : result fsworld :=
  match n_contents n with
  | CFile chunks =>
      let* w1 := create_file loc w in
      let* w2 := fill_file chunks loc w1 in
      set_metadata n loc w2
  | CSymlink target => let* w1 := remove_file loc w in create_link target loc w1
  | CDir _ => Panic
  end.

(** src/ui/restore.rs:462-567, the callbacks.  Left out: printing, which is as in
    [diff] with translated paths. *)
Definition restore_cb (p : list bytes) (e : event) (w : fsworld) : result fsworld :=
  match e with
  | Added n =>
      let* loc := translate p in
      if r_dry_run args then Ok w else or_panic (add_node fuel n loc w)
  | Removed n =>
      if negb (r_delete args) then Ok w
      else let* loc := translate p in
           if r_dry_run args then Ok w else remove_node n loc w
  | Changed _ n =>
      let* loc := translate p in
      if r_dry_run args then Ok w else change_node_contents n loc w
  | MetaChanged _ n =>
      let* loc := translate p in
      if r_dry_run args then Ok w else set_metadata n loc w
  | Unchanged _ => Ok w
  | TypeChanged old new =>
      let* loc := translate p in
      match n_contents old, r_delete args with
      | CDir _, false => match n_contents new with CDir _ => Panic | _ => Ok w end
      | _, _ =>
          if r_dry_run args then Ok w
          else let* w1 := remove_node old loc w in or_panic (add_node fuel new loc w1)
      end
  end.
End fs.

(** ** What to compare with and where to put it *)

Section load.
Variable H : bytes -> oid.
Variable cuts : bytes -> list bytes.
(** [Path::exists] follows a link at the end of the path: does it lead anywhere? *)
Variable resolves : list bytes -> bool.
Variable es : list (bytes * fsnode).

Definition path_exists (loc : list bytes) : bool :=
  match fs_at es loc with
  | None => false
  | Some (FsLink _ _) => resolves loc
  | Some _ => true
  end.

(** A location's path and file name and what is there, as the walk gets it. *)
Definition walked (loc : list bytes) : result fspath :=
  match last loc with
  | None => Panic
  | Some name => let* n := of_option (fs_at es loc) in Ok (render loc, name, n)
  end.

(** The names in a snapshot's path and the last of them. *)
Definition path_location (path : bytes) : list bytes :=
  omap (fun c => match c with Normal x => Some x | CurDir | RootOrParent => None end) (components path).

(** The [path_map.insert]s: a name twice is a panic, as is a path without a name. *)
Fixpoint map_paths (to : list bytes -> bytes -> list bytes) (locs : list (list bytes)) (pm : gmap bytes (list bytes))
    : result (gmap bytes (list bytes)) :=
  match locs with
  | [] => Ok pm
  | l :: locs' =>
      match last l with
      | None => Panic
      | Some name =>
          let* _ := rassert (bool_decide (pm !! name = None)) in
          map_paths to locs' (<[name := to l name]> pm)
      end
  end.

Definition walk_all : list (list bytes) -> result (list fspath) :=
  fix go locs :=
    match locs with
    | [] => Ok []
    | l :: locs' => let* x := walked l in let* xs := go locs' in Ok (x :: xs)
    end.

(** src/ui/restore.rs:144-280 [load_fs_tree_and_mapping].  [output] is the
    [--output] directory, here already canonical. *)
Definition load_fs_tree (sn : snapshot) (fo2 : forest) (output : option (list bytes))
    : result (oid * forest * gmap bytes (list bytes)) :=
  let locs := map path_location (sn_paths sn) in
  match output with
  | None =>
      let* ps := walk_all locs in
      let* (id, fo) := forest_from_fs H cuts fo2 (Some (sn_tree sn)) ps in
      let* pm := map_paths (fun l _ => l) locs ∅ in
      Ok (id, fo, pm)
  | Some to =>
      match locs with
      | [l] =>
          let* pm := map_paths (fun _ _ => to) locs ∅ in
          let* x := walked to in
          let* (id, fo) := forest_from_fs H cuts fo2 (Some (sn_tree sn)) [x] in
          match fo !! id, last l with
          | Some top, Some last_dir =>
              match om_get x.1.2 top with
              | Some n =>
                  let fixed := om_insert last_dir n (om_put x.1.2 None top) in
                  Ok (tree_id H fixed, <[tree_id H fixed := fixed]> (delete id fo), pm)
              | None => Panic
              end
          | _, _ => Panic
          end
      | _ =>
          let* pm := map_paths (fun _ name => to ++ [name]) locs ∅ in
          let* ps := walk_all (filter (fun l => path_exists l = true)
                                 (omap (fun l => (fun name => to ++ [name]) <$> last l) locs)) in
          let* (id, fo) := forest_from_fs H cuts fo2 (Some (sn_tree sn)) ps in
          Ok (id, fo, pm)
      end
  end.
End load.

(** src/ui/restore.rs:93-131 [run], after the index is loaded and the snapshot
    found. *)
Definition restore (H : bytes -> oid) (cuts : bytes -> list bytes) (resolves : list bytes -> bool)
    (clock : nat -> Z) (fresh : nat -> kind -> posix)
    (k : backend) (bmap : gmap oid oid)
    (load_fuel fuel : nat) (args : restore_args) (output : option (list bytes)) (sn : snapshot) (w : fsworld)
    : option (result fsworld) :=
  match load_forest H k bmap load_fuel (sn_tree sn) with
  | Some (Ok fo2) =>
      match load_fs_tree H cuts resolves w.2 sn fo2 output with
      | Ok (id1, fo1, pm) =>
          compare_trees fo1 fo2 (restore_cb clock fresh args pm (read_chunk k bmap) fo2 fuel) fuel id1 (sn_tree sn) [] w
      | Err => Some Err
      | Panic => Some Panic
      end
  | Some Err => Some Err
  | Some Panic => Some Panic
  | None => None
  end.
