(** Names and locations of objects, and the uncached backends.
    Models src/backend.rs:309-362 and 434-452, src/backend/fs.rs:73-146,
    src/backend/memory.rs:36-69 and the parts of camino/std paths they use. *)

From Verif Require Import Base Formats Hashing.

Definition slash : byte := x2f.
Definition dot : byte := x2e.

(** ** Paths as strings (std::path on Unix) *)

(** [str::split]: pieces between separators. *)
Fixpoint pieces (c : byte) (l : bytes) : list bytes :=
  match l with
  | [] => [[]]
  | b :: l' =>
      if bool_decide (b = c) then [] :: pieces c l'
      else match pieces c l' with [] => [[b]] | w :: ws => (b :: w) :: ws end
  end.

(** [Path::file_name]: the last component, if it is a normal one.  Empty
    components and "." are not components ("." at the very start is one, but not
    a normal one: as for the others the answer is what comes before it, nothing). *)
Definition file_name (p : bytes) : option bytes :=
  match last (filter (fun w => w <> [] /\ w <> [dot]) (pieces slash p)) with
  | Some w => if bool_decide (w = [dot; dot]) then None else Some w
  | None => None
  end.

(** [rsplitn(2, '.')]: at the last separator. *)
Fixpoint rsplit (c : byte) (l : bytes) : option (bytes * bytes) :=
  match l with
  | [] => None
  | b :: l' =>
      match rsplit c l' with
      | Some (x, y) => Some (b :: x, y)
      | None => if bool_decide (b = c) then Some ([], l') else None
      end
  end.

(** [Path::file_stem] and [Path::extension]. *)
Definition stem_ext (f : bytes) : bytes * option bytes :=
  match rsplit dot f with
  | None => (f, None)
  | Some ([], _) => (f, None)
  | Some (x, y) => (x, Some y)
  end.
Definition file_stem (p : bytes) : option bytes := fst ∘ stem_ext <$> file_name p.
Definition extension (p : bytes) : option bytes := file_name p ≫= snd ∘ stem_ext.

(** ** Objects *)

Inductive kind := APack | AnIndex | ASnapshot.
Global Instance kind_eq_dec : EqDecision kind.
Proof. solve_decision. Defined.

(** src/backend.rs:309-342: the name of an object's file. *)
Definition suffix_of (k : kind) : bytes :=
  match k with
  | APack => ascii_bytes "pack" | AnIndex => ascii_bytes "index" | ASnapshot => ascii_bytes "snapshot"
  end.
Definition object_name (k : kind) (i : oid) : bytes := oid_print i ++ dot :: suffix_of k.

(** src/backend.rs:435-442 *)
Definition destination (src : bytes) : result bytes :=
  match extension src with
  | Some e =>
      if bool_decide (e = ascii_bytes "pack") then Ok (ascii_bytes "packs/" ++ src)
      else if bool_decide (e = ascii_bytes "index") then Ok (ascii_bytes "indexes/" ++ src)
      else if bool_decide (e = ascii_bytes "snapshot") then Ok (ascii_bytes "snapshots/" ++ src)
      else Panic
  | None => Panic
  end.

(** src/backend.rs:446-452 *)
Definition id_from_path (p : bytes) : result oid :=
  let* s := of_option (file_stem p) in of_option (oid_parse s).

(** ** An uncached backend: the file system's, below its base directory, or the one in
    memory. *)

(** Files by location.  Directories are not modelled: [initialize] makes the three
    and nothing makes or removes others. *)
Notation fstore := (gmap bytes bytes).

(** src/backend/fs.rs:79-84 and src/backend.rs:179-194 *)
Definition be_read (st : fstore) (loc : bytes) : result bytes := of_option (st !! loc).
(** src/backend/fs.rs:86-91, src/backend.rs:236-245: on success. *)
Definition be_write (st : fstore) (loc x : bytes) : fstore := <[loc := x]> st.
(** src/backend/fs.rs:93-97; the one in memory does not mind if there is no such file. *)
Definition be_remove (st : fstore) (loc : bytes) : result fstore :=
  if bool_decide (is_Some (st !! loc)) then Ok (delete loc st) else Err.

Definition starts_with (p l : bytes) : bool := bool_decide (take (length p) l = p).
(** src/backend/fs.rs:99-126: without sizes, in some order. *)
Definition be_list (st : fstore) (prefix : bytes) : list bytes :=
  filter (fun f => starts_with prefix f = true /\ extension f <> Some (ascii_bytes "part"))
    (map fst (map_to_list st)).

(** src/backend.rs:297-307: what to list for each kind. *)
Definition prefix_of (k : kind) : bytes :=
  match k with
  | APack => ascii_bytes "packs/" | AnIndex => ascii_bytes "indexes/" | ASnapshot => ascii_bytes "snapshots/"
  end.

(** src/backend.rs:179-184, 236-245, 269-273, on named objects. *)
Definition put_object (st : fstore) (k : kind) (i : oid) (x : bytes) : result fstore :=
  let* loc := destination (object_name k i) in Ok (be_write st loc x).
Definition get_object (st : fstore) (k : kind) (i : oid) : result bytes :=
  let* loc := destination (object_name k i) in be_read st loc.
Definition drop_object (st : fstore) (k : kind) (i : oid) : result fstore :=
  let* loc := destination (object_name k i) in be_remove st loc.
Definition list_objects (st : fstore) (k : kind) : list bytes := be_list st (prefix_of k).

(** src/backend.rs:346-362 *)
Definition probe_pack (packs : list bytes) (i : oid) : result unit :=
  match filter (fun s => s = ascii_bytes "packs/" ++ oid_print i ++ ascii_bytes ".pack") packs with
  | [] => Err
  | [_] => Ok tt
  | _ => Panic
  end.
