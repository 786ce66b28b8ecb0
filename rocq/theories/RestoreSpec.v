(** What restoring should do to the files, place by place. *)

From Verif Require Import Base OMap Formats Hashing Pack Meta Forest FsTree FsSpec Browse BrowseSpec Restore.

(** What is at a location, without what is in it. *)
Inductive thing := TFile (content : bytes) | TDir | TLink (target : bytes) | TOther.
Definition thing_of (n : fsnode) : thing :=
  match n with FsFile _ c => TFile c | FsDir _ _ => TDir | FsLink _ t => TLink t | FsOther _ => TOther end.
Notation thing_meta := (thing * metadata)%type.
Definition ent (es : list (bytes * fsnode)) (loc : list bytes) : option thing_meta :=
  (fun n => (thing_of n, fs_meta n)) <$> fs_at es loc.

(** The permission bits. *)
Definition perms (m : metadata) : option N := match m with Posix p => Some (p_mode p mod 4096)%N | Windows _ => None end.
Definition modes (m : metadata) : option N := match m with Posix p => Some (p_mode p) | Windows _ => None end.

(** A directory is sorted by name (as [read_dir] into a [BTreeSet] gives it). *)
Fixpoint in_shape (n : fsnode) : Prop :=
  match n with
  | FsDir _ es => om_sorted es /\ foldr (fun (e : bytes * fsnode) P => in_shape e.2 /\ P) True es
  | _ => True
  end.
Definition sorted_fs (es : list (bytes * fsnode)) : Prop := om_sorted es /\ Forall (fun e : bytes * fsnode => in_shape e.2) es.

(** The root, or a directory. *)
Definition dir_at (es : list (bytes * fsnode)) (loc : list bytes) : Prop :=
  loc = [] \/ exists m, ent es loc = Some (TDir, m).

(** [got] is what the snapshot has at this place: same kind, same contents or
    target; with [--times] a file has its modification time; with [--permissions] a
    file or directory its permissions. *)
Definition is_what_was_saved (args : restore_args) (saved got : thing_meta) : Prop :=
  got.1 = saved.1 /\
  (r_times args = true -> forall c t, saved.1 = TFile c -> meta_mtime saved.2 = Some t -> meta_mtime got.2 = Some t) /\
  (r_permissions args = true -> (forall t, saved.1 <> TLink t) -> perms got.2 = perms saved.2).

(** Left alone; a directory in which something happened may have another
    modification time. *)
Definition left_alone (before after : option thing_meta) : Prop :=
  match before, after with
  | None, None => True
  | Some a, Some b => a.1 = b.1 /\ modes a.2 = modes b.2 /\ (a.1 <> TDir -> a.2 = b.2)
  | _, _ => False
  end.

(** A directory of before stands where the snapshot has something else. *)
Definition in_the_way (before saved : list bytes -> option thing_meta) (q : list bytes) : Prop :=
  exists r m s, r `prefix_of` q /\ before r = Some (TDir, m) /\ saved r = Some s /\ s.1 <> TDir.

(** What should be at a place afterwards, given what was everywhere before and what
    the snapshot has. *)
Definition comes_out (args : restore_args) (before saved : list bytes -> option thing_meta) (q : list bytes)
    (after : option thing_meta) : Prop :=
  (r_delete args = true ->
     match saved q, after with
     | None, None => True
     | Some s, Some g => is_what_was_saved args s g
     | _, _ => False
     end) /\
  (r_delete args = false ->
     (in_the_way before saved q -> after = before q) /\
     (~ in_the_way before saved q ->
        match saved q, after with
        | Some s, Some g => is_what_was_saved args s g
        | Some s, None => False
        | None, _ => left_alone (before q) after
        end)).

(** ** Where the things of a snapshot go

    Each top-level name of the snapshot and its location: the original one, or in
    [to]; one path alone becomes [to] itself. *)
Definition targets (sn : snapshot) (output : option (list bytes)) : list (bytes * list bytes) :=
  let named := omap (fun p => (fun x => (x, names_in p)) <$> last (names_in p)) (sn_paths sn) in
  match output with
  | None => named
  | Some to => match named with [(x, _)] => [(x, to)] | _ => map (fun e => (e.1, to ++ [e.1])) named end
  end.

(** What is at the given locations, with name and path. *)
Definition found (files : list (bytes * fsnode)) (ls : list (list bytes)) : list fspath :=
  omap (fun l => (fun n => (render l, default [] (last l), n)) <$> fs_at files l) ls.

(** The blobs that reading the targets makes, in memory; [fo] are the snapshot's
    trees. *)
Definition made_there (H : bytes -> oid) (cuts : bytes -> list bytes) (fo : forest) (sn : snapshot) (output : option (list bytes))
    (files : list (bytes * fsnode)) : list blob :=
  let ps := found files (map snd (targets sn output)) in
  plan_blobs H cuts (fun _ => true) fo (Some (sn_tree sn)) ps ++
  match targets sn output, plan_list H cuts (fun _ => true) fo (Some (sn_tree sn)) ps with
  | [(x, _)], [(_, (nd, _))] => [tree_blob H [(x, nd)]]
  | _, _ => []
  end.

(** What restoring [es] over [files] takes. *)
Record can_restore (cuts : bytes -> list bytes) (resolves : list bytes -> bool) (args : restore_args) (output : option (list bytes))
    (sn : snapshot) (es files : list (bytes * fsnode)) : Prop := {
  (* the snapshot's paths have names, no two the same, and its entries are of these names *)
  cr_named : Forall (fun p => names_in p <> []) (sn_paths sn);
  cr_distinct : NoDup (map fst (targets sn output));
  cr_few : len_wf (sn_paths sn);
  cr_text : forall x l y, (x, l) ∈ targets sn output -> last l = Some y -> text_wf x /\ text_wf y;
  cr_tops : forall x n, om_get x es = Some n -> x ∈ map fst (targets sn output);
  (* the places exist: the original paths, none within another; or the directory given *)
  cr_place : match output with
    | None => forall x l, (x, l) ∈ targets sn output -> is_Some (ent files l) /\
        forall y l', (y, l') ∈ targets sn output -> x <> y -> ~ l `prefix_of` l'
    | Some to => match targets sn output with
        | [_] => exists t m, ent files to = Some (t, m) /\ t <> TOther
        | _ => dir_at files to /\ forall x l t m, (x, l) ∈ targets sn output -> ent files l = Some (TLink t, m) -> resolves l = true
        end
    end;
  (* the files there: of Unix, and as their types allow *)
  cr_sorted : sorted_fs files;
  cr_files : forall x l n, (x, l) ∈ targets sn output -> fs_at files l = Some n -> fs_ok cuts false n;
  cr_unix : forall x l q t m, (x, l) ∈ targets sn output -> ent files (l ++ q) = Some (t, m) -> is_Some (modes m);
  cr_saved_unix : forall q t m, ent es q = Some (t, m) -> r_permissions args = true -> is_Some (modes m);
  (* with --times: no saved time is before 1970, but for whole seconds *)
  cr_times : forall q t m s, ent es q = Some (t, m) -> r_times args = true -> meta_mtime m = Some s \/ meta_atime m = Some s ->
    (0 <= s \/ s mod 1000000000 = 0)%Z;
  (* what has the size and modification time of the snapshot has its contents *)
  cr_honest : forall x l q m0 c0 m c, (x, l) ∈ targets sn output ->
    ent es (x :: q) = Some (TFile c0, m0) -> ent files (l ++ q) = Some (TFile c, m) ->
    meta_mtime m = meta_mtime m0 -> meta_size m = meta_size m0 -> c = c0;
  (* special files are not in the way *)
  cr_special : forall x l q m, (x, l) ∈ targets sn output -> ent files (l ++ q) = Some (TOther, m) ->
    r_delete args = false /\ ent es (x :: q) = None }.
