(** A restore that is interrupted: the changes that Restore.v makes to the file system, in
    order, so that one can stop between any two of them.  Each function here lists the changes
    that the one of the same lines in Restore.v makes; InterruptRun.v proves that making them one after the other is what
    [restore] does. *)

From Verif Require Import Base OMap Formats Hashing Meta Forest FsTree FsSpec Pack Pipeline Repo Browse Times Restore.

(** One change. *)
Inductive fsop :=
| OpCreate (loc : list bytes)
| OpAppend (b : bytes) (loc : list bytes)
| OpMkdir (loc : list bytes)
| OpLink (target : bytes) (loc : list bytes)
| OpRmdir (loc : list bytes)
| OpRm (loc : list bytes)
| OpTimes (mtime atime : option Z) (loc : list bytes)
| OpMode (mode : N) (loc : list bytes).

Section ops.
Variable clock : nat -> Z.
Variable fresh : nat -> kind -> posix.

Definition perform (op : fsop) (w : fsworld) : result fsworld :=
  match op with
  | OpCreate l => create_file clock fresh l w
  | OpAppend b l => append_file clock b l w
  | OpMkdir l => create_dir clock fresh l w
  | OpLink t l => create_link clock fresh t l w
  | OpRmdir l => remove_dir_all clock l w
  | OpRm l => remove_file clock l w
  | OpTimes mt at_ l =>
      change_meta clock (fun old => set_atime (default (clock w.1) at_) (set_mtime (default (clock w.1) mt) old)) l w
  | OpMode mode l => change_meta clock (set_mode mode) l w
  end.
Definition perform_all (ops : list fsop) (w : fsworld) : result fsworld := rfold perform ops w.
End ops.

Section changes.
Variable args : restore_args.
Variable path_map : gmap bytes (list bytes).
Variable read_chunk : oid -> result bytes.
Variable fo2 : forest.
Variable fuel : nat.

(** src/ui/restore.rs:320-356 [set_metadata] *)
Definition times_ops (m : metadata) (loc : list bytes) : result (list fsop) :=
  match meta_mtime m, meta_atime m with
  | None, None => Ok []
  | mt, at_ => let* _ := ensure (time_taken mt && time_taken at_) in Ok [OpTimes mt at_ loc]
  end.
Definition metadata_ops (n : node) (loc : list bytes) : result (list fsop) :=
  let* o1 := if r_times args then times_ops (n_meta n) loc else Ok [] in
  if r_permissions args then
    let* k := node_kind n in
    if bool_decide (k = KSymlink) then Ok o1
    else match n_meta n with Posix p => Ok (o1 ++ [OpMode (p_mode p) loc]) | Windows _ => Panic end
  else Ok o1.

(** src/ui/restore.rs:363-376 [remove_node] *)
Definition remove_ops (old : node) (loc : list bytes) : result (list fsop) :=
  let* k := node_kind old in
  Ok [if bool_decide (k = KDirectory) then OpRmdir loc else OpRm loc].

(** src/ui/restore.rs:439-445 [fill_file] *)
Definition fill_ops (chunks : list oid) (loc : list bytes) : result (list fsop) :=
  rfold (fun c ops => let* b := read_chunk c in Ok (ops ++ [OpAppend b loc])) chunks [].

(** src/ui/restore.rs:378-408 [add_node] *)
Fixpoint add_ops (d : nat) (n : node) (loc : list bytes) : option (result (list fsop)) :=
  match n_contents n with
  | CFile chunks =>
      Some (let* o1 := fill_ops chunks loc in
            let* o2 := metadata_ops n loc in
            Ok (OpCreate loc :: o1 ++ o2))
  | CSymlink target => Some (Ok [OpLink target loc])
  | CDir sub =>
      match d with
      | O => None
      | S d' =>
          match fo2 !! sub with
          | None => Some Panic
          | Some t =>
              match ofold (fun (e : bytes * node) ops =>
                match add_ops d' e.2 (loc ++ [e.1]) with Some (Ok o) => Some (Ok (ops ++ o)) | other => other end) t [OpMkdir loc] with
              | Some (Ok o1) => Some (let* o2 := metadata_ops n loc in Ok (o1 ++ o2))
              | other => other
              end
          end
      end
  end.

(** src/ui/restore.rs:410-436 [change_node_contents] *)
Definition change_ops (n : node) (loc : list bytes) : result (list fsop) :=
  match n_contents n with
  | CFile chunks =>
      let* o1 := fill_ops chunks loc in
      let* o2 := metadata_ops n loc in
      Ok (OpCreate loc :: o1 ++ o2)
  | CSymlink target => Ok [OpRm loc; OpLink target loc]
  | CDir _ => Panic
  end.

(** src/ui/restore.rs:462-567, the callbacks. *)
Definition event_ops (p : list bytes) (e : event) : result (list fsop) :=
  match e with
  | Added n =>
      let* loc := translate path_map p in
      if r_dry_run args then Ok [] else or_panic (add_ops fuel n loc)
  | Removed n =>
      if negb (r_delete args) then Ok []
      else let* loc := translate path_map p in
           if r_dry_run args then Ok [] else remove_ops n loc
  | Changed _ n =>
      let* loc := translate path_map p in
      if r_dry_run args then Ok [] else change_ops n loc
  | MetaChanged _ n =>
      let* loc := translate path_map p in
      if r_dry_run args then Ok [] else metadata_ops n loc
  | Unchanged _ => Ok []
  | TypeChanged old new =>
      let* loc := translate path_map p in
      match n_contents old, r_delete args with
      | CDir _, false => match n_contents new with CDir _ => Panic | _ => Ok [] end
      | _, _ =>
          if r_dry_run args then Ok []
          else let* o1 := remove_ops old loc in let* o2 := or_panic (add_ops fuel new loc) in Ok (o1 ++ o2)
      end
  end.
End changes.

(** src/ui/restore.rs:93-131 [run]: all the changes, given what is there. *)
Definition restore_changes (H : bytes -> oid) (cuts : bytes -> list bytes) (resolves : list bytes -> bool)
    (k : backend) (bmap : gmap oid oid) (load_fuel fuel : nat) (args : restore_args) (output : option (list bytes)) (sn : snapshot)
    (files : list (bytes * fsnode)) : option (result (list fsop)) :=
  match load_forest H k bmap load_fuel (sn_tree sn) with
  | Some (Ok fo2) =>
      match load_fs_tree H cuts resolves files sn fo2 output with
      | Ok (id1, fo1, pm) =>
          compare_trees fo1 fo2 (fun p e ops => let* o := event_ops args pm (read_chunk k bmap) fo2 fuel p e in Ok (ops ++ o)) fuel id1 (sn_tree sn) [] []
      | Err => Some Err
      | Panic => Some Panic
      end
  | Some Err => Some Err
  | Some Panic => Some Panic
  | None => None
  end.

(** ** Stopping

    Between any two changes, or within one that is not made at once: writing may stop after part of the bytes, and
    removing a directory with all that is in it may stop after any part of that. *)
Definition part_removed (r : list bytes) (dir : bool) (loc : list bytes) : fsop := if dir then OpRmdir (loc ++ r) else OpRm (loc ++ r).
Inductive torn : fsop -> list fsop -> Prop :=
| TornAppend b1 b2 loc : torn (OpAppend (b1 ++ b2) loc) [OpAppend b1 loc]
| TornRmdir (rs : list (list bytes * bool)) loc : torn (OpRmdir loc) (map (fun r => part_removed r.1 r.2 loc) rs).

(** What may be there when the changes [ops] are interrupted. *)
Definition interrupted (clock : nat -> Z) (fresh : nat -> kind -> posix) (ops : list fsop) (w mid : fsworld) : Prop :=
  exists n w1, perform_all clock fresh (take n ops) w = Ok w1 /\
    (mid = w1 \/ exists op part, ops !! n = Some op /\ torn op part /\ perform_all clock fresh part w1 = Ok mid).
