(** How much a repository holds: src/ui/usage.rs. *)

From Verif Require Import Base OMap Formats Hashing Pack Index Meta Forest FsTree Browse Select Snapshots.

(** What the backend lists: the files with their sizes.  Names that are not ids
    make the command fail (C50); here all of them are. *)
Record listing := mkListing {
  li_packs : list (oid * N); li_indexes : list (oid * N); li_snapshots : list (oid * N) }.

(** What is printed, number by number; [us_missing] and [us_unlisted] are warnings. *)
Record usage_report := mkUsage {
  us_snapshots : nat;
  us_span : option (snapshot * snapshot);
  us_unique : N; us_reused : N;
  us_indexes : nat; us_packs : nat;
  us_unused : option N; us_missing : option N;
  us_unlisted : list oid;
  us_filter : option bytes;
  us_snapshot_bytes : N; us_index_bytes : N; us_pack_bytes : N; us_total : N }.

Definition sum_of (l : list (oid * N)) : N := foldr (fun x a => (x.2 + a)%N) 0%N l.

(** src/tree.rs:503-511 [AddAssign for ForestSizes] *)
Definition fsizes_add (a b : fsizes) : fsizes :=
  mkFsizes (fs_tree a + fs_tree b) (fs_chunk a + fs_chunk b) (fs_introduced a + fs_introduced b) (fs_reused a + fs_reused b).

Section usage.
Variable read : forest -> oid -> result (tree * forest).
Variable sm : gmap oid N.
Variable fuel : nat.

(** src/ui/usage.rs:35-44 *)
Definition usage_sizes (c : forest) (snaps : list (snapshot * oid)) : option (result (forest * gset oid * fsizes)) :=
  ofold (fun (x : snapshot * oid) (st : forest * gset oid * fsizes) =>
    let '(cache, visited, totals) := st in
    obind (forest_from_root read fuel cache (sn_tree x.1)) (fun r =>
    obind (forest_sizes_at r.2 sm fuel (sn_tree x.1) visited) (fun y =>
      let '(visited', s, _) := y in
      Some (Ok (r.1, visited', fsizes_add totals s))))) snaps (c, ∅, fsizes_zero).

(** src/ui/check.rs:166-194 [warn_on_unreachable_packs] *)
Definition unlisted_packs (ix : index) (packs : list (oid * N)) : list oid :=
  List.filter (fun p => match om_get p (ix_packs ix) with None => true | Some _ => false end) (map fst packs).

(** src/ui/usage.rs:8-97 [run].  [snaps] are all snapshots, oldest first; [filter]
    is the filter command of the configuration, and [word] gives the first word of
    a text (line 84).  Sizes are unbounded here, 64 bits in the program. *)
Definition usage (word : bytes -> option bytes) (filter : option bytes) (ix : index) (l : listing) (c : forest)
    (snaps : list (snapshot * oid)) : option (result usage_report) :=
  obind (match snaps with [] => Some (Ok fsizes_zero) | _ => obind (usage_sizes c snaps) (fun x => Some (Ok x.2)) end) (fun totals =>
    let reachable := fs_introduced totals in
    let packed := packed_size ix in
    obind (match filter with
           | None => Some (Ok None)
           | Some f => match word f with Some w => Some (Ok (Some w)) | None => Some Panic end
           end) (fun fname =>
    Some (Ok (mkUsage (length snaps)
      (match head snaps, last snaps with Some a, Some b => Some (a.1, b.1) | _, _ => None end)
      reachable (fs_reused totals)
      (length (li_indexes l)) (length (ix_packs ix))
      (if (reachable <? packed)%N then Some (packed - reachable)%N else None)
      (if (packed <? reachable)%N then Some (reachable - packed)%N else None)
      (unlisted_packs ix (li_packs l)) fname
      (sum_of (li_snapshots l)) (sum_of (li_indexes l)) (sum_of (li_packs l))
      (sum_of (li_packs l) + sum_of (li_indexes l) + sum_of (li_snapshots l))%N)))).
End usage.
