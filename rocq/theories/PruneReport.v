(** What prune says it is going to do: src/ui/prune.rs:66-109 and 282-313. *)

From Verif Require Import Base OMap Formats Hashing Index Forest Pack Pipeline Repo.

(** The lines printed; sizes before [nice_size] rounds them for display. *)
Inductive prune_message :=
| AllInUse (size : N)
| Plan (keep : nat) (keep_size : N) (rewrite : nat) (rewrite_size : N) (drop : nat) (drop_size : N) (indexes : nat).

(** src/ui/prune.rs:288-302 [partition_droppable_packs]: no blob is reachable. *)
Definition pack_droppable (reachable : gset oid) (pm : oid * manifest) : bool :=
  negb (existsb (fun e => bool_decide (e_id e ∈ reachable)) pm.2).

(** src/ui/prune.rs:304-313 [packs_blob_size].  (The sums are of 64 bits there; they
    do not reach that.) *)
Definition packs_blob_size (pms : list (oid * manifest)) : N :=
  foldr N.add 0%N (map (fun pm : oid * manifest => foldr N.add 0%N (map e_len pm.2)) pms).

Section report.
Variable H : bytes -> oid.

(** src/ui/prune.rs:40-109, up to the line printed; what is read is as in
    [prune_command].  A dry run prints the same. *)
Definition prune_says (k : backend) (msg : prune_message) : Prop :=
  exists ix bmap snaps fuel forests,
    master k = Ok ix /\ blob_to_pack_map ix = Ok bmap /\ chronological k snaps /\
    load_forests H k bmap fuel (map fst snaps) = Some (Ok forests) /\
    let reachable := reachable_blobs forests in
    let reusable := List.filter (pack_in_use reachable) (ix_packs ix) in
    let to_prune := List.filter (fun pm => negb (pack_in_use reachable pm)) (ix_packs ix) in
    let droppable := List.filter (pack_droppable reachable) to_prune in
    let sparse := List.filter (fun pm => negb (pack_droppable reachable pm)) to_prune in
    let superseded := os_of_list (map fst (map_to_list (k_indexes k))) in
    if decide (to_prune = []) then msg = AllInUse (packs_blob_size reusable)
    else msg = Plan (length reusable) (packs_blob_size reusable) (length sparse) (packs_blob_size sparse)
                    (length droppable) (packs_blob_size droppable) (length superseded).
End report.
