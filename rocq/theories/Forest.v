(** Loading trees: the tree cache, forests, size accounting.
    Models src/tree.rs:342-608. *)

From Verif Require Import Base OMap Cbor Formats Hashing Pack Index Meta.

(** src/tree.rs:335-343 *)
Definition tree_id (H : bytes -> oid) (t : tree) : oid := H (enc_tree t).
Definition empty_id (H : bytes -> oid) : oid := tree_id H [].

(** ** The tree cache (src/tree.rs:364-426) *)

Section cache.
Variable H : bytes -> oid.
Variable zdec : bytes -> bytes * bool.
(** The combined index, the blob map made from it, and the pack files the
    backend returns. *)
Variable ix : index.
Variable bmap : gmap oid oid.
Variable packs : gmap oid bytes.

(** [Cache::new]: the empty tree is never stored, so it is there from the start. *)
Definition cache_new : forest := {[ empty_id H := [] ]}.

(** [Cache::read]. *)
Definition cache_read (fo : forest) (id : oid) : result (tree * forest) :=
  match fo !! id with
  | Some t => Ok (t, fo)
  | None =>
      let* p := of_option (bmap !! id) in
      let* file := of_option (packs !! p) in
      let* m := match om_get p (ix_packs ix) with Some m => Ok m | None => Panic end in
      let* fo' := append_to_forest H zdec file m fo in
      let* t := of_option (fo' !! id) in
      Ok (t, fo')
  end.

(** A sequence of reads; every caller stops at the first failure. *)
Fixpoint cache_reads (fo : forest) (ids : list oid) : result (list tree * forest) :=
  match ids with
  | [] => Ok ([], fo)
  | id :: ids' =>
      let* (t, fo') := cache_read fo id in
      let* (ts, fo'') := cache_reads fo' ids' in
      Ok (t :: ts, fo'')
  end.
End cache.

(** ** Forests (src/tree.rs:429-462)

    [read] is [Cache::read], from the cache's state to the tree read and the new
    state.  The recursion is by fuel; running out of it is [None], distinct from
    every outcome of the program.  The stack set is passed down instead of
    being updated in place: every call removes what it inserted, so the assert
    on line 460 cannot fail. *)

Section forest.
Variable read : forest -> oid -> result (tree * forest).

(** A loop over a tree's subtrees. *)
Fixpoint fold_ids {A} (f : oid -> A -> option (result A)) (ids : list oid) (a : A) : option (result A) :=
  match ids with
  | [] => Some (Ok a)
  | i :: ids' =>
      match f i a with
      | Some (Ok a') => fold_ids f ids' a'
      | other => other
      end
  end.

(** The state is the cache and the forest under construction. *)
Fixpoint append_tree (fuel : nat) (stack : gset oid) (id : oid) (st : forest * forest)
    : option (result (forest * forest)) :=
  match fuel with
  | O => None
  | S fuel' =>
      if decide (id ∈ stack) then Some Err
      else match read st.1 id with
      | Err => Some Err
      | Panic => Some Panic
      | Ok (t, c) => fold_ids (append_tree fuel' ({[id]} ∪ stack)) (subtrees t) (c, <[id := t]> st.2)
      end
  end.

(** From a cache state to the forest and the new cache state. *)
Definition forest_from_root (fuel : nat) (cache : forest) (root : oid) : option (result (forest * forest)) :=
  append_tree fuel ∅ root (cache, ∅).

End forest.

(** ** Sizes (src/tree.rs:491-608) *)

Record fsizes := mkFsizes { fs_tree : N; fs_chunk : N; fs_introduced : N; fs_reused : N }.
Definition fsizes_zero : fsizes := mkFsizes 0 0 0 0.

Section sizes.
Variable fo : forest.
Variable size_map : gmap oid N.

(** One chunk of a file (lines 583-599; the per-file subtotals are summed at
    once, the per-file report is left out). *)
Definition chunk_size (a : gset oid * fsizes) (c : oid) : result (gset oid * fsizes) :=
  let '(visited, s) := a in
  let* n := of_option (size_map !! c) in
  if decide (c ∈ visited)
  then Ok (visited, mkFsizes (fs_tree s) (fs_chunk s + n) (fs_introduced s) (fs_reused s + n))
  else Ok ({[c]} ∪ visited, mkFsizes (fs_tree s) (fs_chunk s + n) (fs_introduced s + n) (fs_reused s)).

Fixpoint chunk_sizes (cs : list oid) (a : gset oid * fsizes) : result (gset oid * fsizes) :=
  match cs with
  | [] => Ok a
  | c :: cs' => let* a' := chunk_size a c in chunk_sizes cs' a'
  end.

(** [tree_size] and [node_size]; fuel as above. *)
Fixpoint fold_nodes {A} (f : oid -> A -> option (result A)) (g : list oid -> A -> result A)
    (t : tree) (a : A) : option (result A) :=
  match t with
  | [] => Some (Ok a)
  | (_, n) :: t' =>
      match (match n_contents n with
             | CFile cs => Some (g cs a)
             | CDir s => f s a
             | CSymlink _ => Some (Ok a)
             end) with
      | Some (Ok a') => fold_nodes f g t' a'
      | other => other
      end
  end.

Fixpoint tree_size (fuel : nat) (id : oid) (a : gset oid * fsizes) : option (result (gset oid * fsizes)) :=
  match fuel with
  | O => None
  | S fuel' =>
      match fo !! id with
      | None => Some Panic
      | Some t =>
          match size_map !! id with
          | None => Some Err
          | Some n =>
              let '(visited, s) := a in
              let a' := if decide (id ∈ visited)
                then (visited, mkFsizes (fs_tree s + n) (fs_chunk s) (fs_introduced s) (fs_reused s + n))
                else ({[id]} ∪ visited, mkFsizes (fs_tree s + n) (fs_chunk s) (fs_introduced s + n) (fs_reused s)) in
              fold_nodes (tree_size fuel') chunk_sizes t a'
          end
      end
  end.

(** [forest_sizes], with its final assert (line 532). *)
Definition forest_sizes (fuel : nat) (root : oid) (visited : gset oid) : option (result (gset oid * fsizes)) :=
  match tree_size fuel root (visited, fsizes_zero) with
  | Some (Ok (v, s)) =>
      Some (if (fs_tree s + fs_chunk s =? fs_introduced s + fs_reused s)%N then Ok (v, s) else Panic)
  | other => other
  end.

End sizes.

(** src/ui/usage.rs:35-44, src/ui/snapshots.rs:199-216: the snapshots in
    chronological order, each with its loaded forest; the visited set is shared. *)
Fixpoint sizes_all (fuel : nat) (size_map : gmap oid N) (snaps : list (oid * forest)) (visited : gset oid)
    : option (result (gset oid * list fsizes)) :=
  match snaps with
  | [] => Some (Ok (visited, []))
  | (root, fo) :: snaps' =>
      match forest_sizes fo size_map fuel root visited with
      | Some (Ok (v, s)) =>
          match sizes_all fuel size_map snaps' v with
          | Some (Ok (v', ss)) => Some (Ok (v', s :: ss))
          | other => other
          end
      | Some Err => Some Err
      | Some Panic => Some Panic
      | None => None
      end
  end.

(** src/ui/usage.rs:35-47: the totals printed. *)
Definition usage_totals (ss : list fsizes) : N * N :=
  (foldr (fun s a => fs_introduced s + a)%N 0%N ss, foldr (fun s a => fs_reused s + a)%N 0%N ss).

(** src/ui/usage.rs:59-67: size of everything the index lists, and how much of it is unused. *)
Definition packed_size (ix : index) : N := foldr (fun pe a => (e_len pe.2 + a)%N) 0%N (index_entries ix).
