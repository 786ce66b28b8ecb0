(** Listing snapshots: src/ui/snapshots.rs, and the sizes per file of src/tree.rs:485-608. *)

From Verif Require Import Base OMap Formats Hashing Meta Forest FsTree Browse Select.

(** One thing after the other, where each may run out of fuel or fail. *)
Definition obind {A B} (x : option (result A)) (f : A -> option (result B)) : option (result B) :=
  match x with
  | Some (Ok a) => f a
  | Some Err => Some Err
  | Some Panic => Some Panic
  | None => None
  end.

(** ** Sizes, file by file

    [Forest.tree_size] without what it leaves out: the path, the subtotal of each
    file and the report.  Sizes are unbounded here, 64 bits in the program. *)

(** src/tree.rs:485-489 [FileSize] with its path: bytes introduced and reused. *)
Notation file_size := (list bytes * (N * N))%type.

Section sizes.
Variable fo : forest.
Variable size_map : gmap oid N.

(** src/tree.rs:582-596: the chunks of one file. *)
Fixpoint file_chunks (cs : list oid) (visited : gset oid) (i r : N) : result (gset oid * (N * N)) :=
  match cs with
  | [] => Ok (visited, (i, r))
  | c :: cs' =>
      let* n := of_option (size_map !! c) in
      if decide (c ∈ visited) then file_chunks cs' visited i (r + n)%N
      else file_chunks cs' ({[c]} ∪ visited) (i + n)%N r
  end.

(** src/tree.rs:572-608 [node_size]; [rec] is [tree_size]. *)
Definition node_size_with
    (rec : list bytes -> oid -> gset oid * fsizes * list file_size -> option (result (gset oid * fsizes * list file_size)))
    (p : list bytes) (n : node) (a : gset oid * fsizes * list file_size)
    : option (result (gset oid * fsizes * list file_size)) :=
  let '(visited, s, files) := a in
  match n_contents n with
  | CFile cs => Some (
      let* x := file_chunks cs visited 0 0 in
      let '(visited', (i, r)) := x in
      Ok (visited', mkFsizes (fs_tree s) (fs_chunk s + (i + r)) (fs_introduced s + i) (fs_reused s + r),
          files ++ [(p, (i, r))]))
  | CDir sub => rec p sub a
  | CSymlink _ => Some (Ok a)
  end.

(** src/tree.rs:537-567 [tree_size]. *)
Fixpoint tree_size_at (fuel : nat) (p : list bytes) (id : oid) (a : gset oid * fsizes * list file_size)
    : option (result (gset oid * fsizes * list file_size)) :=
  match fuel with
  | O => None
  | S fuel' =>
      match fo !! id with
      | None => Some Panic
      | Some t =>
          match size_map !! id with
          | None => Some Err
          | Some n =>
              let '(visited, s, files) := a in
              let a' := if decide (id ∈ visited)
                then (visited, mkFsizes (fs_tree s + n) (fs_chunk s) (fs_introduced s) (fs_reused s + n), files)
                else ({[id]} ∪ visited, mkFsizes (fs_tree s + n) (fs_chunk s) (fs_introduced s + n) (fs_reused s), files) in
              ofold (fun (e : bytes * node) a => node_size_with (tree_size_at fuel') (p ++ [e.1]) e.2 a) t a'
          end
      end
  end.

(** src/tree.rs:517-534 [forest_sizes]. *)
Definition forest_sizes_at (fuel : nat) (root : oid) (visited : gset oid)
    : option (result (gset oid * fsizes * list file_size)) :=
  obind (tree_size_at fuel [] root (visited, fsizes_zero, [])) (fun x =>
    let '(v, s, files) := x in
    Some (if (fs_tree s + fs_chunk s =? fs_introduced s + fs_reused s)%N then Ok (v, s, files) else Panic)).
End sizes.

(** ** What is printed *)

Inductive item :=
| Heading (sn : snapshot) (id : oid) (s : option fsizes)  (* lines 323-359 *)
| PathLine (l : line) (extra : option (nat * option (N * N)))  (* lines 475-512: spaces and sizes after the path *)
| FileLine (p : list bytes) (spaces : nat) (i r : N)  (* lines 306-313 *)
| Blank.

(** The path as printed (lines 477-488). *)
Definition shown_path (p : list bytes) (n : node) : bytes :=
  render p ++
  match n_contents n with
  | CDir _ => if bool_decide (last (render p) = Some slash) then [] else [slash]
  | CFile _ => []
  | CSymlink target => ascii_bytes " -> " ++ target
  end.

Section text.
(** [nice_size] (src/file_util.rs:145-156) and [strftime] (src/snapshot.rs:83-85). *)
Variable nice : N -> bytes.
Variable date : snapshot -> bytes.

Definition new_and_reused (i r : N) : bytes :=
  ascii_bytes " | " ++ nice i ++ ascii_bytes " new, " ++ nice r ++ ascii_bytes " reused".

Fixpoint join_spaces (l : list bytes) : bytes :=
  match l with
  | [] => []
  | [x] => x
  | x :: l' => x ++ x20 :: join_spaces l'
  end.

(** Lines 323-359, 306-313 and 475-512. *)
Definition item_text (x : item) : bytes :=
  match x with
  | Heading sn id s =>
      ascii_bytes "snapshot " ++ oid_print id ++
      match sn_tags sn with [] => [] | ts => ascii_bytes " (" ++ join_spaces ts ++ ascii_bytes ")" end ++ [x0a] ++
      match s with
      | Some s => ascii_bytes "Sizes: " ++ nice (fs_tree s + fs_chunk s)%N ++ ascii_bytes " total (" ++ nice (fs_chunk s) ++
          ascii_bytes " files, " ++ nice (fs_tree s) ++ ascii_bytes " metadata / " ++ nice (fs_introduced s) ++
          ascii_bytes " new, " ++ nice (fs_reused s) ++ ascii_bytes " reused)" ++ [x0a]
      | None => []
      end ++
      ascii_bytes "Author: " ++ sn_author sn ++ [x0a] ++
      ascii_bytes "Date:   " ++ date sn ++ [x0a] ++
      match sn_paths sn with [] => [] | _ => [x0a] end ++
      concat (map (fun p => ascii_bytes "  - " ++ p ++ [x0a]) (sn_paths sn)) ++ [x0a]
  | PathLine (prefix, p, n) extra =>
      prefix ++ shown_path p n ++
      match extra with
      | None => []
      | Some (spaces, s) => replicate spaces x20 ++ match s with Some (i, r) => new_and_reused i r | None => [] end
      end ++ [x0a]
  | FileLine p spaces i r => x20 :: render p ++ replicate spaces x20 ++ new_and_reused i r ++ [x0a]
  | Blank => [x0a]
  end.
End text.

(** ** Changes since the snapshot before *)

Section stat.
(** The number of graphemes in a string (crate [unicode_segmentation]). *)
Variable gr : bytes -> nat.

(** src/ui/snapshots.rs:380-395 [path_length]. *)
Definition path_length (p : list bytes) (n : node) : nat :=
  gr (render p) +
  match n_contents n with
  | CDir _ => if bool_decide (last (render p) = Some slash) then 0 else 1
  | CFile _ => 0
  | CSymlink target => 4 + gr target
  end.

Variables fo1 fo2 : forest.
Variable fuel : nat.
Variable show_meta : bool.

(** src/ui/snapshots.rs:397-403 [measure_node], without and with recursion. *)
Definition longer (p : list bytes) (n : node) (longest : nat) : nat := longest `max` path_length p n.
Definition measure_node (fo : forest) (p : list bytes) (n : node) (longest : nat) : result nat :=
  or_panic (walk_node fo longer fuel p n longest).

(** The asserts on lines 427, 428, 542 and 543. *)
Definition same_leaf (n1 n2 : node) : bool :=
  negb (bool_decide (contents_kind (n_contents n1) = KDirectory)) &&
  bool_decide (contents_kind (n_contents n1) = contents_kind (n_contents n2)).

(** src/ui/snapshots.rs:405-449 [PadMeasure]; [type_changed] is src/diff.rs:50-61. *)
Definition measure (p : list bytes) (e : event) (longest : nat) : result nat :=
  match e with
  | Added n => measure_node fo2 p n longest
  | Removed n => measure_node fo1 p n longest
  | Changed n1 n2 =>
      if same_leaf n1 n2 then
        let l1 := longer p n1 longest in
        Ok (match n_contents n1 with CSymlink _ => longer p n2 l1 | _ => l1 end)
      else Panic
  | MetaChanged _ n2 => Ok (if show_meta then longer p n2 longest else longest)
  | Unchanged _ => Ok longest
  | TypeChanged n1 n2 => let* l := measure_node fo1 p n1 longest in measure_node fo2 p n2 l
  end.
(** Lines 362-373 [measure_path_pad]. *)
Definition measure_path_pad (id1 id2 : oid) : option (result nat) :=
  compare_trees fo1 fo2 measure fuel id1 id2 [] 0.

Variable pad : nat.
Variable sizes : option (gmap (list bytes) (N * N)).

(** src/ui/snapshots.rs:475-512 [printer]. *)
Definition printer (prefix : bytes) (p : list bytes) (n : node) (out : result (list item)) : result (list item) :=
  let* o := out in
  if Nat.eqb pad 0 then
    match sizes with None => Ok (o ++ [PathLine (prefix, p, n) None]) | Some _ => Panic end
  else
    match sizes with
    | None => Panic
    | Some m =>
        let plen := gr (shown_path p n) in
        if Nat.leb plen pad then Ok (o ++ [PathLine (prefix, p, n) (Some (pad - plen, m !! p))]) else Panic
    end.
(** Lines 514-517 [print_node]; the visitor panics at once, here at the end. *)
Definition stat_node (fo : forest) (prefix : bytes) (p : list bytes) (n : node) (out : list item) : result (list item) :=
  let* r := or_panic (walk_node fo (printer prefix) fuel p n (Ok out)) in r.

(** src/ui/snapshots.rs:520-568 [PrintDiffs]. *)
Definition print_stat (p : list bytes) (e : event) (out : list item) : result (list item) :=
  match e with
  | Added n => stat_node fo2 (ascii_bytes " + ") p n out
  | Removed n => stat_node fo1 (ascii_bytes " - ") p n out
  | Changed n1 n2 =>
      if same_leaf n1 n2 then
        match n_contents n1 with
        | CSymlink _ => printer (ascii_bytes " + ") p n2 (printer (ascii_bytes " - ") p n1 (Ok out))
        | _ => printer (ascii_bytes " C ") p n1 (Ok out)
        end
      else Panic
  | MetaChanged n1 n2 =>
      if show_meta then
        match meta_diff_char (n_meta n1) (n_meta n2) with
        | Some m => printer (ascii_bytes " " ++ mark_char m ++ ascii_bytes " ") p n2 (Ok out)
        | None => Panic
        end
      else Ok out
  | Unchanged _ => Ok out
  | TypeChanged n1 n2 =>
      let* o := stat_node fo1 (ascii_bytes " - ") p n1 out in
      stat_node fo2 (ascii_bytes " + ") p n2 o
  end.
(** Lines 452-465 [tree_diff]. *)
Definition tree_diff (id1 id2 : oid) : option (result (list item)) :=
  compare_trees fo1 fo2 print_stat fuel id1 id2 [] [].
End stat.

(** ** The command *)

(** src/ui/snapshots.rs:21-61 *)
Record flags := mkFlags {
  fl_reverse : bool; fl_stat : bool; fl_metadata : bool; fl_sizes : bool; fl_file_sizes : bool }.

(** [sort_by_key] on the bytes introduced (line 304): stable. *)
Fixpoint insert_by_new (x : file_size) (l : list file_size) : list file_size :=
  match l with
  | [] => [x]
  | y :: l' => if (x.2.1 <=? y.2.1)%N then x :: l else y :: insert_by_new x l'
  end.
Definition sort_by_new (l : list file_size) : list file_size := foldr insert_by_new [] l.

(** src/ui/snapshots.rs:185-197 [DecoratedSnapshot] *)
Record decorated := mkDecorated {
  d_index : nat; d_snapshot : snapshot; d_id : oid; d_forest : forest; d_sizes : fsizes; d_files : list file_size }.

Section command.
Variable H : bytes -> oid.
Variable gr : bytes -> nat.
(** [Cache::read], and the map from blobs to their sizes. *)
Variable read : forest -> oid -> result (tree * forest).
Variable size_map : gmap oid N.
Variable fuel : nat.
Variable fl : flags.

(** src/diff.rs:66-75 [null_forest] *)
Definition null_forest : oid * forest := (empty_id H, {[ empty_id H := [] ]}).

Definition in_turn {A} (l : list A) : list A := if fl_reverse fl then rev l else l.

(** Lines 126-133. *)
Definition needed_indices (chosen : gset oid) (snaps : list (snapshot * oid)) : gset Z :=
  foldl (fun s (x : nat * (snapshot * oid)) =>
    if decide (x.2.2 ∈ chosen) then {[ Z.of_nat x.1 ]} ∪ ({[ (Z.of_nat x.1 - 1)%Z ]} ∪ s) else s) ∅ (imap pair snaps).

(** Lines 123-144. *)
Definition load_needed (cache : forest) (needed : gset Z) (snaps : list (snapshot * oid))
    : option (result (forest * gmap Z (oid * forest))) :=
  ofold (fun (x : nat * (snapshot * oid)) (st : forest * gmap Z (oid * forest)) =>
    let i := Z.of_nat x.1 in
    if decide (i ∈ needed) then
      match st.2 !! i with
      | Some _ => Some (Ok st)
      | None =>
          obind (forest_from_root read fuel st.1 (sn_tree x.2.1)) (fun r =>
            Some (Ok (r.1, <[ i := (sn_tree x.2.1, r.2) ]> st.2)))
      end
    else Some (Ok st)) (imap pair snaps) (cache, {[ (-1)%Z := null_forest ]}).

(** Lines 106-174: [--stat] without sizes. *)
Definition stat_only (cache : forest) (chosen : gset oid) (snaps : list (snapshot * oid)) : option (result (list item)) :=
  obind (load_needed cache (needed_indices chosen snaps) snaps) (fun st =>
    ofold (fun (x : nat * (snapshot * oid)) (out : list item) =>
      if decide (x.2.2 ∈ chosen) then
        let i := Z.of_nat x.1 in
        match st.2 !! (i - 1)%Z, st.2 !! i with
        | Some (root1, fo1), Some (root2, fo2) =>
            if bool_decide (root2 = sn_tree x.2.1) then
              obind (tree_diff gr fo1 fo2 fuel (fl_metadata fl) 0 None root1 root2) (fun ls =>
                Some (Ok (out ++ Heading x.2.1 x.2.2 None :: ls ++ [Blank])))
            else Some Panic
        | _, _ => Some Panic
        end
      else Some (Ok out)) (in_turn (imap pair snaps)) []).

(** Lines 199-219: everything about every snapshot, oldest first. *)
Definition decorate (cache : forest) (snaps : list (snapshot * oid)) : option (result (list decorated)) :=
  obind (ofold (fun (x : nat * (snapshot * oid)) (st : forest * gset oid * list decorated) =>
    let '(cache, visited, ds) := st in
    obind (forest_from_root read fuel cache (sn_tree x.2.1)) (fun r =>
    obind (forest_sizes_at r.2 size_map fuel (sn_tree x.2.1) visited) (fun y =>
      let '(visited', s, files) := y in
      Some (Ok (r.1, visited', ds ++ [mkDecorated x.1 x.2.1 x.2.2 r.2 s files])))))
    (imap pair snaps) (cache, ∅, [])) (fun st => Some (Ok st.2)).

(** Lines 258-262. *)
Definition size_lookup (files : list file_size) : gmap (list bytes) (N * N) :=
  foldl (fun m (x : file_size) => <[ x.1 := x.2 ]> m) ∅ files.

(** Lines 292-316. *)
Definition file_report (files : list file_size) : result (list item) :=
  let fs := List.filter (fun x : file_size => (0 <? x.2.1)%N) files in
  match fs with
  | [] => Ok []
  | _ =>
      let max_path := foldr (fun (x : file_size) m => gr (render x.1) `max` m) 0 fs in
      let* ls := rfold (fun (x : file_size) (out : list item) =>
        let plen := gr (render x.1) in
        if Nat.leb plen max_path then Ok (out ++ [FileLine x.1 (max_path - plen) x.2.1 x.2.2]) else Panic)
        (rev (sort_by_new fs)) [] in
      Ok (ls ++ [Blank])
  end.

(** Lines 231-318: one snapshot with sizes. *)
Definition print_decorated (ds : list decorated) (d : decorated) : option (result (list item)) :=
  obind
    (if fl_stat fl then
      obind (match d_index d with
             | O => Some (Ok null_forest)
             | S i =>
                 match ds !! i with
                 | Some prev =>
                     if Nat.eqb (d_index prev) i then Some (Ok (sn_tree (d_snapshot prev), d_forest prev)) else Some Panic
                 | None => Some Panic
                 end
             end) (fun before =>
      let '(root1, fo1) := before in
      obind
        (if fl_file_sizes fl then
          obind (measure_path_pad gr fo1 (d_forest d) fuel (fl_metadata fl) root1 (sn_tree (d_snapshot d))) (fun pad =>
          tree_diff gr fo1 (d_forest d) fuel (fl_metadata fl) pad (Some (size_lookup (d_files d))) root1 (sn_tree (d_snapshot d)))
        else tree_diff gr fo1 (d_forest d) fuel (fl_metadata fl) 0 None root1 (sn_tree (d_snapshot d)))
        (fun ls => Some (Ok (ls ++ [Blank]))))
    else if fl_file_sizes fl then Some (file_report (d_files d))
    else Some (Ok []))
    (fun ls => Some (Ok (Heading (d_snapshot d) (d_id d) (Some (d_sizes d)) :: ls))).

(** Lines 178-319: with sizes. *)
Definition with_sizes (cache : forest) (chosen : gset oid) (snaps : list (snapshot * oid)) : option (result (list item)) :=
  obind (decorate cache snaps) (fun ds =>
    ofold (fun (d : decorated) (out : list item) =>
      if decide (d_id d ∈ chosen) then
        obind (print_decorated ds d) (fun ls => Some (Ok (out ++ ls)))
      else Some (Ok out)) (in_turn ds) []).

(** Lines 63-104 and the cases above.  [snaps] is what [load_chronologically]
    gave, [cache] a new tree cache. *)
Definition snapshots_cmd (cache : forest) (snaps : list (snapshot * oid)) (args : list bytes) : option (result (list item)) :=
  obind (Some (from_args_list snaps args)) (fun sal =>
    let chosen := match sal with [] => snaps | _ => sal end in
    if fl_sizes fl || fl_file_sizes fl then with_sizes cache (list_to_set (map snd chosen)) snaps
    else if fl_stat fl then stat_only cache (list_to_set (map snd chosen)) snaps
    else Some (Ok (map (fun x : snapshot * oid => Heading x.1 x.2 None) (in_turn chosen)))).
End command.
