(** What listing snapshots should show. *)

From Verif Require Import Base OMap Formats Hashing Meta Forest ForestFacts FsTree FsSpec Pipeline PipelineFacts Repo RepoSpec Browse BrowseSpec Snapshots.

(** The tree stored under an id.  The empty tree need not be stored. *)
Definition stored_tree (H : bytes -> oid) (st : store) (id : oid) : option tree :=
  if decide (id = empty_id H) then Some []
  else match st !! id with
       | Some (Tree, b) => match dec_tree b with Some (t, []) => Some t | _ => None end
       | _ => None
       end.

(** What is at a path below a stored tree. *)
Fixpoint stored_at (H : bytes -> oid) (st : store) (root : oid) (p : list bytes) : option node :=
  match p with
  | [] => None
  | x :: q =>
      t ← stored_tree H st root;
      n ← om_get x t;
      match q, n_contents n with
      | [], _ => Some n
      | _, CDir d => stored_at H st d q
      | _, _ => None
      end
  end.

(** [ls] are the differences between two trees, each once. *)
Definition changes (H : bytes -> oid) (st : store) (show_meta : bool) (root1 root2 : oid) (ls : list line) : Prop :=
  NoDup ls /\ forall prefix p n, (prefix, p, n) ∈ ls <-> belongs show_meta (stored_at H st root1 p) (stored_at H st root2 p) prefix n.

(** The tree of the snapshot before the [i]th, or the empty one. *)
Definition tree_before (H : bytes -> oid) (snaps : list (snapshot * oid)) (i : nat) : oid :=
  match i with
  | O => empty_id H
  | S j => match snaps !! j with Some (sn, _) => sn_tree sn | None => empty_id H end
  end.

(** The snapshots to show, with their numbers: those selected, or all; newest
    first if asked for. *)
Definition to_show (reverse : bool) (snaps sal : list (snapshot * oid)) : list (nat * (snapshot * oid)) :=
  let l := List.filter (fun x : nat * (snapshot * oid) => bool_decide (sal = []) || bool_decide (x.2.2 ∈ map snd sal)) (imap pair snaps) in
  if reverse then rev l else l.

(** A line with the extra space. *)
Definition indented (l : line) : line := let '(prefix, p, n) := l in (x20 :: prefix, p, n).

(** How long strings are on the screen.  All that matters: nothing is shorter than
    it should be when put together, the slash and the arrow are not wider than one
    and four, and only the empty string has no width. *)
Record counts_graphemes (gr : bytes -> nat) : Prop := {
  gr_app : forall a b, gr (a ++ b) <= gr a + gr b;
  gr_slash : gr [slash] <= 1;
  gr_arrow : gr (ascii_bytes " -> ") <= 4;
  gr_pos : forall a, gr a = 0 -> a = [] }.

(** The blobs snapshots before the [i]th need. *)
Definition seen_before (H : bytes -> oid) (st : store) (snaps : list (snapshot * oid)) (i : nat) (b : oid) : Prop :=
  exists j sn id, j < i /\ snaps !! j = Some (sn, id) /\ needs H st (sn_tree sn) b.

(** The sizes of one snapshot are right: what is there, counted every time it
    occurs, is introduced or reused; what it introduces are the bytes of the blobs
    that it needs and none before it does. *)
Definition right_sizes (H : bytes -> oid) (st : store) (sm : gmap oid N) (seen : oid -> Prop) (root : oid) (s : fsizes) : Prop :=
  (exists all : list (list bytes * node),
    NoDup (map fst all) /\ (forall p n, (p, n) ∈ all <-> stored_at H st root p = Some n) /\
    fs_tree s = sum_sizes sm (root :: concat (map (fun e => node_subtree e.2) all)) /\
    fs_chunk s = sum_sizes sm (concat (map (fun e => node_chunks e.2) all))) /\
  (fs_tree s + fs_chunk s = fs_introduced s + fs_reused s)%N /\
  forall X : gset oid, (forall b, b ∈ X <-> needs H st root b /\ ~ seen b) -> fs_introduced s = set_sizes sm X.

(** The report per file is right: every file once; what is introduced by a file
    are the bytes of those of its chunks that neither an earlier snapshot nor an
    earlier file in the report has; the rest of its chunks is reused. *)
Definition right_files (H : bytes -> oid) (st : store) (sm : gmap oid N) (seen : oid -> Prop) (root : oid) (files : list file_size) : Prop :=
  NoDup (map fst files) /\
  (forall p, p ∈ map fst files <-> exists cs m, stored_at H st root p = Some (mkNode (CFile cs) m)) /\
  forall j p i r cs m, files !! j = Some (p, (i, r)) -> stored_at H st root p = Some (mkNode (CFile cs) m) ->
    (i + r = sum_sizes sm cs)%N /\
    forall X : gset oid,
      (forall c, c ∈ X <-> c ∈ cs /\ ~ seen c /\
        ~ exists j' p' z cs' m', j' < j /\ files !! j' = Some (p', z) /\ stored_at H st root p' = Some (mkNode (CFile cs') m') /\ c ∈ cs') ->
      i = set_sizes sm X.

(** Lines padded to the same width, followed by the sizes of the file there. *)
Definition aligned (gr : bytes -> nat) (files : list file_size) (ls : list line) (items : list item) : Prop :=
  exists width,
    Forall2 (fun (l : line) (it : item) => exists spaces o,
      it = PathLine (indented l) (Some (spaces, o)) /\ gr (shown_path l.1.2 l.2) + spaces = width /\
      (forall z, o = Some z <-> (l.1.2, z) ∈ files)) ls items.

(** The files with new data, most of it first, padded to the same width. *)
Definition largest_first (gr : bytes -> nat) (files : list file_size) (items : list item) : Prop :=
  exists l width,
    l ≡ₚ List.filter (fun x : file_size => (0 <? x.2.1)%N) files /\
    Sorted (fun x y : file_size => (y.2.1 <= x.2.1)%N) l /\
    Forall2 (fun (x : file_size) (it : item) => exists spaces,
      it = FileLine x.1 spaces x.2.1 x.2.2 /\ gr (render x.1) + spaces = width) l items.

(** ** What is shown of each snapshot *)

(** With [--stat] alone. *)
Definition shown_changes (H : bytes -> oid) (st : store) (show_meta : bool) (snaps : list (snapshot * oid))
    (x : nat * (snapshot * oid)) (b : list item) : Prop :=
  exists ls, changes H st show_meta (tree_before H snaps x.1) (sn_tree x.2.1) ls /\
    b = Heading x.2.1 x.2.2 None :: map (fun l => PathLine (indented l) None) ls ++ [Blank].

(** With sizes. *)
Definition shown_sizes (H : bytes -> oid) (gr : bytes -> nat) (st : store) (sm : gmap oid N) (fl : flags) (snaps : list (snapshot * oid))
    (x : nat * (snapshot * oid)) (b : list item) : Prop :=
  exists s files rest,
    right_sizes H st sm (seen_before H st snaps x.1) (sn_tree x.2.1) s /\
    right_files H st sm (seen_before H st snaps x.1) (sn_tree x.2.1) files /\
    b = Heading x.2.1 x.2.2 (Some s) :: rest /\
    match fl_stat fl, fl_file_sizes fl with
    | true, true => exists ls items, changes H st (fl_metadata fl) (tree_before H snaps x.1) (sn_tree x.2.1) ls /\
        aligned gr files ls items /\ rest = items ++ [Blank]
    | true, false => exists ls, changes H st (fl_metadata fl) (tree_before H snaps x.1) (sn_tree x.2.1) ls /\
        rest = map (fun l => PathLine (indented l) None) ls ++ [Blank]
    | false, true => exists items, largest_first gr files items /\ rest = match items with [] => [] | _ => items ++ [Blank] end
    | false, false => rest = []
    end.
