(** Looking into snapshots: src/ls.rs, src/ui/ls.rs, src/ui/dump.rs, src/diff.rs and
    src/ui/diff.rs.

    A path is the list of its names.  In the program it is one string that grows by
    [push]; names of tree entries are single components. *)

From Verif Require Import Base OMap Formats Hashing Meta Forest FsTree.

(** The string: names pushed one after the other onto the empty path. *)
Definition render (p : list bytes) : bytes := foldl join [] p.

(** A loop over entries whose body may run out of fuel or fail. *)
Fixpoint ofold {A St} (f : A -> St -> option (result St)) (l : list A) (s : St) : option (result St) :=
  match l with
  | [] => Some (Ok s)
  | a :: l' => match f a s with Some (Ok s') => ofold f l' s' | other => other end
  end.

(** ** Walking a tree *)

Section walk.
Variable fo : forest.
Context {St : Type}.
Variable v : list bytes -> node -> St -> St.

(** src/ls.rs:51-62 [walk_node] with [Recurse::Yes]; [rec] is [walk_tree]. *)
Definition walk_node_with (rec : list bytes -> oid -> St -> option (result St)) (p : list bytes) (n : node) (s : St)
    : option (result St) :=
  let s' := v p n s in
  match n_contents n with
  | CDir sub => rec p sub s'
  | CFile _ | CSymlink _ => Some (Ok s')
  end.

(** src/ls.rs:65-79 [walk_tree]; a missing tree panics. *)
Fixpoint walk_tree (fuel : nat) (p : list bytes) (id : oid) (s : St) : option (result St) :=
  match fuel with
  | O => None
  | S fuel' =>
      match fo !! id with
      | None => Some Panic
      | Some t => ofold (fun (e : bytes * node) s => walk_node_with (walk_tree fuel') (p ++ [e.1]) e.2 s) t s
      end
  end.
Definition walk_node (fuel : nat) : list bytes -> node -> St -> option (result St) := walk_node_with (walk_tree fuel).
End walk.

(** What is printed: a prefix, a path and what is there. *)
Notation line := (bytes * list bytes * node)%type.
Definition see (prefix : bytes) (p : list bytes) (n : node) (ls : list line) : list line := ls ++ [(prefix, p, n)].

(** src/ls.rs:21-35 [printer]: the text of one line. *)
Definition line_text (l : line) : bytes :=
  let '(prefix, p, n) := l in
  prefix ++ render p ++
  match n_contents n with
  | CDir _ => if bool_decide (last (render p) = Some slash) then [] else [slash]
  | CFile _ => []
  | CSymlink target => ascii_bytes " -> " ++ target
  end ++ [x0a].

(** src/ls.rs:86-89 [print_tree] and 81-84 [print_node]: the lines. *)
Definition print_tree (fo : forest) (fuel : nat) (prefix : bytes) (p : list bytes) (id : oid) (ls : list line)
    : option (result (list line)) := walk_tree fo (see prefix) fuel p id ls.
Definition print_node (fo : forest) (fuel : nat) (prefix : bytes) (p : list bytes) (n : node) (ls : list line)
    : option (result (list line)) := walk_node fo (see prefix) fuel p n ls.

(** src/ui/ls.rs:33-34: load everything and print it.  [read] is [Cache::read]. *)
Definition ls (read : forest -> oid -> result (tree * forest)) (fuel : nat) (cache : forest) (root : oid)
    : option (result bytes) :=
  match forest_from_root read fuel cache root with
  | Some (Ok (_, fo)) =>
      match print_tree fo fuel [] [] root [] with
      | Some (Ok l) => Some (Ok (concat (map line_text l)))
      | Some Err => Some Err
      | Some Panic => Some Panic
      | None => None
      end
  | Some Err => Some Err
  | Some Panic => Some Panic
  | None => None
  end.

(** ** Dumping one path *)

(** [Utf8Path::components] on Unix: an initial slash is the root, empty parts are
    dropped, and so is [.] except at the very beginning. *)
Inductive component := CurDir | Normal (name : bytes) | RootOrParent.

Fixpoint split_slash (cur : bytes) (s : bytes) : list bytes :=
  match s with
  | [] => [rev cur]
  | b :: s' => if bool_decide (b = slash) then rev cur :: split_slash [] s' else split_slash (b :: cur) s'
  end.
Definition dot : bytes := ascii_bytes ".".
Definition dotdot : bytes := ascii_bytes "..".
Definition part_components (x : bytes) : list component :=
  if bool_decide (x = []) || bool_decide (x = dot) then []
  else if bool_decide (x = dotdot) then [RootOrParent] else [Normal x].
Definition components (s : bytes) : list component :=
  match split_slash [] s with
  | [] => []
  | x :: xs =>
      (if bool_decide (x = []) then (match xs with [] => [] | _ => [RootOrParent] end)
       else if bool_decide (x = dot) then [CurDir] else part_components x)
      ++ concat (map part_components xs)
  end.

Section dump.
Variable read : forest -> oid -> result (tree * forest).
(** [ChunkReader::read_blob], one chunk. *)
Variable read_chunk : oid -> result bytes.

(** src/ui/dump.rs:142-158 [dump_file]. *)
Definition dump_file (cs : list oid) : result bytes :=
  rfold (fun c out => let* b := read_chunk c in Ok (out ++ b)) cs [].

(** src/ui/dump.rs:101-129 [dump_dir]: the directory and one line per entry. *)
Definition dump_dir (p : list bytes) (t : tree) : bytes :=
  render p ++ [slash; x0a] ++
  concat (map (fun e : bytes * node => render p ++ slash :: e.1 ++
    match n_contents e.2 with
    | CDir _ => [slash]
    | CSymlink target => ascii_bytes "-> " ++ target
    | CFile _ => []
    end ++ [x0a]) t).

(** src/ui/dump.rs:131-140 [dump_symlink]. *)
Definition dump_symlink (p : list bytes) (target : bytes) : bytes :=
  render p ++ ascii_bytes " -> " ++ target ++ [x0a].

(** src/ui/dump.rs:48-98: the loop.  [out] is what each opened writer got: all of
    them together on the standard output; a file is truncated by each. *)
Fixpoint dump_loop (cache : forest) (current : oid) (sofar : list bytes) (cs : list component) (out : list bytes)
    : result (list bytes) :=
  match cs with
  | [] => Ok out
  | CurDir :: cs' => dump_loop cache current sofar cs' out
  | RootOrParent :: _ => Err
  | Normal c :: cs' =>
      let here := sofar ++ [c] in
      let* (t, cache1) := read cache current in
      let* n := of_option (om_get c t) in
      match n_contents n with
      | CDir sub =>
          match cs' with
          | [] => let* (t2, _) := read cache1 sub in Ok (out ++ [dump_dir here t2])
          | _ :: _ => dump_loop cache1 sub here cs' out
          end
      | CSymlink target => dump_loop cache1 current here cs' (out ++ [dump_symlink here target])
      | CFile chunks =>
          match cs' with
          | [] => let* b := dump_file chunks in Ok (out ++ [b])
          | _ :: _ => Err
          end
      end
  end.
Definition dump (cache : forest) (root : oid) (path : bytes) : result (list bytes) :=
  dump_loop cache root [] (components path) [].
End dump.

(** ** Comparing two trees *)

(** A callback and its arguments (src/diff.rs:12-62). *)
Inductive event :=
| Added (n : node)
| Removed (n : node)
| Changed (old new : node)
| MetaChanged (old new : node)
| Unchanged (n : node)
| TypeChanged (old new : node).

Section compare.
Variables fo1 fo2 : forest.
Context {St : Type}.
Variable cb : list bytes -> event -> St -> result St.

(** src/diff.rs:105-146 [compare_nodes]; [rec] is [compare_trees]. *)
Definition compare_nodes_with (rec : oid -> oid -> list bytes -> St -> option (result St))
    (n1 n2 : node) (p : list bytes) (s : St) : option (result St) :=
  match node_kind n1, node_kind n2 with
  | Ok k1, Ok k2 =>
      match n_contents n1, n_contents n2 with
      | CDir d1, CDir d2 =>
          match (if bool_decide (d1 = d2) then Some (Ok s) else rec d1 d2 p s) with
          | Some (Ok s') =>
              Some (
                let* s'' := if bool_decide (n_meta n1 = n_meta n2) then Ok s' else cb p (MetaChanged n1 n2) s' in
                if bool_decide (d1 = d2) && bool_decide (n_meta n1 = n_meta n2) then cb p (Unchanged n1) s'' else Ok s'')
          | other => other
          end
      | c1, c2 =>
          Some (
            if bool_decide (k1 = k2) then
              if negb (bool_decide (c1 = c2)) then cb p (Changed n1 n2) s
              else if negb (bool_decide (n_meta n1 = n_meta n2)) then cb p (MetaChanged n1 n2) s
              else cb p (Unchanged n2) s
            else cb p (TypeChanged n1 n2) s)
      end
  | _, _ => Some Panic
  end.

(** src/diff.rs:77-103 [compare_trees]. *)
Fixpoint compare_trees (fuel : nat) (id1 id2 : oid) (p : list bytes) (s : St) : option (result St) :=
  match fuel with
  | O => None
  | S fuel' =>
      match fo1 !! id1, fo2 !! id2 with
      | Some t1, Some t2 =>
          ofold (fun x s =>
            match om_get x t1, om_get x t2 with
            | None, None => Some Panic
            | None, Some n => Some (cb (p ++ [x]) (Added n) s)
            | Some n, None => Some (cb (p ++ [x]) (Removed n) s)
            | Some n1, Some n2 => compare_nodes_with (compare_trees fuel') n1 n2 (p ++ [x]) s
            end) (os_of_list (map fst t1 ++ map fst t2)) s
      | _, _ => Some Panic
      end
  end.
End compare.

(** The callbacks called, in order. *)
Definition note (p : list bytes) (e : event) (s : list (list bytes * event)) : result (list (list bytes * event)) := Ok (s ++ [(p, e)]).
Definition events (fo1 fo2 : forest) (fuel : nat) (id1 id2 : oid) : option (result (list (list bytes * event))) :=
  compare_trees fo1 fo2 note fuel id1 id2 [] [].

(** src/tree.rs:131-158, the characters. *)
Definition mark_char (m : meta_mark) : bytes :=
  match m with
  | MarkOwner => ascii_bytes "O" | MarkPermissions => ascii_bytes "P" | MarkMtime => ascii_bytes "T"
  | MarkAtime => ascii_bytes "A" | MarkOther => ascii_bytes "M"
  end.

(** src/ui/diff.rs:119-168 [PrintDiffs].  Out of fuel is a panic here: the
    recursion is as deep as the trees, which were loaded. *)
Definition or_panic {A} (x : option (result A)) : result A := match x with Some r => r | None => Panic end.
Definition print_diff (fo1 fo2 : forest) (fuel : nat) (show_meta : bool) (p : list bytes) (e : event) (ls : list line)
    : result (list line) :=
  match e with
  | Added n => or_panic (print_node fo2 fuel (ascii_bytes "+ ") p n ls)
  | Removed n => or_panic (print_node fo1 fuel (ascii_bytes "- ") p n ls)
  | Changed n1 n2 =>
      match n_contents n1 with
      | CSymlink _ => Ok (see (ascii_bytes "+ ") p n2 (see (ascii_bytes "- ") p n1 ls))
      | _ => Ok (see (ascii_bytes "C ") p n1 ls)
      end
  | MetaChanged n1 n2 =>
      if show_meta then
        match meta_diff_char (n_meta n1) (n_meta n2) with
        | Some m => Ok (see (mark_char m ++ ascii_bytes " ") p n2 ls)
        | None => Panic
        end
      else Ok ls
  | Unchanged _ => Ok ls
  | TypeChanged n1 n2 =>
      let* ls' := or_panic (print_node fo1 fuel (ascii_bytes "- ") p n1 ls) in
      or_panic (print_node fo2 fuel (ascii_bytes "+ ") p n2 ls')
  end.

(** src/ui/diff.rs:71-78: the lines printed. *)
Definition diff (fo1 fo2 : forest) (fuel : nat) (show_meta : bool) (id1 id2 : oid) : option (result (list line)) :=
  compare_trees fo1 fo2 (print_diff fo1 fo2 fuel show_meta) fuel id1 id2 [] [].
