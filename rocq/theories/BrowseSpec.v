(** What listing and comparing trees should show. *)

From Verif Require Import Base OMap Formats Hashing Meta Forest FsTree FsSpec Browse.

(** Everything below [id] is in the forest, at most [depth] levels deep. *)
Fixpoint loaded (fo : forest) (depth : nat) (id : oid) : Prop :=
  match depth with
  | O => False
  | S d => exists t, fo !! id = Some t /\ forall s, s ∈ subtrees t -> loaded fo d s
  end.

(** Parents come before their children. *)
Definition parents_first {A} (l : list (list bytes * A)) : Prop :=
  forall i q x a, l !! i = Some (q ++ [x], a) -> q = [] \/ exists j a', j < i /\ l !! j = Some (q, a').

(** [l] has every path below [id] once, with the node there, parents first. *)
Definition lists_all (fo : forest) (id : oid) (l : list (list bytes * node)) : Prop :=
  NoDup (map fst l) /\ (forall p n, (p, n) ∈ l <-> node_at fo id p = Some n) /\ parents_first l.

(** Two forests in which an id means the same. *)
Definition same_ids (fo1 fo2 : forest) : Prop := forall i t1 t2, fo1 !! i = Some t1 -> fo2 !! i = Some t2 -> t1 = t2.

(** ** What should be reported about a path *)

Definition kind_of (n : node) : kind := contents_kind (n_contents n).

(** Not the same thing: another kind, another target, other chunks. *)
Definition differs (n1 n2 : node) : Prop :=
  kind_of n1 <> kind_of n2 \/ (kind_of n1 <> KDirectory /\ n_contents n1 <> n_contents n2).

(** The same as far as one can see at this path: a directory is a directory. *)
Definition alike (n1 n2 : node) : Prop := ~ differs n1 n2 /\ n_meta n1 = n_meta n2.

(** [+] before what is only there now, or is of another kind or a link elsewhere. *)
Definition plus_line (o1 o2 : option node) (n : node) : Prop :=
  o2 = Some n /\ match o1 with
    | None => True
    | Some n1 => kind_of n1 <> kind_of n \/ (kind_of n1 = KSymlink /\ n_contents n1 <> n_contents n)
    end.
Definition changed_line (o1 o2 : option node) (n : node) : Prop :=
  exists n2, o1 = Some n /\ o2 = Some n2 /\ kind_of n = KFile /\ kind_of n2 = KFile /\ n_contents n <> n_contents n2.
Definition meta_line (o1 o2 : option node) (prefix : bytes) (n : node) : Prop :=
  exists n1 m, o1 = Some n1 /\ o2 = Some n /\ ~ differs n1 n /\ meta_diff_char (n_meta n1) (n_meta n) = Some m /\
    prefix = mark_char m ++ ascii_bytes " ".

(** The line [prefix p n] belongs in the report. *)
Definition belongs (show_meta : bool) (o1 o2 : option node) (prefix : bytes) (n : node) : Prop :=
  (prefix = ascii_bytes "+ " /\ plus_line o1 o2 n) \/
  (prefix = ascii_bytes "- " /\ plus_line o2 o1 n) \/
  (prefix = ascii_bytes "C " /\ changed_line o1 o2 n) \/
  (show_meta = true /\ meta_line o1 o2 prefix n).

(** ** The same about file trees *)

(** A name as directories have it: not empty, no slash in it. *)
Definition clean_name (x : bytes) : Prop := x <> [] /\ slash ∉ x.
Definition clean_names (es : list (bytes * fsnode)) : Prop := forall p n, fs_at es p = Some n -> Forall clean_name p.

(** [l] has every path of the file tree once, with what is there, parents first. *)
Definition lists_files (es : list (bytes * fsnode)) (l : list (list bytes * fsnode)) : Prop :=
  NoDup (map fst l) /\ (forall p n, (p, n) ∈ l <-> fs_at es p = Some n) /\ parents_first l.

(** How a path is shown: names separated by slashes, and after it a slash for a
    directory and the target of a link. *)
Fixpoint path_text (p : list bytes) : bytes :=
  match p with
  | [] => []
  | [x] => x
  | x :: p' => x ++ slash :: path_text p'
  end.
Definition file_line (x : list bytes * fsnode) : bytes :=
  path_text x.1 ++
  match x.2 with FsDir _ _ => [slash] | FsLink _ target => ascii_bytes " -> " ++ target | FsFile _ _ | FsOther _ => [] end ++ [x0a].

(** What dumping something should print: a file's bytes, a directory's entries, a
    link's target. *)
Definition shown (p : list bytes) (n : fsnode) : bytes :=
  match n with
  | FsFile _ c => c
  | FsLink _ target => path_text p ++ ascii_bytes " -> " ++ target ++ [x0a]
  | FsDir _ es =>
      path_text p ++ [slash; x0a] ++
      concat (map (fun e : bytes * fsnode => path_text p ++ slash :: e.1 ++
        match e.2 with FsDir _ _ => [slash] | FsLink _ target => ascii_bytes "-> " ++ target | FsFile _ _ | FsOther _ => [] end ++ [x0a]) es)
  | FsOther _ => []
  end.

(** What is between the slashes of a string. *)
Fixpoint between_slashes (s : bytes) : list bytes :=
  match s with
  | [] => [[]]
  | b :: s' =>
      match between_slashes s' with
      | x :: xs => if bool_decide (b = slash) then [] :: x :: xs else (b :: x) :: xs
      | [] => []
      end
  end.
(** The names in a path given by the user, and whether it leads nowhere but down: not from
    the root, and never to the parent. *)
Definition names_in (path : bytes) : list bytes :=
  filter (fun x => x <> [] /\ x <> ascii_bytes "." /\ x <> ascii_bytes "..") (between_slashes path).
Definition goes_down (path : bytes) : Prop := head path <> Some slash /\ ascii_bytes ".." ∉ between_slashes path.
(** No symbolic link on the way to [p]. *)
Definition no_link_before (es : list (bytes * fsnode)) (p : list bytes) : Prop :=
  forall q r m target, p = q ++ r -> r <> [] -> fs_at es q <> Some (FsLink m target).

(** What is at a path, without what is below it. *)
Definition entry_at (es : list (bytes * fsnode)) (p : list bytes) : option fsnode :=
  (fun n => match n with FsDir m _ => FsDir m [] | other => other end) <$> fs_at es p.

(** Nothing to report about a path. *)
Definition no_news (show_meta : bool) (o1 o2 : option node) : Prop :=
  match o1, o2 with
  | Some n1, Some n2 => ~ differs n1 n2 /\ (show_meta = true -> n_meta n1 = n_meta n2)
  | None, None => True
  | _, _ => False
  end.
