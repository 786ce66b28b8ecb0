(** Node kinds, metadata comparison and other small pieces of src/tree.rs. *)

From Verif Require Import Base OMap Formats.

(** src/tree.rs:160-166 [NodeType]. *)
Inductive kind := KFile | KDirectory | KSymlink | KUnsupported (bits : N).

Global Instance kind_eq_dec : EqDecision kind.
Proof. solve_decision. Defined.

(** src/tree.rs:170-180 (octal 170000, 120000, 040000, 100000). *)
Definition posix_kind (mode : N) : kind :=
  let bits := N.land mode 61440 in
  if (bits =? 40960)%N then KSymlink
  else if (bits =? 16384)%N then KDirectory
  else if (bits =? 32768)%N then KFile
  else KUnsupported bits.

(** src/tree.rs:182-191 *)
Definition windows_kind (attributes : N) : kind :=
  if negb (N.land attributes 1024 =? 0)%N then KSymlink
  else if negb (N.land attributes 16 =? 0)%N then KDirectory
  else KFile.

(** src/tree.rs:193-226 *)
Definition meta_kind (m : metadata) : kind :=
  match m with Posix p => posix_kind (p_mode p) | Windows w => windows_kind (w_attributes w) end.
Definition meta_size (m : metadata) : option N :=
  match m with Posix p => p_size p | Windows w => w_size w end.
Definition meta_mtime (m : metadata) : option Z :=
  match m with Posix p => Some (p_mtime p) | Windows w => w_write w end.
Definition meta_atime (m : metadata) : option Z :=
  match m with Posix p => Some (p_atime p) | Windows w => w_access w end.

(** src/tree.rs:132-158 [meta_diff_char]; the characters are kept as such. *)
Inductive meta_mark := MarkOwner | MarkPermissions | MarkMtime | MarkAtime | MarkOther.

Definition meta_diff_char (l r : metadata) : option meta_mark :=
  if decide (l = r) then None
  else Some match l, r with
  | Posix lp, Posix rp =>
      if negb (p_uid lp =? p_uid rp)%N || negb (p_gid lp =? p_gid rp)%N then MarkOwner
      else if negb (p_mode lp =? p_mode rp)%N then MarkPermissions
      else if negb (p_mtime lp =? p_mtime rp)%Z then MarkMtime
      else if negb (p_atime lp =? p_atime rp)%Z then MarkAtime
      else MarkOther
  | _, _ => MarkOther
  end.

(** The kind recorded by a node's contents. *)
Definition contents_kind (c : contents) : kind :=
  match c with CFile _ => KFile | CDir _ => KDirectory | CSymlink _ => KSymlink end.

(** src/tree.rs:306-326 [Node::kind]: asserts that metadata and contents agree. *)
Definition node_kind (n : node) : result kind :=
  let* _ := rassert (bool_decide (meta_kind (n_meta n) = contents_kind (n_contents n))) in
  Ok (contents_kind (n_contents n)).

(** src/tree.rs:478-483 [chunks_in_node], 465-474 [chunks_in_tree]. *)
Definition node_chunks (n : node) : list oid :=
  match n_contents n with CFile cs => cs | _ => [] end.
Definition tree_chunks (t : tree) : list oid := concat (map (fun kv => node_chunks kv.2) t).

(** src/tree.rs:354 [Forest]. *)
Notation forest := (gmap oid tree).

(** The subtrees a tree refers to, in order. *)
Definition node_subtree (n : node) : list oid :=
  match n_contents n with CDir s => [s] | _ => [] end.
Definition subtrees (t : tree) : list oid := concat (map (fun kv => node_subtree kv.2) t).
