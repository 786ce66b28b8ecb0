(** What cat prints: the objects as JSON (src/ui/cat.rs:84-103). *)

From Verif Require Import Base OMap Formats Hashing Index Cat.

(** ** Values, and serde_json's compact writer *)

(** No object cat prints has booleans, negative numbers or fractions in it. *)
Inductive json := JNull | JNum (n : N) | JStr (s : bytes) | JArr (l : list json) | JObj (l : list (bytes * json)).

Definition hex_low (n : N) : byte := nth (N.to_nat n) (ascii_bytes "0123456789abcdef") x00.

(** serde_json's table of escapes: quotes, backslashes and control characters; other
    bytes are copied. *)
Definition escape (b : byte) : bytes :=
  match b with
  | x22 => [x5c; x22]
  | x5c => [x5c; x5c]
  | x08 => ascii_bytes "\b"
  | x0c => ascii_bytes "\f"
  | x0a => ascii_bytes "\n"
  | x0d => ascii_bytes "\r"
  | x09 => ascii_bytes "\t"
  | _ => if (b2n b <? 32)%N then ascii_bytes "\u00" ++ [hex_low (b2n b / 16); hex_low (b2n b mod 16)] else [b]
  end.
Definition print_str (s : bytes) : bytes := [x22] ++ concat (map escape s) ++ [x22].

(** Decimal digits, no leading zeros. *)
Fixpoint digits (fuel : nat) (n : N) (acc : bytes) : bytes :=
  match fuel with
  | 0 => acc
  | S f => let acc' := n2b (48 + n mod 10) :: acc in if (n / 10 =? 0)%N then acc' else digits f (n / 10) acc'
  end.
Definition print_num (n : N) : bytes := digits (S (N.to_nat (N.log2 n))) n [].

Definition commas (l : list bytes) : bytes :=
  match l with [] => [] | x :: l' => x ++ concat (map (fun y => x2c :: y) l') end.

Fixpoint print (j : json) : bytes :=
  match j with
  | JNull => ascii_bytes "null"
  | JNum n => print_num n
  | JStr s => print_str s
  | JArr l => [x5b] ++ commas (map print l) ++ [x5d]
  | JObj l => [x7b] ++ commas (map (fun kv : bytes * json => print_str kv.1 ++ x3a :: print kv.2) l) ++ [x7d]
  end.

(** ** The objects (the derived [Serialize]s, pretty) *)

Definition key (s : string) : bytes := ascii_bytes s.
Definition jtext (s : string) : json := JStr (ascii_bytes s).

(** src/hashing.rs:95-96 *)
Definition j_oid (i : oid) : json := JStr (oid_print i).

(** src/blob.rs:21-28, src/pack.rs:45-53 *)
Definition j_type (t : blob_type) : json := match t with Chunk => jtext "chunk" | Tree => jtext "tree" end.
Definition j_entry (e : entry) : json :=
  JObj [(key "type", j_type (e_type e)); (key "length", JNum (e_len e)); (key "id", j_oid (e_id e))].
Definition j_manifest (m : manifest) : json := JArr (map j_entry m).

(** src/index.rs:49-57 *)
Definition j_index (ix : index) : json :=
  JObj [(key "supersedes", JArr (map j_oid (ix_supersedes ix)));
        (key "packs", JObj (map (fun kv : oid * manifest => (oid_print kv.1, j_manifest kv.2)) (ix_packs ix)))].

Section times.
(** jiff's text for an instant, and for an instant in a zone. *)
Variable show_time : Z -> bytes.
Variable show_zoned : Z -> bytes -> bytes.

(** src/prettify.rs:39-47 and 63-72 *)
Definition j_instant (z : Z) : json := JStr (show_time z).
Definition j_instant_option (o : option Z) : json := match o with Some z => j_instant z | None => JNull end.

(** src/tree.rs:40-54 *)
Definition j_contents (c : contents) : bytes * json :=
  match c with
  | CFile cs => (key "chunks", JArr (map j_oid cs))
  | CDir t => (key "tree", j_oid t)
  | CSymlink t => (key "symlink", JStr t)
  end.
(** src/tree.rs:84-129 *)
Definition j_size (o : option N) : list (bytes * json) := match o with Some n => [(key "size", JNum n)] | None => [] end.
Definition j_metadata (m : metadata) : json :=
  match m with
  | Posix p => JObj
      ((key "type", jtext "posix") :: (key "mode", JNum (p_mode p)) :: j_size (p_size p) ++
       [(key "uid", JNum (p_uid p)); (key "gid", JNum (p_gid p));
        (key "atime", j_instant (p_atime p)); (key "mtime", j_instant (p_mtime p))])
  | Windows w => JObj
      ((key "type", jtext "windows") :: (key "attributes", JNum (w_attributes w)) :: j_size (w_size w) ++
       [(key "creation_time", j_instant_option (w_creation w));
        (key "access_time", j_instant_option (w_access w));
        (key "write_time", j_instant_option (w_write w))])
  end.
(** src/tree.rs:298-303 and 331 *)
Definition j_node (n : node) : json := JObj [j_contents (n_contents n); (key "metadata", j_metadata (n_meta n))].
Definition j_tree (t : tree) : json := JObj (map (fun kv : bytes * node => (kv.1, j_node kv.2)) t).

(** src/snapshot.rs:41-67: here the tags are never left out. *)
Definition j_snapshot (s : snapshot) : json :=
  JObj [(key "time", JStr (show_zoned (sn_time s) (sn_tz s))); (key "author", JStr (sn_author s));
        (key "tags", JArr (map JStr (sn_tags s))); (key "paths", JArr (map JStr (sn_paths s)));
        (key "tree", j_oid (sn_tree s))].

(** src/ui/cat.rs:84-103 *)
Definition cat_text (c : cat_shown) : bytes :=
  match c with
  | ShowBytes b => b
  | ShowTree t => print (j_tree t)
  | ShowPack m => print (j_manifest m)
  | ShowIndex ix => print (j_index ix)
  | ShowSnapshot s => print (j_snapshot s)
  end.
End times.
