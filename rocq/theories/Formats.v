(** Typed layer over CBOR: the structures backpak stores on disk. *)

From Verif Require Import Base OMap Cbor.

(** ** Types *)

(** src/hashing.rs:22-25 [ObjectId]: a SHA-224, 28 bytes. *)
Notation oid := bytes (only parsing).

(** src/blob.rs:21-28 [blob::Type]. *)
Inductive blob_type := Chunk | Tree.
Global Instance blob_type_eq_dec : EqDecision blob_type.
Proof. solve_decision. Defined.

(** src/pack.rs:45-51 [PackManifestEntry]. *)
Record entry := mkEntry { e_type : blob_type; e_len : N; e_id : oid }.
Global Instance entry_eq_dec : EqDecision entry.
Proof. solve_decision. Defined.

(** src/pack.rs:53 [PackManifest]. *)
Notation manifest := (list entry).

(** src/index.rs:53-57 [Index]; both fields are B-trees, kept sorted. *)
Record index := mkIndex { ix_supersedes : list oid; ix_packs : list (oid * manifest) }.

(** src/tree.rs:41-54 [NodeContents]. *)
Inductive contents :=
| CFile (chunks : list oid)
| CDir (subtree : oid)
| CSymlink (target : bytes).

(** src/tree.rs:86-102 [PosixMetadata]; timestamps are nanoseconds since the epoch. *)
Record posix := mkPosix {
  p_mode : N; p_size : option N; p_uid : N; p_gid : N; p_atime : Z; p_mtime : Z }.

(** src/tree.rs:107-121 [WindowsMetadata]. *)
Record windows := mkWindows {
  w_attributes : N; w_size : option N;
  w_creation : option Z; w_access : option Z; w_write : option Z }.

(** src/tree.rs:126-129 [NodeMetadata]. *)
Inductive metadata := Posix (p : posix) | Windows (w : windows).

(** src/tree.rs:299-303 [Node]. *)
Record node := mkNode { n_contents : contents; n_meta : metadata }.

(** src/tree.rs:331 [Tree]: a B-tree from entry name to node, kept sorted. *)
Notation tree := (list (bytes * node)).

Global Instance contents_eq_dec : EqDecision contents.
Proof. solve_decision. Defined.
Global Instance posix_eq_dec : EqDecision posix.
Proof. solve_decision. Defined.
Global Instance windows_eq_dec : EqDecision windows.
Proof. solve_decision. Defined.
Global Instance metadata_eq_dec : EqDecision metadata.
Proof. solve_decision. Defined.
Global Instance node_eq_dec : EqDecision node.
Proof. solve_decision. Defined.

(** src/snapshot.rs:90-107 [SnapshotV2], the stored form of a snapshot.  [sn_time]
    is nanoseconds since the epoch, [sn_tz] the time zone's name or offset. *)
Record snapshot := mkSnapshot {
  sn_time : Z; sn_tz : bytes; sn_author : bytes;
  sn_tags : list bytes; sn_paths : list bytes; sn_tree : oid }.

(** src/snapshot.rs:42-67 [Snapshot] as stored by version 1: the time is a
    text whose parsing (jiff) is not modelled. *)
Record snapshot1 := mkSnapshot1 {
  s1_time : bytes; s1_author : bytes;
  s1_tags : list bytes; s1_paths : list bytes; s1_tree : oid }.

(** ** Encoding (serde's derived [Serialize] into ciborium) *)

Definition ctext (s : string) : cbor := CText (ascii_bytes s).

Definition cint (z : Z) : cbor :=
  if (0 <=? z)%Z then CUint (Z.to_N z) else CNint (Z.to_N (-1 - z)).

(** src/prettify.rs:37-44: [dt.as_nanosecond() as i64], a wrapping cast. *)
Definition wrap_i64 (z : Z) : Z := ((z + 2 ^ 63) mod 2 ^ 64 - 2 ^ 63)%Z.

(** src/prettify.rs [instant::serialize], [instant_option::serialize]. *)
Definition c_instant (z : Z) : cbor := cint (wrap_i64 z).
Definition c_instant_option (o : option Z) : cbor :=
  match o with Some z => c_instant z | None => CNull end.

Definition c_type (t : blob_type) : cbor :=
  match t with Chunk => ctext "chunk" | Tree => ctext "tree" end.

Definition c_entry (e : entry) : cbor :=
  CMap false [(ctext "type", c_type (e_type e));
              (ctext "length", CUint (e_len e));
              (ctext "id", CBytes (e_id e))].

Definition c_manifest (m : manifest) : cbor := CArr (map c_entry m).

Definition c_index (ix : index) : cbor :=
  CMap false
    [(ctext "supersedes", CArr (map CBytes (ix_supersedes ix)));
     (ctext "packs", CMap false (map (fun kv => (CBytes kv.1, c_manifest kv.2)) (ix_packs ix)))].

(** src/tree.rs:40-54: untagged, flattened into the node. *)
Definition c_contents (c : contents) : cbor * cbor :=
  match c with
  | CFile cs => (ctext "chunks", CArr (map CBytes cs))
  | CDir t => (ctext "tree", CBytes t)
  | CSymlink t => (ctext "symlink", CText t)
  end.

(** [skip_serializing_if = "Option::is_none"] on the size. *)
Definition c_size (o : option N) : list (cbor * cbor) :=
  match o with Some n => [(ctext "size", CUint n)] | None => [] end.

Definition c_metadata (m : metadata) : cbor :=
  match m with
  | Posix p => CMap false
      ((ctext "type", ctext "posix") :: (ctext "mode", CUint (p_mode p)) :: c_size (p_size p) ++
       [(ctext "uid", CUint (p_uid p)); (ctext "gid", CUint (p_gid p));
        (ctext "atime", c_instant (p_atime p)); (ctext "mtime", c_instant (p_mtime p))])
  | Windows w => CMap false
      ((ctext "type", ctext "windows") :: (ctext "attributes", CUint (w_attributes w)) :: c_size (w_size w) ++
       [(ctext "creation_time", c_instant_option (w_creation w));
        (ctext "access_time", c_instant_option (w_access w));
        (ctext "write_time", c_instant_option (w_write w))])
  end.

Definition c_node (n : node) : cbor :=
  CMap true [c_contents (n_contents n); (ctext "metadata", c_metadata (n_meta n))].

Definition c_tree (t : tree) : cbor := CMap false (map (fun kv => (CText kv.1, c_node kv.2)) t).

Definition c_snapshot (s : snapshot) : cbor :=
  CMap false
    ([(ctext "time", cint (sn_time s)); (ctext "tz", CText (sn_tz s));
      (ctext "author", CText (sn_author s))] ++
     (match sn_tags s with [] => [] | ts => [(ctext "tags", CArr (map CText ts))] end) ++
     [(ctext "paths", CArr (map CText (sn_paths s))); (ctext "tree", CBytes (sn_tree s))]).

Definition c_snapshot1 (s : snapshot1) : cbor :=
  CMap false
    [(ctext "time", CText (s1_time s)); (ctext "author", CText (s1_author s));
     (ctext "tags", CArr (map CText (s1_tags s))); (ctext "paths", CArr (map CText (s1_paths s)));
     (ctext "tree", CBytes (s1_tree s))].

Definition enc_manifest (m : manifest) : bytes := enc (c_manifest m).
Definition enc_index (ix : index) : bytes := enc (c_index ix).
Definition enc_tree (t : tree) : bytes := enc (c_tree t).
Definition enc_snapshot (s : snapshot) : bytes := enc (c_snapshot s).
Definition enc_snapshot1 (s : snapshot1) : bytes := enc (c_snapshot1 s).

(** ** Decoding (serde's derived [Deserialize] out of ciborium)

    Fields in any order, unknown fields ignored, a field given twice or missing
    is an error.  Simplification: field names must be texts. *)

Definition is_text (v : cbor) : bool := match v with CText _ => true | _ => false end.

Definition key_is (name : bytes) (kv : cbor * cbor) : bool :=
  match kv.1 with CText k => bool_decide (k = name) | _ => false end.

Definition assoc_fields (name : bytes) (l : list (cbor * cbor)) : list cbor :=
  map snd (List.filter (key_is name) l).

(** A mandatory field. *)
Definition field (name : string) (l : list (cbor * cbor)) : option cbor :=
  match assoc_fields (ascii_bytes name) l with [v] => Some v | _ => None end.

(** A field with [serde(default)]. *)
Definition field_opt (name : string) (l : list (cbor * cbor)) : option (option cbor) :=
  match assoc_fields (ascii_bytes name) l with
  | [] => Some None
  | [v] => Some (Some v)
  | _ => None
  end.

Definition as_map (v : cbor) : option (list (cbor * cbor)) :=
  match v with CMap _ l => Some l | _ => None end.
(** A struct: a map whose keys are field names. *)
Definition as_struct (v : cbor) : option (list (cbor * cbor)) :=
  match v with CMap _ l => if forallb (fun kv => is_text kv.1) l then Some l else None | _ => None end.
Definition as_arr (v : cbor) : option (list cbor) :=
  match v with CArr l => Some l | _ => None end.
Definition as_text (v : cbor) : option bytes :=
  match v with CText b => Some b | _ => None end.
Definition as_list {A} (d : cbor -> option A) (v : cbor) : option (list A) :=
  l ← as_arr v; mapM d l.
(** src/hashing.rs:103-118 [ObjectId::deserialize]. *)
Definition as_oid (v : cbor) : option oid :=
  match v with CBytes b => if Nat.eqb (length b) 28 then Some b else None | _ => None end.
Definition as_u (bits : N) (v : cbor) : option N :=
  match v with CUint n => if (n <? 2 ^ bits)%N then Some n else None | _ => None end.
Definition as_int (v : cbor) : option Z :=
  match v with
  | CUint n => Some (Z.of_N n)
  | CNint n => Some (-1 - Z.of_N n)%Z
  | _ => None
  end.
(** src/prettify.rs:46-53 [instant::deserialize]: an i64. *)
Definition as_instant (v : cbor) : option Z :=
  z ← as_int v; if ((- 2 ^ 63 <=? z) && (z <? 2 ^ 63))%Z then Some z else None.
Definition as_instant_option (v : cbor) : option (option Z) :=
  match v with CNull => Some None | _ => z ← as_instant v; Some (Some z) end.

Definition d_type (v : cbor) : option blob_type :=
  t ← as_text v;
  if bool_decide (t = ascii_bytes "chunk") then Some Chunk
  else if bool_decide (t = ascii_bytes "tree") then Some Tree
  else None.

Definition d_entry (v : cbor) : option entry :=
  l ← as_struct v;
  t ← (field "type" l ≫= d_type);
  n ← (field "length" l ≫= as_u 32);
  i ← (field "id" l ≫= as_oid);
  Some (mkEntry t n i).

Definition d_manifest (v : cbor) : option manifest := as_list d_entry v.

Definition d_pack (kv : cbor * cbor) : option (oid * manifest) :=
  k ← as_oid kv.1; m ← d_manifest kv.2; Some (k, m).

Definition d_index (v : cbor) : option index :=
  l ← as_struct v;
  s ← (field "supersedes" l ≫= as_list as_oid);
  p ← (field "packs" l ≫= fun v => es ← as_map v; mapM d_pack es);
  Some (mkIndex (os_of_list s) (om_of_list p)).

Definition d_contents (l : list (cbor * cbor)) : option contents :=
  match (field "chunks" l ≫= as_list as_oid) with
  | Some cs => Some (CFile cs)
  | None =>
      match (field "tree" l ≫= as_oid) with
      | Some t => Some (CDir t)
      | None =>
          match (field "symlink" l ≫= as_text) with
          | Some t => Some (CSymlink t)
          | None => None
          end
      end
  end.

Definition d_size (l : list (cbor * cbor)) : option (option N) :=
  o ← field_opt "size" l;
  match o with
  | None => Some None
  | Some CNull => Some None
  | Some v => n ← as_u 64 v; Some (Some n)
  end.

Definition d_metadata (v : cbor) : option metadata :=
  l ← as_struct v;
  t ← (field "type" l ≫= as_text);
  if bool_decide (t = ascii_bytes "posix") then
    m ← (field "mode" l ≫= as_u 32);
    s ← d_size l;
    u ← (field "uid" l ≫= as_u 32);
    g ← (field "gid" l ≫= as_u 32);
    at_ ← (field "atime" l ≫= as_instant);
    mt ← (field "mtime" l ≫= as_instant);
    Some (Posix (mkPosix m s u g at_ mt))
  else if bool_decide (t = ascii_bytes "windows") then
    a ← (field "attributes" l ≫= as_u 32);
    s ← d_size l;
    c ← (field "creation_time" l ≫= as_instant_option);
    ac ← (field "access_time" l ≫= as_instant_option);
    w ← (field "write_time" l ≫= as_instant_option);
    Some (Windows (mkWindows a s c ac w))
  else None.

Definition d_node (v : cbor) : option node :=
  l ← as_struct v;
  m ← (field "metadata" l ≫= d_metadata);
  c ← d_contents l;
  Some (mkNode c m).

Definition d_named (kv : cbor * cbor) : option (bytes * node) :=
  k ← as_text kv.1; n ← d_node kv.2; Some (k, n).

Definition d_tree (v : cbor) : option tree :=
  l ← as_map v;
  es ← mapM d_named l;
  Some (om_of_list es).

(** Simplification: the tag and path sets are kept in stored order (a [BTreeSet]
    re-sorts; stored sets are already sorted). *)
Definition d_snapshot (v : cbor) : option snapshot :=
  l ← as_struct v;
  t ← (field "time" l ≫= as_int);
  z ← (field "tz" l ≫= as_text);
  a ← (field "author" l ≫= as_text);
  tg ← field_opt "tags" l;
  tags ← match tg with None => Some [] | Some v => as_list as_text v end;
  p ← (field "paths" l ≫= as_list as_text);
  tr ← (field "tree" l ≫= as_oid);
  Some (mkSnapshot t z a tags p tr).

Definition d_snapshot1 (v : cbor) : option snapshot1 :=
  l ← as_struct v;
  t ← (field "time" l ≫= as_text);
  a ← (field "author" l ≫= as_text);
  tags ← (field "tags" l ≫= as_list as_text);
  p ← (field "paths" l ≫= as_list as_text);
  tr ← (field "tree" l ≫= as_oid);
  Some (mkSnapshot1 t a tags p tr).

(** [ciborium::from_reader]: decode one item; the rest of the input is left. *)
Definition dec_with {A} (d : cbor -> option A) (b : bytes) : option (A * bytes) :=
  '(v, r) ← decode b; a ← d v; Some (a, r).
Definition dec_manifest := dec_with d_manifest.
Definition dec_index := dec_with d_index.
Definition dec_tree := dec_with d_tree.
Definition dec_snapshot := dec_with d_snapshot.
Definition dec_snapshot1 := dec_with d_snapshot1.

(** ** Values the Rust types can hold *)

Definition text_wf (b : bytes) : Prop := (N.of_nat (length b) < 2 ^ 64)%N /\ utf8_valid b = true.
Definition oid_wf (b : oid) : Prop := length b = 28.
Definition len_wf {A} (l : list A) : Prop := (N.of_nat (length l) < 2 ^ 64)%N.
Definition i64_wf (z : Z) : Prop := (- 2 ^ 63 <= z < 2 ^ 63)%Z.

Definition entry_wf (e : entry) : Prop := (e_len e < 2 ^ 32)%N /\ oid_wf (e_id e).
Definition manifest_wf (m : manifest) : Prop := len_wf m /\ Forall entry_wf m.
Definition index_wf (ix : index) : Prop :=
  len_wf (ix_supersedes ix) /\ Forall oid_wf (ix_supersedes ix) /\ os_sorted (ix_supersedes ix) /\
  len_wf (ix_packs ix) /\ Forall (fun kv => oid_wf kv.1 /\ manifest_wf kv.2) (ix_packs ix) /\
  om_sorted (ix_packs ix).
Definition contents_wf (c : contents) : Prop :=
  match c with
  | CFile cs => len_wf cs /\ Forall oid_wf cs
  | CDir t => oid_wf t
  | CSymlink t => text_wf t
  end.
Definition opt_wf {A} (P : A -> Prop) (o : option A) : Prop :=
  match o with Some a => P a | None => True end.
Definition size_wf (o : option N) : Prop := opt_wf (fun n => n < 2 ^ 64)%N o.
Definition metadata_wf (m : metadata) : Prop :=
  match m with
  | Posix p => (p_mode p < 2 ^ 32)%N /\ size_wf (p_size p) /\ (p_uid p < 2 ^ 32)%N /\
      (p_gid p < 2 ^ 32)%N /\ i64_wf (p_atime p) /\ i64_wf (p_mtime p)
  | Windows w => (w_attributes w < 2 ^ 32)%N /\ size_wf (w_size w) /\
      opt_wf i64_wf (w_creation w) /\ opt_wf i64_wf (w_access w) /\ opt_wf i64_wf (w_write w)
  end.
Definition node_wf (n : node) : Prop := contents_wf (n_contents n) /\ metadata_wf (n_meta n).
Definition tree_wf (t : tree) : Prop :=
  len_wf t /\ Forall (fun kv => text_wf kv.1 /\ node_wf kv.2) t /\ om_sorted t.
Definition snapshot_wf (s : snapshot) : Prop :=
  (- 2 ^ 64 <= sn_time s < 2 ^ 64)%Z /\ text_wf (sn_tz s) /\ text_wf (sn_author s) /\
  len_wf (sn_tags s) /\ Forall text_wf (sn_tags s) /\
  len_wf (sn_paths s) /\ Forall text_wf (sn_paths s) /\ oid_wf (sn_tree s).
Definition snapshot1_wf (s : snapshot1) : Prop :=
  text_wf (s1_time s) /\ text_wf (s1_author s) /\
  len_wf (s1_tags s) /\ Forall text_wf (s1_tags s) /\
  len_wf (s1_paths s) /\ Forall text_wf (s1_paths s) /\ oid_wf (s1_tree s).
