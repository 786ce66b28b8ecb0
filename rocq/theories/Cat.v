(** Printing single objects: src/ui/cat.rs:56-107. *)

From Verif Require Import Base OMap Cbor Formats Hashing Pack Index Meta Forest Select Check.

(** src/ui/cat.rs:25-54 [Subcommand] *)
Inductive cat_what := CatBlob (id : oid) | CatPack (id : oid) | CatIndex (id : oid) | CatSnapshot (name : bytes).

(** What goes to the standard output: bytes as they are, or something as JSON (how
    that is written is not modelled). *)
Inductive cat_shown :=
| ShowBytes (b : bytes) | ShowTree (t : tree) | ShowPack (m : manifest) | ShowIndex (ix : index) | ShowSnapshot (sn : snapshot).

Section cat.
Variable H : bytes -> oid.
Variable zdec : bytes -> bytes * bool.

(** Lines 68-91.  Bytes after a tree's encoding are ignored. *)
Definition cat_blob (d : disk) (id : oid) : result cat_shown :=
  let* ix := disk_index H zdec d in
  let* bmap := blob_to_pack_map ix in
  let* p := of_option (bmap !! id) in
  let* m := match om_get p (ix_packs ix) with Some m => Ok m | None => Panic end in
  let* file := of_option (d_packs d !! p) in
  let* (e, b) := extract_blob H zdec file id m in
  let* _ := rassert (match b with [] => false | _ => true end) in
  match e_type e with
  | Chunk => Ok (ShowBytes b)
  | Tree => let* (t, _) := of_option (dec_tree b) in Ok (ShowTree t)
  end.

(** Lines 92-95 *)
Definition cat_pack (d : disk) (id : oid) : result cat_shown :=
  let* file := of_option (d_packs d !! id) in
  let* m := load_manifest H zdec id file in
  Ok (ShowPack m).

(** Lines 96-99 *)
Definition cat_index (d : disk) (id : oid) : result cat_shown :=
  let* ix := index_load H zdec id (snd <$> List.find (fun x : oid * bytes => bool_decide (x.1 = id)) (d_indexes d)) in
  Ok (ShowIndex ix).

(** Lines 67-105 [run]; [snaps] are the snapshots as loaded in line 101. *)
Definition cat (d : disk) (snaps : list (snapshot * oid)) (w : cat_what) : result cat_shown :=
  match w with
  | CatBlob id => cat_blob d id
  | CatPack id => cat_pack d id
  | CatIndex id => cat_index d id
  | CatSnapshot name => let* x := find_snapshot snaps name in Ok (ShowSnapshot x.1)
  end.
End cat.
