(** Pack files: writing them and the ways they are read back.

    Models src/pack.rs.  Parameters: [H] is SHA-224; [zdec] is the streaming
    zstd decoder ([zstd::stream::read::Decoder], which decodes concatenated
    frames one after the other): from the compressed input it produces bytes,
    then either ends cleanly ([true]) or fails ([false]). *)

From Verif Require Import Base OMap Cbor Formats Hashing.

(** src/blob.rs:11-19 [Blob]. *)
Record blob := mkBlob { b_type : blob_type; b_id : oid; b_bytes : bytes }.

(** src/pack.rs:237-241: the manifest entry [write_blob] records. *)
Definition entry_of (b : blob) : entry :=
  mkEntry (b_type b) (N.of_nat (length (b_bytes b))) (b_id b).
Definition manifest_of (bs : list blob) : manifest := map entry_of bs.

(** src/pack.rs:40 *)
Definition pack_magic : bytes := ascii_bytes "MKBAKPAK1".

(** src/file_util.rs:14-24 [check_magic]: reads exactly that many bytes and compares. *)
Definition check_magic (magic file : bytes) : result bytes :=
  if bool_decide (take (length magic) file = magic)
  then Ok (drop (length magic) file) else Err.

Section pack.
Variable H : bytes -> oid.
Variable zdec : bytes -> bytes * bool.

(** [z] is a compressed stream for [x]: whatever follows it, decoding yields
    [x] and goes on with what follows. *)
Definition zstream_of (z x : bytes) : Prop :=
  forall r, zdec (z ++ r) = (x ++ (zdec r).1, (zdec r).2).

(** src/pack.rs:64-70 [serialize_and_hash]: the id of a pack. *)
Definition pack_id (m : manifest) : oid := H (enc_manifest m).

(** src/pack.rs:219, 265-300 [PackfileWriter::finalize]: the file written, for
    compressed blobs [z] and compressed manifest [zm]. *)
Definition pack_file (z zm : bytes) : bytes :=
  pack_magic ++ z ++ zm ++ be_bytes 4 (N.of_nat (length zm)).

(** Reading up to [n] bytes from a decoder ([take(n)] read to its end): an
    error in the stream surfaces only if those bytes are needed. *)
Definition read_take (n : N) (st : bytes * bool) : result (bytes * (bytes * bool)) :=
  if (n <=? N.of_nat (length st.1))%N
  then Ok (take (N.to_nat n) st.1, (drop (N.to_nat n) st.1, st.2))
  else if st.2 then Ok (st.1, ([], true)) else Err.

(** [ciborium::from_reader] on a [HashingReader]: the value, and the hash of
    the bytes consumed (src/pack.rs:363-367, 464-469). *)
Definition from_hashing_reader {A} (dec : bytes -> option (A * bytes)) (b : bytes)
  : result (A * oid * bytes) :=
  let* (a, r) := of_option (dec b) in
  Ok (a, H (take (length b - length r) b), r).

(** src/pack.rs:348-369 [manifest_from_reader]. *)
Definition manifest_from_reader (file : bytes) : result (manifest * oid) :=
  let* _ := ensure (4 <=? N.of_nat (length file))%N in
  let trailer := drop (length file - 4) file in
  let ml := N.to_nat (be_num 0 trailer) in
  let* _ := ensure (ml + 4 <=? length file)%nat in
  let zm := take ml (drop (length file - 4 - ml) file) in
  let* (m, id, _) := from_hashing_reader dec_manifest (zdec zm).1 in
  Ok (m, id).

(** src/pack.rs:304-342 [verify]. *)
Fixpoint verify_entries (m : manifest) (st : bytes * bool) : result unit :=
  match m with
  | [] => Ok tt
  | e :: m' =>
      let* (b, st') := read_take (e_len e) st in
      let* _ := ensure (bool_decide (e_id e = H b)) in
      verify_entries m' st'
  end.

Definition verify (file : bytes) (m : manifest) : result unit :=
  let* body := check_magic pack_magic file in
  let* _ := verify_entries m (zdec body) in
  let* (mf, _) := manifest_from_reader file in
  ensure (bool_decide (m = mf)).

(** src/pack.rs:373-390 [load_manifest], given the pack's bytes. *)
Definition load_manifest (id : oid) (file : bytes) : result manifest :=
  let* _ := check_magic pack_magic file in
  let* (m, cid) := manifest_from_reader file in
  let* _ := ensure (bool_decide (id = cid)) in
  Ok m.

(** src/pack.rs:394-432 [extract_blob]. *)
Fixpoint extract_entries (id : oid) (m : manifest) (st : bytes * bool) : result (entry * bytes) :=
  match m with
  | [] => Panic (* unreachable!() *)
  | e :: m' =>
      let* (b, st') := read_take (e_len e) st in
      if bool_decide (e_id e = id) then
        let* _ := ensure (bool_decide (id = H b)) in Ok (e, b)
      else extract_entries id m' st'
  end.

Definition extract_blob (file : bytes) (id : oid) (m : manifest) : result (entry * bytes) :=
  let* _ := rassert (existsb (fun e => bool_decide (e_id e = id)) m) in
  let* body := check_magic pack_magic file in
  extract_entries id m (zdec body).

(** src/tree.rs:347 [Forest]. *)
Notation forest := (gmap oid tree).

(** src/pack.rs:435-484 [append_to_forest].  The bytes of an entry not consumed
    by the CBOR decoder stay in the stream. *)
Fixpoint append_entries (m : manifest) (st : bytes * bool) (fo : forest) : result forest :=
  match m with
  | [] => Ok fo
  | e :: m' =>
      if bool_decide (e_type e <> Tree) || bool_decide (is_Some (fo !! e_id e)) then
        let* (b, st') := read_take (e_len e) st in
        let* _ := rassert (N.eqb (e_len e) (N.of_nat (length b))) in
        append_entries m' st' fo
      else
        let window := take (N.to_nat (e_len e)) st.1 in
        let* (t, h, r) := from_hashing_reader dec_tree window in
        let* _ := ensure (bool_decide (e_id e = h)) in
        append_entries m' (drop (length window - length r) st.1, st.2) (<[e_id e := t]> fo)
  end.

Definition append_to_forest (file : bytes) (m : manifest) (fo : forest) : result forest :=
  let* body := check_magic pack_magic file in
  append_entries m (zdec body) fo.

End pack.

(** ** The packing loop (src/pack.rs:74-199)

    What the file system and zstd report is a parameter of each step: the size
    on disk before and after a flush, and the floating-point estimate. *)

Record sizes := mkSizes { sz_check : N; sz_flush : N; sz_estimate : N }.

Record packer := mkPacker {
  pk_blobs : list blob;    (* blobs in the open pack, in order *)
  pk_pass : N;             (* pass_bytes_written *)
  pk_in_pack : N;          (* bytes_in_pack *)
  pk_before : N }.         (* bytes_before_next_check *)

Definition packer_new (target : N) : packer := mkPacker [] 0 0 target.

(** One blob: the next state, and the pack closed by it, if any. *)
Definition packer_step (target : N) (st : packer) (b : blob) (sz : sizes)
  : result (packer * option (list blob)) :=
  let n := N.of_nat (length (b_bytes b)) in
  let* _ := rassert (n <? 2 ^ 32)%N in                    (* line 234 *)
  let bs := pk_blobs st ++ [b] in
  let pass := (pk_pass st + n)%N in
  let inp := (pk_in_pack st + n)%N in
  if (target <=? sz_check sz)%N then Ok (packer_new target, Some bs)
  else if (pk_before st <=? pass)%N then
    if (target <=? sz_flush sz)%N then Ok (packer_new target, Some bs)
    else Ok (mkPacker bs 0 inp (sz_estimate sz), None)
  else Ok (mkPacker bs pass inp (pk_before st), None).

(** The final pack (lines 188-197). *)
Definition packer_finish (st : packer) : option (list blob) :=
  if (0 <? pk_in_pack st)%N then Some (pk_blobs st) else None.

Fixpoint packer_run (target : N) (st : packer) (input : list (blob * sizes))
  : result (list (list blob)) :=
  match input with
  | [] => Ok (match packer_finish st with Some bs => [bs] | None => [] end)
  | (b, sz) :: input' =>
      let* (st', closed) := packer_step target st b sz in
      let* rest := packer_run target st' input' in
      Ok (match closed with Some bs => bs :: rest | None => rest end)
  end.

(** What the packer sends for each finished pack, in order (lines 171-180,
    188-196): first the file to the uploader, then the metadata to the indexer. *)
Inductive packer_msg := MsgUpload (id : oid) | MsgIndex (id : oid) (m : manifest).

Definition pack_msgs (H : bytes -> oid) (bs : list blob) : list packer_msg :=
  let m := manifest_of bs in [MsgUpload (pack_id H m); MsgIndex (pack_id H m) m].

Definition packer_msgs (H : bytes -> oid) (packs : list (list blob)) : list packer_msg :=
  concat (map (pack_msgs H) packs).
