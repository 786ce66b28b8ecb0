(** Properties C01, C02, C04 and C48: ids, hashing, encodings, timestamps. *)

From Verif Require Import Base OMap Cbor CborFacts Formats FormatsFacts Hashing HashingFacts.

(** ** C01: ids and their texts *)

Theorem C01_ids_print_and_parse :
  (forall i, oid_wf i -> oid_parse (oid_print i) = Some i) /\
  (forall s i, oid_parse s = Some i -> oid_print i = s /\ oid_wf i) /\
  (forall i, oid_wf i -> length (oid_print i) = 45) /\
  (forall i j, oid_wf i -> oid_wf j -> oid_print i = oid_print j -> i = j) /\
  (forall i j, oid_wf i -> oid_wf j ->
     bytes_cmp (oid_print i) (oid_print j) = bytes_cmp i j).
Proof.
  split; [exact oid_parse_print|]. split; [exact oid_print_parse|].
  split; [exact oid_print_length|]. split; [|exact oid_print_cmp].
  intros i j Hi Hj E. pose proof (oid_parse_print i Hi) as A.
  rewrite E, (oid_parse_print j Hj) in A. congruence.
Qed.
Print Assumptions C01_ids_print_and_parse.

Definition ex_id (b : byte) : oid := replicate 27 b ++ [x01].

Example C01_witness :
  oid_wf (ex_id xff) /\
  oid_print (ex_id xff) = ascii_bytes "vvvvvvvvvvvvvvvvvvvvvvvvvvvvvvvvvvvvvvvvvvvg2" /\
  oid_parse (oid_print (ex_id xff)) = Some (ex_id xff) /\
  (* upper case and non-zero trailing bits are refused *)
  oid_parse (ascii_bytes "Vvvvvvvvvvvvvvvvvvvvvvvvvvvvvvvvvvvvvvvvvvvg2") = None /\
  oid_parse (ascii_bytes "vvvvvvvvvvvvvvvvvvvvvvvvvvvvvvvvvvvvvvvvvvvg3") = None.
Proof. vm_compute. repeat split. Qed.

(** ** C02: hashing while copying *)

(** Reading: what the caller got is a prefix of the source, the rest is still
    there, and the id is the hash of what the caller got. *)
Theorem C02_hashing_reader : forall (H : bytes -> oid) calls src,
  let '(out, (rest, h)) := hreader_run calls (src, hasher_new) in
  src = out ++ rest /\ hasher_finalize H h = H out.
Proof.
  intros H calls src. pose proof (hreader_run_spec calls src hasher_new) as S.
  destruct (hreader_run calls (src, hasher_new)) as [out [rest h]]. destruct S as [S1 S2].
  split; [done|]. unfold hasher_finalize. by rewrite S2.
Qed.
Print Assumptions C02_hashing_reader.

(** Writing: if the writes succeed, what reached the sink is the
    concatenation of the buffers and the id is its hash. *)
Theorem C02_hashing_writer : forall (H : bytes -> oid) accepts bufs a sink h,
  hwriter_run accepts bufs ([], hasher_new) = Some (a, (sink, h)) ->
  sink = concat bufs /\ hasher_finalize H h = H (concat bufs).
Proof.
  intros H accepts bufs a sink h E. apply hwriter_run_spec in E as [E1 E2].
  split; [done|]. unfold hasher_finalize. by rewrite E2.
Qed.
Print Assumptions C02_hashing_writer.

Example C02_witness :
  hreader_run [(3, 2); (4, 9); (9, 1)] (ascii_bytes "abcdefgh", hasher_new)
    = (ascii_bytes "abcdefg", (ascii_bytes "h", mkHasher (ascii_bytes "abcdefg"))) /\
  hwriter_run [2; 9; 1; 1] [ascii_bytes "abc"; ascii_bytes "de"] ([], hasher_new)
    = Some ([], (ascii_bytes "abcde", mkHasher (ascii_bytes "abcde"))).
Proof. vm_compute. split; reflexivity. Qed.

(** ** C04: encodings *)

Theorem C04_encodings_round_trip :
  (forall m r, manifest_wf m -> dec_manifest (enc_manifest m ++ r) = Some (m, r)) /\
  (forall ix r, index_wf ix -> dec_index (enc_index ix ++ r) = Some (ix, r)) /\
  (forall t r, tree_wf t -> dec_tree (enc_tree t ++ r) = Some (t, r)) /\
  (forall s r, snapshot_wf s -> dec_snapshot (enc_snapshot s ++ r) = Some (s, r)) /\
  (forall s r, snapshot1_wf s -> dec_snapshot1 (enc_snapshot1 s ++ r) = Some (s, r)).
Proof.
  split; [intros; by apply dec_enc_manifest|]. split; [intros; by apply dec_enc_index|].
  split; [intros; by apply dec_enc_tree|]. split; [intros; by apply dec_enc_snapshot|].
  intros; by apply dec_enc_snapshot1.
Qed.
Print Assumptions C04_encodings_round_trip.

Lemma enc_inj_of_round_trip {A} (e : A -> bytes) (d : bytes -> option (A * bytes)) (wf : A -> Prop) :
  (forall a r, wf a -> d (e a ++ r) = Some (a, r)) ->
  forall a b r s, wf a -> wf b -> e a ++ r = e b ++ s -> a = b /\ r = s.
Proof.
  intros RT a b r s Ha Hb E. pose proof (RT a r Ha) as A1. rewrite E, RT in A1 by done.
  by injection A1 as -> ->.
Qed.

(** No two different values have encodings one of which starts with the other. *)
Theorem C04_encodings_unambiguous :
  (forall a b r s, manifest_wf a -> manifest_wf b -> enc_manifest a ++ r = enc_manifest b ++ s -> a = b /\ r = s) /\
  (forall a b r s, index_wf a -> index_wf b -> enc_index a ++ r = enc_index b ++ s -> a = b /\ r = s) /\
  (forall a b r s, tree_wf a -> tree_wf b -> enc_tree a ++ r = enc_tree b ++ s -> a = b /\ r = s) /\
  (forall a b r s, snapshot_wf a -> snapshot_wf b -> enc_snapshot a ++ r = enc_snapshot b ++ s -> a = b /\ r = s).
Proof.
  destruct C04_encodings_round_trip as (A & B & C & D & _).
  split; [|split; [|split]]; eapply enc_inj_of_round_trip; eauto.
Qed.
Print Assumptions C04_encodings_unambiguous.

Definition ex_meta : metadata :=
  Posix (mkPosix 33188 (Some 11%N) 1000 1000 (-5)%Z 1700000000123456789%Z).
Definition ex_tree : tree :=
  [(ascii_bytes "a.txt", mkNode (CFile [ex_id x02; ex_id x03]) ex_meta);
   (ascii_bytes "dir", mkNode (CDir (ex_id x04)) (Windows (mkWindows 16 None (Some 7%Z) None None)));
   (ascii_bytes "link", mkNode (CSymlink (ascii_bytes "a.txt")) ex_meta)].
Definition ex_manifest : manifest := [mkEntry Chunk 65536 (ex_id x02); mkEntry Tree 23 (ex_id x03)].
Definition ex_index : index :=
  mkIndex [ex_id x05; ex_id x06] [(ex_id x07, ex_manifest); (ex_id x08, [])].
Definition ex_snapshot : snapshot :=
  mkSnapshot 1700000000%Z (ascii_bytes "UTC") (ascii_bytes "host") [ascii_bytes "tag"]
    [ascii_bytes "/home"] (ex_id x09).

Ltac wf_check := apply (bool_decide_unpack _); vm_compute; exact I.

Example C04_witness_manifest : manifest_wf ex_manifest /\ dec_manifest (enc_manifest ex_manifest) = Some (ex_manifest, []).
Proof. split; [wf_check|vm_compute; reflexivity]. Qed.

Example C04_witness_computes :
  dec_index (enc_index ex_index ++ [x2a]) = Some (ex_index, [x2a]) /\
  dec_tree (enc_tree ex_tree) = Some (ex_tree, []) /\
  dec_snapshot (enc_snapshot ex_snapshot) = Some (ex_snapshot, []).
Proof. vm_compute. repeat split. Qed.

Example C04_witness_wf : tree_wf ex_tree /\ index_wf ex_index /\ snapshot_wf ex_snapshot.
Proof. wf_check. Qed.

(** ** C48: timestamps *)

(** The file times the library can represent, in nanoseconds since 1970
    (crate jiff: years -9999 to 9999). *)
Definition representable_time (t : Z) : Prop :=
  (-377705023201 * 10 ^ 9 <= t <= 253402207200 * 10 ^ 9 + 999999999)%Z.

(** A tree with one file modified at [t]. *)
Definition one_file (t : Z) : tree :=
  [(ascii_bytes "f", mkNode (CFile []) (Posix (mkPosix 33188 (Some 0%N) 0 0 0 t)))].

Theorem C48_timestamps_in_range : forall t,
  (- 2 ^ 63 <= t < 2 ^ 63)%Z -> dec_tree (enc_tree (one_file t)) = Some (one_file t, []).
Proof.
  intros t Ht. rewrite <- (app_nil_r (enc_tree _)). apply dec_enc_tree.
  assert (tree_wf (one_file 0)) as (A & B & C) by wf_check.
  split; [done|]. split; [|done]. unfold one_file in *.
  apply Forall_cons in B as [[B1 [B2 B3]] _]. repeat constructor; try done; apply B1 || apply Ht || apply B3.
Qed.
Print Assumptions C48_timestamps_in_range.

(** Outside that range (from the year 2262 on) a different time is stored. *)
Theorem C48_timestamps_refuted : exists t,
  representable_time t /\
  exists t', dec_tree (enc_tree (one_file t)) = Some (one_file t', []) /\ t' <> t.
Proof.
  exists (2 ^ 63)%Z. split; [unfold representable_time; lia|].
  exists (- 2 ^ 63)%Z. split; [vm_compute; reflexivity|lia].
Qed.
Print Assumptions C48_timestamps_refuted.
