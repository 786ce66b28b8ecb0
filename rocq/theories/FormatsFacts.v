(** Proofs about the typed formats: decoding inverts encoding. *)

From Verif Require Import Base OMap Cbor CborFacts Formats.

Lemma mapM_map_id {A B} (f : A -> B) (d : B -> option A) l :
  Forall (fun a => d (f a) = Some a) l -> mapM d (map f l) = Some l.
Proof. induction 1 as [|a l Ha Hl IH]; simpl; [done|]. by rewrite Ha; simpl; rewrite IH. Qed.

Lemma as_list_map {A} (f : A -> cbor) (d : cbor -> option A) l :
  Forall (fun a => d (f a) = Some a) l -> as_list d (CArr (map f l)) = Some l.
Proof. intros. unfold as_list. simpl. by apply mapM_map_id. Qed.

Lemma as_oid_ok i : oid_wf i -> as_oid (CBytes i) = Some i.
Proof. intros H. unfold oid_wf in H. simpl. by rewrite H. Qed.

Lemma as_u_ok bits n : (n < 2 ^ bits)%N -> as_u bits (CUint n) = Some n.
Proof. intros H. unfold as_u. by rewrite (proj2 (N.ltb_lt _ _) H). Qed.

Lemma as_int_cint z : as_int (cint z) = Some z.
Proof.
  unfold cint. destruct (Z.leb_spec 0 z); simpl; f_equal; lia.
Qed.

Lemma wrap_i64_id z : i64_wf z -> wrap_i64 z = z.
Proof. unfold i64_wf, wrap_i64. intros. rewrite Z.mod_small; lia. Qed.

Lemma wrap_i64_wf z : i64_wf (wrap_i64 z).
Proof.
  unfold i64_wf, wrap_i64. pose proof (Z.mod_pos_bound (z + 2 ^ 63) (2 ^ 64)). lia.
Qed.

Lemma as_instant_any z : as_instant (c_instant z) = Some (wrap_i64 z).
Proof.
  unfold as_instant, c_instant. rewrite as_int_cint. simpl.
  pose proof (wrap_i64_wf z) as [H1 H2].
  rewrite (proj2 (Z.leb_le _ _) H1), (proj2 (Z.ltb_lt _ _) H2). done.
Qed.

Lemma as_instant_ok z : i64_wf z -> as_instant (c_instant z) = Some z.
Proof. intros. by rewrite as_instant_any, wrap_i64_id. Qed.

Lemma as_instant_option_ok o : opt_wf i64_wf o -> as_instant_option (c_instant_option o) = Some o.
Proof.
  destruct o as [z|]; simpl; [|done]. intros Hz.
  assert (as_instant_option (c_instant z) = (z ← as_instant (c_instant z); Some (Some z))) as ->.
  { unfold as_instant_option, c_instant, cint. by destruct (0 <=? wrap_i64 z)%Z. }
  by rewrite as_instant_ok.
Qed.

Lemma cint_wf z : (- 2 ^ 64 <= z < 2 ^ 64)%Z -> cbor_wf (cint z).
Proof. intros. unfold cint. destruct (Z.leb_spec 0 z); simpl; lia. Qed.

Lemma c_instant_wf z : cbor_wf (c_instant z).
Proof. apply cint_wf. pose proof (wrap_i64_wf z). unfold i64_wf in *. lia. Qed.
Lemma c_instant_option_wf o : cbor_wf (c_instant_option o).
Proof. destruct o; [apply c_instant_wf|done]. Qed.

Lemma cbytes_wf i : oid_wf i -> cbor_wf (CBytes i).
Proof. unfold oid_wf. simpl. intros ->. lia. Qed.

Lemma foldr_map_wf {A} (f : A -> cbor) l :
  Forall (fun a => cbor_wf (f a)) l ->
  foldr (fun v P => cbor_wf v /\ P) True (map f l).
Proof. induction 1; simpl; auto. Qed.

Lemma carr_wf {A} (f : A -> cbor) l :
  len_wf l -> Forall (fun a => cbor_wf (f a)) l -> cbor_wf (CArr (map f l)).
Proof.
  intros Hl Hf. simpl. rewrite map_length. split; [exact Hl|]. by apply foldr_map_wf.
Qed.

Lemma cmap_wf {A} (f : A -> cbor * cbor) l :
  len_wf l -> Forall (fun a => cbor_wf (f a).1 /\ cbor_wf (f a).2) l ->
  cbor_wf (CMap false (map f l)).
Proof.
  intros Hl Hf. simpl. rewrite map_length. split; [intros; exact Hl|].
  induction Hf as [|a l Ha Hf IH]; simpl; [done|]. split; [done|].
  apply IH. unfold len_wf in *. simpl in Hl. lia.
Qed.


Lemma ctext_wf_all s : utf8_valid (ascii_bytes s) = true ->
  (N.of_nat (length (ascii_bytes s)) < 2 ^ 64)%N -> cbor_wf (ctext s).
Proof. simpl. auto. Qed.

(** ** Manifests *)

Lemma d_type_ok t : d_type (c_type t) = Some t.
Proof. destruct t; reflexivity. Qed.

Lemma d_entry_ok e : entry_wf e -> d_entry (c_entry e) = Some e.
Proof.
  destruct e as [t n i]. intros [Hn Hi]; simpl in *. unfold d_entry, c_entry. simpl e_type. simpl e_len. simpl e_id.
  change (as_struct (CMap false [(ctext "type", c_type t); (ctext "length", CUint n); (ctext "id", CBytes i)]))
    with (Some [(ctext "type", c_type t); (ctext "length", CUint n); (ctext "id", CBytes i)]).
  cbn [mbind option_bind].
  change (field "type" [(ctext "type", c_type t); (ctext "length", CUint n); (ctext "id", CBytes i)])
    with (Some (c_type t)).
  change (field "length" [(ctext "type", c_type t); (ctext "length", CUint n); (ctext "id", CBytes i)])
    with (Some (CUint n)).
  change (field "id" [(ctext "type", c_type t); (ctext "length", CUint n); (ctext "id", CBytes i)])
    with (Some (CBytes i)).
  cbn [mbind option_bind]. by rewrite d_type_ok, as_u_ok, as_oid_ok.
Qed.

Lemma c_type_wf t : cbor_wf (c_type t).
Proof. destruct t; (split; [|reflexivity]); vm_compute; done. Qed.

Lemma lit_wf s : bool_decide (N.of_nat (length (ascii_bytes s)) < 2 ^ 64)%N = true ->
  utf8_valid (ascii_bytes s) = true -> cbor_wf (ctext s).
Proof. intros H%bool_decide_eq_true H2. simpl. auto. Qed.
Ltac lit := apply lit_wf; vm_compute; reflexivity.

Lemma c_entry_wf e : entry_wf e -> cbor_wf (c_entry e).
Proof.
  intros [Hn Hi]. assert (2 ^ 32 < 2 ^ 64)%N by done.
  split; [done|]. cbn [foldr fst snd]. repeat split; try lit.
  - apply c_type_wf.
  - cbn. lia.
  - by apply cbytes_wf.
Qed.

Lemma d_manifest_ok m : manifest_wf m -> d_manifest (c_manifest m) = Some m.
Proof.
  intros [_ Hall]. apply as_list_map. eapply Forall_impl; [done|]. apply d_entry_ok.
Qed.

Lemma c_manifest_wf m : manifest_wf m -> cbor_wf (c_manifest m).
Proof.
  intros [Hl Hall]. apply carr_wf; [done|]. eapply Forall_impl; [done|]. apply c_entry_wf.
Qed.

Lemma dec_with_ok {A} (c : A -> cbor) (d : cbor -> option A) a r :
  cbor_wf (c a) -> d (c a) = Some a -> dec_with d (enc (c a) ++ r) = Some (a, r).
Proof. intros Hw Hd. unfold dec_with. rewrite decode_enc by done. simpl. by rewrite Hd. Qed.

Lemma dec_enc_manifest m r : manifest_wf m -> dec_manifest (enc_manifest m ++ r) = Some (m, r).
Proof. intros. apply dec_with_ok; [by apply c_manifest_wf|by apply d_manifest_ok]. Qed.

(** ** Indexes *)

Lemma d_pack_ok k m : oid_wf k -> manifest_wf m -> d_pack (CBytes k, c_manifest m) = Some (k, m).
Proof.
  intros Hk Hm. unfold d_pack. cbn [fst snd]. rewrite as_oid_ok by done. cbn [mbind option_bind].
  by rewrite d_manifest_ok.
Qed.

Lemma d_index_ok ix : index_wf ix -> d_index (c_index ix) = Some ix.
Proof.
  destruct ix as [s p]. intros (Hls & Hs & Hss & Hlp & Hp & Hps); simpl in *.
  unfold d_index, c_index. cbn [ix_supersedes ix_packs].
  set (vs := CArr (map CBytes s)).
  set (vp := CMap false (map (fun kv => (CBytes kv.1, c_manifest kv.2)) p)).
  change (as_struct (CMap false [(ctext "supersedes", vs); (ctext "packs", vp)]))
    with (Some [(ctext "supersedes", vs); (ctext "packs", vp)]).
  cbn [mbind option_bind].
  change (field "supersedes" [(ctext "supersedes", vs); (ctext "packs", vp)]) with (Some vs).
  change (field "packs" [(ctext "supersedes", vs); (ctext "packs", vp)]) with (Some vp).
  cbn [mbind option_bind]. subst vs vp.
  rewrite as_list_map.
  2:{ eapply Forall_impl; [done|]. apply as_oid_ok. }
  cbn [as_map option_bind mbind].
  rewrite (mapM_map_id (fun kv : oid * manifest => (CBytes kv.1, c_manifest kv.2)) d_pack).
  2:{ eapply Forall_impl; [done|]. intros [k m] [??]. by apply d_pack_ok. }
  cbn [option_bind mbind].
  rewrite os_of_list_sorted, om_of_list_sorted by done. done.
Qed.

Lemma c_index_wf ix : index_wf ix -> cbor_wf (c_index ix).
Proof.
  intros (Hls & Hs & Hss & Hlp & Hp & Hps).
  split; [done|]. cbn [foldr fst snd].
  split; [split|split; [split|done]].
  - lit.
  - apply carr_wf; [done|]. eapply Forall_impl; [done|]. apply cbytes_wf.
  - lit.
  - apply cmap_wf; [done|]. eapply Forall_impl; [done|]. intros [k m] [??]; simpl.
    split; [by apply cbytes_wf|by apply c_manifest_wf].
Qed.

Lemma dec_enc_index ix r : index_wf ix -> dec_index (enc_index ix ++ r) = Some (ix, r).
Proof. intros. apply dec_with_ok; [by apply c_index_wf|by apply d_index_ok]. Qed.

(** ** Trees *)

Lemma d_metadata_ok m : metadata_wf m -> d_metadata (c_metadata m) = Some m.
Proof.
  destruct m as [[mode size uid gid at_ mt]|[attr size cr ac wr]]; simpl.
  - intros (H1 & H2 & H3 & H4 & H5 & H6). unfold d_metadata.
    set (vm := CUint mode). set (vu := CUint uid). set (vg := CUint gid).
    destruct size as [sz|]; simpl in H2; cbn [c_size app].
    + set (vs := CUint sz).
      set (l := [(ctext "type", ctext "posix"); (ctext "mode", vm); (ctext "size", vs); (ctext "uid", vu);
        (ctext "gid", vg); (ctext "atime", c_instant at_); (ctext "mtime", c_instant mt)]).
      change (as_struct (CMap false l)) with (Some l). cbn [mbind option_bind].
      change (field "type" l ≫= as_text) with (Some (ascii_bytes "posix")). cbn [mbind option_bind].
      rewrite bool_decide_eq_true_2 by done.
      change (field "mode" l) with (Some vm). change (field "uid" l) with (Some vu).
      change (field "gid" l) with (Some vg). change (field "atime" l) with (Some (c_instant at_)).
      change (field "mtime" l) with (Some (c_instant mt)).
      change (d_size l) with (n ← as_u 64 vs; Some (Some n)).
      cbn [mbind option_bind]. subst vm vu vg vs.
      rewrite !as_u_ok by done. cbn [mbind option_bind]. by rewrite !as_instant_ok.
    + set (l := [(ctext "type", ctext "posix"); (ctext "mode", vm); (ctext "uid", vu);
        (ctext "gid", vg); (ctext "atime", c_instant at_); (ctext "mtime", c_instant mt)]).
      change (as_struct (CMap false l)) with (Some l). cbn [mbind option_bind].
      change (field "type" l ≫= as_text) with (Some (ascii_bytes "posix")). cbn [mbind option_bind].
      rewrite bool_decide_eq_true_2 by done.
      change (field "mode" l) with (Some vm). change (field "uid" l) with (Some vu).
      change (field "gid" l) with (Some vg). change (field "atime" l) with (Some (c_instant at_)).
      change (field "mtime" l) with (Some (c_instant mt)).
      change (d_size l) with (Some (@None N)).
      cbn [mbind option_bind]. subst vm vu vg.
      rewrite !as_u_ok by done. cbn [mbind option_bind]. by rewrite !as_instant_ok.
  - intros (H1 & H2 & H3 & H4 & H5). unfold d_metadata.
    set (va := CUint attr).
    destruct size as [sz|]; simpl in H2; cbn [c_size app].
    + set (vs := CUint sz).
      set (l := [(ctext "type", ctext "windows"); (ctext "attributes", va); (ctext "size", vs);
        (ctext "creation_time", c_instant_option cr); (ctext "access_time", c_instant_option ac);
        (ctext "write_time", c_instant_option wr)]).
      change (as_struct (CMap false l)) with (Some l). cbn [mbind option_bind].
      change (field "type" l ≫= as_text) with (Some (ascii_bytes "windows")). cbn [mbind option_bind].
      rewrite bool_decide_eq_false_2 by (by vm_compute).
      rewrite bool_decide_eq_true_2 by done.
      change (field "attributes" l) with (Some va).
      change (field "creation_time" l) with (Some (c_instant_option cr)).
      change (field "access_time" l) with (Some (c_instant_option ac)).
      change (field "write_time" l) with (Some (c_instant_option wr)).
      change (d_size l) with (n ← as_u 64 vs; Some (Some n)).
      cbn [mbind option_bind]. subst va vs.
      rewrite !as_u_ok by done. cbn [mbind option_bind]. by rewrite !as_instant_option_ok.
    + set (l := [(ctext "type", ctext "windows"); (ctext "attributes", va);
        (ctext "creation_time", c_instant_option cr); (ctext "access_time", c_instant_option ac);
        (ctext "write_time", c_instant_option wr)]).
      change (as_struct (CMap false l)) with (Some l). cbn [mbind option_bind].
      change (field "type" l ≫= as_text) with (Some (ascii_bytes "windows")). cbn [mbind option_bind].
      rewrite bool_decide_eq_false_2 by (by vm_compute).
      rewrite bool_decide_eq_true_2 by done.
      change (field "attributes" l) with (Some va).
      change (field "creation_time" l) with (Some (c_instant_option cr)).
      change (field "access_time" l) with (Some (c_instant_option ac)).
      change (field "write_time" l) with (Some (c_instant_option wr)).
      change (d_size l) with (Some (@None N)).
      cbn [mbind option_bind]. subst va.
      rewrite !as_u_ok by done. cbn [mbind option_bind]. by rewrite !as_instant_option_ok.
Qed.

Lemma c_metadata_wf m : metadata_wf m -> cbor_wf (c_metadata m).
Proof.
  assert (2 ^ 32 < 2 ^ 64)%N by done.
  destruct m as [[mode size uid gid at_ mt]|[attr size cr ac wr]];
    unfold metadata_wf; cbn [p_mode p_size p_uid p_gid p_atime p_mtime
      w_attributes w_size w_creation w_access w_write].
  - intros (H1 & H2 & H3 & H4 & H5 & H6).
    destruct size as [sz|]; (split; [done|]); cbn [foldr fst snd c_size app];
      repeat split; try lit; try apply c_instant_wf; try (cbn in *; lia).
  - intros (H1 & H2 & H3 & H4 & H5).
    destruct size as [sz|]; (split; [done|]); cbn [foldr fst snd c_size app];
      repeat split; try lit; try apply c_instant_option_wf; try (cbn in *; lia).
Qed.

Lemma d_contents_ok c m :
  contents_wf c -> d_contents [c_contents c; (ctext "metadata", m)] = Some c.
Proof.
  unfold d_contents. destruct c as [cs|t|t]; simpl.
  - intros [Hl Hc]. set (v := CArr (map CBytes cs)).
    change (field "chunks" [(ctext "chunks", v); (ctext "metadata", m)]) with (Some v).
    cbn [mbind option_bind]. subst v. rewrite as_list_map; [done|].
    eapply Forall_impl; [done|]. apply as_oid_ok.
  - intros Ht. set (v := CBytes t).
    change (field "chunks" [(ctext "tree", v); (ctext "metadata", m)]) with (@None cbor).
    change (field "tree" [(ctext "tree", v); (ctext "metadata", m)]) with (Some v).
    cbn [mbind option_bind]. subst v. unfold oid_wf in Ht. by rewrite Ht.
  - intros Ht. done.
Qed.

Lemma d_node_ok n : node_wf n -> d_node (c_node n) = Some n.
Proof.
  destruct n as [c m]. intros [Hc Hm]. simpl in Hc, Hm. unfold d_node, c_node. cbn [n_contents n_meta].
  set (vm := c_metadata m).
  assert (as_struct (CMap true [c_contents c; (ctext "metadata", vm)])
    = Some [c_contents c; (ctext "metadata", vm)]) as -> by (by destruct c).
  cbn [mbind option_bind].
  assert (field "metadata" [c_contents c; (ctext "metadata", vm)] = Some vm) as -> by (by destruct c).
  cbn [mbind option_bind]. subst vm. rewrite d_metadata_ok by done. cbn [mbind option_bind].
  by rewrite d_contents_ok.
Qed.

Lemma c_contents_wf c : contents_wf c -> cbor_wf (c_contents c).1 /\ cbor_wf (c_contents c).2.
Proof.
  destruct c as [cs|t|t]; simpl fst; simpl snd; intros H; (split; [lit|]).
  - destruct H. apply carr_wf; [done|]. eapply Forall_impl; [done|]. apply cbytes_wf.
  - by apply cbytes_wf.
  - destruct H. simpl. auto.
Qed.

Lemma c_node_wf n : node_wf n -> cbor_wf (c_node n).
Proof.
  intros [Hc Hm]. split; [done|]. cbn [foldr].
  split; [by apply c_contents_wf|]. split; [|done]. cbn [fst snd]. split; [lit|].
  by apply c_metadata_wf.
Qed.

Lemma d_named_ok k n : text_wf k -> node_wf n -> d_named (CText k, c_node n) = Some (k, n).
Proof.
  intros Hk Hn. unfold d_named. cbn [fst snd as_text mbind option_bind]. by rewrite d_node_ok.
Qed.

Lemma d_tree_ok t : tree_wf t -> d_tree (c_tree t) = Some t.
Proof.
  intros (Hl & Hall & Hs). unfold d_tree, c_tree. cbn [as_map mbind option_bind].
  rewrite (mapM_map_id (fun kv : bytes * node => (CText kv.1, c_node kv.2)) d_named).
  - cbn [mbind option_bind]. by rewrite om_of_list_sorted.
  - eapply Forall_impl; [done|]. intros [k n] [??]. by apply d_named_ok.
Qed.

Lemma c_tree_wf t : tree_wf t -> cbor_wf (c_tree t).
Proof.
  intros (Hl & Hall & Hs). apply cmap_wf; [done|]. eapply Forall_impl; [done|].
  intros [k n] [[? ?] ?]; simpl. split; [auto|by apply c_node_wf].
Qed.

Lemma dec_enc_tree t r : tree_wf t -> dec_tree (enc_tree t ++ r) = Some (t, r).
Proof. intros. apply dec_with_ok; [by apply c_tree_wf|by apply d_tree_ok]. Qed.

Lemma enc_tree_inj t1 t2 : tree_wf t1 -> tree_wf t2 -> enc_tree t1 = enc_tree t2 -> t1 = t2.
Proof.
  intros H1 H2 E. pose proof (dec_enc_tree t1 [] H1) as E1. pose proof (dec_enc_tree t2 [] H2) as E2.
  rewrite E in E1. rewrite E1 in E2. congruence.
Qed.

(** ** Snapshots *)

Lemma as_list_text l : as_list as_text (CArr (map CText l)) = Some l.
Proof. apply as_list_map. by apply Forall_true. Qed.

Lemma ctexts_wf l : len_wf l -> Forall text_wf l -> cbor_wf (CArr (map CText l)).
Proof. intros. apply carr_wf; [done|]. eapply Forall_impl; [done|]. intros x [??]. simpl. auto. Qed.

Lemma d_snapshot_ok s : snapshot_wf s -> d_snapshot (c_snapshot s) = Some s.
Proof.
  destruct s as [ti tz au tg pa tr]. intros (H1 & H2 & H3 & H4 & H5 & H6 & H7 & H8).
  unfold d_snapshot, c_snapshot. cbn [sn_time sn_tz sn_author sn_tags sn_paths sn_tree] in *.
  set (vti := cint ti). set (vp := CArr (map CText pa)).
  destruct tg as [|t0 tg]; cbn [app].
  - set (l := [(ctext "time", vti); (ctext "tz", CText tz); (ctext "author", CText au);
      (ctext "paths", vp); (ctext "tree", CBytes tr)]).
    change (as_struct (CMap false l)) with (Some l). cbn [mbind option_bind].
    change (field "time" l) with (Some vti). change (field "tz" l) with (Some (CText tz)).
    change (field "author" l) with (Some (CText au)).
    change (field_opt "tags" l) with (Some (@None cbor)).
    change (field "paths" l) with (Some vp). change (field "tree" l) with (Some (CBytes tr)).
    cbn [mbind option_bind]. subst vti vp. rewrite as_int_cint. cbn [mbind option_bind as_text].
    rewrite as_list_text. cbn [mbind option_bind]. by rewrite as_oid_ok.
  - set (vt := CArr (map CText (t0 :: tg))).
    set (l := [(ctext "time", vti); (ctext "tz", CText tz); (ctext "author", CText au);
      (ctext "tags", vt); (ctext "paths", vp); (ctext "tree", CBytes tr)]).
    change (as_struct (CMap false l)) with (Some l). cbn [mbind option_bind].
    change (field "time" l) with (Some vti). change (field "tz" l) with (Some (CText tz)).
    change (field "author" l) with (Some (CText au)).
    change (field_opt "tags" l) with (Some (Some vt)).
    change (field "paths" l) with (Some vp). change (field "tree" l) with (Some (CBytes tr)).
    cbn [mbind option_bind]. subst vti vp vt.
    rewrite as_int_cint. cbn [mbind option_bind as_text]. rewrite as_list_text.
    cbn [mbind option_bind]. rewrite as_list_text. cbn [mbind option_bind]. by rewrite as_oid_ok.
Qed.

Lemma c_snapshot_wf s : snapshot_wf s -> cbor_wf (c_snapshot s).
Proof.
  destruct s as [ti tz au tg pa tr]. intros (H1 & H2 & H3 & H4 & H5 & H6 & H7 & H8).
  unfold c_snapshot. cbn [sn_time sn_tz sn_author sn_tags sn_paths sn_tree] in *.
  destruct H2, H3. destruct tg as [|t0 tg]; (split; [done|]); cbn [foldr fst snd app];
    repeat split; try lit; try (by apply cint_wf); try done; try (by apply cbytes_wf);
    try (by apply ctexts_wf); 
    try (apply (ctexts_wf pa); done); try (apply (ctexts_wf (t0 :: tg)); done).
Qed.

Lemma dec_enc_snapshot s r : snapshot_wf s -> dec_snapshot (enc_snapshot s ++ r) = Some (s, r).
Proof. intros. apply dec_with_ok; [by apply c_snapshot_wf|by apply d_snapshot_ok]. Qed.

Lemma d_snapshot1_ok s : snapshot1_wf s -> d_snapshot1 (c_snapshot1 s) = Some s.
Proof.
  destruct s as [ti au tg pa tr]. intros (H1 & H3 & H4 & H5 & H6 & H7 & H8).
  unfold d_snapshot1, c_snapshot1. cbn [s1_time s1_author s1_tags s1_paths s1_tree] in *.
  set (vp := CArr (map CText pa)). set (vt := CArr (map CText tg)).
  set (l := [(ctext "time", CText ti); (ctext "author", CText au);
    (ctext "tags", vt); (ctext "paths", vp); (ctext "tree", CBytes tr)]).
  change (as_struct (CMap false l)) with (Some l). cbn [mbind option_bind].
  change (field "time" l) with (Some (CText ti)).
  change (field "author" l) with (Some (CText au)).
  change (field "tags" l) with (Some vt).
  change (field "paths" l) with (Some vp). change (field "tree" l) with (Some (CBytes tr)).
  cbn [mbind option_bind as_text]. subst vp vt.
  rewrite as_list_text. cbn [mbind option_bind]. rewrite as_list_text. cbn [mbind option_bind].
  by rewrite as_oid_ok.
Qed.

Lemma c_snapshot1_wf s : snapshot1_wf s -> cbor_wf (c_snapshot1 s).
Proof.
  destruct s as [ti au tg pa tr]. intros ([] & [] & H4 & H5 & H6 & H7 & H8).
  unfold c_snapshot1. cbn [s1_time s1_author s1_tags s1_paths s1_tree] in *.
  (split; [done|]); cbn [foldr fst snd app];
    repeat split; try lit; try done; try (by apply cbytes_wf);
    try (apply (ctexts_wf pa); done); try (apply (ctexts_wf tg); done).
Qed.

Lemma dec_enc_snapshot1 s r : snapshot1_wf s -> dec_snapshot1 (enc_snapshot1 s ++ r) = Some (s, r).
Proof. intros. apply dec_with_ok; [by apply c_snapshot1_wf|by apply d_snapshot1_ok]. Qed.

(** ** The range conditions are decidable (used by concrete examples) *)

Global Instance opt_wf_dec {A} (P : A -> Prop) `{forall a, Decision (P a)} o : Decision (opt_wf P o).
Proof. destruct o; simpl; apply _. Defined.
Global Instance text_wf_dec b : Decision (text_wf b).
Proof. unfold text_wf. apply _. Defined.
Global Instance oid_wf_dec b : Decision (oid_wf b).
Proof. unfold oid_wf. apply _. Defined.
Global Instance len_wf_dec {A} (l : list A) : Decision (len_wf l).
Proof. unfold len_wf. apply _. Defined.
Global Instance i64_wf_dec z : Decision (i64_wf z).
Proof. unfold i64_wf. apply _. Defined.
Global Instance entry_wf_dec e : Decision (entry_wf e).
Proof. unfold entry_wf. apply _. Defined.
Global Instance manifest_wf_dec m : Decision (manifest_wf m).
Proof. unfold manifest_wf. apply _. Defined.
Global Instance om_sorted_dec {A} (l : list (bytes * A)) : Decision (om_sorted l).
Proof.
  induction l as [|[k v] l IH]; simpl; [apply _|]. unfold bytes_lt. apply _.
Defined.
Global Instance index_wf_dec ix : Decision (index_wf ix).
Proof. unfold index_wf, os_sorted. apply _. Defined.
Global Instance contents_wf_dec c : Decision (contents_wf c).
Proof. destruct c; simpl; apply _. Defined.
Global Instance size_wf_dec o : Decision (size_wf o).
Proof. unfold size_wf. apply _. Defined.
Global Instance metadata_wf_dec m : Decision (metadata_wf m).
Proof. destruct m; simpl; apply _. Defined.
Global Instance node_wf_dec n : Decision (node_wf n).
Proof. unfold node_wf. apply _. Defined.
Global Instance tree_wf_dec t : Decision (tree_wf t).
Proof. unfold tree_wf. apply _. Defined.
Global Instance snapshot_wf_dec s : Decision (snapshot_wf s).
Proof. unfold snapshot_wf. apply _. Defined.

(** Decoding consumes a prefix of its input. *)
Lemma dec_with_suffix {A} (d : cbor -> option A) l a r :
  dec_with d l = Some (a, r) -> l = take (length l - length r) l ++ r.
Proof.
  unfold dec_with. intros E. destruct (decode l) as [[v r']|] eqn:Ed; [|done]. cbn in E.
  destruct (d v); [|done]. cbn in E. injection E as -> ->.
  apply decode_suffix in Ed as [p ->]. rewrite app_length.
  replace (length p + length r - length r) with (length p) by lia. by rewrite take_app.
Qed.
