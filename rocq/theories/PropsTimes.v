(** C48 from end to end: file times from stat(2) through a snapshot to utimensat(2). *)

From Verif Require Import Base OMap Formats FormatsFacts Hashing Pack Index Meta Forest FsTree FsSpec Pipeline Repo RepoSpec RepoFacts Toy Exec Witness ReadBack Browse
  BrowseSpec Times Restore RestoreSpec RestoreFacts RestoreWitness PropsFormats PropsBrowse PropsRestore.

(** What stat(2) says. *)
Definition stat_time (t : timespec) : Prop := (0 <= tv_nsec t < 1000000000)%Z.
(** Nanoseconds since 1970. *)
Definition nanoseconds (t : timespec) : Z := (tv_sec t * 1000000000 + tv_nsec t)%Z.

(** A file with that modification time is backed up, and restored with [--times]: the stored
    directory, when read back, has a time that utimensat(2) takes, and it is the same. *)
Definition comes_back (t : timespec) : Prop :=
  exists s s', timestamp_new t = Ok s /\ dec_tree (enc_tree (one_file s)) = Some (one_file s', []) /\
    utimens_takes (to_timespec s') = true /\ to_timespec s' = t.

Lemma stored_time s : dec_tree (enc_tree (one_file s)) = Some (one_file (wrap_i64 s), []).
Proof.
  assert (enc_tree (one_file s) = enc_tree (one_file (wrap_i64 s))) as ->.
  { assert (c_instant s = c_instant (wrap_i64 s)) as Hi by (unfold c_instant; by rewrite (wrap_i64_id _ (wrap_i64_wf s))).
    unfold enc_tree, one_file, c_tree. cbn [map fst snd]. unfold c_node, c_metadata. cbn [n_meta n_contents p_mtime p_atime p_mode p_size p_uid p_gid].
    by rewrite Hi. }
  apply C48_timestamps_in_range. apply wrap_i64_wf.
Qed.

Lemma timespec_value s : nanoseconds (to_timespec s) = s.
Proof. unfold nanoseconds, to_timespec, billion. cbn. rewrite (Z.quot_rem' s 1000000000) at 3. lia. Qed.

(** C48: exactly which times come back: those from 1677 to 2262, but of those before 1970 only
    whole seconds.

    Partial: others should come back as well; see the refutations. *)
Theorem C48_times_come_back_partial t : stat_time t ->
  comes_back t <-> (- 2 ^ 63 <= nanoseconds t < 2 ^ 63)%Z /\ (0 <= tv_sec t \/ tv_nsec t = 0)%Z.
Proof.
  intros Ht. unfold comes_back. split.
  - intros (s & s' & Es & Ed & Hu & E). unfold timestamp_new in Es. case_bool_decide as Hr; [|done]. injection Es as Es.
    rewrite stored_time in Ed. assert (s' = wrap_i64 s) as -> by (by injection Ed). pose proof (timespec_value (wrap_i64 s)) as Hv. rewrite E in Hv.
    assert (wrap_i64 s = s) as Hw by (rewrite <-Hv, <-Es; reflexivity).
    assert (nanoseconds t = s) as Hs by (rewrite Hv; exact Hw).
    pose proof (wrap_i64_wf s) as Hwf. rewrite Hw in Hwf. split; [rewrite Hs; exact Hwf|].
    rewrite Hw in Hu. assert (time_taken (Some s) = true) as Hti by exact Hu. apply time_taken_spec in Hti.
    unfold nanoseconds in Hs. unfold stat_time in Ht. destruct Hti as [H0|H0]; [left; lia|].
    right. rewrite <-Hs, Z.add_comm, Z_mod_plus_full, Z.mod_small in H0; lia.
  - intros [Hr Hs]. exists (nanoseconds t), (nanoseconds t). unfold stat_time, nanoseconds in *.
    split; [|split; [|split]].
    + unfold timestamp_new. rewrite bool_decide_eq_true_2; [reflexivity|]. lia.
    + by apply C48_timestamps_in_range.
    + change (time_taken (Some (tv_sec t * 1000000000 + tv_nsec t)%Z) = true). apply time_taken_spec.
      destruct Hs as [Hs|Hs]; [left; lia|right]. by rewrite Hs, Z.add_0_r, Z_mod_mult.
    + unfold to_timespec, billion. destruct t as [a b]. cbn [tv_sec tv_nsec] in *. destruct Hs as [Hs| ->].
      * f_equal; [symmetry; apply (Z.quot_unique _ _ _ b); lia|symmetry; apply (Z.rem_unique _ _ a); lia].
      * rewrite Z.add_0_r, Z.quot_mul, Z.rem_mul by lia. done.
Qed.
Print Assumptions C48_times_come_back_partial.

Example C48_times_come_back_inhabited : comes_back (mkTime 1763355768 123456789) /\ comes_back (mkTime (-86400) 0).
Proof. split; apply C48_times_come_back_partial; unfold stat_time, nanoseconds; cbn; lia. Qed.

(** C48, refuted in full: a time after the year 9999 ends the backup with a panic. *)
Theorem C48_far_times_refuted : exists t, stat_time t /\ timestamp_new t = Panic.
Proof. exists (mkTime 253402300800 0). split; [unfold stat_time; cbn; lia|]. vm_compute. reflexivity. Qed.
Print Assumptions C48_far_times_refuted.
(** C48, refuted in full: a time before 1970 that is not a whole second is stored, but
    utimensat(2) doesn't take what restore makes of it. *)
Theorem C48_early_times_refuted : exists t s, stat_time t /\ timestamp_new t = Ok s /\
  dec_tree (enc_tree (one_file s)) = Some (one_file s, []) /\ utimens_takes (to_timespec s) = false.
Proof.
  exists (mkTime (-1) 500000000), (-500000000)%Z. split; [unfold stat_time; cbn; lia|]. split; [vm_compute; reflexivity|].
  split; [apply C48_timestamps_in_range; lia|vm_compute; reflexivity].
Qed.
Print Assumptions C48_early_times_refuted.

(** ** The same of the whole command *)

Definition ry_saved : list (bytes * fsnode) :=
  [(tx "t", FsDir ex_dirmeta [(tx "f", FsFile (Posix (mkPosix 33188 (Some 5%N) 1000 1000 0 (-500000000))) (tx "hello"));
                              (tx "g", FsFile ex_filemeta (tx "later"))])].
Definition ry_blobs : list blob :=
  remove_dups (tree_blob quick_hash [] :: plan_blobs quick_hash toy_cuts (fun _ => true) ∅ None (bx_paths ry_saved)).
Definition ry_root : oid := plan_root quick_hash toy_cuts (fun _ => true) ∅ None (bx_paths ry_saved).
Definition ry_one : snapshot := mkSnapshot 1 [] [] [] [tx "/t"] ry_root.
Definition ry_k : backend := single quick_hash ry_blobs [ry_one].
Lemma ry_restores : restores quick_hash ry_k ry_one ry_saved.
Proof.
  assert (back quick_hash (store_of ry_blobs) 9 ry_root = Some ry_saved) as Hb by (vm_compute; reflexivity).
  apply back_ok in Hb. unfold restores, ry_k. rewrite single_store. done.
Qed.
Opaque ry_blobs ry_root.
Definition ry_ix : index := single_index quick_hash ry_blobs.
Definition ry_map : gmap oid oid := map_of ry_ix.
Lemma ry_maps : master ry_k = Ok ry_ix /\ blob_to_pack_map ry_ix = Ok ry_map.
Proof.
  split.
  - unfold ry_k, ry_ix. apply single_master.
  - assert (match blob_to_pack_map ry_ix with Ok _ => true | _ => false end = true) as Hx by (vm_compute; reflexivity).
    unfold ry_map, map_of. destruct (blob_to_pack_map ry_ix); [reflexivity|discriminate|discriminate].
Qed.
Opaque ry_map ry_ix.
Definition ry_here : list (bytes * fsnode) := [(tx "t", FsDir ex_dirmeta [])].
Definition ry_restore := restore quick_hash toy_cuts (fun _ => true) rx_clock rx_fresh ry_k ry_map 9 9.
Definition ry_made : list blob :=
  match load_forest quick_hash ry_k ry_map 9 (sn_tree ry_one) with Some (Ok fo) => made_there quick_hash toy_cuts fo ry_one None ry_here | _ => [] end.
Definition ry_universe : list blob := remove_dups (ry_blobs ++ ry_made).
Lemma ry_is_universe : universe quick_hash (in_list ry_universe).
Proof. apply universe_ok. vm_compute. reflexivity. Qed.
Lemma ry_blobs_in : forallb (fun b => bool_decide (b ∈ ry_universe)) ry_blobs = true.
Proof. vm_compute. reflexivity. Qed.
Opaque ry_universe.
Lemma ry_in_order : in_order quick_hash (in_list ry_universe) ry_k.
Proof.
  unfold ry_k. apply single_in_order.
  - apply Forall_forall. intros b Hb. pose proof (forallb_in _ _ b ry_blobs_in Hb) as Hx. by apply (bool_decide_eq_true (b ∈ ry_universe)).
  - assert (bool_decide (NoDup (map b_id ry_blobs)) = true) as Hx by (vm_compute; reflexivity). by apply bool_decide_eq_true in Hx.
  - pose proof ry_restores as H1. unfold restores, ry_k in H1. rewrite single_store in H1.
    intros sn [->|Hin%elem_of_nil]%elem_of_cons; [exists ry_saved; exact H1|destruct Hin].
Qed.
Opaque ry_k ry_made.

Definition ry_without : option (result fsworld) := ry_restore (mkRestoreArgs false true false true) None ry_one (0, ry_here).
Definition ry_with : option (result fsworld) := ry_restore (mkRestoreArgs false true true true) None ry_one (0, ry_here).
(** C36 and C48, refuted in full: a snapshot with a file from before 1970 can be restored, but not with
    [--times]: the command fails at that file, and files after it are not restored. *)
Theorem C36_refuted_early_times :
  exists H U cuts resolves clock fresh k ix bmap load_fuel fuel (delete permissions : bool) sn es (w w' : fsworld),
  universe H U /\ in_order H U k /\ master k = Ok ix /\ blob_to_pack_map ix = Ok bmap /\ restores H k sn es /\
  can_restore cuts resolves (mkRestoreArgs false delete false permissions) None sn es w.2 /\
  restore H cuts resolves clock fresh k bmap load_fuel fuel (mkRestoreArgs false delete false permissions) None sn w = Some (Ok w') /\
  restore H cuts resolves clock fresh k bmap load_fuel fuel (mkRestoreArgs false delete true permissions) None sn w = Some Err.
Proof.
  assert (match ry_without with Some (Ok _) => true | _ => false end = true) as H1 by (vm_compute; reflexivity).
  assert (match ry_with with Some Err => true | _ => false end = true) as H2 by (vm_compute; reflexivity).
  destruct ry_without as [[w'| |]|] eqn:E1; try discriminate H1. destruct ry_with as [[?| |]|] eqn:E2; try discriminate H2.
  unfold ry_without, ry_with, ry_restore in E1, E2.
  exists quick_hash, (in_list ry_universe), toy_cuts, (fun _ => true), rx_clock, rx_fresh, ry_k, ry_ix, ry_map, 9, 9, true, true, ry_one, ry_saved, (0, ry_here), w'.
  split; [apply ry_is_universe|]. split; [apply ry_in_order|]. split; [exact (proj1 ry_maps)|]. split; [exact (proj2 ry_maps)|]. split; [exact ry_restores|].
  split; [apply can_restoreb_ok; vm_compute; reflexivity|]. split; [exact E1|exact E2].
Qed.
Print Assumptions C36_refuted_early_times.
