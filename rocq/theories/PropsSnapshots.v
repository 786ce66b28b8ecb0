(** Listing snapshots: C55 and C56. *)

From Verif Require Import PropsForest.
From Verif Require Import Base OMap Formats FormatsFacts Hashing Pack Index IndexFacts Meta Forest ForestFacts FsTree FsSpec FsFacts BackupFacts
  Pipeline PipelineFacts PropsPipeline Repo RepoSpec RepoFacts RewriteFacts PublishFacts PlanFacts CommandFacts
  History PruneFacts ReadFacts HistoryFacts Exec Toy Witness
  Browse BrowseSpec BrowseFacts DiffFacts BrowseRepo ReadBack Select PropsSelect PropsBrowse Snapshots SnapshotsSpec SnapshotsFacts.

(** * C55: what each snapshot changed *)

(** [snapshots --stat] shows every selected snapshot (all, if none is named) once,
    oldest first or, with [--reverse], newest first.  Below each heading are exactly
    the differences to the snapshot before it among all snapshots, selected or not,
    or to nothing for the oldest; and it never fails.  [fuel] bounds the depth. *)
Theorem C55_stat_shows_what_each_snapshot_changed H U k ix bmap gr sm fl snaps args sal :
  universe H U -> (forall x, length (H x) = 28) -> in_order H U k ->
  master k = Ok ix -> blob_to_pack_map ix = Ok bmap ->
  chronological k snaps -> from_args_list snaps args = Ok sal ->
  fl_stat fl = true -> fl_sizes fl = false -> fl_file_sizes fl = false ->
  exists fuel0, forall fuel, fuel0 <= fuel ->
  exists blocks, snapshots_cmd H gr (read_tree k bmap) sm fuel fl (cache_new H) snaps args = Some (Ok (concat blocks)) /\
    Forall2 (shown_changes H (repo_store k) (fl_metadata fl) snaps) (to_show (fl_reverse fl) snaps sal) blocks.
Proof.
  intros HU Hlen Hk Eix Ebm Hch Hsal F1 F2 F3.
  destruct (fuel_for (fun (x : snapshot * oid) es => restores H k x.1 es) snaps) as [f0 Hf0].
  { intros [sn id] Hx. apply (chronological_in k snaps sn id Hch) in Hx. by apply (io_snaps _ _ _ Hk) in Hx. }
  exists (S f0). intros fuel Hf. unfold snapshots_cmd. rewrite Hsal, F1, F2, F3. cbn [obind orb].
  destruct (stat_only_ok H U HU Hlen k ix bmap Hk Eix Ebm gr fuel snaps (fun sn id Hx => Hf0 fuel ltac:(lia) (sn, id) Hx) ltac:(lia) sm fl
    (list_to_set (map snd (match sal with [] => snaps | _ => sal end))) (cache_new H) (good_new H U HU Hlen k ix bmap Hk Eix Ebm)) as (bs & E & HF).
  exists bs. split; [exact E|]. by rewrite chosen_shown in HF.
Qed.

(** Without [--stat] and sizes every snapshot is listed once, in order. *)
Theorem C55_all_are_listed_once H gr read sm fuel fl c snaps :
  fl_stat fl = false -> fl_sizes fl = false -> fl_file_sizes fl = false ->
  snapshots_cmd H gr read sm fuel fl c snaps [] =
    Some (Ok (map (fun x : nat * (snapshot * oid) => Heading x.2.1 x.2.2 None) (to_show (fl_reverse fl) snaps []))).
Proof.
  intros F1 F2 F3. unfold snapshots_cmd. rewrite F1, F2, F3. cbn [from_args_list find_all rbind sort_by_time dedup obind orb].
  unfold to_show, in_turn. do 2 f_equal.
  assert (map (fun x : nat * (snapshot * oid) => Heading x.2.1 x.2.2 None)
    (List.filter (fun x : nat * (snapshot * oid) => bool_decide ([] = @nil (snapshot * oid)) || bool_decide (x.2.2 ∈ map snd (@nil (snapshot * oid)))) (imap pair snaps)) =
    map (fun x : snapshot * oid => Heading x.1 x.2 None) snaps) as E.
  { rewrite (filter_same _ (fun _ => true)) by done. transitivity (map (fun x : nat * (snapshot * oid) => Heading x.2.1 x.2.2 None) (imap pair snaps)).
    - f_equal. generalize (imap pair snaps). induction l as [|x l IH]; [done|]. cbn [List.filter]. by rewrite IH.
    - change (map ?f ?l) with (f <$> l). rewrite fmap_imap. apply list_eq. intros i. rewrite list_lookup_imap, list_lookup_fmap. done. }
  destruct (fl_reverse fl); [by rewrite map_rev, map_rev, E|by rewrite E].
Qed.

(** * C56: how much each snapshot and each file added *)

(** [snapshots --sizes] and [--file-sizes], with or without [--stat]: the sizes of
    every selected snapshot and of each of its files are exact, where a blob counts
    as new in the oldest snapshot that needs it; the lines are padded to a common
    width; it never fails.

    Partial: an empty directory must not be in any snapshot unless the empty tree
    happens to be stored, see the refutation (and C26). *)
Theorem C56_sizes_are_exact_partial H U k ix bmap sm gr fl snaps args sal :
  universe H U -> (forall x, length (H x) = 28) -> in_order H U k ->
  master k = Ok ix -> blob_to_pack_map ix = Ok bmap -> blob_to_size_map ix = Ok sm ->
  chronological k snaps -> from_args_list snaps args = Ok sal ->
  fl_sizes fl || fl_file_sizes fl = true ->
  counts_graphemes gr ->
  (forall sn id, (sn, id) ∈ snaps -> exists es, restores H k sn es /\ clean_names es) ->
  (forall sn id, (sn, id) ∈ snaps -> needs H (repo_store k) (sn_tree sn) (empty_id H) -> is_Some (repo_store k !! empty_id H)) ->
  exists fuel0, forall fuel, fuel0 <= fuel ->
  exists blocks, snapshots_cmd H gr (read_tree k bmap) sm fuel fl (cache_new H) snaps args = Some (Ok (concat blocks)) /\
    Forall2 (shown_sizes H gr (repo_store k) sm fl snaps) (to_show (fl_reverse fl) snaps sal) blocks.
Proof.
  intros HU Hlen Hk Eix Ebm Esm Hch Hsal F1 Hgr Hcl Hnone.
  destruct (fuel_for (fun (x : snapshot * oid) es => restores H k x.1 es) snaps) as [f0 Hf0].
  { intros [sn id] Hx. apply (chronological_in k snaps sn id Hch) in Hx. by apply (io_snaps _ _ _ Hk) in Hx. }
  exists (S f0). intros fuel Hf. unfold snapshots_cmd. rewrite Hsal, F1. cbn [obind].
  assert (forall sn id x, (sn, id) ∈ snaps -> needs H (repo_store k) (sn_tree sn) x -> is_Some (sm !! x)) as Hsized.
  { intros sn id x Hin Hx. destruct (Hcl sn id Hin) as (es & Hes & _).
    assert (is_Some (repo_store k !! x)) as [[ty b] Eb].
    { destruct (needs_in_store H (repo_store k) _ _ _ Hes Hx) as [->|?]; [by eapply Hnone|done]. }
    exists (N.of_nat (length b)). apply (size_map_store H U k ix sm HU Hk Eix Esm). by exists ty, b. }
  destruct (with_sizes_ok H U HU Hlen k ix bmap Hk Eix Ebm gr fuel snaps (fun sn id Hx => Hf0 fuel ltac:(lia) (sn, id) Hx) ltac:(lia) sm fl Hsized Hgr Hcl
    (list_to_set (map snd (match sal with [] => snaps | _ => sal end))) (cache_new H) (good_new H U HU Hlen k ix bmap Hk Eix Ebm)) as (bs & E & HF).
  exists bs. split; [exact E|]. by rewrite chosen_shown in HF.
Qed.

(** A size is the number of bytes in the blob. *)
Theorem C56_sizes_are_in_bytes H U k ix sm :
  universe H U -> in_order H U k -> master k = Ok ix -> blob_to_size_map ix = Ok sm ->
  forall x n, sm !! x = Some n <-> exists ty b, repo_store k !! x = Some (ty, b) /\ n = N.of_nat (length b).
Proof. apply size_map_store. Qed.

(** ** The example: both snapshots of [bx_k] *)

Definition bx_snaps : list (snapshot * oid) :=
  [(bx_snap bx_before 1, snapshot_id quick_hash (bx_snap bx_before 1)); (bx_snap bx_after 2, snapshot_id quick_hash (bx_snap bx_after 2))].
Definition bx_sizes : gmap oid N := PropsForest.get_ok ∅ (blob_to_size_map bx_ix).
(** One byte, one grapheme. *)
Definition bytes_wide (b : bytes) : nat := length b.
Lemma bytes_wide_ok : counts_graphemes bytes_wide.
Proof.
  split; unfold bytes_wide; [intros a b; rewrite app_length; lia|cbn; lia|cbn; lia|]. by intros [|].
Qed.
Lemma bx_snaps_chrono : chronological bx_k bx_snaps.
Proof. assert (bx_snaps = chrono bx_k) as -> by (vm_compute; reflexivity). apply chrono_ok. Qed.
Lemma bx_sizes_ok : blob_to_size_map bx_ix = Ok bx_sizes.
Proof.
  assert (match blob_to_size_map bx_ix with Ok _ => true | _ => false end = true) as Hx by (vm_compute; reflexivity).
  unfold bx_sizes. by destruct (blob_to_size_map bx_ix).
Qed.
Lemma bx_all_clean sn id : (sn, id) ∈ bx_snaps -> exists es, restores quick_hash bx_k sn es /\ clean_names es.
Proof.
  intros Hin. assert (sn ∈ map fst bx_snaps) as Hs by (change (map fst bx_snaps) with (fst <$> bx_snaps); apply elem_of_list_fmap; by exists (sn, id)).
  clear Hin. destruct bx_restores as [H1 H2]. destruct bx_clean as [C1 C2]. cbn [bx_snaps map fst] in Hs.
  apply elem_of_cons in Hs as [->|Hs]; [by exists bx_before|]. apply elem_of_cons in Hs as [->|Hs]; [by exists bx_after|]. by apply elem_of_nil in Hs.
Qed.

(** What is seen of the output: prefixes, paths and sizes; or sizes. *)
Definition seen_lines (l : list item) : list (String.string * String.string * option (N * N)) :=
  omap (fun x => match x with
    | PathLine (pre, p, n) e => Some (String.string_of_list_byte pre, String.string_of_list_byte (shown_path p n), match e with Some (_, o) => o | None => None end)
    | FileLine p _ i r => Some (String.EmptyString, String.string_of_list_byte (render p), Some (i, r))
    | _ => None
    end) l.
Definition seen_sizes (l : list item) : list (option fsizes) := omap (fun x => match x with Heading _ _ s => Some s | _ => None end) l.
Definition bx_out (fl : flags) (args : list bytes) : list item :=
  match snapshots_cmd quick_hash bytes_wide (read_tree bx_k bx_map) bx_sizes 9 fl (cache_new quick_hash) bx_snaps args with
  | Some (Ok l) => l
  | _ => []
  end.

Local Open Scope string_scope.
Example C55_witness :
  universe quick_hash (in_list bx_blobs) /\ in_order quick_hash (in_list bx_blobs) bx_k /\
  master bx_k = Ok bx_ix /\ blob_to_pack_map bx_ix = Ok bx_map /\ chronological bx_k bx_snaps /\
  from_args_list bx_snaps [ascii_bytes "LAST"] = Ok [(bx_snap bx_after 2, snapshot_id quick_hash (bx_snap bx_after 2))] /\
  seen_lines (bx_out (mkFlags false true true false false) [ascii_bytes "LAST"]) =
    [(" - ", "t/d/", None); (" - ", "t/d/x", None); (" + ", "t/d", None); (" C ", "t/f", None);
     (" - ", "t/l -> f", None); (" + ", "t/l -> o", None); (" P ", "t/o", None)].
Proof.
  split; [apply bx_universe|]. split; [apply bx_in_order|]. split; [apply bx_maps|]. split; [apply bx_maps|]. split; [apply bx_snaps_chrono|].
  split; vm_compute; reflexivity.
Qed.

Example C56_witness :
  blob_to_size_map bx_ix = Ok bx_sizes /\ counts_graphemes bytes_wide /\
  (forall sn id, (sn, id) ∈ bx_snaps -> exists es, restores quick_hash bx_k sn es /\ clean_names es) /\
  is_Some (repo_store bx_k !! empty_id quick_hash) /\
  seen_sizes (bx_out (mkFlags false false false true false) []) = [Some (mkFsizes 671 14 685 0); Some (mkFsizes 574 15 577 12)] /\
  seen_lines (bx_out (mkFlags true false false false true) []) =
    [("", "t/f", Some (3, 3)%N); ("", "t/o", Some (5, 0)%N); ("", "t/f", Some (5, 0)%N); ("", "t/d/x", Some (4, 0)%N)] /\
  seen_lines (bx_out (mkFlags false true false false true) [ascii_bytes "LAST"]) =
    [(" - ", "t/d/", Some (0, 4)%N); (" - ", "t/d/x", None); (" + ", "t/d", Some (0, 4)%N); (" C ", "t/f", Some (3, 3)%N);
     (" - ", "t/l -> f", None); (" + ", "t/l -> o", None)].
Proof.
  split; [apply bx_sizes_ok|]. split; [apply bytes_wide_ok|]. split; [apply bx_all_clean|]. split.
  { assert (bool_decide (is_Some (repo_store bx_k !! empty_id quick_hash)) = true) as Hx by (vm_compute; reflexivity). by apply bool_decide_eq_true in Hx. }
  split; [|split]; vm_compute; reflexivity.
Qed.
Local Close Scope string_scope.

(** ** A directory with an empty one in it *)

Definition ey_es : list (bytes * fsnode) := [(tx "t", FsDir ex_dirmeta [(tx "e", FsDir ex_dirmeta []); (tx "f", FsFile ex_filemeta (tx "hello"))])].
Definition ey_blobs : list blob := remove_dups (plan_blobs quick_hash toy_cuts (fun _ => true) ∅ None (bx_paths ey_es)).
Definition ey_snap : snapshot := bx_snap ey_es 1.
Definition ey_k : backend := single quick_hash ey_blobs [ey_snap].
Definition ey_ix : index := single_index quick_hash ey_blobs.
Definition ey_map : gmap oid oid := PropsForest.get_ok ∅ (blob_to_pack_map ey_ix).
Definition ey_sizes : gmap oid N := PropsForest.get_ok ∅ (blob_to_size_map ey_ix).

Lemma ey_universe : universe quick_hash (in_list (tree_blob quick_hash [] :: ey_blobs)).
Proof. apply universe_ok. vm_compute. reflexivity. Qed.
Lemma ey_restores : restores quick_hash ey_k ey_snap ey_es.
Proof.
  assert (back quick_hash (store_of ey_blobs) 9 (bx_root ey_es) = Some ey_es) as E by (vm_compute; reflexivity). apply back_ok in E.
  unfold restores, ey_k. rewrite single_store. exact E.
Qed.
Opaque ey_blobs.
Lemma ey_in_order : in_order quick_hash (in_list (tree_blob quick_hash [] :: ey_blobs)) ey_k.
Proof.
  unfold ey_k. apply single_in_order.
  - apply Forall_forall. intros b Hb. right. exact Hb.
  - assert (bool_decide (NoDup (map b_id ey_blobs)) = true) as Hx by (vm_compute; reflexivity). by apply bool_decide_eq_true in Hx.
  - pose proof ey_restores as H1. unfold restores, ey_k in H1. rewrite single_store in H1.
    intros sn [->|Hin%elem_of_nil]%elem_of_cons; [by eexists|done].
Qed.

Theorem C56_refuted : exists H U k ix bmap sm gr fl snaps fuel0,
  universe H U /\ (forall x, length (H x) = 28) /\ in_order H U k /\
  master k = Ok ix /\ blob_to_pack_map ix = Ok bmap /\ blob_to_size_map ix = Ok sm /\
  chronological k snaps /\ fl_sizes fl || fl_file_sizes fl = true /\ counts_graphemes gr /\
  (forall sn id, (sn, id) ∈ snaps -> exists es, restores H k sn es /\ clean_names es) /\
  snapshots_cmd H gr (read_tree k bmap) sm fuel0 fl (cache_new H) snaps [] = Some Err.
Proof.
  exists quick_hash, (in_list (tree_blob quick_hash [] :: ey_blobs)), ey_k, ey_ix, ey_map, ey_sizes, bytes_wide,
    (mkFlags false false false true false), (chrono ey_k), 9.
  split; [apply ey_universe|]. split; [apply quick_hash_length|]. split; [apply ey_in_order|]. split; [apply single_master|].
  split; [|split; [|split; [apply chrono_ok|split; [done|split; [apply bytes_wide_ok|split]]]]].
  - assert (match blob_to_pack_map ey_ix with Ok _ => true | _ => false end = true) as Hx by (vm_compute; reflexivity).
    unfold ey_map. by destruct (blob_to_pack_map ey_ix).
  - assert (match blob_to_size_map ey_ix with Ok _ => true | _ => false end = true) as Hx by (vm_compute; reflexivity).
    unfold ey_sizes. by destruct (blob_to_size_map ey_ix).
  - assert (chrono ey_k = [(ey_snap, snapshot_id quick_hash ey_snap)]) as -> by (vm_compute; reflexivity).
    intros sn id [E|Hin%elem_of_nil]%elem_of_cons; [injection E as -> _|done]. exists ey_es. split; [apply ey_restores|].
    apply cleanb_ok. vm_compute. reflexivity.
  - vm_compute. reflexivity.
Qed.

Print Assumptions C55_stat_shows_what_each_snapshot_changed.
Print Assumptions C55_all_are_listed_once.
Print Assumptions C56_sizes_are_exact_partial.
Print Assumptions C56_sizes_are_in_bytes.
Print Assumptions C56_refuted.
