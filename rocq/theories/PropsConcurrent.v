(** Several runs of the program on one repository at the same time: C60. *)

From Verif Require Import Base OMap Formats FormatsFacts Hashing Pack Index IndexFacts PropsIndex Meta Forest FsTree FsSpec FsFacts BackupFacts
  Pipeline PipelineFacts Repo RepoSpec RepoFacts RewriteFacts PublishFacts CommandFacts
  History PruneFacts ReadFacts HistoryFacts PathFacts Exec RepeatFacts Toy Witness PropsRepo Concurrent ConcurrentFacts ConcurrentRun.

(** * C60: runs at the same time *)

(** Whatever backups, copies, filterings, forgets and rebuildings of the index do
    to a repository at the same time, in whichever order their threads get on, and
    wherever each of them is interrupted: every snapshot in it is complete, what
    could be restored can still be restored, and every index names packs that are
    there.  If moreover commands get going on what has become of it, then all is
    in order.

    Partial: prunes are left out, and whether commands get going; both are refuted
    below.  The file names, being hashes, must not clash ([no_overwrite], and the
    premises of [tg_thread] and [tg_publish]). *)
Theorem C60_nothing_is_lost_partial H U k y y' :
  universe H U -> (forall x, length (H x) = 28) -> in_order H U k ->
  rtc (together H (adds_to H U) anything True) (mkSystem k [] None) y -> rtc (together H (adds_to H U) anything True) y y' ->
  (forall i sn, k_snaps (sy_back y') !! i = Some sn -> i = snapshot_id H sn /\ exists es, restores H (sy_back y') sn es) /\
  (forall sn es, restores H (sy_back y) sn es -> restores H (sy_back y') sn es) /\
  (forall i ix p m, k_indexes (sy_back y') !! i = Some ix -> (p, m) ∈ ix_packs ix ->
     exists bs, k_packs (sy_back y') !! p = Some bs /\ manifest_of bs = m) /\
  (usable (sy_back y') -> in_order H U (sy_back y') /\
     forall i sn, k_snaps (sy_back y') !! i = Some sn -> exists es, program_reads H (sy_back y') sn es).
Proof.
  intros HU Hlen Hk H1 H2. destruct (history_well H U HU Hlen _ _ _ _ (from_well H U HU Hlen k Hk) H1) as [Hy _].
  destruct (history_well H U HU Hlen _ _ _ _ Hy H2) as [Hy' Ho]. pose proof (gw_whole _ _ _ Hy') as Hw. split_and!.
  - intros i sn Hi. split; [by apply (wh_named _ _ _ Hw)|by eapply (wh_snaps _ _ _ Hw)].
  - intros sn es. apply reads_root_mono. apply (offers_store H U HU Hlen); [apply (gw_whole _ _ _ Hy)|apply Hw|done].
  - intros i ix p m. apply (st_backed _ _ _ (wh_struct _ _ _ Hw)).
  - intros (ix & bmap & packed & E1 & E2 & E3). assert (in_order H U (sy_back y')) as Hio.
    { apply (whole_in_order H U HU Hlen); [done|]. eapply (loads_once H U HU Hlen); [done|exact E1|by eapply (map_nodup H U HU Hlen)]. }
    split; [done|]. intros i sn Hi. destruct (wh_snaps _ _ _ Hw i sn Hi) as [es Hes]. exists es. by apply (program_reads_iff H U HU Hlen).
Qed.

(** Only forgetting takes snapshots away. *)
Theorem C60_only_forgetting_removes H U k y y' i sn :
  universe H U -> (forall x, length (H x) = 28) -> in_order H U k ->
  rtc (together H (adds_to H U) anything True) (mkSystem k [] None) y -> together H (adds_to H U) anything True y y' ->
  k_snaps (sy_back y) !! i = Some sn ->
  k_snaps (sy_back y') !! i = Some sn \/ sy_back y' = apply_op H (sy_back y) (DelSnap i).
Proof.
  intros HU Hlen Hk H1 Hst Hi. destruct (history_well H U HU Hlen _ _ _ _ (from_well H U HU Hlen k Hk) H1) as [Hy _].
  destruct Hst as
    [k0 cs r w c target cpus Hm _
    |k0 before cl after r s' Hst Hno Hfr
    |k0 before cl after r o os Em Ep Hno
    |k0 before cl after r|k0 cs r j|k0 cs Hrb|k0 cs old packs ix Hp E|k0 cs ix Hne Hno Hfr|k0 cs ix j ids|k0 cs r]; simpl in *; try (by left).
  - left. destruct (pstep_frame _ _ _ _ _ _ _ Hst) as (wr & Ewr & _). simpl in Ewr. rewrite Ewr. by destruct wr as [[]|].
  - left. pose proof (gw_runs _ _ _ Hy) as Hr. simpl in Hr. apply Forall_app in Hr as [_ Hr]. apply Forall_cons in Hr as [(kb & w & planned & sns & s & T) _].
    destruct (pending_put H U HU Hlen _ _ _ _ _ _ _ o T) as (sn' & -> & _); [rewrite Ep; by left|]. simpl in *.
    destruct (decide (i = snapshot_id H sn')) as [->|Hne]; [|by rewrite lookup_insert_ne].
    rewrite lookup_insert. f_equal. destruct Hno as (_ & _ & N3). apply (N3 (snapshot_id H sn')); [done|]. simpl. apply lookup_insert.
  - destruct (decide (j = i)) as [->|Hne]; [by right|left]. simpl. by rewrite lookup_delete_ne.
Qed.

(** If no two runs store the same blob, and the index is not rebuilt meanwhile,
    then the repository is in order all the time, so that commands get going. *)
Theorem C60_disjoint_runs_keep_order H U k y :
  universe H U -> (forall x, length (H x) = 28) -> in_order H U k ->
  rtc (together H (adds_to H U) apart False) (mkSystem k [] None) y ->
  in_order H U (sy_back y) /\ usable (sy_back y) /\
  forall i sn, k_snaps (sy_back y) !! i = Some sn -> exists es, program_reads H (sy_back y) sn es.
Proof.
  intros HU Hlen Hk Hr. pose proof (history_apart H U HU Hlen _ _ (from_apart H U HU Hlen k Hk) Hr) as Hy.
  assert (in_order H U (sy_back y)) as Hio by (apply (whole_in_order H U HU Hlen); apply Hy).
  split; [done|]. split; [by apply (in_order_usable H U HU Hlen)|]. intros i sn Hi. destruct (io_snaps _ _ _ Hio i sn Hi) as [es Hes].
  exists es. by apply (program_reads_iff H U HU Hlen).
Qed.

(** ** Examples *)

Lemma together_weaken H may beside (rebuilds rebuilds' : Prop) y y' : (rebuilds -> rebuilds') ->
  rtc (together H may beside rebuilds) y y' -> rtc (together H may beside rebuilds') y y'.
Proof. intros Hi. apply rtc_subrel. intros a b Hst. destruct Hst; econstructor; eauto. Qed.

Definition ex_together (prunes rebuilding : bool) (besideb : list client -> command -> bool) (k : backend) : list move -> option system :=
  performs quick_hash ex_blobs toy_cuts prunes rebuilding besideb (mkSystem k [] None).
Definition any (_ : list client) (_ : command) : bool := true.
Lemma ex_together_ok k mvs y : ex_together false true any k mvs = Some y ->
  rtc (together quick_hash (adds_to quick_hash (in_list ex_blobs)) anything True) (mkSystem k [] None) y.
Proof. intros E. eapply together_weaken; [|by eapply (performs_ok quick_hash ex_blobs toy_cuts false true anything)]. done. Qed.
Lemma ex_together_prune_ok k mvs y : ex_together true false any k mvs = Some y ->
  rtc (together quick_hash (adds_or_prunes quick_hash (in_list ex_blobs)) anything False) (mkSystem k [] None) y.
Proof. intros E. eapply together_weaken; [|by eapply (performs_ok quick_hash ex_blobs toy_cuts true false anything)]. done. Qed.

Lemma not_unusable k : negb (unusable k) = true -> usable k.
Proof.
  intros Hu%negb_true_iff. unfold unusable in Hu. destruct (master k) as [ix| |] eqn:E1; try done. destruct (blob_to_pack_map ix) as [bmap| |] eqn:E2; try done.
  destruct (decide (NoDup (blob_ids ix))) as [Hn|Hn]; [|by destruct (proj2 (C11_lookup_maps ix) Hn) as (E' & _); congruence].
  destruct (proj1 (C11_lookup_maps ix) Hn) as (b & ps & _ & _ & E3 & _). by exists ix, bmap, ps.
Qed.

(** A backup, and another one during which the index is rebuilt: the rebuild has
    listed the indexes when the second stores its packs, and removes the old index
    when that is done. *)
Definition rebuilt_meanwhile : list move :=
  [MBackup [fa] 1; MThreads 0 300; MAfter 0; MBackup [fa; fb] 2; MThreads 1 20; MList; MThreads 1 8; MRead; MPublish; MThreads 1 300; MAfter 1; MRemove].
Example C60_rebuild_witness : exists y,
  in_order quick_hash (in_list ex_blobs) empty_repo /\
  rtc (together quick_hash (adds_to quick_hash (in_list ex_blobs)) anything True) (mkSystem empty_repo [] None) y /\
  usable (sy_back y) /\ k_snaps (sy_back y) !! ex_sid [fa] 1 = Some (ex_snap [fa] 1) /\ k_snaps (sy_back y) !! ex_sid [fa; fb] 2 = Some (ex_snap [fa; fb] 2) /\
  length (sy_runs y) = 2 /\ size (k_indexes (sy_back y)) = 2.
Proof.
  assert (holds (ex_together false true any empty_repo rebuilt_meanwhile) (fun y =>
    negb (unusable (sy_back y)) && snap_at (sy_back y) (ex_sid [fa] 1) (ex_snap [fa] 1) && snap_at (sy_back y) (ex_sid [fa; fb] 2) (ex_snap [fa; fb] 2) &&
    bool_decide (length (sy_runs y) = 2) && bool_decide (size (k_indexes (sy_back y)) = 2)) = true) as Hx by (vm_compute; reflexivity).
  apply holds_inv in Hx as (y & Hy%ex_together_ok & Hx). exists y.
  apply andb_true_iff in Hx as [[[[Hu S1%snap_at_inv]%andb_true_iff S2%snap_at_inv]%andb_true_iff Hl%bool_decide_eq_true]%andb_true_iff Hi%bool_decide_eq_true].
  split; [exact (empty_in_order _ _ ex_universe quick_hash_length)|]. split; [exact Hy|]. split; [exact (not_unusable _ Hu)|]. split; [exact S1|]. split; [exact S2|]. split; [exact Hl|exact Hi].
Qed.

(** Two backups with nothing in common, by turns. *)
Definition by_turns : list move :=
  [MBackup [fa] 1; MThreads 0 9; MBackup [fb] 2; MThreads 1 12; MThreads 0 12; MThreads 1 300; MThreads 0 300; MAfter 1; MAfter 0].
Definition apartb (cs : list client) (c : command) : bool :=
  let ids (c : command) := map e_id (concat (map snd (ix_packs (c_start c)))) ++ map b_id (c_blobs c) in
  forallb (fun cl => forallb (fun x => negb (bool_decide (x ∈ ids c))) (ids (cl_command cl))) cs.
Lemma apartb_ok cs c : apartb cs c = true -> apart cs c.
Proof.
  intros Hb cl x Hcl Hx Hx'. unfold apartb in Hb. rewrite forallb_forall in Hb. apply elem_of_list_In, Hb in Hcl. rewrite forallb_forall in Hcl.
  assert (forall d y, stores d y -> y ∈ map e_id (concat (map snd (ix_packs (c_start d)))) ++ map b_id (c_blobs d)) as Hs.
  { intros d z [(p & m & e & Hp & He & <-)|(b & Hbl & <-)]; apply elem_of_app; [left|right].
    - apply elem_of_list_In, in_map, in_concat. exists m. split; [|by apply elem_of_list_In]. apply (in_map snd _ (p, m)). by apply elem_of_list_In.
    - apply elem_of_list_In, in_map. by apply elem_of_list_In. }
  apply Hs, elem_of_list_In, Hcl, negb_true_iff, bool_decide_eq_false in Hx. by apply Hx, Hs.
Qed.
Lemma ex_apart_ok k mvs y : ex_together false false apartb k mvs = Some y ->
  rtc (together quick_hash (adds_to quick_hash (in_list ex_blobs)) apart False) (mkSystem k [] None) y.
Proof. intros E. eapply together_weaken; [|by eapply (performs_ok quick_hash ex_blobs toy_cuts false false apart); [apply apartb_ok|]]. done. Qed.
Example C60_disjoint_witness : exists y,
  in_order quick_hash (in_list ex_blobs) empty_repo /\
  rtc (together quick_hash (adds_to quick_hash (in_list ex_blobs)) apart False) (mkSystem empty_repo [] None) y /\
  k_snaps (sy_back y) !! ex_sid [fa] 1 = Some (ex_snap [fa] 1) /\ k_snaps (sy_back y) !! ex_sid [fb] 2 = Some (ex_snap [fb] 2) /\
  length (sy_runs y) = 2 /\ size (k_indexes (sy_back y)) = 2.
Proof.
  assert (holds (ex_together false false apartb empty_repo by_turns) (fun y =>
    snap_at (sy_back y) (ex_sid [fa] 1) (ex_snap [fa] 1) && snap_at (sy_back y) (ex_sid [fb] 2) (ex_snap [fb] 2) &&
    bool_decide (length (sy_runs y) = 2) && bool_decide (size (k_indexes (sy_back y)) = 2)) = true) as Hx by (vm_compute; reflexivity).
  apply holds_inv in Hx as (y & Hy%ex_apart_ok & Hx). exists y.
  apply andb_true_iff in Hx as [[[S1%snap_at_inv S2%snap_at_inv]%andb_true_iff Hl%bool_decide_eq_true]%andb_true_iff Hi%bool_decide_eq_true].
  split; [exact (empty_in_order _ _ ex_universe quick_hash_length)|].
  split; [exact Hy|]. split; [exact S1|]. split; [exact S2|]. split; [exact Hl|exact Hi].
Qed.

(** ** Where it goes wrong *)

(** Two backups of files that both contain a new chunk, at the same time: both
    store it, both finish, and every command gives up from then on. *)
Theorem C60_refuted_same_data : exists H U y,
  universe H U /\ (forall x, length (H x) = 28) /\
  rtc (together H (adds_to H U) anything True) (mkSystem empty_repo [] None) y /\
  (forall cl, cl ∈ sy_runs y -> ps_main (cl_threads cl) = MDone true /\ cl_pending cl = []) /\
  ~ usable (sy_back y).
Proof.
  assert (holds (ex_together false true any empty_repo
      [MBackup [fa] 1; MBackup [fa; fb] 2; MThreads 0 10; MThreads 1 15; MThreads 0 300; MAfter 0; MThreads 1 300; MAfter 1]) (fun y =>
    forallb (fun cl => is_ready (ps_main (cl_threads cl)) && match cl_pending cl with [] => true | _ => false end) (sy_runs y) && unusable (sy_back y))
    = true) as Hx by (vm_compute; reflexivity).
  apply holds_inv in Hx as (y & Hy%ex_together_ok & Hx). apply andb_true_iff in Hx as [Hd Hb%unusable_ok].
  exists quick_hash, (in_list ex_blobs), y. split; [apply ex_universe|]. split; [apply quick_hash_length|]. split; [exact Hy|]. split; [|exact Hb].
  intros cl Hcl. rewrite forallb_forall in Hd. apply elem_of_list_In, Hd, andb_true_iff in Hcl as [Hr Hp]. split; [by apply is_done_inv|].
  by destruct (cl_pending cl).
Qed.

(** A backup starts, and finds some of what it needs in the repository already,
    though no snapshot refers to it; a prune removes it; the backup finishes. *)
Theorem C60_refuted_prune_meanwhile : exists H U k y i sn,
  universe H U /\ (forall x, length (H x) = 28) /\ in_order H U k /\
  rtc (together H (adds_or_prunes H U) anything False) (mkSystem k [] None) y /\
  (forall cl, cl ∈ sy_runs y -> ps_main (cl_threads cl) = MDone true /\ cl_pending cl = []) /\
  usable (sy_back y) /\ k_snaps (sy_back y) !! i = Some sn /\ ~ snapshot_complete H (sy_back y) sn.
Proof.
  set (k := garbage_kw.1). set (sn := ex_snap [fa; fb] 9). set (i := ex_sid [fa; fb] 9).
  assert (holds (ex_together true false any k
      [MBackup [fa; fb] 9; MPrune; MThreads 1 300; MAfter 1; MThreads 0 300; MAfter 0]) (fun y =>
    forallb (fun cl => is_ready (ps_main (cl_threads cl)) && match cl_pending cl with [] => true | _ => false end) (sy_runs y) &&
    negb (unusable (sy_back y)) && snap_at (sy_back y) i sn && broken quick_hash (sy_back y) sn)
    = true) as Hx by (vm_compute; reflexivity).
  apply holds_inv in Hx as (y & Hy%ex_together_prune_ok & Hx).
  apply andb_true_iff in Hx as [[[Hd Hu]%andb_true_iff Hs%snap_at_inv]%andb_true_iff Hb%broken_is_incomplete].
  exists quick_hash, (in_list ex_blobs), k, y, i, sn. split; [apply ex_universe|]. split; [apply quick_hash_length|].
  destruct (ex_fine with_garbage) as [Hk _]; [vm_compute; reflexivity|]. split; [exact Hk|]. split; [exact Hy|]. split; [|split; [exact (not_unusable _ Hu)|split; [exact Hs|exact Hb]]].
  intros cl Hcl. rewrite forallb_forall in Hd. apply elem_of_list_In, Hd, andb_true_iff in Hcl as [Hr Hp]. split; [by apply is_done_inv|].
  by destruct (cl_pending cl).
Qed.

Print Assumptions C60_nothing_is_lost_partial.
Print Assumptions C60_only_forgetting_removes.
Print Assumptions C60_disjoint_runs_keep_order.
Print Assumptions C60_refuted_same_data.
Print Assumptions C60_refuted_prune_meanwhile.
