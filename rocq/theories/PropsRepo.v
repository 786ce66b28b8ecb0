(** What the commands do to a repository: C15, C19 to C24, C38, C46 and C52. *)

From Verif Require Import Base OMap Formats FormatsFacts Hashing Pack Index IndexFacts Meta Forest FsTree FsSpec FsFacts BackupFacts
  Pipeline PipelineFacts PropsPipeline Repo RepoSpec RepoFacts RewriteFacts PublishFacts PlanFacts CommandFacts
  History PruneFacts ReadFacts HistoryFacts PathFacts Exec RepeatFacts Toy Witness.

(** ** The running example: three files, and what becomes of a repository *)

Definition all_pass (_ : bytes) : bool := true.
Definition ex_path (nm : String.string) : fspath :=
  (ascii_bytes "/" ++ ascii_bytes nm, ascii_bytes nm, FsFile ex_filemeta (ascii_bytes nm)).
Definition fa : fspath := ex_path "aa".
Definition fb : fspath := ex_path "bb".
Definition fz : fspath := ex_path "zz".
Definition ex_plan (paths : list fspath) : list blob := plan_blobs quick_hash toy_cuts all_pass ∅ None paths.
Definition ex_snap (paths : list fspath) (now : Z) : snapshot :=
  mkSnapshot now [] [] [] (map (fun e : fspath => e.1.1) paths) (plan_root quick_hash toy_cuts all_pass ∅ None paths).
Definition ex_sid (paths : list fspath) (now : Z) : oid := snapshot_id quick_hash (ex_snap paths now).
Definition ex_blobs : list blob :=
  remove_dups (tree_blob quick_hash [] :: ex_plan [fa; fb] ++ ex_plan [fa] ++ ex_plan [fb] ++ ex_plan [fz]).
Lemma ex_universe : universe quick_hash (in_list ex_blobs).
Proof. apply universe_ok. vm_compute. reflexivity. Qed.

Definition ex_play : list action -> option (backend * workdir) :=
  play quick_hash ex_blobs toy_cuts 20000 (fun _ => false) (empty_repo, clean).
Lemma ex_play_ok acts kw : ex_play acts = Some kw -> history quick_hash (in_list ex_blobs) (empty_repo, clean) kw.
Proof. apply play_ok. Qed.
Definition ex_kw (acts : list action) : backend * workdir := default (empty_repo, clean) (ex_play acts).
Definition played (acts : list action) : bool := holds (ex_play acts) (fun _ => true).
Lemma ex_history acts : played acts = true -> history quick_hash (in_list ex_blobs) (empty_repo, clean) (ex_kw acts).
Proof. unfold played, ex_kw. destruct (ex_play acts) as [kw|] eqn:E; [|done]. intros _. simpl. by eapply play_ok. Qed.
Lemma ex_fine acts : played acts = true ->
  in_order quick_hash (in_list ex_blobs) (ex_kw acts).1 /\
  own_leftovers quick_hash (in_list ex_blobs) (ex_kw acts).1 (ex_kw acts).2.
Proof.
  intros Hp. apply (history_fine quick_hash (in_list ex_blobs) ex_universe quick_hash_length (empty_repo, clean)); [|by apply ex_history].
  apply start_fine; [apply ex_universe|apply quick_hash_length].
Qed.
Definition ex_run : backend -> workdir -> command -> option (backend * workdir) :=
  run_whole quick_hash 20000 true 4 (fun _ => false) 300.
Definition ex_part : nat -> backend -> workdir -> command -> backend * workdir :=
  run_part quick_hash 20000 true 4 (fun _ => false).
Lemma ex_run_ok k w c k' w' : ex_run k w c = Some (k', w') -> command_done quick_hash 20000 true 4 k w c k' w'.
Proof. apply run_whole_ok. Qed.
Lemma ex_part_ok n k w c k' w' : ex_part n k w c = (k', w') -> command_reaches quick_hash 20000 true 4 NoError k w c k' w'.
Proof. intros E. pose proof (run_part_ok quick_hash 20000 true 4 (fun _ => false) n k w c) as Hr. unfold ex_part in E. rewrite E in Hr. exact Hr. Qed.
Definition no_wip (w : workdir) : bool := match w_wip w with None => true | Some _ => false end.
Lemma no_wip_inv w : no_wip w = true -> w_wip w = None.
Proof. unfold no_wip. by destruct (w_wip w). Qed.
Definition one_snap (os : list bop) : bool := match os with [PutSnap _] => true | _ => false end.
Lemma one_snap_inv os : one_snap os = true -> exists sn, os = [PutSnap sn].
Proof. destruct os as [|o [|]]; try done; destruct o; try done. by eexists. Qed.
Lemma wip_inv w : negb (no_wip w) = true -> w_wip w <> None.
Proof. unfold no_wip. by destruct (w_wip w). Qed.
Lemma broken_is_incomplete k sn : broken quick_hash k sn = true -> ~ snapshot_complete quick_hash k sn.
Proof. apply (broken_ok quick_hash (in_list ex_blobs)); [apply ex_universe|apply quick_hash_length]. Qed.
Definition snap_at (k : backend) (i : oid) (sn : snapshot) : bool :=
  match k_snaps k !! i with Some s => bool_decide (s = sn) | None => false end.
Lemma snap_at_inv k i sn : snap_at k i sn = true -> k_snaps k !! i = Some sn.
Proof. unfold snap_at. destruct (k_snaps k !! i); [|done]. intros E%bool_decide_eq_true. by subst. Qed.

Definition is_clean (w : workdir) : bool := no_wip w && bool_decide (map_to_list (w_packs w) = []).
Lemma played_clean acts : is_clean (ex_kw acts).2 = true -> (ex_kw acts).2 = clean.
Proof.
  intros [Hw%no_wip_inv Hm%bool_decide_eq_true%map_to_list_empty_iff]%andb_true_iff. destruct (ex_kw acts) as [k [p w]]. simpl in *. by subst.
Qed.

(** Two backups; the first is forgotten, so that the chunk of [bb] and a tree are garbage. *)
Definition two_backups : list action := [Backup [fa; fb] 1 None; Backup [fa] 2 None].
Definition with_garbage : list action := two_backups ++ [Forget [ex_sid [fa; fb] 1]].
Opaque ex_kw ex_play ex_plan ex_snap ex_sid ex_blobs ex_run ex_part backup_of exec_backup exec_prune exec_copy exec_filter exec_rebuild run.

(** * C15: a visible snapshot is always complete *)

(** After any history of backups, copies, filterings, prunes, forgets and
    rebuildings of the index, each run to its end or interrupted anywhere, the
    repository is usable and every snapshot in it can be read.

    Partial: as the [no_clash] of every step in [History.happens] says, the ids
    of different packs, and of different indexes, must differ, and no new index
    may have the id of one superseded earlier: see the refutation below for what
    happens otherwise. *)
Theorem C15_visible_snapshots_are_complete_partial H U k w :
  universe H U -> (forall x, length (H x) = 28) ->
  history H U (empty_repo, clean) (k, w) ->
  usable k /\
  forall i sn, k_snaps k !! i = Some sn ->
    i = snapshot_id H sn /\ exists es, restores H k sn es /\ program_reads H k sn es.
Proof.
  intros HU Hlen Hh. destruct (history_fine H U HU Hlen _ _ (start_fine H U HU Hlen) Hh) as [Hk _]. simpl in Hk.
  split; [by apply (in_order_usable H U HU Hlen)|]. intros i sn Hi. split; [by apply Hk|].
  destruct (io_snaps _ _ _ Hk i sn Hi) as [es Hes]. exists es. split; [done|]. by apply (program_reads_iff H U HU Hlen).
Qed.

(** And no command changes what a snapshot contains, as long as it is there. *)
Theorem C15_commands_keep_the_contents_partial H U k w k' w' i sn es :
  universe H U -> (forall x, length (H x) = 28) ->
  history H U (empty_repo, clean) (k, w) -> happens H U (k, w) (k', w') ->
  k_snaps k !! i = Some sn -> k_snaps k' !! i = Some sn ->
  program_reads H k sn es <-> program_reads H k' sn es.
Proof.
  intros HU Hlen Hh Hs Hi Hi'. pose proof (history_fine H U HU Hlen _ _ (start_fine H U HU Hlen) Hh) as Hf.
  destruct (happens_fine H U HU Hlen _ _ Hf Hs) as [[Hk' _] Hsame]. destruct Hf as [Hk _]. simpl in *.
  rewrite !(program_reads_iff H U HU Hlen) by done. by eapply Hsame.
Qed.

(** A history with all kinds of events: two backups, a snapshot forgotten, a
    prune, an interrupted backup, another one going on from there in the same
    directory, an interrupted prune, the index rebuilt. *)
Example C15_witness : exists k w,
  history quick_hash (in_list ex_blobs) (empty_repo, clean) (k, w) /\
  size (k_snaps k) = 2 /\ size (k_packs k) = 5 /\ size (k_indexes k) = 1.
Proof.
  set (acts := with_garbage ++ [Prune None; Backup [fb] 5 (Some 14); Backup [fz] 6 None; Prune (Some 6); Rebuild]).
  assert (holds (ex_play acts) (fun kw => bool_decide ((size (k_snaps kw.1), size (k_packs kw.1), size (k_indexes kw.1)) = (2, 5, 1))) = true)
    as Hx by (vm_compute; reflexivity).
  apply holds_inv in Hx as ([k w] & E%ex_play_ok & Es%bool_decide_eq_true). exists k, w. split; [exact E|]. by injection Es.
Qed.

(** Without the premise that a new index is new, C15 fails: back up [aa], back up
    [bb], forget the first, prune, back up [aa] again.  The last run writes the
    very packs and so the very index of the first.  But the prune has left an
    index saying that this one is superseded.  The new snapshot is there and
    cannot be read. *)
Definition superseded_again : list action := [Backup [fa] 1 None; Backup [fb] 2 None; Forget [ex_sid [fa] 1]; Prune None].
Theorem C15_refuted : exists H U k w paths parent pf c k' w' sn,
  universe H U /\ (forall x, length (H x) = 28) /\
  history H U (empty_repo, clean) (k, w) /\ w = clean /\
  backup_command H toy_cuts false false false (fun _ => true) [] [] [] 3 paths parent pf k w c /\
  paths_ok toy_cuts false paths /\ Forall U (plan_blobs H toy_cuts (fun _ => true) pf (sn_tree <$> parent) paths) /\
  command_done H 20000 true 4 k w c k' w' /\
  k_snaps k' !! snapshot_id H sn = Some sn /\ ~ snapshot_complete H k' sn.
Proof.
  assert (played superseded_again = true) as Hp by (vm_compute; reflexivity).
  set (kw := ex_kw superseded_again).
  assert (holds (backup_of quick_hash toy_cuts [fa] 3 kw.1 clean) (fun r =>
    in_listb ex_blobs (plan_blobs quick_hash toy_cuts (fun _ => true) r.1.2 (sn_tree <$> r.1.1) [fa]) &&
    holds (ex_run kw.1 clean r.2) (fun kw' =>
      snap_at kw'.1 (ex_sid [fa] 3) (ex_snap [fa] 3) && broken quick_hash kw'.1 (ex_snap [fa] 3))) = true) as Hx
    by (vm_compute; reflexivity).
  apply holds_inv in Hx as ([[parent pf] c] & E1%backup_of_ok & Hx). apply andb_true_iff in Hx as [Hu%in_listb_ok Hx].
  apply holds_inv in Hx as ([k' w'] & E2%ex_run_ok & Hx). apply andb_true_iff in Hx as [Hs%snap_at_inv Hb%broken_is_incomplete].
  exists quick_hash, (in_list ex_blobs), kw.1, clean, [fa], parent, pf, c, k', w', (ex_snap [fa] 3).
  split; [apply ex_universe|]. split; [apply quick_hash_length|]. split.
  { pose proof (ex_history superseded_again Hp) as Hh. unfold kw in Hh |- *. rewrite (surjective_pairing (ex_kw superseded_again)) in Hh.
    rewrite (played_clean superseded_again) in Hh by (vm_compute; reflexivity). exact Hh. }
  split; [done|]. split; [exact E1|]. split; [apply paths_okb_ok; vm_compute; reflexivity|].
  split; [exact Hu|]. split; [done|]. split; [exact Hs|done].
Qed.

(** * C19: prune never loses data a snapshot needs *)

(** Prune in an empty directory, or in one where a backup or copy was interrupted
    (for what prune leaves itself see C21). *)

Theorem C19_prune_keeps_every_snapshot H U k w c target cpus k' w' :
  universe H U -> (forall x, length (H x) = 28) ->
  in_order H U k -> own_leftovers H U k w ->
  prune_command H false k w (Some c) -> no_clash H k w c ->
  command_reaches H target true cpus NoError k w c k' w' ->
  usable k' /\ k_snaps k' = k_snaps k /\
  forall i sn, k_snaps k !! i = Some sn -> exists es, program_reads H k sn es /\ program_reads H k' sn es.
Proof.
  intros HU Hlen Hk Hw Hc Hcl Hr. pose proof (prune_all H U HU Hlen k w _ Hk (own_prune_leftovers H U HU Hlen k w Hw) Hc) as [_ Hall].
  destruct (Hall target cpus k' w' Hcl) as [Hreach _]. destruct (Hreach Hr) as (Hk' & Esn & Hsame & _).
  split; [by apply (in_order_usable H U HU Hlen)|]. split; [done|]. intros i sn Hi.
  destruct (io_snaps _ _ _ Hk i sn Hi) as [es Hes]. exists es. rewrite !(program_reads_iff H U HU Hlen) by done.
  split; [done|]. by apply (Hsame i sn es Hi).
Qed.

(** The prune of the example has something to do, and meets all premises. *)
Definition garbage_kw : backend * workdir := ex_kw with_garbage.
Example C19_C20_witness : exists c k' w',
  let k := garbage_kw.1 in let w := garbage_kw.2 in
  in_order quick_hash (in_list ex_blobs) k /\ own_leftovers quick_hash (in_list ex_blobs) k w /\
  prune_command quick_hash false k w (Some c) /\ no_clash quick_hash k w c /\
  command_done quick_hash 20000 true 4 k w c k' w' /\
  (size (k_snaps k), size (k_packs k), size (k_indexes k)) = (1, 3, 2) /\
  (size (k_snaps k'), size (k_packs k'), size (k_indexes k')) = (1, 2, 1).
Proof.
  assert (holds (exec_prune quick_hash false 20 garbage_kw.1 garbage_kw.2) (fun oc => holds oc (fun c =>
    clash_free quick_hash garbage_kw.1 garbage_kw.2 c && holds (ex_run garbage_kw.1 garbage_kw.2 c) (fun kw' =>
      bool_decide ((size (k_snaps kw'.1), size (k_packs kw'.1), size (k_indexes kw'.1)) = (1, 2, 1))))) = true) as Hx
    by (vm_compute; reflexivity).
  apply holds_inv in Hx as (oc & E1%exec_prune_ok & Hx). apply holds_inv in Hx as (c & -> & Hx).
  apply andb_true_iff in Hx as [Hcl%clash_free_ok Hx]. apply holds_inv in Hx as ([k' w'] & E2%ex_run_ok & E3%bool_decide_eq_true).
  exists c, k', w'. cbv zeta. destruct (ex_fine with_garbage) as [Hk Hw]; [vm_compute; reflexivity|].
  split; [exact Hk|]. split; [exact Hw|].
  split; [exact E1|]. split; [exact Hcl|]. split; [exact E2|]. split; [vm_compute; reflexivity|exact E3].
Qed.

(** The premise that prune reads everything it has to copy is needed.  If it meets
    an error there, its threads still finish what they got, and the index that
    supersedes all others goes up without the rest: the remaining snapshot cannot
    be read.  (src/ui/prune.rs:164-187: the error is returned only after the
    channels are closed; src/index.rs:78-152 cannot tell.) *)
Theorem C19_refuted_when_reading_fails : exists H U k w c k' w' i sn,
  universe H U /\ (forall x, length (H x) = 28) /\
  in_order H U k /\ w = clean /\ prune_command H false k w (Some c) /\ no_clash H k w c /\
  command_reaches H 20000 true 4 ErrorLater k w c k' w' /\
  k_snaps k !! i = Some sn /\ snapshot_complete H k sn /\
  k_snaps k' !! i = Some sn /\ ~ snapshot_complete H k' sn.
Proof.
  assert (holds (exec_prune quick_hash false 20 garbage_kw.1 clean) (fun oc => holds oc (fun c =>
    clash_free quick_hash garbage_kw.1 clean c && holds (run_failing quick_hash 20000 (fun _ => false) 4 300 garbage_kw.1 clean c) (fun kw' =>
      snap_at kw'.1 (ex_sid [fa] 2) (ex_snap [fa] 2) && broken quick_hash kw'.1 (ex_snap [fa] 2)))) = true) as Hx
    by (vm_compute; reflexivity).
  apply holds_inv in Hx as (oc & E1%exec_prune_ok & Hx). apply holds_inv in Hx as (c & -> & Hx).
  apply andb_true_iff in Hx as [Hcl%clash_free_ok Hx]. apply holds_inv in Hx as ([k' w'] & E2%run_failing_ok & Hx).
  apply andb_true_iff in Hx as [Hs%snap_at_inv Hb%broken_is_incomplete].
  destruct (ex_fine with_garbage) as [Hk _]; [vm_compute; reflexivity|].
  assert (k_snaps garbage_kw.1 !! ex_sid [fa] 2 = Some (ex_snap [fa] 2)) as Hi by (apply snap_at_inv; vm_compute; reflexivity).
  exists quick_hash, (in_list ex_blobs), garbage_kw.1, clean, c, k', w', (ex_sid [fa] 2), (ex_snap [fa] 2).
  split; [apply ex_universe|]. split; [apply quick_hash_length|]. split; [exact Hk|]. split; [done|]. split; [exact E1|].
  split; [exact Hcl|]. split; [exact E2|]. split; [exact Hi|]. split; [exact (io_snaps _ _ _ Hk _ _ Hi)|]. split; [exact Hs|exact Hb].
Qed.

(** * C20: prune leaves no garbage behind *)

(** A pack is garbage if the combined index names it and it has a blob no snapshot needs. *)
Theorem C20_prune_removes_garbage H U k w c target cpus k' w' :
  universe H U -> (forall x, length (H x) = 28) ->
  in_order H U k -> own_leftovers H U k w ->
  prune_command H false k w (Some c) -> no_clash H k w c ->
  command_done H target true cpus k w c k' w' ->
  (forall p m e, (p, m) ∈ live_packs k' -> e ∈ m -> needed H k' (e_id e)) /\
  (forall p m e, (p, m) ∈ live_packs k -> e ∈ m -> ~ needed H k (e_id e) -> k_packs k' !! p = None) /\
  (forall x, needed H k' x <-> needed H k x) /\
  (exists i ix, k_indexes k' = {[i := ix]}) /\ w_wip w' = None.
Proof.
  intros HU Hlen Hk Hw Hc Hcl Hd. pose proof (prune_all H U HU Hlen k w _ Hk (own_prune_leftovers H U HU Hlen k w Hw) Hc) as [_ Hall].
  destruct (Hall target cpus k' w' Hcl) as [_ Hdone]. destruct (Hdone Hd) as (A & B & C & D & E).
  split_and!; try done; eauto.
Qed.

(** Prune does something exactly if there is garbage. *)
Theorem C20_prune_acts_on_garbage_only H U k w oc :
  universe H U -> (forall x, length (H x) = 28) ->
  in_order H U k -> own_leftovers H U k w -> prune_command H false k w oc ->
  oc <> None <-> exists p m e, (p, m) ∈ live_packs k /\ e ∈ m /\ ~ needed H k (e_id e).
Proof.
  intros HU Hlen Hk Hw Hc. pose proof (prune_all H U HU Hlen k w _ Hk (own_prune_leftovers H U HU Hlen k w Hw) Hc) as Hall.
  destruct oc as [c|]; [split; [intros _; apply Hall|done]|]. split; [done|]. intros Hg. by destruct Hall.
Qed.

(** * C21: an interrupted prune can be run again *)

(** As long as nothing needed before is unneeded now, it can.  Whatever is left in
    the directory ([prune_leftovers]), the next prune there is safe at every point. *)
Theorem C21_resumed_prune_is_safe_partial H U k w c target cpus k' w' :
  universe H U -> (forall x, length (H x) = 28) ->
  in_order H U k -> prune_leftovers H U k w ->
  prune_command H false k w (Some c) -> no_clash H k w c ->
  command_reaches H target true cpus NoError k w c k' w' ->
  usable k' /\ k_snaps k' = k_snaps k /\
  forall i sn, k_snaps k !! i = Some sn -> exists es, program_reads H k sn es /\ program_reads H k' sn es.
Proof.
  intros HU Hlen Hk Hw Hc Hcl Hr. pose proof (prune_all H U HU Hlen k w _ Hk (fun _ => Hw) Hc) as [_ Hall].
  destruct (Hall target cpus k' w' Hcl) as [Hreach _]. destruct (Hreach Hr) as (Hk' & Esn & Hsame & _).
  split; [by apply (in_order_usable H U HU Hlen)|]. split; [done|]. intros i sn Hi.
  destruct (io_snaps _ _ _ Hk i sn Hi) as [es Hes]. exists es. rewrite !(program_reads_iff H U HU Hlen) by done.
  split; [done|]. by apply (Hsame i sn es Hi).
Qed.

(** Prune, interrupted anywhere, any number of times, always in the same directory,
    while others back up, copy, prune elsewhere, ... ([others_keep]): at any time the
    repository can be used, no snapshot went, and all read the same; what is left in
    the directory is such that the theorem above applies, and a prune that runs to
    its end leaves no garbage. *)
Theorem C21_prunes_again_and_again_partial H U k w k1 w1 :
  universe H U -> (forall x, length (H x) = 28) ->
  in_order H U k -> packs_from H U (w_packs w) -> w_wip w = None ->
  prunes H U (k, w) (k1, w1) ->
  in_order H U k1 /\ prune_leftovers H U k1 w1 /\ usable k1 /\ k_snaps k ⊆ k_snaps k1 /\
  (forall i sn, k_snaps k !! i = Some sn -> exists es, program_reads H k sn es /\ program_reads H k1 sn es) /\
  (forall c target cpus k' w',
    prune_command H false k1 w1 (Some c) -> no_clash H k1 w1 c -> command_done H target true cpus k1 w1 c k' w' ->
    (forall p m e, (p, m) ∈ live_packs k' -> e ∈ m -> needed H k' (e_id e)) /\
    (forall p m e, (p, m) ∈ live_packs k1 -> e ∈ m -> ~ needed H k1 (e_id e) -> k_packs k' !! p = None) /\
    (forall x, needed H k' x <-> needed H k1 x) /\
    (exists i ix, k_indexes k' = {[i := ix]}) /\ w_wip w' = None).
Proof.
  intros HU Hlen Hk Hw Hwip Hp.
  destruct (prunes_fine H U HU Hlen (k, w) (k1, w1) Hk (proj2 (no_wip_leftovers H U HU Hlen k w Hw Hwip)) Hp) as (Hk1 & Hw1 & Hsn). simpl in *.
  pose proof (prune_wip_leftovers H U HU Hlen k1 w1 Hw1) as Hl.
  split; [done|]. split; [done|]. split; [by apply (in_order_usable H U HU Hlen)|]. split; [done|]. split.
  - intros i sn Hi. destruct (io_snaps _ _ _ Hk i sn Hi) as [es Hes]. exists es.
    rewrite !(program_reads_iff H U HU Hlen) by done. split; [done|].
    apply (restores_same H U HU Hlen k k1); [done|done|by exists es| |done].
    apply (io_snaps _ _ _ Hk1 i). by eapply lookup_weaken.
  - intros c target cpus k' w' Hc Hcl Hd. pose proof (prune_all H U HU Hlen k1 w1 _ Hk1 (fun _ => Hl) Hc) as [_ Hall].
    destruct (Hall target cpus k' w' Hcl) as [_ Hdone]. destruct (Hdone Hd) as (A & B & C & D & E).
    split_and!; try done; eauto.
Qed.

(** Every command run elsewhere, finished or not, is something others may do, if it
    removes no snapshot. *)
Theorem C21_others_may_run_any_command H U k w k' w' :
  universe H U -> (forall x, length (H x) = 28) ->
  in_order H U k -> own_leftovers H U k w -> happens H U (k, w) (k', w') -> k_snaps k ⊆ k_snaps k' -> others_keep H U k k'.
Proof. intros HU Hlen Hk Hw. by apply (happens_keep H U HU Hlen). Qed.

(** A prune is interrupted when its own pack is stored and noted in its index, but
    the index is not; prune goes on from there and ends. *)
Example C21_witness : exists c1 k1 w1 c2 k2 w2,
  let k := garbage_kw.1 in
  in_order quick_hash (in_list ex_blobs) k /\ prunes quick_hash (in_list ex_blobs) (k, clean) (k1, w1) /\
  prune_command quick_hash false k clean (Some c1) /\ no_clash quick_hash k clean c1 /\
  command_reaches quick_hash 20000 true 4 NoError k clean c1 k1 w1 /\
  w_wip w1 = Some (c_start c2) /\ length (c_blobs c1) = 1 /\ c_blobs c2 = [] /\
  prune_command quick_hash false k1 w1 (Some c2) /\ no_clash quick_hash k1 w1 c2 /\
  command_done quick_hash 20000 true 4 k1 w1 c2 k2 w2 /\
  map (fun k => (size (k_snaps k), size (k_packs k), size (k_indexes k))) [k; k1; k2] = [(1, 3, 2); (1, 4, 2); (1, 2, 1)].
Proof.
  set (k := garbage_kw.1).
  assert (holds (exec_prune quick_hash false 20 k clean) (fun oc => holds oc (fun c =>
    clash_free quick_hash k clean c && bool_decide (length (c_blobs c) = 1) && (let kw1 := ex_part 12 k clean c in
      holds (exec_prune quick_hash false 20 kw1.1 kw1.2) (fun oc2 => holds oc2 (fun c2 =>
        holds (w_wip kw1.2) (fun ix => bool_decide (ix_supersedes ix = ix_supersedes (c_start c2) /\ ix_packs ix = ix_packs (c_start c2))) &&
        bool_decide (length (c_blobs c2) = 0) && clash_free quick_hash kw1.1 kw1.2 c2 &&
        holds (ex_run kw1.1 kw1.2 c2) (fun kw2 =>
          bool_decide (map (fun k => (size (k_snaps k), size (k_packs k), size (k_indexes k))) [k; kw1.1; kw2.1] = [(1, 3, 2); (1, 4, 2); (1, 2, 1)]))))))) = true) as Hx
    by (vm_compute; reflexivity).
  apply holds_inv in Hx as (oc & E1%exec_prune_ok & Hx). apply holds_inv in Hx as (c1 & -> & Hx).
  apply andb_true_iff in Hx as [[Hcl%clash_free_ok Hl1%bool_decide_eq_true]%andb_true_iff Hx].
  destruct (ex_part 12 k clean c1) as [k1 w1] eqn:Ep. apply ex_part_ok in Ep. cbv zeta in Hx. cbn [fst snd] in Hx.
  apply holds_inv in Hx as (oc & E2%exec_prune_ok & Hx). apply holds_inv in Hx as (c2 & -> & Hx).
  apply andb_true_iff in Hx as [[[Hwip Hl2%bool_decide_eq_true]%andb_true_iff Hcl2%clash_free_ok]%andb_true_iff Hx].
  apply holds_inv in Hwip as (ix & Ew & [Ei1 Ei2]%bool_decide_eq_true).
  assert (ix = c_start c2) as -> by (destruct ix, (c_start c2); simpl in *; by subst). apply holds_inv in Hx as ([k2 w2] & E3%ex_run_ok & E4%bool_decide_eq_true).
  destruct (ex_fine with_garbage) as [Hk _]; [vm_compute; reflexivity|]. fold garbage_kw in Hk. fold k in Hk.
  exists c1, k1, w1, c2, k2, w2. cbv zeta. split; [exact Hk|]. split; [apply rtc_once; by eapply pa_prune|].
  split; [exact E1|]. split; [exact Hcl|]. split; [exact Ep|]. split; [exact Ew|]. split; [exact Hl1|].
  split; [by apply nil_length_inv|]. split; [exact E2|]. split; [exact Hcl2|]. split; [exact E3|exact E4].
Qed.

(** In general it cannot be: it goes on from the index it had begun, without asking
    whether the snapshots are still the same (src/ui/prune.rs:119-131).  Three
    backups; the first is forgotten; a prune is interrupted when it has begun its
    index with the packs to keep; the third is forgotten; prune again.  The second
    prune takes the chunks of [aa] for packed, because they are in the index it
    goes on from; but now they are in a pack to remove.  They are gone. *)
Definition three_backups : list action := [Backup [fa; fb] 1 None; Backup [fa] 2 None; Backup [fb] 3 None; Forget [ex_sid [fa; fb] 1]].
Definition three_kw : backend * workdir := ex_kw three_backups.
Theorem C21_refuted : exists H U k c1 k1 w1 i k2 c2 k3 w3 j sn,
  universe H U /\ (forall x, length (H x) = 28) /\ in_order H U k /\
  prune_command H false k clean (Some c1) /\ no_clash H k clean c1 /\ command_reaches H 20000 true 4 NoError k clean c1 k1 w1 /\
  k2 = apply_ops H k1 (forget_ops false [i]) /\ in_order H U k2 /\
  prune_command H false k2 w1 (Some c2) /\ command_done H 20000 true 4 k2 w1 c2 k3 w3 /\
  k_snaps k2 !! j = Some sn /\ snapshot_complete H k2 sn /\
  k_snaps k3 !! j = Some sn /\ ~ snapshot_complete H k3 sn.
Proof.
  set (k := three_kw.1). set (i := ex_sid [fb] 3). set (sn := ex_snap [fa] 2). set (j := ex_sid [fa] 2).
  assert (holds (exec_prune quick_hash false 20 k clean) (fun oc => holds oc (fun c =>
    clash_free quick_hash k clean c && (let kw1 := ex_part 3 k clean c in let k2 := apply_ops quick_hash kw1.1 (forget_ops false [i]) in
      snap_at k2 j sn && holds (exec_prune quick_hash false 20 k2 kw1.2) (fun oc2 => holds oc2 (fun c2 =>
        holds (ex_run k2 kw1.2 c2) (fun kw3 => snap_at kw3.1 j sn && broken quick_hash kw3.1 sn)))))) = true) as Hx
    by (vm_compute; reflexivity).
  apply holds_inv in Hx as (oc & E1%exec_prune_ok & Hx). apply holds_inv in Hx as (c1 & -> & Hx).
  apply andb_true_iff in Hx as [Hcl%clash_free_ok Hx]. destruct (ex_part 3 k clean c1) as [k1 w1] eqn:Ep. apply ex_part_ok in Ep. cbv zeta in Hx. cbn [fst snd] in Hx.
  set (k2 := apply_ops quick_hash k1 (forget_ops false [i])) in *.
  apply andb_true_iff in Hx as [Hs%snap_at_inv Hx].
  apply holds_inv in Hx as (oc & E2%exec_prune_ok & Hx). apply holds_inv in Hx as (c2 & -> & Hx).
  apply holds_inv in Hx as ([k3 w3] & E3%ex_run_ok & Hx). apply andb_true_iff in Hx as [Hs3%snap_at_inv Hb%broken_is_incomplete].
  destruct (ex_fine three_backups) as [Hk _]; [vm_compute; reflexivity|]. fold three_kw in Hk. fold k in Hk.
  assert (fine quick_hash (in_list ex_blobs) (k2, clean)) as [Hk2 _].
  { apply (history_fine quick_hash (in_list ex_blobs) ex_universe quick_hash_length (k, clean)); [by apply fine_clean; [apply ex_universe|apply quick_hash_length|]|].
    eapply rtc_l; [eapply hp_prune; [exact E1|exact Hcl|exact Ep]|]. apply rtc_once. exact (hp_forget quick_hash (in_list ex_blobs) k1 clean [i] 1). }
  exists quick_hash, (in_list ex_blobs), k, c1, k1, w1, i, k2, c2, k3, w3, j, sn.
  split; [apply ex_universe|]. split; [apply quick_hash_length|]. split; [exact Hk|]. split; [exact E1|]. split; [exact Hcl|].
  split; [exact Ep|]. split; [reflexivity|]. split; [exact Hk2|]. split; [exact E2|]. split; [exact E3|]. split; [exact Hs|].
  split; [exact (io_snaps _ _ _ Hk2 _ _ Hs)|]. split; [exact Hs3|exact Hb].
Qed.

(** * C22: resuming a backup *)

(** Whatever an interrupted backup or copy left in the working directory
    ([own_leftovers]), the next backup there is safe at every point, and when it is
    done its snapshot is complete.  Partial: leftovers of a prune, and leftovers
    whose blobs were stored again by someone else meanwhile, are not covered; both
    are refuted below. *)
Theorem C22_resumed_backup_is_safe_partial H U cuts deref allow_empty filter author tz tags now paths parent pf k w c target cpus errors k' w' :
  universe H U -> (forall x, length (H x) = 28) ->
  in_order H U k -> own_leftovers H U k w ->
  backup_command H cuts false deref allow_empty filter author tz tags now paths parent pf k w c ->
  paths_ok cuts deref paths -> Forall U (plan_blobs H cuts filter pf (sn_tree <$> parent) paths) ->
  no_clash H k w c -> errors <> ErrorAny ->
  command_reaches H target true cpus errors k w c k' w' ->
  in_order H U k' /\ own_leftovers H U k' w' /\ usable k' /\
  (forall i sn, k_snaps k !! i = Some sn -> k_snaps k' !! i = Some sn /\
     exists es, program_reads H k sn es /\ program_reads H k' sn es) /\
  (forall i sn, k_snaps k' !! i = Some sn -> exists es, program_reads H k' sn es).
Proof.
  intros HU Hlen Hk Hw Hc Hp HpU Hcl He Hr.
  destruct (backup_adding H U HU Hlen _ _ _ _ _ _ _ _ _ _ _ _ _ _ Hk Hw Hc Hp HpU Hcl) as (_ & _ & sns & Ha & _).
  destruct (adds_safe H U HU Hlen k w c _ sns target cpus errors k' w' He Hk Hw Ha HpU Hcl Hr) as (Hk' & Hw' & Hsn & Hst).
  split; [done|]. split; [done|]. split; [by apply (in_order_usable H U HU Hlen)|]. split.
  - intros i sn Hi. split; [by apply Hsn|]. destruct (io_snaps _ _ _ Hk i sn Hi) as [es Hes]. exists es.
    rewrite !(program_reads_iff H U HU Hlen) by done. split; [done|]. by eapply reads_root_mono.
  - intros i sn Hi. destruct (io_snaps _ _ _ Hk' i sn Hi) as [es Hes]. exists es. by rewrite (program_reads_iff H U HU Hlen).
Qed.

(** When it is done there is nothing left to resume and the snapshot is there. *)
Theorem C22_resumed_backup_finishes_partial H U cuts deref allow_empty filter author tz tags now paths parent pf k w c target cpus k' w' sn :
  universe H U -> (forall x, length (H x) = 28) ->
  in_order H U k -> own_leftovers H U k w ->
  backup_command H cuts false deref allow_empty filter author tz tags now paths parent pf k w c ->
  paths_ok cuts deref paths -> Forall U (plan_blobs H cuts filter pf (sn_tree <$> parent) paths) ->
  no_clash H k w c -> command_done H target true cpus k w c k' w' -> PutSnap sn ∈ c_after c ->
  w_wip w' = None /\ k_snaps k' !! snapshot_id H sn = Some sn /\ sn_time sn = now /\
  sn_paths sn = map (fun e : fspath => e.1.1) paths /\ exists es, program_reads H k' sn es.
Proof.
  intros HU Hlen Hk Hw Hc Hp HpU Hcl Hd Hsn.
  destruct (backup_adding H U HU Hlen _ _ _ _ _ _ _ _ _ _ _ _ _ _ Hk Hw Hc Hp HpU Hcl) as (_ & _ & sns & Ha & Hsns).
  destruct (adds_done H U HU Hlen k w c _ sns target cpus k' w' Hk Hw Ha HpU Hcl Hd) as (Ewip & _ & Hput).
  destruct (adds_safe H U HU Hlen k w c _ sns target cpus NoError k' w' ltac:(done) Hk Hw Ha HpU Hcl (done_reaches _ _ _ _ _ _ _ _ _ Hd))
    as (Hk' & _).
  assert (sn ∈ sns) as Hin.
  { destruct Ha as (? & ? & ? & -> & _). simpl in Hsn. apply elem_of_list_fmap in Hsn as (? & E & ?). by injection E as <-. }
  split; [done|]. specialize (Hput sn Hin). split; [done|]. rewrite (Hsns sn Hin) at 1 2. split; [done|]. split; [done|].
  destruct (io_snaps _ _ _ Hk' _ sn Hput) as [es Hes]. exists es. by rewrite (program_reads_iff H U HU Hlen).
Qed.

(** An interrupted backup has left a WIP index; the same backup goes on from there. *)
Definition interrupted_kw : backend * workdir := ex_kw [Backup [fa; fb] 1 (Some 14)].
Example C22_witness : exists parent pf c k' w',
  let k := interrupted_kw.1 in let w := interrupted_kw.2 in
  in_order quick_hash (in_list ex_blobs) k /\ own_leftovers quick_hash (in_list ex_blobs) k w /\ w_wip w <> None /\
  backup_command quick_hash toy_cuts false false false (fun _ => true) [] [] [] 3 [fa; fb] parent pf k w c /\
  paths_ok toy_cuts false [fa; fb] /\
  Forall (in_list ex_blobs) (plan_blobs quick_hash toy_cuts (fun _ => true) pf (sn_tree <$> parent) [fa; fb]) /\
  no_clash quick_hash k w c /\ length (c_blobs c) = 1 /\ command_done quick_hash 20000 true 4 k w c k' w' /\ PutSnap (ex_snap [fa; fb] 3) ∈ c_after c.
Proof.
  set (k := interrupted_kw.1). set (w := interrupted_kw.2).
  assert (negb (no_wip w) && holds (backup_of quick_hash toy_cuts [fa; fb] 3 k w) (fun r =>
    in_listb ex_blobs (plan_blobs quick_hash toy_cuts (fun _ => true) r.1.2 (sn_tree <$> r.1.1) [fa; fb]) && clash_free quick_hash k w r.2 &&
    bool_decide (length (c_blobs r.2) = 1) && bool_decide (ex_snap [fa; fb] 3 ∈ new_snaps (c_after r.2)) &&
    holds (ex_run k w r.2) (fun _ => true)) = true) as Hx by (vm_compute; reflexivity).
  apply andb_true_iff in Hx as [Hw Hx]. apply holds_inv in Hx as ([[parent pf] c] & E1%backup_of_ok & Hx).
  apply andb_true_iff in Hx as [[[[Hu%in_listb_ok Hcl%clash_free_ok]%andb_true_iff Hl%bool_decide_eq_true]%andb_true_iff Hp%bool_decide_eq_true%elem_of_new_snaps]%andb_true_iff Hx].
  apply holds_inv in Hx as ([k' w'] & E2%ex_run_ok & _). exists parent, pf, c, k', w'. cbv zeta.
  destruct (ex_fine [Backup [fa; fb] 1 (Some 14)]) as [Hk Hlo]; [vm_compute; reflexivity|].
  split; [exact Hk|]. split; [exact Hlo|]. split; [exact (wip_inv _ Hw)|].
  split; [exact E1|]. split; [apply paths_okb_ok; vm_compute; reflexivity|]. split; [exact Hu|]. split; [exact Hcl|]. split; [exact Hl|]. split; [exact E2|exact Hp].
Qed.

(** A prune is interrupted; a backup of other files in the same directory goes on
    from the prune's index, which supersedes all others, publishes it, and the
    snapshot the prune was to keep cannot be read any more. *)
Theorem C22_refuted_after_prune : exists H U k c1 k1 w1 paths parent pf c2 k2 w2 j sn,
  universe H U /\ (forall x, length (H x) = 28) /\ in_order H U k /\
  prune_command H false k clean (Some c1) /\ no_clash H k clean c1 /\ command_reaches H 20000 true 4 NoError k clean c1 k1 w1 /\
  backup_command H toy_cuts false false false (fun _ => true) [] [] [] 9 paths parent pf k1 w1 c2 /\
  paths_ok toy_cuts false paths /\ Forall U (plan_blobs H toy_cuts (fun _ => true) pf (sn_tree <$> parent) paths) /\
  command_done H 20000 true 4 k1 w1 c2 k2 w2 /\
  k_snaps k1 !! j = Some sn /\ snapshot_complete H k1 sn /\
  k_snaps k2 !! j = Some sn /\ ~ snapshot_complete H k2 sn.
Proof.
  set (k := garbage_kw.1). set (sn := ex_snap [fa] 2). set (j := ex_sid [fa] 2).
  assert (holds (exec_prune quick_hash false 20 k clean) (fun oc => holds oc (fun c =>
    clash_free quick_hash k clean c && (let kw1 := ex_part 3 k clean c in
      snap_at kw1.1 j sn && holds (backup_of quick_hash toy_cuts [fz] 9 kw1.1 kw1.2) (fun r =>
        in_listb ex_blobs (plan_blobs quick_hash toy_cuts (fun _ => true) r.1.2 (sn_tree <$> r.1.1) [fz]) &&
        holds (ex_run kw1.1 kw1.2 r.2) (fun kw2 => snap_at kw2.1 j sn && broken quick_hash kw2.1 sn))))) = true) as Hx
    by (vm_compute; reflexivity).
  apply holds_inv in Hx as (oc & E1%exec_prune_ok & Hx). apply holds_inv in Hx as (c1 & -> & Hx).
  apply andb_true_iff in Hx as [Hcl%clash_free_ok Hx]. destruct (ex_part 3 k clean c1) as [k1 w1] eqn:Ep. apply ex_part_ok in Ep. cbv zeta in Hx. cbn [fst snd] in Hx.
  apply andb_true_iff in Hx as [Hs%snap_at_inv Hx].
  apply holds_inv in Hx as ([[parent pf] c2] & E2%backup_of_ok & Hx). apply andb_true_iff in Hx as [Hu%in_listb_ok Hx].
  apply holds_inv in Hx as ([k2 w2] & E3%ex_run_ok & Hx). apply andb_true_iff in Hx as [Hs3%snap_at_inv Hb%broken_is_incomplete].
  destruct (ex_fine with_garbage) as [Hk _]; [vm_compute; reflexivity|].
  assert (fine quick_hash (in_list ex_blobs) (k1, clean)) as [Hk1 _].
  { apply (history_fine quick_hash (in_list ex_blobs) ex_universe quick_hash_length (k, clean)); [by apply fine_clean; [apply ex_universe|apply quick_hash_length|]|].
    apply rtc_once. eapply hp_prune; [exact E1|exact Hcl|exact Ep]. }
  exists quick_hash, (in_list ex_blobs), k, c1, k1, w1, [fz], parent, pf, c2, k2, w2, j, sn.
  split; [apply ex_universe|]. split; [apply quick_hash_length|]. split; [exact Hk|]. split; [exact E1|]. split; [exact Hcl|].
  split; [exact Ep|]. split; [exact E2|]. split; [apply paths_okb_ok; vm_compute; reflexivity|]. split; [exact Hu|]. split; [exact E3|].
  split; [exact Hs|]. split; [exact (io_snaps _ _ _ Hk1 _ _ Hs)|]. split; [exact Hs3|exact Hb].
Qed.

(** A backup is interrupted in one directory; one in another directory stores
    some of the same chunks; the first is run again where it was.  Every step but
    the last is within C15's histories.  Afterwards a chunk is in two packs, and
    every command gives up. *)
Theorem C22_refuted_after_another_backup : exists H U k1 w1 k2 w2 parent pf c k3 w3,
  universe H U /\ (forall x, length (H x) = 28) /\
  history H U (empty_repo, clean) (k1, w1) /\ history H U (k1, clean) (k2, w2) /\ usable k2 /\
  backup_command H toy_cuts false false false (fun _ => true) [] [] [] 9 [fa; fb] parent pf k2 w1 c /\
  paths_ok toy_cuts false [fa; fb] /\ Forall U (plan_blobs H toy_cuts (fun _ => true) pf (sn_tree <$> parent) [fa; fb]) /\
  command_done H 20000 true 4 k2 w1 c k3 w3 /\ ~ usable k3.
Proof.
  set (k1 := interrupted_kw.1). set (w1 := interrupted_kw.2).
  assert (holds (play quick_hash ex_blobs toy_cuts 20000 (fun _ => false) (k1, clean) [Backup [fa] 5 None]) (fun kw2 =>
    holds (backup_of quick_hash toy_cuts [fa; fb] 9 kw2.1 w1) (fun r =>
      in_listb ex_blobs (plan_blobs quick_hash toy_cuts (fun _ => true) r.1.2 (sn_tree <$> r.1.1) [fa; fb]) &&
      holds (ex_run kw2.1 w1 r.2) (fun kw3 => unusable kw3.1))) = true) as Hx by (vm_compute; reflexivity).
  apply holds_inv in Hx as ([k2 w2] & E1%play_ok & Hx). cbn [fst snd] in Hx.
  apply holds_inv in Hx as ([[parent pf] c] & E2%backup_of_ok & Hx). apply andb_true_iff in Hx as [Hu%in_listb_ok Hx].
  apply holds_inv in Hx as ([k3 w3] & E3%ex_run_ok & Hb%unusable_ok).
  destruct (ex_fine [Backup [fa; fb] 1 (Some 14)]) as [Hk _]; [vm_compute; reflexivity|].
  assert (fine quick_hash (in_list ex_blobs) (k2, w2)) as [Hk2 _].
  { apply (history_fine quick_hash (in_list ex_blobs) ex_universe quick_hash_length (k1, clean)); [by apply fine_clean; [apply ex_universe|apply quick_hash_length|]|done]. }
  exists quick_hash, (in_list ex_blobs), k1, w1, k2, w2, parent, pf, c, k3, w3.
  split; [apply ex_universe|]. split; [apply quick_hash_length|]. split.
  { unfold k1, w1. rewrite <-surjective_pairing. refine (ex_history _ _). vm_compute. reflexivity. }
  split; [exact E1|]. split; [exact (in_order_usable _ _ ex_universe quick_hash_length _ Hk2)|].
  split; [exact E2|]. split; [apply paths_okb_ok; vm_compute; reflexivity|]. split; [exact Hu|]. split; [exact E3|exact Hb].
Qed.

(** * C23: copying a snapshot copies everything it needs *)

(** At every point of a copy the destination is in order and keeps its snapshots. *)
Theorem C23_copy_is_safe_at_every_point H U filter src chosen fuel forests k w c target cpus errors k' w' :
  universe H U -> (forall x, length (H x) = 28) ->
  in_order H U src -> (forall sn, sn ∈ chosen -> exists i, k_snaps src !! i = Some sn) ->
  in_order H U k -> own_leftovers H U k w ->
  copy_command H false filter src chosen fuel forests k w c ->
  Forall U (rplan_all H filter (chunk_of (repo_store src)) fuel forests) ->
  no_clash H k w c -> errors <> ErrorAny ->
  command_reaches H target true cpus errors k w c k' w' ->
  in_order H U k' /\ usable k' /\
  (forall i sn, k_snaps k !! i = Some sn -> k_snaps k' !! i = Some sn /\
     exists es, program_reads H k sn es /\ program_reads H k' sn es) /\
  (forall i sn, k_snaps k' !! i = Some sn -> exists es, program_reads H k' sn es).
Proof.
  intros HU Hlen Hsrc Hch Hk Hw Hc HpU Hcl He Hr.
  destruct (copy_adding H U HU Hlen _ _ _ _ _ _ _ _ Hsrc Hch Hk Hw Hc HpU) as (_ & sns & Ha & _).
  destruct (adds_safe H U HU Hlen k w c _ sns target cpus errors k' w' He Hk Hw Ha HpU Hcl Hr) as (Hk' & Hw' & Hsn & Hst).
  split; [done|]. split; [by apply (in_order_usable H U HU Hlen)|]. split.
  - intros i sn Hi. split; [by apply Hsn|]. destruct (io_snaps _ _ _ Hk i sn Hi) as [es Hes]. exists es.
    rewrite !(program_reads_iff H U HU Hlen) by done. split; [done|]. by eapply reads_root_mono.
  - intros i sn Hi. destruct (io_snaps _ _ _ Hk' i sn Hi) as [es Hes]. exists es. by rewrite (program_reads_iff H U HU Hlen).
Qed.

(** When it is done, every snapshot asked for is at the destination with the
    same files, less what the skip rules reject; without skip rules it is the very
    same snapshot; and no blob the destination had was sent. *)
Theorem C23_copy_copies_everything H U filter src chosen fuel forests k w c target cpus k' w' :
  universe H U -> (forall x, length (H x) = 28) ->
  in_order H U src -> (forall sn, sn ∈ chosen -> exists i, k_snaps src !! i = Some sn) ->
  in_order H U k -> own_leftovers H U k w ->
  copy_command H false filter src chosen fuel forests k w c ->
  Forall U (rplan_all H filter (chunk_of (repo_store src)) fuel forests) ->
  no_clash H k w c -> command_done H target true cpus k w c k' w' ->
  (forall sn, sn ∈ chosen -> exists sn',
     k_snaps k' !! snapshot_id H sn' = Some sn' /\
     sn' = mkSnapshot (sn_time sn) (sn_tz sn) (sn_author sn) (sn_tags sn) (sn_paths sn) (sn_tree sn') /\
     ((forall p, filter p = true) -> sn' = sn) /\
     exists es, program_reads H src sn es /\ program_reads H k' sn' (kept_entries filter es)) /\
  (forall b, b ∈ c_blobs c -> forall b', b' ∈ live_blobs k -> b_id b' <> b_id b) /\
  w_wip w' = None.
Proof.
  intros HU Hlen Hsrc Hch Hk Hw Hc HpU Hcl Hd.
  destruct (copy_adding H U HU Hlen _ _ _ _ _ _ _ _ Hsrc Hch Hk Hw Hc HpU) as (_ & sns & Ha & HF).
  destruct (adds_done H U HU Hlen k w c _ sns target cpus k' w' Hk Hw Ha HpU Hcl Hd) as (Ewip & Hstored & Hput).
  destruct (adds_safe H U HU Hlen k w c _ sns target cpus NoError k' w' ltac:(done) Hk Hw Ha HpU Hcl (done_reaches _ _ _ _ _ _ _ _ _ Hd))
    as (Hk' & _).
  split; [|split; [|done]].
  - intros sn Hsn. destruct (Hch sn Hsn) as [i Hi]. destruct (io_snaps _ _ _ Hsrc i sn Hi) as [es Hes].
    apply elem_of_list_lookup in Hsn as [j Hj]. eapply Forall2_lookup_l in HF as (sn' & Hj' & E & Hall & Hread); [|exact Hj].
    exists sn'. split; [apply Hput; by eapply elem_of_list_lookup_2|]. split; [done|]. split; [done|].
    exists es. rewrite !(program_reads_iff H U HU Hlen) by done. split; [done|]. by apply Hread.
  - intros b Hb b' Hb' E. destruct (adds_sent H U HU Hlen k w c _ sns b Ha Hb) as [_ Hn]. apply Hn.
    apply (live_blob_flat H U HU Hlen k _ (in_order_structured _ _ _ Hk)). eauto.
Qed.

(** Copying both snapshots to a repository that has one of the files, without the file [bb]. *)
Definition not_bb (p : bytes) : bool := negb (bool_decide (p = ascii_bytes "bb")).
Definition two_kw : backend * workdir := ex_kw two_backups.
Definition other_kw : backend * workdir := ex_kw [Backup [fz] 3 None].
Definition both : list snapshot := [ex_snap [fa; fb] 1; ex_snap [fa] 2].
Example C23_witness : exists forests c k' w',
  in_order quick_hash (in_list ex_blobs) two_kw.1 /\ (forall sn, sn ∈ both -> exists i, k_snaps two_kw.1 !! i = Some sn) /\
  in_order quick_hash (in_list ex_blobs) other_kw.1 /\ own_leftovers quick_hash (in_list ex_blobs) other_kw.1 other_kw.2 /\
  copy_command quick_hash false not_bb two_kw.1 both 20 forests other_kw.1 other_kw.2 c /\
  Forall (in_list ex_blobs) (rplan_all quick_hash not_bb (chunk_of (repo_store two_kw.1)) 20 forests) /\
  no_clash quick_hash other_kw.1 other_kw.2 c /\ command_done quick_hash 20000 true 4 other_kw.1 other_kw.2 c k' w' /\
  length (c_blobs c) = 2 /\ size (k_snaps k') = 3.
Proof.
  assert (holds (exec_copy quick_hash false not_bb two_kw.1 both 20 other_kw.1 other_kw.2) (fun r =>
    in_listb ex_blobs (rplan_all quick_hash not_bb (chunk_of (repo_store two_kw.1)) 20 r.1) &&
    clash_free quick_hash other_kw.1 other_kw.2 r.2 && bool_decide (length (c_blobs r.2) = 2) &&
    holds (ex_run other_kw.1 other_kw.2 r.2) (fun kw' => bool_decide (size (k_snaps kw'.1) = 3))) = true) as Hx
    by (vm_compute; reflexivity).
  apply holds_inv in Hx as ([forests c] & E1%exec_copy_ok & Hx).
  apply andb_true_iff in Hx as [[[Hu%in_listb_ok Hcl%clash_free_ok]%andb_true_iff Hl%bool_decide_eq_true]%andb_true_iff Hx].
  apply holds_inv in Hx as ([k' w'] & E2%ex_run_ok & Hz%bool_decide_eq_true). exists forests, c, k', w'.
  destruct (ex_fine two_backups) as [Hk _]; [vm_compute; reflexivity|].
  destruct (ex_fine [Backup [fz] 3 None]) as [Ho Hlo]; [vm_compute; reflexivity|].
  split; [exact Hk|]. split.
  { intros sn [->|[->|[]%elem_of_nil]%elem_of_cons]%elem_of_cons;
      [exists (ex_sid [fa; fb] 1)|exists (ex_sid [fa] 2)]; apply snap_at_inv; vm_compute; reflexivity. }
  split; [exact Ho|]. split; [exact Hlo|]. split; [exact E1|]. split; [exact Hu|]. split; [exact Hcl|]. split; [exact E2|]. split; [exact Hl|exact Hz].
Qed.

(** * C24: filtering removes exactly the matching paths *)

(** [passes filter p]: neither the path [p] nor an ancestor is rejected.  The
    original snapshot stays.  If nothing is put, the filter rejects nothing that is there. *)
Theorem C24_filter_removes_exactly_what_matches H U filter sn i meta fuel fo k w c target cpus k' w' :
  universe H U -> (forall x, length (H x) = 28) ->
  in_order H U k -> own_leftovers H U k w -> w_wip w = None -> k_snaps k !! i = Some sn ->
  filter_command H false filter sn meta fuel fo k c ->
  Forall U (rplan_all H filter (chunk_of (repo_store k)) fuel [(sn, fo)]) ->
  no_clash H k w c -> command_done H target true cpus k w c k' w' ->
  k_snaps k' !! i = Some sn /\
  exists es, program_reads H k sn es /\ program_reads H k' sn es /\
    ((c_after c = [] /\ forall p n, fs_at es p = Some n -> passes filter p) \/
     exists sn' es', c_after c = [PutSnap sn'] /\ k_snaps k' !! snapshot_id H sn' = Some sn' /\ sn_paths sn' = sn_paths sn /\
       program_reads H k' sn' es' /\
       forall p,
         (forall n', fs_at es' p = Some n' -> passes filter p /\ exists n, fs_at es p = Some n /\ same_entry n n') /\
         (forall n, fs_at es p = Some n -> passes filter p -> exists n', fs_at es' p = Some n' /\ same_entry n n')).
Proof.
  intros HU Hlen Hk Hw Hwip Hi Hc HpU Hcl Hd.
  destruct (filter_adding H U HU Hlen filter sn i meta fuel fo k w c Hk Hw Hwip Hi Hc HpU) as (root & sns & Ha & Esns & _ & Hread).
  destruct (adds_done H U HU Hlen k w c _ sns target cpus k' w' Hk Hw Ha HpU Hcl Hd) as (_ & Hstored & Hput).
  destruct (adds_safe H U HU Hlen k w c _ sns target cpus NoError k' w' ltac:(done) Hk Hw Ha HpU Hcl (done_reaches _ _ _ _ _ _ _ _ _ Hd))
    as (Hk' & _ & Hkeep & Hgrow).
  split; [by apply Hkeep|]. destruct (io_snaps _ _ _ Hk i sn Hi) as [es Hes]. exists es.
  rewrite !(program_reads_iff H U HU Hlen) by done. split; [done|]. assert (restores H k' sn es) as Hes' by (by eapply reads_root_mono).
  split; [done|]. specialize (Hread (repo_store k') Hstored es Hes).
  assert (tidy_list es) as Ht.
  { eapply reads_root_tidy; [|exact Hes]. intros id t Hst. destruct (stored_sane H U HU Hlen k id t (in_order_structured _ _ _ Hk) Hst) as [[[_ [_ Hs]] _] _]. exact Hs. }
  assert (c_after c = map PutSnap sns) as Ea by (by destruct Ha as (? & ? & ? & -> & _)).
  case_bool_decide as Hroot.
  - left. subst sns. split; [done|]. intros p n Hp. subst root.
    assert (kept_entries filter es = es) as Ek by (eapply reads_root_fun; [exact Hread|exact Hes']).
    destruct (kept_entries_at filter es p Ht) as [Hk1 _]. rewrite Ek in Hk1. by destruct (Hk1 n Hp).
  - right. set (sn' := match meta with None => _ | Some _ => _ end) in *. exists sn', (kept_entries filter es). subst sns.
    assert (sn_tree sn' = root /\ sn_paths sn' = sn_paths sn) as [Et Ep] by (unfold sn'; by destruct meta as [[[[]]]|]).
    rewrite (program_reads_iff H U HU Hlen) by done. unfold restores. rewrite Et.
    split; [done|]. split; [apply Hput; by left|]. split; [done|]. split; [done|]. intros p. by apply kept_entries_at.
Qed.

(** And it is safe at every point before that. *)
Theorem C24_filter_is_safe_at_every_point H U filter sn i meta fuel fo k w c target cpus errors k' w' :
  universe H U -> (forall x, length (H x) = 28) ->
  in_order H U k -> own_leftovers H U k w -> w_wip w = None -> k_snaps k !! i = Some sn ->
  filter_command H false filter sn meta fuel fo k c ->
  Forall U (rplan_all H filter (chunk_of (repo_store k)) fuel [(sn, fo)]) ->
  no_clash H k w c -> errors <> ErrorAny -> command_reaches H target true cpus errors k w c k' w' ->
  (forall i sn, k_snaps k !! i = Some sn -> k_snaps k' !! i = Some sn) /\
  forall i sn, k_snaps k' !! i = Some sn -> exists es, program_reads H k' sn es.
Proof.
  intros HU Hlen Hk Hw Hwip Hi Hc HpU Hcl He Hr.
  destruct (filter_adding H U HU Hlen filter sn i meta fuel fo k w c Hk Hw Hwip Hi Hc HpU) as (root & sns & Ha & _).
  destruct (adds_safe H U HU Hlen k w c _ sns target cpus errors k' w' He Hk Hw Ha HpU Hcl Hr) as (Hk' & _ & Hsn & _).
  split; [done|]. intros j s Hj. destruct (io_snaps _ _ _ Hk' j s Hj) as [es Hes]. exists es. by rewrite (program_reads_iff H U HU Hlen).
Qed.

Definition one_kw : backend * workdir := ex_kw [Backup [fa; fb] 1 None].
Example C24_witness : exists fo c k' w' sn',
  in_order quick_hash (in_list ex_blobs) one_kw.1 /\ own_leftovers quick_hash (in_list ex_blobs) one_kw.1 one_kw.2 /\ w_wip one_kw.2 = None /\
  k_snaps one_kw.1 !! ex_sid [fa; fb] 1 = Some (ex_snap [fa; fb] 1) /\
  filter_command quick_hash false not_bb (ex_snap [fa; fb] 1) None 20 fo one_kw.1 c /\
  Forall (in_list ex_blobs) (rplan_all quick_hash not_bb (chunk_of (repo_store one_kw.1)) 20 [(ex_snap [fa; fb] 1, fo)]) /\
  no_clash quick_hash one_kw.1 one_kw.2 c /\ command_done quick_hash 20000 true 4 one_kw.1 one_kw.2 c k' w' /\
  new_snaps (c_after c) = [sn'].
Proof.
  assert (holds (exec_filter quick_hash false not_bb (ex_snap [fa; fb] 1) None 20 one_kw.1) (fun r =>
    in_listb ex_blobs (rplan_all quick_hash not_bb (chunk_of (repo_store one_kw.1)) 20 [(ex_snap [fa; fb] 1, r.1)]) &&
    clash_free quick_hash one_kw.1 one_kw.2 r.2 && bool_decide (length (new_snaps (c_after r.2)) = 1) &&
    holds (ex_run one_kw.1 one_kw.2 r.2) (fun kw' => true)) = true) as Hx
    by (vm_compute; reflexivity).
  apply holds_inv in Hx as ([fo c] & E1%exec_filter_ok & Hx).
  apply andb_true_iff in Hx as [[[Hu%in_listb_ok Hcl%clash_free_ok]%andb_true_iff Hl%bool_decide_eq_true]%andb_true_iff Hx].
  apply holds_inv in Hx as ([k' w'] & E2%ex_run_ok & _). cbn [snd] in Hl.
  destruct (new_snaps (c_after c)) as [|sn' [|]] eqn:En; [discriminate Hl| |discriminate Hl].
  exists fo, c, k', w', sn'. destruct (ex_fine [Backup [fa; fb] 1 None]) as [Hk Hlo]; [vm_compute; reflexivity|].
  split; [exact Hk|]. split; [exact Hlo|]. split; [apply no_wip_inv; vm_compute; reflexivity|].
  split; [apply snap_at_inv; vm_compute; reflexivity|].
  split; [exact E1|]. split; [exact Hu|]. split; [exact Hcl|]. split; [exact E2|exact En].
Qed.

(** * C38: rebuilding the index *)

(** Partial: the blobs on the backend must all be in one place ([once]); packs an
    interrupted run left without an index may break that, see below. *)
Theorem C38_rebuild_is_safe_partial H U k k' :
  universe H U -> (forall x, length (H x) = 28) ->
  in_order H U k -> once (all_packs k) -> fresh_rebuild H k -> rebuild_reaches H k k' ->
  usable k' /\ k_snaps k' = k_snaps k /\ k_packs k' = k_packs k /\
  forall i sn, k_snaps k !! i = Some sn -> exists es, program_reads H k sn es /\ program_reads H k' sn es.
Proof.
  intros HU Hlen Hk Ho Hf Hr. destruct (rebuild_all H U HU Hlen k Hk Ho Hf k' Hr) as (Hk' & Es & Ep & Hsame).
  split; [by apply (in_order_usable H U HU Hlen)|]. split; [done|]. split; [done|]. intros i sn Hi.
  destruct (io_snaps _ _ _ Hk i sn Hi) as [es Hes]. exists es. rewrite !(program_reads_iff H U HU Hlen) by done.
  split; [done|]. by apply (Hsame i sn es Hi).
Qed.

(** When it is done there is one index, which names exactly the packs there are,
    each with its own contents. *)
Theorem C38_rebuild_names_every_pack H k packs ix :
  Permutation packs (map fst (map_to_list (k_packs k))) -> rebuilt_index k packs = Ok ix ->
  index_id H ix ∉ ix_supersedes ix ->
  k_indexes (apply_ops H (mkBackend (k_packs k) (<[index_id H ix := ix]> (k_indexes k)) (k_snaps k)) (map DelIndex (ix_supersedes ix)))
    = {[index_id H ix := ix]} /\
  forall p m, (p, m) ∈ ix_packs ix <-> exists bs, k_packs k !! p = Some bs /\ manifest_of bs = m.
Proof.
  intros Hp E Hself. destruct (rebuilt_spec k packs ix Hp E) as (_ & _ & Hsup & Hpk). split.
  - match goal with |- k_indexes (apply_ops H ?k1 _) = _ => destruct (del_indexes H k1 (ix_supersedes ix)) as (_ & _ & Hl) end.
    apply map_eq. intros j. rewrite Hl. destruct (decide (j = index_id H ix)) as [->|Hne].
    + rewrite decide_False by done. simpl. by rewrite lookup_insert, lookup_singleton.
    + rewrite lookup_singleton_ne by done. case_decide as Hj; [done|]. simpl. rewrite lookup_insert_ne by done.
      destruct (k_indexes k !! j) eqn:Ej; [|done]. exfalso. apply Hj, Hsup. eauto.
  - intros p m. by rewrite Hpk, elem_of_all_packs.
Qed.

(** An interrupted backup has left a pack no index names; the rebuilt index names it. *)
Definition unindexed : list action := [Backup [fa; fb] 1 None; Backup [fz] 2 (Some 14)].
Example C38_witness : exists k',
  in_order quick_hash (in_list ex_blobs) (ex_kw unindexed).1 /\ once (all_packs (ex_kw unindexed).1) /\
  fresh_rebuild quick_hash (ex_kw unindexed).1 /\ rebuild_reaches quick_hash (ex_kw unindexed).1 k' /\
  length (live_packs (ex_kw unindexed).1) = 2 /\ length (live_packs k') = 3.
Proof.
  assert (rebuild_check quick_hash (ex_kw unindexed).1 &&
    holds (exec_rebuild quick_hash (ex_kw unindexed).1) (fun k' => bool_decide (length (live_packs k') = 3)) = true) as Hx
    by (vm_compute; reflexivity).
  apply andb_true_iff in Hx as [[Ho Hf]%rebuild_check_ok Hx]. apply holds_inv in Hx as (k' & E%exec_rebuild_ok & Hl%bool_decide_eq_true).
  exists k'. destruct (ex_fine unindexed) as [Hk _]; [vm_compute; reflexivity|].
  split; [exact Hk|]. split; [exact Ho|]. split; [exact Hf|]. split; [exact E|]. split; [vm_compute; reflexivity|exact Hl].
Qed.

(** A backup is interrupted after it has written a pack; another one, elsewhere,
    stores some of the same chunks.  The repository is in order; with the index
    rebuilt no command works any more. *)
Theorem C38_refuted : exists H U k k',
  universe H U /\ (forall x, length (H x) = 28) /\ history H U (empty_repo, clean) (k, clean) /\ usable k /\
  fresh_rebuild H k /\ rebuild_reaches H k k' /\ ~ usable k'.
Proof.
  set (acts := [Backup [fa; fb] 1 (Some 14); Leave; Backup [fa] 2 None; Leave]).
  assert (played acts = true) as Hp by (vm_compute; reflexivity).
  assert (match rebuilt_index (ex_kw acts).1 (map fst (map_to_list (k_packs (ex_kw acts).1))) with
    | Ok ix => negb (bool_decide (index_id quick_hash ix ∈ ix_supersedes ix)) && negb (bool_decide (index_id quick_hash ix ∈ superseded (ex_kw acts).1))
    | _ => false end && holds (exec_rebuild quick_hash (ex_kw acts).1) unusable = true) as Hx by (vm_compute; reflexivity).
  apply andb_true_iff in Hx as [Hf%fresh_rebuild_check Hx]. apply holds_inv in Hx as (k' & E%exec_rebuild_ok & Hl%unusable_ok).
  destruct (ex_fine acts Hp) as [Hk _]. exists quick_hash, (in_list ex_blobs), (ex_kw acts).1, k'.
  split; [apply ex_universe|]. split; [apply quick_hash_length|]. split.
  { pose proof (ex_history acts Hp) as Hh. rewrite (surjective_pairing (ex_kw acts)) in Hh.
    rewrite (played_clean acts) in Hh by (vm_compute; reflexivity). exact Hh. }
  split; [exact (in_order_usable _ _ ex_universe quick_hash_length _ Hk)|]. split; [exact Hf|]. split; [exact E|exact Hl].
Qed.

(** * C52: an unchanged backup adds nothing *)

(** Back up, then back up the same files again, from a directory without
    leftovers and with the first one's snapshot the latest: the second run gets
    going, sends nothing, and whatever the schedule leaves the backend exactly as
    it was; its asserts hold. *)
Theorem C52_unchanged_backup_adds_nothing_partial H U cuts deref allow_empty filter author tz tags now paths parent pf k w c target cpus k' w'
    allow_empty2 now2 w2 sn :
  universe H U -> (forall x, length (H x) = 28) ->
  in_order H U k -> own_leftovers H U k w ->
  backup_command H cuts false deref allow_empty filter author tz tags now paths parent pf k w c ->
  paths_ok cuts deref paths -> Forall U (plan_blobs H cuts filter pf (sn_tree <$> parent) paths) -> no_clash H k w c ->
  command_done H target true cpus k w c k' w' ->
  c_after c = [PutSnap sn] -> (forall i s, k_snaps k !! i = Some s -> (sn_time s < now)%Z) ->
  w_wip w2 = None ->
  (exists parent2 pf2 c2, backup_command H cuts false deref allow_empty2 filter author tz tags now2 paths parent2 pf2 k' w2 c2) /\
  forall parent2 pf2 c2, backup_command H cuts false deref allow_empty2 filter author tz tags now2 paths parent2 pf2 k' w2 c2 ->
    parent2 = Some sn /\ c_blobs c2 = [] /\ c_after c2 = [] /\ backup_asserts c2 = Ok tt /\
    forall target2 cpus2 errors2 k2 w2', command_reaches H target2 true cpus2 errors2 k' w2 c2 k2 w2' ->
      k2 = k' /\ w_packs w2' = w_packs w2.
Proof.
  intros HU Hlen Hk Hw Hc Hok HpU Hcl Hd Haf Htime Hw2. split.
  - destruct (backup_adding H U HU Hlen _ _ _ _ _ _ _ _ _ _ _ _ _ _ Hk Hw Hc Hok HpU Hcl) as (_ & _ & sns & Ha & Hsns).
    destruct (adds_safe H U HU Hlen k w c _ sns target cpus NoError k' w' ltac:(done) Hk Hw Ha HpU Hcl (done_reaches _ _ _ _ _ _ _ _ _ Hd))
      as (Hk' & _). destruct (in_order_maps H U HU Hlen k' Hk') as (ix & bmap & packed & E1 & E2 & E3 & _).
    set (parent2 := parent_snapshot (map (fun e : fspath => e.1.1) paths) (chrono k')).
    assert (exists pf2, match parent2 with None => pf2 = ∅ | Some p => exists fuel, load_forest H k' bmap fuel (sn_tree p) = Some (Ok pf2) end /\
        forest_sane pf2) as (pf2 & Hpf2 & Hsane).
    { destruct parent2 as [p|] eqn:Ep; [|exists ∅; split; [done|by apply map_Forall_empty]].
      destruct (parent_in H U HU Hlen _ _ _ _ (chrono_ok k') Ep) as [i Hi]. destruct (io_snaps _ _ _ Hk' i p Hi) as [es Hes].
      destruct (load_forest_total H U HU Hlen k' ix bmap (in_order_structured _ _ _ Hk') E1 E2 _ _ Hes) as [fo Hfo].
      exists fo. split; [eauto|]. destruct (forest_facts H U HU Hlen k' ix bmap _ p fo i Hk' E1 E2 Hi Hfo) as (_ & F2 & _).
      intros id t Ht. by destruct (F2 id t Ht) as (_ & ? & _). }
    exists parent2, pf2. eexists. exists ix, bmap, (chrono k'), index_default, [], packed. do 2 eexists.
    split; [destruct Hc as (? & ? & ? & ? & ? & ? & ? & ? & Hrm & _); exact Hrm|]. split; [exact E1|]. split; [exact E2|].
    split; [apply chrono_ok|]. cbv zeta. split; [done|]. split; [done|]. split.
    { unfold resume. rewrite E3. unfold find_resumable. rewrite Hw2. done. }
    split; [by apply backup_tree_plan|reflexivity].
  - intros parent2 pf2 c2 Hc2.
    destruct (second_backup H U HU Hlen _ _ _ _ _ _ _ _ _ _ _ _ _ _ _ _ _ _ _ _ _ _ _ _ _ Hk Hw Hc Hok HpU Hcl Hd Haf Htime Hw2 Hc2) as [-> ->].
    split; [done|]. split; [done|]. split; [done|]. split; [done|].
    intros target2 cpus2 errors2 k2 w2' (s & n & Hs & _ & -> & ->). simpl in Hs. destruct (idle_during _ _ _ _ _ _ _ _ Hs) as [E1 E2].
    simpl. rewrite take_nil. simpl. by rewrite E1, E2.
Qed.

Definition first_kw : backend * workdir := ex_kw [Backup [fa] 1 None].
Example C52_witness : exists parent pf c k' w' sn,
  let k := first_kw.1 in let w := first_kw.2 in
  in_order quick_hash (in_list ex_blobs) k /\ own_leftovers quick_hash (in_list ex_blobs) k w /\
  backup_command quick_hash toy_cuts false false false (fun _ => true) [] [] [] 3 [fa; fb] parent pf k w c /\
  paths_ok toy_cuts false [fa; fb] /\
  Forall (in_list ex_blobs) (plan_blobs quick_hash toy_cuts (fun _ => true) pf (sn_tree <$> parent) [fa; fb]) /\
  no_clash quick_hash k w c /\ command_done quick_hash 20000 true 4 k w c k' w' /\
  c_after c = [PutSnap sn] /\ (forall i s, k_snaps k !! i = Some s -> (sn_time s < 3)%Z).
Proof.
  set (k := first_kw.1). set (w := first_kw.2).
  assert (holds (backup_of quick_hash toy_cuts [fa; fb] 3 k w) (fun r =>
    in_listb ex_blobs (plan_blobs quick_hash toy_cuts (fun _ => true) r.1.2 (sn_tree <$> r.1.1) [fa; fb]) && clash_free quick_hash k w r.2 &&
    one_snap (c_after r.2) &&
    holds (ex_run k w r.2) (fun _ => true)) = true) as Hx by (vm_compute; reflexivity).
  apply holds_inv in Hx as ([[parent pf] c] & E1%backup_of_ok & Hx).
  apply andb_true_iff in Hx as [[[Hu%in_listb_ok Hcl%clash_free_ok]%andb_true_iff [sn Ea]%one_snap_inv]%andb_true_iff Hx].
  apply holds_inv in Hx as ([k' w'] & E2%ex_run_ok & _).
  exists parent, pf, c, k', w', sn. cbv zeta.
  destruct (ex_fine [Backup [fa] 1 None]) as [Hk Hlo]; [vm_compute; reflexivity|].
  split; [exact Hk|]. split; [exact Hlo|].
  split; [exact E1|]. split; [apply paths_okb_ok; vm_compute; reflexivity|]. split; [exact Hu|]. split; [exact Hcl|]. split; [exact E2|]. split; [exact Ea|].
  apply (bool_decide_unpack (map_Forall (fun _ s => (sn_time s < 3)%Z) (k_snaps k))). vm_compute. exact I.
Qed.

(** With leftovers of an interrupted run it is different: the backup of unchanged
    files goes on from an index that is not empty, sends nothing, and then
    asserts that the index is empty (src/ui/backup.rs:252-257): it panics. *)
Theorem C52_refuted : exists H U k w parent pf c,
  universe H U /\ (forall x, length (H x) = 28) /\
  history H U (empty_repo, clean) (k, w) /\
  (exists i sn, k_snaps k !! i = Some sn /\ sn_paths sn = map (fun e : fspath => e.1.1) [fa]) /\
  backup_command H toy_cuts false false false (fun _ => true) [] [] [] 3 [fa] parent pf k w c /\
  c_blobs c = [] /\ c_after c = [] /\ backup_asserts c = Panic.
Proof.
  set (acts := [Backup [fa] 1 None; Backup [fb] 2 (Some 14)]).
  set (k := (ex_kw acts).1). set (w := (ex_kw acts).2).
  assert (holds (backup_of quick_hash toy_cuts [fa] 3 k w) (fun r =>
    match c_blobs r.2, c_after r.2, backup_asserts r.2 with [], [], Panic => true | _, _, _ => false end) = true) as Hx
    by (vm_compute; reflexivity).
  apply holds_inv in Hx as ([[parent pf] c] & E1%backup_of_ok & Hx). cbn [snd] in Hx.
  exists quick_hash, (in_list ex_blobs), k, w, parent, pf, c.
  split; [apply ex_universe|]. split; [apply quick_hash_length|]. split.
  { unfold k, w. rewrite <-surjective_pairing. refine (ex_history _ _). vm_compute. reflexivity. }
  split. { exists (ex_sid [fa] 1), (ex_snap [fa] 1). split; [apply snap_at_inv; vm_compute; reflexivity|reflexivity]. }
  split; [exact E1|]. destruct (c_blobs c), (c_after c), (backup_asserts c); try discriminate Hx. done.
Qed.

(** * C46: a dry run changes nothing on the backend *)

Lemma dry_back H target cpus errors s s' : pstep H target false cpus errors s s' -> ps_back s' = ps_back s.
Proof.
  destruct 1; try done.
  - destruct (ps_indexer s); try done. by destruct (bool_decide _).
  - by destruct closed.
  - unfold close_pack. by destruct (packer_finish _).
  - by destruct j.
  - by destruct j.
Qed.
Lemma dry_during H target cpus errors k w start ups bs s : during H target false cpus errors k w start ups bs s -> ps_back s = k.
Proof.
  intros Hs. change k with (ps_back (pipeline_start target k w start ups bs)). induction Hs as [|a b d Hab Hbc IH]; [done|].
  rewrite IH. by eapply dry_back.
Qed.
Lemma dry_reaches H target cpus errors k w c k' w' : c_after c = [] -> command_reaches H target false cpus errors k w c k' w' -> k' = k.
Proof. intros E (s & n & Hs & _ & -> & _). rewrite E, take_nil. simpl. by eapply dry_during. Qed.

(** Partial: only the backend is left alone.  The working directory is not: see
    the refutation below.  A restore's dry run is treated in its own file. *)
Theorem C46_dry_run_leaves_the_backend_partial H k w target cpus errors k' w' :
  (forall cuts deref allow_empty filter author tz tags now paths parent pf c,
    backup_command H cuts true deref allow_empty filter author tz tags now paths parent pf k w c ->
    command_reaches H target false cpus errors k w c k' w' -> k' = k) /\
  (forall filter src chosen fuel forests c,
    copy_command H true filter src chosen fuel forests k w c -> command_reaches H target false cpus errors k w c k' w' -> k' = k) /\
  (forall filter sn meta fuel fo c,
    filter_command H true filter sn meta fuel fo k c -> command_reaches H target false cpus errors k w c k' w' -> k' = k) /\
  (forall c, prune_command H true k w (Some c) -> command_reaches H target false cpus errors k w c k' w' -> k' = k) /\
  (forall ids, apply_ops H k (forget_ops true ids) = k).
Proof.
  split_and!.
  - intros cuts deref ae filter author tz tags now paths parent pf c (ix & bmap & snaps & start & ups & packed & s & root & _ & _ & _ & _ & _ & _ & _ & _ & ->).
    apply dry_reaches. simpl. destruct (_ && _); [done|]. destruct (last snaps) as [[]|]; [|done]. by destruct (bool_decide _).
  - intros filter src chosen fuel forests c (? & ? & ? & ? & ? & ? & ? & ? & _ & _ & _ & _ & _ & _ & ->). by apply dry_reaches.
  - intros filter sn meta fuel fo c (? & ? & ? & ? & ? & _ & _ & _ & _ & _ & ->). apply dry_reaches. simpl. by destruct (bool_decide _).
  - intros c (? & ? & ? & ? & ? & _ & _ & _ & _ & Hc). cbv zeta in Hc. case_decide; [done|].
    destruct Hc as (? & ? & ? & ? & ? & _ & _ & E). injection E as ->. by apply dry_reaches.
  - done.
Qed.

(** A dry run in a directory with the leftovers of an interrupted backup removes
    the index that backup would go on from. *)
Theorem C46_refuted : exists H U k w parent pf c s,
  universe H U /\ (forall x, length (H x) = 28) /\
  history H U (empty_repo, clean) (k, w) /\ w_wip w <> None /\
  backup_command H toy_cuts true false false (fun _ => true) [] [] [] 3 [fa; fb] parent pf k w c /\
  during H 20000 false 4 NoError k w (c_start c) (c_ups c) (c_blobs c) s /\ ps_main s = MDone true /\
  ps_back s = k /\ ps_wip s = None.
Proof.
  set (k := interrupted_kw.1). set (w := interrupted_kw.2).
  assert (holds (exec_backup quick_hash toy_cuts true false false (fun _ => true) [] [] [] 3 [fa; fb] 20 k w) (fun r =>
    let s := run quick_hash 20000 false 4 (fun _ => false) 300 (start_of 20000 k w r.2) in
    is_done (ps_main s) && match ps_wip s with None => true | _ => false end) = true) as Hx by (vm_compute; reflexivity).
  apply holds_inv in Hx as ([[parent pf] c] & E1%exec_backup_ok & Hx). cbv zeta in Hx. cbn [snd] in Hx.
  pose proof (run_ok quick_hash 20000 false 4 (fun _ => false) 300 (start_of 20000 k w c)) as Hr.
  set (s := run quick_hash 20000 false 4 (fun _ => false) 300 (start_of 20000 k w c)) in *.
  apply andb_true_iff in Hx as [Hd%is_done_inv Hw].
  exists quick_hash, (in_list ex_blobs), k, w, parent, pf, c, s.
  split; [apply ex_universe|]. split; [apply quick_hash_length|]. split.
  { unfold k, w, interrupted_kw. rewrite <-surjective_pairing. refine (ex_history _ _). vm_compute. reflexivity. }
  split; [apply wip_inv; vm_compute; reflexivity|].
  split; [exact E1|]. split; [exact Hr|]. split; [exact Hd|]. split; [exact (dry_during _ _ _ _ _ _ _ _ _ _ Hr)|]. by destruct (ps_wip s).
Qed.

Print Assumptions C15_visible_snapshots_are_complete_partial.
Print Assumptions C15_commands_keep_the_contents_partial.
Print Assumptions C15_refuted.
Print Assumptions C19_prune_keeps_every_snapshot.
Print Assumptions C19_refuted_when_reading_fails.
Print Assumptions C20_prune_removes_garbage.
Print Assumptions C20_prune_acts_on_garbage_only.
Print Assumptions C21_resumed_prune_is_safe_partial.
Print Assumptions C21_prunes_again_and_again_partial.
Print Assumptions C21_others_may_run_any_command.
Print Assumptions C21_witness.
Print Assumptions C21_refuted.
Print Assumptions C22_resumed_backup_is_safe_partial.
Print Assumptions C22_resumed_backup_finishes_partial.
Print Assumptions C22_refuted_after_prune.
Print Assumptions C22_refuted_after_another_backup.
Print Assumptions C23_copy_is_safe_at_every_point.
Print Assumptions C23_copy_copies_everything.
Print Assumptions C24_filter_removes_exactly_what_matches.
Print Assumptions C24_filter_is_safe_at_every_point.
Print Assumptions C38_rebuild_is_safe_partial.
Print Assumptions C38_rebuild_names_every_pack.
Print Assumptions C38_refuted.
Print Assumptions C52_unchanged_backup_adds_nothing_partial.
Print Assumptions C52_refuted.
Print Assumptions C46_dry_run_leaves_the_backend_partial.
Print Assumptions C46_refuted.
