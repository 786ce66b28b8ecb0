(** C16 for whole backups: commands run on a repository, from a fresh directory or
    going on from an interrupted run, to the end. *)

From Verif Require Import Base OMap Formats FormatsFacts Hashing Pack Index IndexFacts Meta Forest FsTree FsSpec FsFacts BackupFacts PropsBackup
  Pipeline PipelineFacts PropsPipeline Repo RepoSpec RepoFacts RewriteFacts PublishFacts PlanFacts CommandFacts
  History PruneFacts ReadFacts HistoryFacts PathFacts Exec RepeatFacts Toy Witness PropsRepo.

(** A store with all the blobs of a backup gives back what was backed up. *)
Lemma plan_root_reads H cuts deref filter pf parent paths st :
  (forall x, length (H x) = 28) -> (forall x, concat (cuts x) = x) -> forest_sane pf ->
  paths_ok cuts deref paths ->
  (forall id t, pf !! id = Some t -> stored_as H st id t) ->
  (forall r, parent = Some r -> exists before, reads_root H st r before /\ stamps_honest before (kept_paths filter paths)) ->
  has_items H st (plan_all H cuts filter pf parent paths) ->
  reads_root H st (plan_root H cuts filter pf parent paths) (kept_paths filter paths).
Proof.
  intros Hlen Hcuts Hpf (Hlen' & Hnd' & Hokall) Hpfst Hpar Hhas.
  unfold plan_all, plan_list in Hhas.
  destruct (plan_list_reads H cuts filter pf deref Hlen Hcuts st Hpf (fun e : fspath => e.1.2)
    (fun e : fspath => plan H cuts filter pf e.1.1 ((parent ≫= (fun id => pf !! id)) ≫= om_get e.1.2) e.2)
    (fun e : fspath => kept filter e.1.1 e.2) paths) as (Hsane & Hroot & HF); [done| | |done|].
  { eapply Forall_impl; [exact Hokall|]. intros e [He _]. exact He. }
  { apply Forall_forall. intros e He. eapply Forall_forall in Hokall as [_ Hoke]; [|exact He].
    eapply plan_reads; try done; [by apply ptree_sane|].
    eapply (honest_from H); [exact Hpfst|exact Hoke|].
    intros p Hp. destruct parent as [r|]; simpl in Hp; [|done].
    destruct (pf !! r) as [tr|] eqn:Er; simpl in Hp; [|done].
    destruct (Hpar r eq_refl) as (before & (t0 & Ht0 & HF0) & Hhon).
    assert (t0 = tr) as -> by (eapply stored_as_fun; eauto).
    destruct (Forall2_om_get _ _ _ _ _ HF0 Hp) as (n0 & Hg & Hr).
    exists n0. split; [done|]. intros n' Hn'. eapply stamps_honest_node; [exact Hhon|exact Hg|].
    unfold kept_paths. apply om_get_of_list; [by apply collect_nodup|].
    apply collect_elem. eauto. }
  exists (plan_tree (plan_list H cuts filter pf parent paths)). split; [exact Hroot|exact HF].
Qed.

(** ** C16 *)

(** The backup command on a repository in order, in a directory that is empty or
    in which an interrupted backup or copy left packs and an index, on any
    schedule of the threads: when it is done, the repository has a snapshot with
    the author, tags and paths given, from which the program reads exactly the
    files, links and directories backed up, without those the filter rejects.
    It is the one written, or, if none was, the last one there was; only when
    nothing at all is backed up, and that was not asked for, there need not be one.
    Chunks may be cut anywhere.  The parent is trusted for files whose size and
    modification time are those it has. *)
Theorem C16_finished_backup_gives_the_files_back H U cuts deref allow_empty filter author tz tags now paths parent pf k w c target cpus k' w' :
  universe H U -> (forall x, length (H x) = 28) -> (forall x, concat (cuts x) = x) ->
  in_order H U k -> own_leftovers H U k w ->
  backup_command H cuts false deref allow_empty filter author tz tags now paths parent pf k w c ->
  paths_ok cuts deref paths -> Forall U (plan_blobs H cuts filter pf (sn_tree <$> parent) paths) ->
  (forall p before, parent = Some p -> program_reads H k p before -> stamps_honest before (kept_paths filter paths)) ->
  no_clash H k w c -> command_done H target true cpus k w c k' w' ->
  w_wip w' = None /\
  (forall i sn es, k_snaps k !! i = Some sn -> program_reads H k sn es -> k_snaps k' !! i = Some sn /\ program_reads H k' sn es) /\
  ((kept_paths filter paths = [] /\ allow_empty = false /\ c_after c = []) \/
   exists i sn, k_snaps k' !! i = Some sn /\
     (c_after c = [PutSnap sn] /\ i = snapshot_id H sn /\ sn_time sn = now \/ c_after c = [] /\ k_snaps k !! i = Some sn) /\
     sn_author sn = author /\ sn_tags sn = tags /\ sn_paths sn = map (fun e : fspath => e.1.1) paths /\
     program_reads H k' sn (kept_paths filter paths)).
Proof.
  intros HU Hlen Hcuts Hk Hw Hc Hp HpU Hhon Hcl Hd.
  destruct (backup_adding H U HU Hlen _ _ _ _ _ _ _ _ _ _ _ _ _ _ Hk Hw Hc Hp HpU Hcl) as (Hpfs & Hpfst & sns & Ha & Hsns).
  destruct (adds_done H U HU Hlen k w c _ sns target cpus k' w' Hk Hw Ha HpU Hcl Hd) as (Hwip & Hall & Hput).
  destruct (adds_safe H U HU Hlen k w c _ sns target cpus NoError k' w' ltac:(done) Hk Hw Ha HpU Hcl (done_reaches _ _ _ _ _ _ _ _ _ Hd))
    as (Hk' & _ & Hkeep & Hsub).
  assert (reads_root H (repo_store k') (plan_root H cuts filter pf (sn_tree <$> parent) paths) (kept_paths filter paths)) as Hroot.
  { apply (plan_root_reads H cuts deref); try done.
    - intros id t Ht. eapply stored_as_mono; eauto.
    - intros r Er. destruct parent as [p|]; [|done]. injection Er as <-.
      assert (exists i, k_snaps k !! i = Some p) as [i Hi].
      { destruct Hc as (ix & bmap & snaps & start & ups & packed & s & root & _ & Eix & Ebm & Hch & Epar & _). symmetry in Epar.
        by apply (parent_in H U HU Hlen _ _ _ _ Hch Epar). }
      destruct (io_snaps _ _ _ Hk i p Hi) as [before Hb]. exists before. split; [by eapply reads_root_mono|].
      apply (Hhon p before); [done|]. by rewrite (program_reads_iff H U HU Hlen).
    - intros b Hb. split; [by apply Hall|]. intros Hty Hid.
      eapply Forall_forall in HpU; [|exact Hb]. apply (un_empty H U HU) in Hid; [|done].
      apply plan_blob_shape in Hb as [[? _]|(t & -> & Hne & _)]; [congruence|]. destruct t as [|kv t]; [done|].
      by apply (enc_tree_nonempty kv t). }
  split; [done|]. split.
  { intros i sn es Hi. rewrite !(program_reads_iff H U HU Hlen) by done. intros Hes. split; [|by eapply reads_root_mono].
    by apply Hkeep. }
  destruct Hc as (ix & bmap & snaps & start & ups & packed & s & root & _ & Eix & Ebm & Hch & Epar & _ & _ & Ebt & Ec).
  rewrite backup_tree_plan in Ebt by done. injection Ebt as _ Er. symmetry in Er. subst root. cbv zeta in Ec.
  set (sn := mkSnapshot now tz author tags (map (fun e : fspath => e.1.1) paths) (plan_root H cuts filter pf (sn_tree <$> parent) paths)) in *.
  assert (program_reads H k' sn (kept_paths filter paths)) as Hnew by (by rewrite (program_reads_iff H U HU Hlen)).
  assert (c_after c = [PutSnap sn] -> k_snaps k' !! snapshot_id H sn = Some sn) as Hwritten.
  { intros E. apply Hput. destruct Ha as (? & ? & ? & -> & _). cbn [c_after] in E. destruct sns as [|sn1 [|sn2 sns']]; [done| |done].
    injection E as ->. by left. }
  destruct (bool_decide (plan_root H cuts filter pf (sn_tree <$> parent) paths = empty_id H) && negb allow_empty) eqn:Eb.
  - left. apply andb_true_iff in Eb as [He%bool_decide_eq_true Hal%negb_true_iff]. subst c. split; [|done].
    destruct Hroot as (t & Ht & HF). unfold stored_as in Ht. rewrite decide_True in Ht by done. subst t. by inversion HF.
  - right. destruct (last snaps) as [[p i]|] eqn:El.
    + destruct (bool_decide _) eqn:Es in Ec.
      * apply bool_decide_eq_true in Es. exists i, p.
        assert (k_snaps k !! i = Some p) as Hi.
        { destruct Hch as [Hpm _]. apply last_Some_elem_of in El. rewrite <-Hpm in El.
          apply elem_of_list_fmap in El as ([j x] & [= -> ->] & Hj). by apply elem_of_map_to_list in Hj. }
        injection Es as E1 E2 E3 E4. subst c.
        split; [by apply Hkeep|]. split; [right; done|]. split_and!; [done..|].
        rewrite (program_reads_iff H U HU Hlen) by done. unfold restores. by rewrite E4.
      * exists (snapshot_id H sn), sn. subst c. cbn [c_after] in *. split_and!; auto.
    + exists (snapshot_id H sn), sn. subst c. cbn [c_after] in *. split_and!; auto.
Qed.
Print Assumptions C16_finished_backup_gives_the_files_back.

(** It applies: to a run that goes on where an interrupted one stopped, and to one
    of the same files after it, where there is a parent and nothing is written. *)
Example C16_witness_whole : exists parent pf c k1 w1 sn parent2 pf2 c2 k2 w2,
  let k := interrupted_kw.1 in let w := interrupted_kw.2 in
  in_order quick_hash (in_list ex_blobs) k /\ own_leftovers quick_hash (in_list ex_blobs) k w /\ w_wip w <> None /\
  backup_command quick_hash toy_cuts false false false (fun _ => true) [] [] [] 3 [fa; fb] parent pf k w c /\
  paths_ok toy_cuts false [fa; fb] /\
  Forall (in_list ex_blobs) (plan_blobs quick_hash toy_cuts (fun _ => true) pf (sn_tree <$> parent) [fa; fb]) /\
  parent = None /\ no_clash quick_hash k w c /\ length (c_blobs c) = 1 /\
  command_done quick_hash 20000 true 4 k w c k1 w1 /\ c_after c = [PutSnap sn] /\
  (** The second run. *)
  in_order quick_hash (in_list ex_blobs) k1 /\ own_leftovers quick_hash (in_list ex_blobs) k1 w1 /\
  backup_command quick_hash toy_cuts false false false (fun _ => true) [] [] [] 4 [fa; fb] parent2 pf2 k1 w1 c2 /\
  Forall (in_list ex_blobs) (plan_blobs quick_hash toy_cuts (fun _ => true) pf2 (sn_tree <$> parent2) [fa; fb]) /\
  parent2 = Some sn /\
  (forall p before, parent2 = Some p -> program_reads quick_hash k1 p before -> stamps_honest before (kept_paths (fun _ => true) [fa; fb])) /\
  no_clash quick_hash k1 w1 c2 /\ command_done quick_hash 20000 true 4 k1 w1 c2 k2 w2 /\ c_after c2 = [] /\ kept_paths (fun _ => true) [fa; fb] <> [].
Proof.
  set (k := interrupted_kw.1). set (w := interrupted_kw.2). set (sn := ex_snap [fa; fb] 3).
  assert (negb (no_wip w) && holds (backup_of quick_hash toy_cuts [fa; fb] 3 k w) (fun r =>
    in_listb ex_blobs (plan_blobs quick_hash toy_cuts (fun _ => true) r.1.2 (sn_tree <$> r.1.1) [fa; fb]) && clash_free quick_hash k w r.2 &&
    bool_decide (length (c_blobs r.2) = 1) && bool_decide (length (c_after r.2) = 1) && bool_decide (sn ∈ new_snaps (c_after r.2)) && bool_decide (r.1.1 = None) &&
    holds (ex_run k w r.2) (fun kw1 => holds (backup_of quick_hash toy_cuts [fa; fb] 4 kw1.1 kw1.2) (fun r2 =>
      in_listb ex_blobs (plan_blobs quick_hash toy_cuts (fun _ => true) r2.1.2 (sn_tree <$> r2.1.1) [fa; fb]) && clash_free quick_hash kw1.1 kw1.2 r2.2 &&
      bool_decide (r2.1.1 = Some sn) && bool_decide (length (c_after r2.2) = 0) && holds (ex_run kw1.1 kw1.2 r2.2) (fun _ => true)))) = true) as Hx
    by (vm_compute; reflexivity).
  apply andb_true_iff in Hx as [Hw Hx]. apply holds_inv in Hx as ([[parent pf] c] & E1%backup_of_ok & Hx).
  apply andb_true_iff in Hx as [[[[[[Hu%in_listb_ok Hcl%clash_free_ok]%andb_true_iff Hl%bool_decide_eq_true]%andb_true_iff Hl1%bool_decide_eq_true]%andb_true_iff
    Hp%bool_decide_eq_true%elem_of_new_snaps]%andb_true_iff Hpar%bool_decide_eq_true]%andb_true_iff Hx].
  apply holds_inv in Hx as ([k1 w1] & E2%ex_run_ok & Hx). cbn [fst snd] in *.
  apply holds_inv in Hx as ([[parent2 pf2] c2] & E3%backup_of_ok & Hx). cbn [fst snd] in *.
  apply andb_true_iff in Hx as [[[[Hu2%in_listb_ok Hcl2%clash_free_ok]%andb_true_iff Hpar2%bool_decide_eq_true]%andb_true_iff Hl2%bool_decide_eq_true]%andb_true_iff Hx].
  apply holds_inv in Hx as ([k2 w2] & E4%ex_run_ok & _).
  destruct (ex_fine [Backup [fa; fb] 1 (Some 14)]) as [Hk Hlo]; [vm_compute; reflexivity|].
  assert (paths_ok toy_cuts false [fa; fb]) as Hok by (apply paths_okb_ok; vm_compute; reflexivity).
  assert (c_after c = [PutSnap sn]) as Hafter.
  { destruct (c_after c) as [|o [|??]]; [discriminate| |discriminate]. apply elem_of_list_singleton in Hp. by rewrite Hp. }
  assert (c_after c2 = []) as Hafter2 by (by destruct (c_after c2)).
  clearbody sn. subst parent parent2.
  destruct (C16_finished_backup_gives_the_files_back _ _ _ _ _ _ _ _ _ _ _ _ _ _ _ _ _ _ _ _ ex_universe quick_hash_length toy_cuts_concat Hk Hlo E1 Hok Hu
    ltac:(discriminate) Hcl E2) as (_ & _ & Hres).
  assert (safe_growth quick_hash (in_list ex_blobs) k k1 w1) as (Hk1 & Hlo1 & _).
  { destruct (backup_adding _ _ ex_universe quick_hash_length _ _ _ _ _ _ _ _ _ _ _ _ _ _ Hk Hlo E1 Hok Hu Hcl) as (_ & _ & sns & Ha & _).
    exact (adds_safe _ _ ex_universe quick_hash_length _ _ _ _ _ _ _ NoError _ _ ltac:(discriminate) Hk Hlo Ha Hu Hcl (done_reaches _ _ _ _ _ _ _ _ _ E2)). }
  exists None, pf, c, k1, w1, sn, (Some sn), pf2, c2, k2, w2. cbv zeta.
  split; [exact Hk|]. split; [exact Hlo|]. split; [exact (wip_inv _ Hw)|]. split; [exact E1|]. split; [exact Hok|]. split; [exact Hu|].
  split; [reflexivity|]. split; [exact Hcl|]. split; [exact Hl|]. split; [exact E2|]. split; [exact Hafter|].
  split; [exact Hk1|]. split; [exact Hlo1|]. split; [exact E3|]. split; [exact Hu2|]. split; [reflexivity|].
  split; [|split; [exact Hcl2|split; [exact E4|split; [exact Hafter2|vm_compute; discriminate]]]].
  intros p before [= <-] Hb.
  assert (before = kept_paths (fun _ => true) [fa; fb]) as ->.
  { destruct Hres as [(_ & _ & E)|(i & sn' & _ & [(E & _ & _)|[E _]] & _ & _ & _ & Hr)]; rewrite Hafter in E; [discriminate| |discriminate].
    injection E as <-. rewrite (program_reads_iff _ _ ex_universe quick_hash_length) in Hb, Hr by exact Hk1.
    exact (reads_root_fun _ _ _ _ _ Hb Hr). }
  intros q m0 c0 m c' G1 G2 _ _. rewrite G1 in G2. by injection G2.
Qed.
