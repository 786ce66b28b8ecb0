(** A second backup of the same files. *)

From stdpp Require Import functions.
From Verif Require Import Base OMap Formats Hashing Pack Index IndexFacts Meta Forest ForestFacts FsTree FsSpec FsFacts BackupFacts PropsBackup
  Pipeline PipelineFacts PropsPipeline Repo RepoSpec RepoFacts RewriteFacts PublishFacts PlanFacts CommandFacts History PruneFacts ReadFacts HistoryFacts Exec.

(** ** A run with nothing to do *)

Definition idle_packer (target : N) (w : worker) : Prop := wk_packer w = packer_new target /\ wk_out w = [].
Record idle (target : N) (k : backend) (w : workdir) (s : pstate) : Prop := {
  id_main : match ps_main s with MSend ups bs => ups = [] /\ bs = [] | _ => True end;
  id_workers : forall ty, idle_packer target (ps_workers s ty);
  id_indexer : match ps_indexer s with
    | INew start => start = index_default
    | IRecv st => index_is_empty (in_index st) = true /\ in_persisted st = None
    | ISend _ => False
    | IExit => True end;
  id_uploader : match ps_uploader s with UBusy _ | UWritten _ => False | _ => True end;
  id_files : ps_files s = w_packs w;
  id_back : ps_back s = k }.

Lemma idle_step H target live cpus errors k w s s' : idle target k w s -> pstep H target live cpus errors s s' -> idle target k w s'.
Proof.
  intros [I1 I2 I3 I4 I5 I6]. inversion 1 as
    [? Hsp Hr|? id ups bs Em|? b bs sz pk closed Em|? Em|? ups bs Em|? ty ok Em Ht Ep Eo|? ty id out Eo|? ty id m out st st' Eo
    |? ty Ep Eo|? st Ei|? ix Ei|? j Eu|? j Eu|? j Eu|? ok Eu|? ok Em]; subst.
  - destruct (ps_indexer s) as [start| | |] eqn:Ei; [|by constructor; simpl; rewrite ?Ei..].
    destruct (bool_decide _); [|by constructor; simpl; rewrite ?Ei]. constructor; try done. simpl. subst start.
    done.
  - rewrite Em in I1. by destruct I1.
  - rewrite Em in I1. by destruct I1.
  - by constructor.
  - by constructor.
  - destruct (I2 ty) as [Epk _]. rewrite Epk. unfold close_pack, packer_finish. simpl. constructor; try done. simpl.
    intros ty'. destruct (decide (ty = ty')) as [<-|Hne]; [by rewrite fn_lookup_insert|by rewrite fn_lookup_insert_ne].
  - destruct (I2 ty) as [_ E]. congruence.
  - destruct (I2 ty) as [_ E]. congruence.
  - constructor; try done. simpl. intros ty'. destruct (decide (ty = ty')) as [<-|Hne]; [|by rewrite fn_lookup_insert_ne].
    rewrite fn_lookup_insert. split; [apply I2|done].
  - rewrite Ei in I3. destruct I3 as [E1 E2]. constructor; try done. unfold indexer_end. rewrite E1. simpl. by rewrite E2.
  - by rewrite Ei in I3.
  - by rewrite Eu in I4.
  - by rewrite Eu in I4.
  - by rewrite Eu in I4.
  - by constructor.
  - by constructor.
Qed.

Lemma idle_during H target live cpus errors k w s :
  during H target live cpus errors k w index_default [] [] s -> ps_back s = k /\ ps_files s = w_packs w.
Proof.
  intros Hs. cut (idle target k w s); [intros []; done|].
  assert (idle target k w (pipeline_start target k w index_default [] [])) as H0 by by constructor.
  revert H0. induction Hs as [|a b c Hab Hbc IH]; [done|]. intros H0. apply IH. by eapply idle_step.
Qed.

(** ** The trees of a plan *)

Lemma plan_has_trees (H : bytes -> oid) (cuts : bytes -> list bytes) (deref : bool) (filter : bytes -> bool) (pf fo : forest) (n : fsnode) :
  (forall id t s, fo !! id = Some t -> s ∈ subtrees t -> is_Some (fo !! s)) ->
  forall path prev nd its, fs_ok cuts deref n -> plan H cuts filter pf path prev n = Some (nd, its) ->
    (forall s, s ∈ node_subtree nd -> is_Some (fo !! s)) ->
    (forall t t', ITree t ∈ its -> fo !! tree_id H t = Some t' -> t' = t) ->
    has_trees H fo its.
Proof.
  intros Hcl. induction n as [m c|m es IH|m tg|m] using fsnode_ind'; intros path prev nd its Hok Hp Hsub Hsame; cbn [plan] in Hp;
    destruct (filter path); simpl in Hp; try done.
  - intros t Ht. exfalso. destruct prev as [p|]; [destruct (looks_unchanged _ _)|]; injection Hp as <- <-;
      try (by apply elem_of_nil in Ht); by apply elem_of_list_fmap in Ht as (? & ? & _).
  - injection Hp as <- <-. cbn [fs_ok] in Hok. destruct Hok as (_ & _ & _ & Hnd & Hall).
    set (f := fun e : bytes * fsnode => plan H cuts filter pf (join path e.1) (ptree_of pf prev ≫= om_get e.1) e.2) in *.
    assert (fo !! tree_id H (plan_tree (collect fst f es)) = Some (plan_tree (collect fst f es))) as Hroot.
    { destruct (Hsub (tree_id H (plan_tree (collect fst f es)))) as [t' Ht']; [by left|]. rewrite Ht'. f_equal. apply Hsame; [|done].
      unfold plan_items. apply elem_of_app. right. by left. }
    intros t Ht. unfold plan_items in Ht. apply elem_of_app in Ht as [Ht|Ht]; [|apply elem_of_list_singleton in Ht as [= ->]; done].
    apply elem_of_concat in Ht as (is & Ht & Hin). apply elem_of_list_fmap in Hin as ([x [nd' is']] & -> & Hin). simpl in Ht.
    apply collect_elem in Hin as (e & He & <- & Hfe).
    assert (fs_ok cuts deref e.2) as Hoke.
    { clear -Hall He. induction es as [|e' es IH]; [by apply elem_of_nil in He|]. simpl in Hall. destruct Hall as [[_ ?] Hall].
      apply elem_of_cons in He as [->|He]; [done|by apply IH]. }
    rewrite Forall_forall in IH. eapply (IH e He); [exact Hoke|exact Hfe| | |exact Ht].
    + intros s Hs. eapply Hcl; [exact Hroot|]. pose proof (plan_tree_get fst f es e nd' is' Hnd He Hfe) as Hg.
      apply om_get_elem in Hg; [|apply om_of_list_is_sorted]. unfold subtrees. apply elem_of_concat. exists (node_subtree nd'). split; [done|].
      apply elem_of_list_fmap. by exists (e.1, nd').
    + intros t1 t2 H1. apply Hsame. by eapply plan_items_sub.
  - injection Hp as <- <-. intros t Ht. by apply elem_of_nil in Ht.
Qed.

Lemma plan_root_has_trees (H : bytes -> oid) (cuts : bytes -> list bytes) (deref : bool) (filter : bytes -> bool) (pf fo : forest) ptree paths :
  (forall id t s, fo !! id = Some t -> s ∈ subtrees t -> is_Some (fo !! s)) ->
  paths_ok cuts deref paths -> is_Some (fo !! plan_root H cuts filter pf ptree paths) ->
  (forall t t', ITree t ∈ plan_all H cuts filter pf ptree paths -> fo !! tree_id H t = Some t' -> t' = t) ->
  has_trees H fo (plan_all H cuts filter pf ptree paths).
Proof.
  intros Hcl (_ & Hnd & Hall) [t0 Ht0] Hsame.
  set (f := fun e : fspath => plan H cuts filter pf e.1.1 ((ptree ≫= (fun id => pf !! id)) ≫= om_get e.1.2) e.2).
  assert (fo !! tree_id H (plan_tree (collect (fun e : fspath => e.1.2) f paths)) = Some (plan_tree (collect (fun e : fspath => e.1.2) f paths))) as Hroot.
  { unfold plan_root, plan_list in Ht0. fold f in Ht0. rewrite Ht0. f_equal. apply Hsame; [|done].
    unfold plan_all, plan_items. apply elem_of_app. right. by left. }
  intros t Ht. unfold plan_all, plan_items in Ht. apply elem_of_app in Ht as [Ht|Ht]; [|apply elem_of_list_singleton in Ht as [= ->]; done].
  apply elem_of_concat in Ht as (is & Ht & Hin). apply elem_of_list_fmap in Hin as ([x [nd' is']] & -> & Hin). simpl in Ht.
  apply collect_elem in Hin as (e & He & <- & Hfe). rewrite Forall_forall in Hall. destruct (Hall e He) as [_ Hoke].
  eapply (plan_has_trees H cuts deref filter pf fo e.2 Hcl); [exact Hoke|exact Hfe| | |exact Ht].
  - intros s Hs. eapply Hcl; [exact Hroot|]. pose proof (plan_tree_get (fun e : fspath => e.1.2) f paths e nd' is' Hnd He Hfe) as Hg.
    apply om_get_elem in Hg; [|apply om_of_list_is_sorted]. unfold subtrees. apply elem_of_concat. exists (node_subtree nd'). split; [done|].
    apply elem_of_list_fmap. by exists (e.1.2, nd').
  - intros t1 t2 H1. apply Hsame. unfold plan_all, plan_list. by eapply plan_items_sub.
Qed.

(** ** The latest snapshot *)

Lemma run_snaps H target live cpus errors k w start ups bs s :
  during H target live cpus errors k w start ups bs s -> k_snaps (ps_back s) = k_snaps k.
Proof.
  intros Hs. assert (k_snaps (ps_back (pipeline_start target k w start ups bs)) = k_snaps k) as H0 by done. revert H0.
  induction Hs as [|a b c Hab Hbc IH]; [done|]. intros H0. apply IH. rewrite <-H0. clear -Hab.
  destruct Hab; try done.
  - destruct (ps_indexer s); try done. by destruct (bool_decide _).
  - by destruct closed.
  - unfold close_pack. by destruct (packer_finish _).
  - destruct j as [id|ix]; simpl; [|done]. by destruct (ps_files s !! id).
  - by destruct j.
  - by destruct j.
Qed.

Lemma latest_snapshot k snaps i sn : chronological k snaps -> k_snaps k !! i = Some sn ->
  (forall j s, k_snaps k !! j = Some s -> j = i \/ (sn_time s < sn_time sn)%Z) -> last snaps = Some (sn, i).
Proof.
  intros [Hp Hs] Hi Hlast.
  assert (forall x, x ∈ snaps <-> k_snaps k !! x.2 = Some x.1) as Hin.
  { intros [s j]. rewrite <-Hp. rewrite elem_of_list_fmap. split.
    - intros ([j' s'] & E & Hx). injection E as -> ->. by apply elem_of_map_to_list in Hx.
    - intros E. exists (j, s). split; [done|]. by apply elem_of_map_to_list. }
  assert ((sn, i) ∈ snaps) as Hsn by by apply Hin.
  destruct (last snaps) as [[s j]|] eqn:El; [|apply last_None in El; subst; by apply elem_of_nil in Hsn].
  apply last_Some in El as [l ->].
  assert (k_snaps k !! j = Some s) as Hj. { apply (Hin (s, j)). apply elem_of_app. right. by left. }
  destruct (Hlast j s Hj) as [->|Hlt]; [congruence|]. exfalso.
  apply elem_of_app in Hsn as [Hsn|Hsn]; [|apply elem_of_list_singleton in Hsn as [= -> ->]; lia].
  apply Sorted_StronglySorted in Hs; [|intros a b c ? ?; lia].
  assert ((sn_time sn <= sn_time s)%Z); [|lia].
  clear -Hs Hsn. induction l as [|x l IH]; [by apply elem_of_nil in Hsn|]. simpl in Hs. apply StronglySorted_inv in Hs as [Hs Hx].
  apply elem_of_cons in Hsn as [<-|Hsn]; [|by apply IH]. rewrite Forall_forall in Hx. apply (Hx (s, j)). apply elem_of_app. right. by left.
Qed.

Lemma latest_parent given snaps sn i : last snaps = Some (sn, i) -> sn_paths sn = given -> parent_snapshot given snaps = Some sn.
Proof.
  intros El Hp. apply last_Some in El as [l ->]. unfold parent_snapshot. rewrite rev_app_distr. simpl. by rewrite bool_decide_eq_true_2.
Qed.

Lemma sends_within (bs : list blob) (s : bstate) (P : gset oid) : bs_packed s ⊆ P -> (forall b, b ∈ bs -> b_id b ∈ P) -> bs_packed (foldl send_new s bs) ⊆ P.
Proof.
  revert s. induction bs as [|b bs IH]; intros s Hs Hb; [done|]. simpl. apply IH; [|intros x Hx; apply Hb; by right].
  unfold send_new. destruct (decide _); simpl; [done|]. specialize (Hb b ltac:(by left)). set_solver.
Qed.

Section facts.
Variables (H : bytes -> oid) (U : blob -> Prop).
Hypothesis HU : universe H U.
Hypothesis Hlen : forall x, length (H x) = 28.
Local Set Default Proof Using "All".

(** The second of two backups of the same files, the first having made the
    latest snapshot. *)
Lemma second_backup cuts deref allow_empty filter author tz tags now paths parent pf k w c target cpus k' w'
    allow_empty2 now2 parent2 pf2 w2 c2 sn :
  in_order H U k -> own_leftovers H U k w ->
  backup_command H cuts false deref allow_empty filter author tz tags now paths parent pf k w c ->
  paths_ok cuts deref paths -> Forall U (plan_blobs H cuts filter pf (sn_tree <$> parent) paths) -> no_clash H k w c ->
  command_done H target true cpus k w c k' w' ->
  c_after c = [PutSnap sn] -> (forall i s, k_snaps k !! i = Some s -> (sn_time s < now)%Z) ->
  w_wip w2 = None ->
  backup_command H cuts false deref allow_empty2 filter author tz tags now2 paths parent2 pf2 k' w2 c2 ->
  parent2 = Some sn /\ c2 = mkCommand index_default [] [] [].
Proof.
  intros Hk Hw Hc Hok HpU Hcl Hd Haf Htime Hw2 Hc2.
  destruct (backup_adding H U HU Hlen cuts deref allow_empty filter author tz tags now paths parent pf k w c Hk Hw Hc Hok HpU Hcl)
    as (Hpfs & Hpfst & sns & Ha & Hsns).
  destruct (adds_safe H U HU Hlen k w c _ sns target cpus NoError k' w' ltac:(done) Hk Hw Ha HpU Hcl
    (Exec.done_reaches H target true cpus k w c k' w' Hd)) as (Hk' & _ & _ & Hgrow).
  destruct (adds_done H U HU Hlen k w c _ sns target cpus k' w' Hk Hw Ha HpU Hcl Hd) as (_ & Hstored & Hsnaps).
  assert (sns = [sn]) as ->.
  { destruct Ha as (start & ups & packed & -> & _). simpl in Haf. destruct sns as [|s1 [|]]; try done. simpl in Haf. congruence. }
  pose proof (Hsns sn ltac:(by left)) as Esn. specialize (Hsnaps sn ltac:(by left)).
  assert (forall j s, k_snaps k' !! j = Some s -> j = snapshot_id H sn \/ (sn_time s < sn_time sn)%Z) as Hlast.
  { destruct Hd as (st & Hst & _ & -> & _). rewrite Haf. simpl. intros j s. rewrite (run_snaps _ _ _ _ _ _ _ _ _ _ _ Hst).
    intros [[<- _]|[_ Hj]]%lookup_insert_Some; [by left|]. right. rewrite Esn. simpl. by eapply Htime. }
  destruct Hc2 as (ix & bmap & snaps & start & ups & packed & s & root & _ & Eix & Ebm & Hch & Epar & Hpf & Hres & Ebt & ->).
  pose proof (latest_snapshot k' snaps _ sn Hch Hsnaps Hlast) as El.
  rewrite (latest_parent _ snaps sn _ El) in Epar by by rewrite Esn. subst parent2. destruct Hpf as [fuel Hpf].
  pose proof (in_order_structured _ _ _ Hk') as Hst'.
  destruct (forest_facts H U HU Hlen k' ix bmap fuel sn pf2 _ Hk' Eix Ebm Hsnaps Hpf) as (F1 & F2 & F3 & _).
  assert (sn_tree sn = plan_root H cuts filter pf (sn_tree <$> parent) paths) as Er by by rewrite Esn.
  assert (has_items H (repo_store k') (plan_all H cuts filter pf (sn_tree <$> parent) paths)) as Hitems.
  { intros b Hb. split; [by apply Hstored|]. intros Hty Hid. rewrite Forall_forall in HpU.
    apply (un_empty H U HU) in Hid; [|by apply HpU].
    apply plan_blob_shape in Hb as [[? _]|(t & -> & Hne & _)]; [congruence|]. destruct t as [|kv t]; [done|].
    by apply (enc_tree_nonempty kv t). }
  assert (Forall item_sane (plan_all H cuts filter pf (sn_tree <$> parent) paths)) as Hsane.
  { eapply (plan_root_all H cuts filter deref pf Hlen (repo_store k') Hpfs); [|done| |done].
    - intros id t Ht. eapply stored_as_mono; [exact Hgrow|by apply Hpfst].
    - intros r Er0. destruct parent as [p|]; [|done]. injection Er0 as <-.
      destruct Hc as (? & ? & snaps0 & ? & ? & ? & ? & ? & _ & _ & _ & Hch0 & Epar0 & _). symmetry in Epar0.
      destruct (parent_in H U HU Hlen _ _ _ _ Hch0 Epar0) as [i Hi].
      destruct (io_snaps _ _ _ Hk i p Hi) as [es Hes]. exists es. by eapply reads_root_mono. }
  assert (has_trees H pf2 (plan_all H cuts filter pf (sn_tree <$> parent) paths)) as Hht.
  { apply (plan_root_has_trees H cuts deref); [done|done|by rewrite <-Er|].
    intros t t' Ht Et. destruct (F2 _ _ Et) as (Hs & _ & _).
    assert (stored_as H (repo_store k') (tree_id H t) t) as Hs2; [|by eapply stored_as_fun].
    apply (has_items_tree H); [rewrite Forall_forall in Hsane; by apply (Hsane _ Ht)|].
    intros b Hb. apply Hitems. unfold plan_blobs in *. apply elem_of_concat in Hb as (l & Hb & Hl). apply elem_of_concat. exists l.
    split; [done|]. apply elem_of_list_singleton in Hl as ->. apply elem_of_list_fmap. by exists (ITree t). }
  assert (forest_sane pf2) as Hpf2. { intros id t Et. by destruct (F2 _ _ Et) as (_ & ? & _). }
  assert (backup_tree H cuts deref filter pf (sn_tree <$> parent) paths ∅ =
    Ok (foldl send_new (mkBstate ∅ []) (plan_blobs H cuts filter pf (sn_tree <$> parent) paths), sn_tree sn)) as E0.
  { rewrite backup_tree_plan by done. by rewrite Er. }
  unfold resume in Hres. destruct (in_order_maps H U HU Hlen k' Hk') as (ix' & ? & packed0 & E1 & _ & Ebs & Hpk).
  rewrite Eix in E1. injection E1 as <-. rewrite Ebs in Hres. unfold find_resumable in Hres. rewrite Hw2 in Hres.
  simpl in Hres. injection Hres as <- <- <-.
  pose proof (C52_unchanged_tree_sends_nothing_partial H cuts deref filter pf (sn_tree <$> parent) paths ∅ _ (sn_tree sn) pf2 packed0
    Hpfs Hpf2 Hok E0 Hht) as Hagain.
  change (sn_tree <$> Some sn) with (Some (sn_tree sn)) in Ebt. rewrite Hagain in Ebt.
  2:{ apply sends_within; [set_solver|]. intros b Hb. apply Hpk. apply (live_blob_flat H U HU Hlen k' _ Hst').
      pose proof (Hstored b Hb) as Hs. apply (repo_store_lookup H U HU) in Hs; [|apply Hst']. by eexists. }
  injection Ebt as <- <-. split; [done|]. simpl. f_equal. destruct (bool_decide (sn_tree sn = empty_id H) && negb allow_empty2); [done|]. rewrite El.
  rewrite bool_decide_eq_true_2; [done|]. by rewrite Esn.
Qed.
End facts.
