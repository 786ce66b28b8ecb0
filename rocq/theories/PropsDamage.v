(** Repositories some of whose blobs are gone: C59. *)

From Verif Require Import Base OMap Cbor Formats FormatsFacts Hashing Pack Index IndexFacts Meta Forest FsTree FsSpec FsFacts BackupFacts
  Pipeline PipelineFacts PropsPipeline Repo RepoSpec RepoFacts RewriteFacts PublishFacts PlanFacts CommandFacts
  History PruneFacts ReadFacts HistoryFacts PathFacts Exec RepeatFacts Toy Witness ReadBack Fails DamageFacts FailFacts PropsRepo ForestFacts.

(** * C59: damage does not spread

    [sound]: every pack is what its name says and every index tells the truth
    about packs that are there, but blobs that snapshots need may be missing.
    That is a repository after a pack was lost and the index was rebuilt.

    What remains is as good as before, and nothing broken is added: *)
Definition no_worse (H : bytes -> oid) (k k' : backend) : Prop :=
  usable k' /\
  (forall i sn, k_snaps k !! i = Some sn ->
     k_snaps k' !! i = Some sn /\ forall es, program_reads H k sn es -> program_reads H k' sn es) /\
  (forall i sn, k_snaps k' !! i = Some sn -> k_snaps k !! i = Some sn \/ exists es, program_reads H k' sn es).

Lemma growth_no_worse H U k k' w' : universe H U -> (forall x, length (H x) = 28) ->
  sound H U k -> sound_growth H U k k' w' -> no_worse H k k'.
Proof.
  intros HU Hlen Hk (Hk' & _ & Hkeep & Hst & Hnew). split; [|split].
  - destruct (sound_maps H U HU Hlen k' Hk') as (ix & bmap & packed & E1 & E2 & E3 & _). by exists ix, bmap, packed.
  - intros i sn Hi. split; [by apply Hkeep|]. intros es Hes. apply (sound_reads_iff H U HU Hlen) in Hes; [|done].
    apply (sound_reads_iff H U HU Hlen); [done|]. by eapply reads_root_mono.
  - intros i sn Hi. destruct (Hnew i sn Hi) as [?|[es Hes]]; [by left|right]. exists es. by apply (sound_reads_iff H U HU Hlen).
Qed.

(** ** Copying

    The source may be in any state: its indexes may name packs that are gone or
    have other contents, and snapshots may lack anything.  All that is asked is
    that the blobs in its packs are blobs at all, with the bytes their ids stand
    for (C06: the program checks that when it reads them).  A copy that gets
    through its planning never puts a snapshot at the destination that cannot be
    read, wherever it stops, and when it is done every snapshot asked for is
    there. *)
Theorem C59_copies_are_complete H U filter src chosen fuel forests k w c target cpus errors k' w' :
  universe H U -> (forall x, length (H x) = 28) -> typed H U ->
  (forall p bs, k_packs src !! p = Some bs -> Forall U bs) ->
  sound H U k -> own_leftovers H U k w ->
  copy_command H false filter src chosen fuel forests k w c ->
  (forall chunk b, b ∈ rplan_all H filter chunk fuel forests -> b_type b = Tree -> U b) ->
  no_clash H k w c -> errors <> ErrorAny ->
  command_reaches H target true cpus errors k w c k' w' ->
  no_worse H k k'.
Proof.
  intros HU Hlen Hty Hsrc Hk Hw Hc Htree Hcl He Hr.
  destruct (copy_adding_any H U HU Hlen Hty filter src chosen fuel forests k w c Hsrc Hk Hw Hc Htree) as (planned & sns & HpU & Ha & _).
  eapply growth_no_worse; [done|done|done|]. by eapply (adds_sound H U HU Hlen).
Qed.

Theorem C59_copies_what_can_be_read H U filter src chosen fuel forests k w c target cpus k' w' :
  universe H U -> (forall x, length (H x) = 28) -> typed H U ->
  (forall p bs, k_packs src !! p = Some bs -> Forall U bs) ->
  sound H U k -> own_leftovers H U k w ->
  copy_command H false filter src chosen fuel forests k w c ->
  (forall chunk b, b ∈ rplan_all H filter chunk fuel forests -> b_type b = Tree -> U b) ->
  no_clash H k w c -> command_done H target true cpus k w c k' w' ->
  forall sn, sn ∈ chosen -> exists sn' es,
    k_snaps k' !! snapshot_id H sn' = Some sn' /\ program_reads H k' sn' es /\
    sn' = mkSnapshot (sn_time sn) (sn_tz sn) (sn_author sn) (sn_tags sn) (sn_paths sn) (sn_tree sn') /\
    ((forall p, filter p = true) -> sn' = sn).
Proof.
  intros HU Hlen Hty Hsrc Hk Hw Hc Htree Hcl Hd sn Hsn.
  destruct (copy_adding_any H U HU Hlen Hty filter src chosen fuel forests k w c Hsrc Hk Hw Hc Htree) as (planned & sns & HpU & Ha & HF).
  destruct (sound_done H U HU Hlen k w c planned sns target cpus k' w' Hk Hw Ha HpU Hcl Hd) as (_ & Hstored & Hput).
  destruct (adds_sound H U HU Hlen k w c planned sns target cpus NoError k' w' ltac:(done) Hk Hw Ha HpU Hcl (done_reaches _ _ _ _ _ _ _ _ _ Hd))
    as (Hk' & _ & _ & Hgrow & _).
  apply elem_of_list_lookup in Hsn as [j Hj]. eapply Forall2_lookup_l in HF as (sn' & Hj' & E & Hall); [|exact Hj].
  apply elem_of_list_lookup_2 in Hj'. destruct Ha as (start & ups & packed & _ & _ & _ & _ & _ & _ & _ & Hcomplete).
  destruct (Hcomplete (repo_store k') Hgrow Hstored sn' Hj') as [es Hes].
  exists sn', es. split; [by apply Hput|]. split; [by apply (sound_reads_iff H U HU Hlen)|]. done.
Qed.

(** ** Filtering *)
Theorem C59_filtered_snapshots_are_complete H U filter sn meta fuel fo k w c target cpus errors k' w' :
  universe H U -> (forall x, length (H x) = 28) -> typed H U ->
  sound H U k -> own_leftovers H U k w -> w_wip w = None ->
  filter_command H false filter sn meta fuel fo k c ->
  (forall chunk b, b ∈ rplan_all H filter chunk fuel [(sn, fo)] -> b_type b = Tree -> U b) ->
  no_clash H k w c -> errors <> ErrorAny ->
  command_reaches H target true cpus errors k w c k' w' ->
  no_worse H k k'.
Proof.
  intros HU Hlen Hty Hk Hw Hwip Hc Htree Hcl He Hr.
  destruct (filter_adding_any H U HU Hlen Hty filter sn meta fuel fo k w c Hk Hw Hwip Hc Htree) as (root & planned & sns & HpU & Ha & _).
  eapply growth_no_worse; [done|done|done|]. by eapply (adds_sound H U HU Hlen).
Qed.

(** ** Copying and filtering that fail

    Something the source lacks is met only when the walk gets there.  What was
    sent by then is stored and indexed; no snapshot is added. *)
Theorem C59_failing_copies_do_no_harm H U filter src chosen fuel k w c target cpus errors k' w' :
  universe H U -> (forall x, length (H x) = 28) ->
  (forall p bs, k_packs src !! p = Some bs -> Forall U bs) ->
  sound H U k -> own_leftovers H U k w ->
  copy_fails H false filter src chosen fuel k w c ->
  (forall b, b ∈ c_blobs c -> b_type b = Tree -> U b) ->
  no_clash H k w c -> errors <> ErrorAny ->
  command_reaches H target true cpus errors k w c k' w' ->
  no_worse H k k' /\ k_snaps k' = k_snaps k.
Proof.
  intros HU Hlen Hsrc Hk Hw Hc Htree Hcl He Hr.
  destruct (copy_fails_adding H U HU Hlen filter src chosen fuel k w c Hsrc Hk Hw Hc Htree) as (planned & HpU & Ha). split.
  - eapply growth_no_worse; [done|done|done|]. by eapply (adds_sound H U HU Hlen).
  - destruct Ha as (start & ups & packed & -> & _). destruct Hr as (s & n & Hs & _ & -> & _). cbn [c_after map]. rewrite take_nil.
    by eapply run_only_adds.
Qed.

Theorem C59_failing_filters_do_no_harm H U filter sn fuel k w c target cpus errors k' w' :
  universe H U -> (forall x, length (H x) = 28) ->
  sound H U k -> own_leftovers H U k w -> w_wip w = None ->
  filter_fails H filter sn fuel k c ->
  (forall b, b ∈ c_blobs c -> b_type b = Tree -> U b) ->
  no_clash H k w c -> errors <> ErrorAny ->
  command_reaches H target true cpus errors k w c k' w' ->
  no_worse H k k' /\ k_snaps k' = k_snaps k.
Proof.
  intros HU Hlen Hk Hw Hwip Hc Htree Hcl He Hr.
  destruct (filter_fails_adding H U HU Hlen filter sn fuel k w c Hk Hw Hwip Hc Htree) as (planned & HpU & Ha). split.
  - eapply growth_no_worse; [done|done|done|]. by eapply (adds_sound H U HU Hlen).
  - destruct Ha as (start & ups & packed & -> & _). destruct Hr as (s & n & Hs & _ & -> & _). cbn [c_after map]. rewrite take_nil.
    by eapply run_only_adds.
Qed.

(** ** Pruning

    Partial: prune removes indexes and packs only if no snapshot lacks anything
    (then C19 says what it does); a prune that fails on the way removes none.  But
    see [C59_refuted_prune]: the latter may hide what other snapshots need. *)
Theorem C59_prune_removes_only_if_nothing_is_missing_partial H U dry k w :
  universe H U -> (forall x, length (H x) = 28) -> typed H U ->
  sound H U k -> w_wip w = None ->
  (forall c, prune_command H dry k w (Some c) -> in_order H U k /\ forall i sn, k_snaps k !! i = Some sn -> exists es, program_reads H k sn es) /\
  (forall c target cpus errors k' w', prune_fails H dry k w c -> command_reaches H target true cpus errors k w c k' w' ->
     k_snaps k' = k_snaps k /\ dom (k_packs k) ⊆ dom (k_packs k') /\ dom (k_indexes k) ⊆ dom (k_indexes k')).
Proof.
  intros HU Hlen Hty Hk Hwip. split.
  - intros c Hc. pose proof (prune_complete H U HU Hlen Hty dry k w c Hk Hwip Hc) as Hall. split.
    + destruct Hk. by constructor.
    + intros i sn Hi. destruct (Hall i sn Hi) as [es Hes]. exists es. by apply (sound_reads_iff H U HU Hlen).
  - intros c target cpus errors k' w' (ix & bmap & snaps & fuel & forests & _ & _ & _ & _ & _ & start & ups & packed & s & r & _ & _ & _ & ->)
      (s' & n & Hs & _ & -> & _). cbn [c_after]. rewrite take_nil. by eapply run_only_adds.
Qed.

(** ** Backing up

    Partial: if the snapshot it takes as parent lacks nothing (or there is none). *)
Theorem C59_backups_are_complete_partial H U cuts deref allow_empty filter author tz tags now paths parent pf k w c target cpus errors k' w' :
  universe H U -> (forall x, length (H x) = 28) ->
  sound H U k -> own_leftovers H U k w ->
  (forall p, parent = Some p -> exists es, program_reads H k p es) ->
  backup_command H cuts false deref allow_empty filter author tz tags now paths parent pf k w c ->
  paths_ok cuts deref paths ->
  Forall U (plan_blobs H cuts filter pf (sn_tree <$> parent) paths) ->
  no_clash H k w c -> errors <> ErrorAny ->
  command_reaches H target true cpus errors k w c k' w' ->
  no_worse H k k'.
Proof.
  intros HU Hlen Hk Hw Hp Hc Hok HplU Hcl He Hr.
  assert (forall p, parent = Some p -> snapshot_complete H k p) as Hp'.
  { intros p Ep. destruct (Hp p Ep) as [es Hes]. exists es. by apply (sound_reads_iff H U HU Hlen). }
  destruct (backup_adding_sound H U HU Hlen cuts deref allow_empty filter author tz tags now paths parent pf k w c Hk Hp' Hw Hc Hok HplU Hcl) as (_ & _ & sns & Ha & _).
  eapply growth_no_worse; [done|done|done|]. by eapply (adds_sound H U HU Hlen).
Qed.

(** ** The example: the chunk of [bb] is gone *)

Definition typedb (l : list blob) : bool :=
  forallb (fun b => match b_type b with
    | Chunk => true
    | Tree => match dec_tree (b_bytes b) with
              | Some (t, []) => forallb (fun c => forallb (fun b' => negb (bool_decide (b_id b' = c)) || bool_decide (b_type b' = Chunk)) l) (tree_chunks t)
              | _ => false
              end
    end) l.
Lemma typedb_ok H l : typedb l = true -> typed H (in_list l).
Proof.
  intros Hl b t c b' Hb Et Eb [Hwf _] Hc Hb' Eid. unfold typedb in Hl. rewrite forallb_forall in Hl.
  apply elem_of_list_In, Hl in Hb. rewrite Et, Eb in Hb. pose proof (dec_enc_tree t [] Hwf) as D. rewrite app_nil_r in D. rewrite D in Hb.
  rewrite forallb_forall in Hb. apply elem_of_list_In, Hb in Hc. rewrite forallb_forall in Hc. apply elem_of_list_In, Hc in Hb'.
  rewrite Eid in Hb'. rewrite bool_decide_eq_true_2 in Hb' by done. simpl in Hb'. by apply bool_decide_eq_true in Hb'.
Qed.

(** The directories a plan consists of do not depend on what the chunks are. *)
Definition is_tree (b : blob) : bool := match b_type b with Tree => true | Chunk => false end.
Definition tree_blobsb (filter : bytes -> bool) (fuel : nat) (forests : list (snapshot * forest)) : bool :=
  in_listb ex_blobs (List.filter is_tree (rplan_all quick_hash filter (fun _ => []) fuel forests)).
Lemma rplan_nodes_trees filter ch ch' rec rec' path t :
  (forall p id, option_map (fun x : oid * list blob => (x.1, List.filter is_tree x.2)) (rec p id) = option_map (fun x => (x.1, List.filter is_tree x.2)) (rec' p id)) ->
  option_map (map (fun x : bytes * (node * list blob) => (x.1, (x.2.1, List.filter is_tree x.2.2)))) (rplan_nodes filter ch rec path t) =
  option_map (map (fun x => (x.1, (x.2.1, List.filter is_tree x.2.2)))) (rplan_nodes filter ch' rec' path t).
Proof.
  intros Hrec. induction t as [|[nm nd] t IH]; [done|]. cbn [rplan_nodes]. destruct (negb _); [exact IH|].
  assert (forall cs, List.filter is_tree (map (fun c => mkBlob Chunk c (ch c)) cs) = [] /\ List.filter is_tree (map (fun c => mkBlob Chunk c (ch' c)) cs) = []) as Hcs
    by (induction cs; done).
  destruct (n_contents nd) as [cs|sub|tg].
  - destruct (rplan_nodes filter ch rec path t), (rplan_nodes filter ch' rec' path t); simpl in *; try done.
    injection IH as IH. destruct (Hcs cs) as [-> ->]. by rewrite IH.
  - specialize (Hrec (join path nm) sub).
    destruct (rec (join path nm) sub) as [[i bs]|], (rec' (join path nm) sub) as [[i' bs']|]; simpl in *; try done.
    injection Hrec as -> Hb. destruct (rplan_nodes filter ch rec path t), (rplan_nodes filter ch' rec' path t); simpl in *; try done.
    injection IH as IH. by rewrite IH, Hb.
  - destruct (rplan_nodes filter ch rec path t), (rplan_nodes filter ch' rec' path t); simpl in *; try done. injection IH as IH. by rewrite IH.
Qed.
Lemma rplan_trees H filter ch ch' fo fuel path id :
  option_map (fun x : oid * list blob => (x.1, List.filter is_tree x.2)) (rplan H filter ch fo fuel path id) =
  option_map (fun x => (x.1, List.filter is_tree x.2)) (rplan H filter ch' fo fuel path id).
Proof.
  revert path id. induction fuel as [|fuel IH]; intros path id; [done|]. cbn [rplan]. destruct (fo !! id) as [t|]; [|done].
  pose proof (rplan_nodes_trees filter ch ch' (rplan H filter ch fo fuel) (rplan H filter ch' fo fuel) path t IH) as E.
  destruct (rplan_nodes _ _ (rplan H filter ch fo fuel) path t) as [l|], (rplan_nodes _ _ (rplan H filter ch' fo fuel) path t) as [l'|]; simpl in *; try done.
  injection E as E. assert (rplan_tree l = rplan_tree l' /\ List.filter is_tree (concat (map (fun x => x.2.2) l)) = List.filter is_tree (concat (map (fun x => x.2.2) l'))) as [-> Ef].
  { revert l' E. clear. induction l as [|[n [nd bs]] l IH]; intros [|[n' [nd' bs']] l'] E; simpl in *; try done. injection E as -> -> Eb E.
    apply IH in E as [E1 E2]. rewrite !List.filter_app, E1, Eb, E2. done. }
  by rewrite !List.filter_app, Ef.
Qed.
Lemma tree_blobsb_ok filter fuel forests : tree_blobsb filter fuel forests = true ->
  forall chunk b, b ∈ rplan_all quick_hash filter chunk fuel forests -> b_type b = Tree -> in_list ex_blobs b.
Proof.
  intros Hl%in_listb_ok chunk b Hb Et. eapply Forall_forall in Hl; [exact Hl|]. apply elem_of_list_In, filter_In. split; [|by unfold is_tree; rewrite Et].
  apply elem_of_list_In. unfold rplan_all in *. apply elem_of_concat in Hb as (l & Hb & Hl'). change (map ?f ?l) with (f <$> l) in Hl'.
  apply elem_of_list_fmap in Hl' as ([sn fo] & -> & Hx). cbn [fst snd] in Hb.
  pose proof (rplan_trees quick_hash filter chunk (fun _ => []) fo fuel [] (sn_tree sn)) as E.
  apply elem_of_concat. exists (match rplan quick_hash filter (fun _ => []) fo fuel [] (sn_tree sn) with Some (_, bs) => bs | None => [] end). split.
  - destruct (rplan quick_hash filter chunk fo fuel [] (sn_tree sn)) as [[r bs]|]; [|by apply elem_of_nil in Hb].
    destruct (rplan quick_hash filter (fun _ => []) fo fuel [] (sn_tree sn)) as [[r' bs']|]; [|done]. simpl in E. injection E as _ E.
    assert (b ∈ List.filter is_tree bs) as Hf. { apply elem_of_list_In, filter_In. split; [by apply elem_of_list_In|]. unfold is_tree. by rewrite Et. }
    rewrite E in Hf. apply elem_of_list_In, filter_In in Hf as [Hf _]. by apply elem_of_list_In.
  - change (map ?f ?l) with (f <$> l). apply elem_of_list_fmap. exists (sn, fo). done.
Qed.

Definition is_bb (b : blob) : bool := bool_decide (b_bytes b = ascii_bytes "bb").
Definition dm_snaps : list snapshot := [ex_snap [fa; fb] 1; ex_snap [fa] 2].
Definition dm_blobs : list blob := List.filter (fun b => negb (is_bb b)) (remove_dups (ex_plan [fa; fb] ++ ex_plan [fa])).
Definition dm_k : backend := single quick_hash dm_blobs dm_snaps.
Lemma dm_typed : typed quick_hash (in_list ex_blobs).
Proof. apply typedb_ok. vm_compute. reflexivity. Qed.
Lemma dm_sound : sound quick_hash (in_list ex_blobs) dm_k.
Proof.
  unfold dm_k. apply single_sound.
  - apply in_listb_ok. vm_compute. reflexivity.
  - assert (bool_decide (NoDup (map b_id dm_blobs)) = true) as Hx by (vm_compute; reflexivity). by apply bool_decide_eq_true in Hx.
Qed.
Lemma dm_leftovers : own_leftovers quick_hash (in_list ex_blobs) dm_k clean.
Proof. split; [|done]. intros p bs E. cbn in E. by apply lookup_empty_Some in E. Qed.
Lemma dm_snapshots : k_snaps dm_k !! ex_sid [fa; fb] 1 = Some (ex_snap [fa; fb] 1) /\ k_snaps dm_k !! ex_sid [fa] 2 = Some (ex_snap [fa] 2).
Proof. split; apply snap_at_inv; vm_compute; reflexivity. Qed.
Lemma dm_broken : ~ snapshot_complete quick_hash dm_k (ex_snap [fa; fb] 1).
Proof. apply broken_is_incomplete. vm_compute. reflexivity. Qed.
Opaque dm_k dm_blobs.

(** Without [bb] both snapshots can be copied to a repository with a backup of [zz] in it. *)
Example C59_copy_witness : exists forests c k' w',
  universe quick_hash (in_list ex_blobs) /\ typed quick_hash (in_list ex_blobs) /\
  (forall p bs, k_packs dm_k !! p = Some bs -> Forall (in_list ex_blobs) bs) /\
  sound quick_hash (in_list ex_blobs) other_kw.1 /\ own_leftovers quick_hash (in_list ex_blobs) other_kw.1 other_kw.2 /\
  copy_command quick_hash false not_bb dm_k dm_snaps 20 forests other_kw.1 other_kw.2 c /\
  (forall chunk b, b ∈ rplan_all quick_hash not_bb chunk 20 forests -> b_type b = Tree -> in_list ex_blobs b) /\
  no_clash quick_hash other_kw.1 other_kw.2 c /\ command_done quick_hash 20000 true 4 other_kw.1 other_kw.2 c k' w' /\
  size (k_snaps k') = 3 /\ ~ snapshot_complete quick_hash dm_k (ex_snap [fa; fb] 1).
Proof.
  assert (holds (exec_copy quick_hash false not_bb dm_k dm_snaps 20 other_kw.1 other_kw.2) (fun r =>
    tree_blobsb not_bb 20 r.1 &&
    clash_free quick_hash other_kw.1 other_kw.2 r.2 &&
    holds (ex_run other_kw.1 other_kw.2 r.2) (fun kw' => bool_decide (size (k_snaps kw'.1) = 3))) = true) as Hx
    by (vm_compute; reflexivity).
  apply holds_inv in Hx as ([forests c] & E1%exec_copy_ok & Hx).
  apply andb_true_iff in Hx as [[Hu Hcl%clash_free_ok]%andb_true_iff Hx].
  apply holds_inv in Hx as ([k' w'] & E2%ex_run_ok & Hz%bool_decide_eq_true). exists forests, c, k', w'.
  destruct (ex_fine [Backup [fz] 3 None]) as [Ho Hlo]; [vm_compute; reflexivity|].
  split; [apply ex_universe|]. split; [apply dm_typed|]. split; [intros p bs E; by apply (so_packs _ _ _ dm_sound) in E as [_ ?]|].
  split; [apply in_order_sound, Ho|]. split; [exact Hlo|]. split; [exact E1|].
  split; [by apply tree_blobsb_ok|]. split; [exact Hcl|]. split; [exact E2|]. split; [exact Hz|apply dm_broken].
Qed.

(** The broken snapshot without [bb] is a good one. *)
Example C59_filter_witness : exists fo c k' w',
  filter_command quick_hash false not_bb (ex_snap [fa; fb] 1) None 20 fo dm_k c /\
  (forall chunk b, b ∈ rplan_all quick_hash not_bb chunk 20 [(ex_snap [fa; fb] 1, fo)] -> b_type b = Tree -> in_list ex_blobs b) /\
  no_clash quick_hash dm_k clean c /\ command_done quick_hash 20000 true 4 dm_k clean c k' w' /\
  length (new_snaps (c_after c)) = 1 /\ size (k_snaps k') = 3.
Proof.
  assert (holds (exec_filter quick_hash false not_bb (ex_snap [fa; fb] 1) None 20 dm_k) (fun r =>
    tree_blobsb not_bb 20 [(ex_snap [fa; fb] 1, r.1)] &&
    clash_free quick_hash dm_k clean r.2 && bool_decide (length (new_snaps (c_after r.2)) = 1) &&
    holds (ex_run dm_k clean r.2) (fun kw' => bool_decide (size (k_snaps kw'.1) = 3))) = true) as Hx
    by (vm_compute; reflexivity).
  apply holds_inv in Hx as ([fo c] & E1%exec_filter_ok & Hx).
  apply andb_true_iff in Hx as [[[Hu Hcl%clash_free_ok]%andb_true_iff Hl%bool_decide_eq_true]%andb_true_iff Hx].
  apply holds_inv in Hx as ([k' w'] & E2%ex_run_ok & Hz%bool_decide_eq_true).
  exists fo, c, k', w'. split; [exact E1|]. split; [by apply tree_blobsb_ok|]. split; [exact Hcl|]. split; [exact E2|]. split; [exact Hl|exact Hz].
Qed.

(** With [bb] both fail, the copy after having sent something. *)
Definition ended_badly {A} (e : option (ended A)) : option bstate :=
  match e with Some (s, Err) => Some s | Some (s, Panic) => Some s | _ => None end.
Lemma ended_badly_ok {A} (e : option (ended A)) s : ended_badly e = Some s -> exists r, e = Some (s, r) /\ failure r.
Proof. destruct e as [[s' [x| |]]|]; [done| | |done]; intros [= ->]; eexists; (split; [reflexivity|done]). Qed.
Definition exec_copy_fails (filter : bytes -> bool) (src : backend) (chosen : list snapshot) (fuel : nat) (k : backend) (w : workdir) : option command :=
  sx ← get_ok (master src); sbmap ← get_ok (blob_to_pack_map sx);
  forests ← get_done (load_forests quick_hash src sbmap fuel chosen);
  ix ← get_ok (master k);
  r ← get_ok (resume k w ix);
  let '(start, ups, packed) := r in
  s ← ended_badly (walk_snapshots quick_hash filter (repack_chunk src sx sbmap) fuel forests (mkBstate packed []));
  Some (mkCommand start ups (bs_sent s) []).
Lemma exec_copy_fails_ok filter src chosen fuel k w c :
  exec_copy_fails filter src chosen fuel k w = Some c -> copy_fails quick_hash false filter src chosen fuel k w c.
Proof.
  unfold exec_copy_fails. intros E.
  apply bind_Some in E as (sx & E1%get_ok_inv & E). apply bind_Some in E as (sbm & E2%get_ok_inv & E).
  apply bind_Some in E as (fo & E3%get_done_inv & E). apply bind_Some in E as (ix & E4%get_ok_inv & E).
  apply bind_Some in E as ([[start ups] packed] & E5%get_ok_inv & E). apply bind_Some in E as (s & (r & E6 & Hr)%ended_badly_ok & E). injection E as <-.
  exists sx, sbm, fo, ix, start, ups, packed, s, r. done.
Qed.
Definition exec_filter_fails (filter : bytes -> bool) (sn : snapshot) (fuel : nat) (k : backend) : option command :=
  ix ← get_ok (master k); bmap ← get_ok (blob_to_pack_map ix);
  fo ← get_done (load_forest quick_hash k bmap fuel (sn_tree sn));
  packed ← get_ok (blob_id_set ix);
  s ← ended_badly (walk_tree quick_hash filter check_chunk fo fuel [] (sn_tree sn) (mkBstate packed []));
  Some (mkCommand index_default [] (bs_sent s) []).
Lemma exec_filter_fails_ok filter sn fuel k c : exec_filter_fails filter sn fuel k = Some c -> filter_fails quick_hash filter sn fuel k c.
Proof.
  unfold exec_filter_fails. intros E.
  apply bind_Some in E as (ix & E1%get_ok_inv & E). apply bind_Some in E as (bm & E2%get_ok_inv & E).
  apply bind_Some in E as (fo & E3%get_done_inv & E). apply bind_Some in E as (packed & E4%get_ok_inv & E).
  apply bind_Some in E as (s & (r & E6 & Hr)%ended_badly_ok & E). injection E as <-.
  exists ix, bm, fo, packed, s, r. done.
Qed.
Definition run_fails (n n2 : nat) (k : backend) (w : workdir) (c : command) : option (backend * workdir) :=
  let s := run quick_hash 20000 true 4 (fun _ => false) n (start_of 20000 k w c) in
  match ps_main s with
  | MSend [] [] =>
      let s' := run quick_hash 20000 true 4 (fun _ => false) n2 (set_main (MWait false) s) in
      match ps_main s' with MDone false => Some (ps_back s', mkWorkdir (ps_files s') (ps_wip s')) | _ => None end
  | _ => None
  end.
Lemma run_fails_ok n n2 k w c k' w' : run_fails n n2 k w c = Some (k', w') -> command_fails quick_hash 20000 true 4 k w c k' w'.
Proof.
  unfold run_fails. set (s := run quick_hash 20000 true 4 (fun _ => false) n (start_of 20000 k w c)).
  destruct (ps_main s) as [[|] [|]| |] eqn:Em; try done. set (s' := run quick_hash 20000 true 4 (fun _ => false) n2 (set_main (MWait false) s)).
  destruct (ps_main s') as [| |[]] eqn:Em'; try done. intros E. injection E as <- <-.
  exists s, s'. split; [apply run_ok|]. split; [exact Em|]. split; [apply run_ok|]. done.
Qed.
Opaque exec_copy_fails exec_filter_fails run_fails.

Example C59_failing_copy_witness : exists c k' w',
  copy_fails quick_hash false all_pass dm_k dm_snaps 20 other_kw.1 other_kw.2 c /\
  (forall b, b ∈ c_blobs c -> b_type b = Tree -> in_list ex_blobs b) /\ no_clash quick_hash other_kw.1 other_kw.2 c /\
  command_fails quick_hash 20000 true 4 other_kw.1 other_kw.2 c k' w' /\ length (c_blobs c) = 1 /\ size (k_packs k') = 3.
Proof.
  assert (holds (exec_copy_fails all_pass dm_k dm_snaps 20 other_kw.1 other_kw.2) (fun c =>
    in_listb ex_blobs (c_blobs c) && clash_free quick_hash other_kw.1 other_kw.2 c && bool_decide (length (c_blobs c) = 1) &&
    holds (run_fails 5 300 other_kw.1 other_kw.2 c) (fun kw' => bool_decide (size (k_packs kw'.1) = 3))) = true) as Hx
    by (vm_compute; reflexivity).
  apply holds_inv in Hx as (c & E1%exec_copy_fails_ok & Hx).
  apply andb_true_iff in Hx as [[[Hu%in_listb_ok Hcl%clash_free_ok]%andb_true_iff Hl%bool_decide_eq_true]%andb_true_iff Hx].
  apply holds_inv in Hx as ([k' w'] & E2%run_fails_ok & Hz%bool_decide_eq_true). exists c, k', w'.
  split; [exact E1|]. split; [intros b Hb _; by eapply Forall_forall in Hu|]. split; [exact Hcl|]. split; [exact E2|]. split; [exact Hl|exact Hz].
Qed.

Definition not_aa (p : bytes) : bool := negb (bool_decide (p = ascii_bytes "aa")).
Example C59_failing_filter_witness : exists c k' w',
  filter_fails quick_hash not_aa (ex_snap [fa; fb] 1) 20 dm_k c /\
  (forall b, b ∈ c_blobs c -> b_type b = Tree -> in_list ex_blobs b) /\ no_clash quick_hash dm_k clean c /\
  command_fails quick_hash 20000 true 4 dm_k clean c k' w'.
Proof.
  assert (holds (exec_filter_fails not_aa (ex_snap [fa; fb] 1) 20 dm_k) (fun c =>
    in_listb ex_blobs (c_blobs c) && clash_free quick_hash dm_k clean c &&
    holds (run_fails 4 300 dm_k clean c) (fun kw' => true)) = true) as Hx by (vm_compute; reflexivity).
  apply holds_inv in Hx as (c & E1%exec_filter_fails_ok & Hx).
  apply andb_true_iff in Hx as [[Hu%in_listb_ok Hcl%clash_free_ok]%andb_true_iff Hx].
  apply holds_inv in Hx as ([k' w'] & E2%run_fails_ok & _). exists c, k', w'.
  split; [exact E1|]. split; [intros b Hb _; by eapply Forall_forall in Hu|]. split; [exact Hcl|exact E2].
Qed.

(** In the example prune never gets to remove anything; where nothing is missing it does ([C19_C20_witness]). *)
Example C59_prune_witness dry c : ~ prune_command quick_hash dry dm_k clean (Some c).
Proof.
  intros Hc. destruct (C59_prune_removes_only_if_nothing_is_missing_partial quick_hash (in_list ex_blobs) dry dm_k clean ex_universe quick_hash_length dm_typed dm_sound
    eq_refl) as [Hp _]. destruct (Hp c Hc) as [Hk _].
  apply dm_broken. exact (io_snaps _ _ _ Hk _ _ (proj1 dm_snapshots)).
Qed.

(** But it does harm.  The pack of the example also has the chunk of [zz], which
    no snapshot needs.  Prune starts to copy the rest into new packs, meets the
    missing chunk and gives up; its threads still finish, and the index they
    publish, with what was copied so far, supersedes the one there was
    (src/ui/prune.rs:119-122 and 188-223, src/index.rs:113-151).  The snapshot of
    [aa] lacked nothing; now it cannot be read, nor can any other. *)
Definition exec_prune_fails (fuel : nat) (k : backend) (w : workdir) : option command :=
  ix ← get_ok (master k);
  bmap ← get_ok (blob_to_pack_map ix);
  forests ← get_done (load_forests quick_hash k bmap fuel (map fst (chrono k)));
  let reachable := reachable_blobs forests in
  let reusable := List.filter (pack_in_use reachable) (ix_packs ix) in
  let to_prune := List.filter (fun pm => negb (pack_in_use reachable pm)) (ix_packs ix) in
  let superseded := os_of_list (map fst (map_to_list (k_indexes k))) in
  if decide (to_prune = []) then None
  else
    r ← get_ok (prune_start k w superseded reusable);
    let '(start, ups, packed) := r in
    s ← ended_badly (walk_snapshots quick_hash (fun _ => true) (repack_chunk k ix bmap) fuel forests (mkBstate packed []));
    Some (mkCommand start ups (bs_sent s) []).
Lemma exec_prune_fails_ok fuel k w c : exec_prune_fails fuel k w = Some c -> prune_fails quick_hash false k w c.
Proof.
  unfold exec_prune_fails. intros E.
  apply bind_Some in E as (ix & E1%get_ok_inv & E). apply bind_Some in E as (bmap & E2%get_ok_inv & E).
  apply bind_Some in E as (fo' & E3%get_done_inv & E).
  exists ix, bmap, (chrono k), fuel, fo'. split; [done|]. split; [done|]. split; [apply chrono_ok|]. split; [done|]. cbv zeta.
  case_decide; [done|]. split; [done|].
  apply bind_Some in E as ([[start ups] packed] & E5%get_ok_inv & E).
  apply bind_Some in E as (s & (r & E6 & Hr)%ended_badly_ok & E). injection E as <-.
  exists start, ups, packed, s, r. done.
Qed.
Opaque exec_prune_fails.
Definition dz_blobs : list blob := List.filter (fun b => negb (is_bb b)) (remove_dups (ex_plan [fa; fb] ++ ex_plan [fa] ++ ex_plan [fz])).
Definition dz_k : backend := single quick_hash dz_blobs dm_snaps.
Lemma dz_sound : sound quick_hash (in_list ex_blobs) dz_k.
Proof.
  unfold dz_k. apply single_sound.
  - apply in_listb_ok. vm_compute. reflexivity.
  - assert (bool_decide (NoDup (map b_id dz_blobs)) = true) as Hx by (vm_compute; reflexivity). by apply bool_decide_eq_true in Hx.
Qed.
Lemma dz_good : exists es, restores quick_hash dz_k (ex_snap [fa] 2) es.
Proof.
  assert (match back quick_hash (repo_store dz_k) 9 (sn_tree (ex_snap [fa] 2)) with Some _ => true | None => false end = true) as Hx
    by (vm_compute; reflexivity).
  destruct (back quick_hash (repo_store dz_k) 9 (sn_tree (ex_snap [fa] 2))) as [es|] eqn:Hes; [|discriminate Hx].
  exists es. by eapply back_ok.
Qed.
Opaque dz_k dz_blobs.
Theorem C59_refuted_prune : exists H U k w c k' w' i sn,
  universe H U /\ (forall x, length (H x) = 28) /\ typed H U /\ sound H U k /\ w = clean /\
  prune_fails H false k w c /\ no_clash H k w c /\ command_fails H 20000 true 4 k w c k' w' /\
  k_snaps k !! i = Some sn /\ snapshot_complete H k sn /\
  k_snaps k' !! i = Some sn /\ ~ snapshot_complete H k' sn.
Proof.
  assert (holds (exec_prune_fails 20 dz_k clean) (fun c =>
    clash_free quick_hash dz_k clean c && holds (run_fails 5 300 dz_k clean c) (fun kw' =>
      snap_at kw'.1 (ex_sid [fa] 2) (ex_snap [fa] 2) && broken quick_hash kw'.1 (ex_snap [fa] 2))) = true) as Hx by (vm_compute; reflexivity).
  apply holds_inv in Hx as (c & E1%exec_prune_fails_ok & Hx). apply andb_true_iff in Hx as [Hcl%clash_free_ok Hx].
  apply holds_inv in Hx as ([k' w'] & E2%run_fails_ok & Hx). apply andb_true_iff in Hx as [Hs%snap_at_inv Hb%broken_is_incomplete].
  exists quick_hash, (in_list ex_blobs), dz_k, clean, c, k', w', (ex_sid [fa] 2), (ex_snap [fa] 2).
  split; [apply ex_universe|]. split; [apply quick_hash_length|]. split; [apply dm_typed|]. split; [apply dz_sound|]. split; [done|].
  split; [exact E1|]. split; [exact Hcl|]. split; [exact E2|].
  split; [apply snap_at_inv; vm_compute; reflexivity|]. split; [exact dz_good|]. split; [exact Hs|exact Hb].
Qed.

(** Then [aa] changes. *)
Definition fa2 : fspath := (ascii_bytes "/aa", ascii_bytes "aa", FsFile (ex_meta 33188 (Some 6%N)) (ascii_bytes "AA")).
Definition dm_all : list blob := remove_dups (ex_blobs ++ ex_plan [fa2; fb] ++ ex_plan [fa2]).
Lemma dm_universe : universe quick_hash (in_list dm_all).
Proof. apply universe_ok. vm_compute. reflexivity. Qed.
Lemma dm_all_typed : typed quick_hash (in_list dm_all).
Proof. apply typedb_ok. vm_compute. reflexivity. Qed.
Lemma dm_all_sound : sound quick_hash (in_list dm_all) dm_k.
Proof.
  Local Transparent dm_k. unfold dm_k. Local Opaque dm_k. apply single_sound.
  - apply in_listb_ok. vm_compute. reflexivity.
  - assert (bool_decide (NoDup (map b_id dm_blobs)) = true) as Hx by (vm_compute; reflexivity). by apply bool_decide_eq_true in Hx.
Qed.
Opaque dm_all.

(** A backup of [aa], whose last snapshot lacks nothing. *)
Example C59_backup_witness : exists parent pf c k' w',
  universe quick_hash (in_list dm_all) /\ sound quick_hash (in_list dm_all) dm_k /\ own_leftovers quick_hash (in_list dm_all) dm_k clean /\
  backup_command quick_hash toy_cuts false false false (fun _ => true) [] [] [] 3 [fa2] parent pf dm_k clean c /\
  (forall p, parent = Some p -> exists es, program_reads quick_hash dm_k p es) /\ parent <> None /\
  paths_ok toy_cuts false [fa2] /\ Forall (in_list dm_all) (plan_blobs quick_hash toy_cuts (fun _ => true) pf (sn_tree <$> parent) [fa2]) /\
  no_clash quick_hash dm_k clean c /\ command_done quick_hash 20000 true 4 dm_k clean c k' w' /\ size (k_snaps k') = 3.
Proof.
  assert (holds (backup_of quick_hash toy_cuts [fa2] 3 dm_k clean) (fun r =>
    in_listb dm_all (plan_blobs quick_hash toy_cuts (fun _ => true) r.1.2 (sn_tree <$> r.1.1) [fa2]) &&
    clash_free quick_hash dm_k clean r.2 && bool_decide (r.1.1 = Some (ex_snap [fa] 2)) &&
    holds (ex_run dm_k clean r.2) (fun kw' => bool_decide (size (k_snaps kw'.1) = 3))) = true) as Hx
    by (vm_compute; reflexivity).
  apply holds_inv in Hx as ([[parent pf] c] & E1%backup_of_ok & Hx).
  apply andb_true_iff in Hx as [[[Hu%in_listb_ok Hcl%clash_free_ok]%andb_true_iff Hp%bool_decide_eq_true]%andb_true_iff Hx].
  cbn [fst snd] in Hp. subst parent. apply holds_inv in Hx as ([k' w'] & E2%ex_run_ok & Hz%bool_decide_eq_true).
  exists (Some (ex_snap [fa] 2)), pf, c, k', w'.
  split; [apply dm_universe|]. split; [apply dm_all_sound|]. split; [split; [|done]; intros p bs E; cbn in E; by apply lookup_empty_Some in E|].
  split; [exact E1|]. split.
  { intros p [= <-].
    assert (match back quick_hash (repo_store dm_k) 9 (sn_tree (ex_snap [fa] 2)) with Some _ => true | None => false end = true) as Hx
      by (vm_compute; reflexivity).
    destruct (back quick_hash (repo_store dm_k) 9 (sn_tree (ex_snap [fa] 2))) as [es|] eqn:Hes; [|discriminate Hx].
    exists es. apply (sound_reads_iff quick_hash (in_list ex_blobs) ex_universe quick_hash_length); [apply dm_sound|]. by eapply back_ok. }
  split; [discriminate|]. split; [apply paths_okb_ok; vm_compute; reflexivity|]. split; [exact Hu|]. split; [exact Hcl|]. split; [exact E2|exact Hz].
Qed.

(** A backup of [aa] and [bb], where [bb] has not changed since the broken snapshot:
    it takes over the list of chunks from there, does not look whether they are
    in the repository, and adds another snapshot that cannot be read.
    (src/ui/backup.rs:459-468.) *)
Theorem C59_refuted_backup : exists H U k w paths parent pf c k' w' sn,
  universe H U /\ (forall x, length (H x) = 28) /\ typed H U /\ sound H U k /\ w = clean /\
  backup_command H toy_cuts false false false (fun _ => true) [] [] [] 3 paths parent pf k w c /\
  paths_ok toy_cuts false paths /\ Forall U (plan_blobs H toy_cuts (fun _ => true) pf (sn_tree <$> parent) paths) /\
  no_clash H k w c /\ command_done H 20000 true 4 k w c k' w' /\
  k_snaps k !! snapshot_id H sn = None /\ k_snaps k' !! snapshot_id H sn = Some sn /\ ~ snapshot_complete H k' sn.
Proof.
  assert (holds (backup_of quick_hash toy_cuts [fa2; fb] 3 dm_k clean) (fun r =>
    in_listb dm_all (plan_blobs quick_hash toy_cuts (fun _ => true) r.1.2 (sn_tree <$> r.1.1) [fa2; fb]) &&
    clash_free quick_hash dm_k clean r.2 && bool_decide (k_snaps dm_k !! ex_sid [fa2; fb] 3 = None) &&
    holds (ex_run dm_k clean r.2) (fun kw' =>
      snap_at kw'.1 (ex_sid [fa2; fb] 3) (ex_snap [fa2; fb] 3) && broken quick_hash kw'.1 (ex_snap [fa2; fb] 3))) = true) as Hx
    by (vm_compute; reflexivity).
  apply holds_inv in Hx as ([[parent pf] c] & E1%backup_of_ok & Hx).
  apply andb_true_iff in Hx as [[[Hu%in_listb_ok Hcl%clash_free_ok]%andb_true_iff Hp%bool_decide_eq_true]%andb_true_iff Hx].
  apply holds_inv in Hx as ([k' w'] & E2%ex_run_ok & Hx). apply andb_true_iff in Hx as [Hs%snap_at_inv Hb%broken_is_incomplete].
  exists quick_hash, (in_list dm_all), dm_k, clean, [fa2; fb], parent, pf, c, k', w', (ex_snap [fa2; fb] 3).
  split; [apply dm_universe|]. split; [apply quick_hash_length|]. split; [apply dm_all_typed|]. split; [apply dm_all_sound|]. split; [done|].
  split; [exact E1|]. split; [apply paths_okb_ok; vm_compute; reflexivity|]. split; [exact Hu|]. split; [exact Hcl|]. split; [exact E2|].
  split; [exact Hp|]. split; [exact Hs|exact Hb].
Qed.

Print Assumptions C59_copies_are_complete.
Print Assumptions C59_copies_what_can_be_read.
Print Assumptions C59_filtered_snapshots_are_complete.
Print Assumptions C59_failing_copies_do_no_harm.
Print Assumptions C59_failing_filters_do_no_harm.
Print Assumptions C59_prune_removes_only_if_nothing_is_missing_partial.
Print Assumptions C59_backups_are_complete_partial.
Print Assumptions C59_refuted_prune.
Print Assumptions C59_refuted_backup.
