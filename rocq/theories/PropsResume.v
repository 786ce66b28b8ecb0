(** The check that comes before an interrupted run is resumed, whatever has
    become of the repository in the meantime. *)
From Verif Require Import Base OMap Formats FormatsFacts Hashing Pack Index IndexFacts Meta Forest FsTree
  Pipeline PipelineFacts Repo PropsPipeline Toy.

(** ** C14: the work-in-progress index is not taken on trust *)

(** Whatever is in the working directory and on the backend: a resumed run starts
    from the index that was left, uploads just those packs it names that are in the
    directory, and all the others it names are on the backend. *)
Theorem C14_resuming_checks_the_packs k w ix ups :
  find_resumable k w = Ok (Some (ix, ups)) ->
  w_wip w = Some ix /\
  (forall p, p ∈ ups <-> p ∈ map fst (ix_packs ix) /\ is_Some (w_packs w !! p)) /\
  (forall p, p ∈ map fst (ix_packs ix) -> p ∈ ups \/ is_Some (k_packs k !! p)).
Proof.
  unfold find_resumable. destruct (w_wip w) as [ix'|]; [|done].
  destruct (forallb _ _) eqn:Hall; [|done]. intros [= <- <-]. split; [done|].
  assert (forall p, p ∈ find_cwd_packfiles (w_packs w) ix' <-> p ∈ map fst (ix_packs ix') /\ is_Some (w_packs w !! p)) as Hc.
  { intros p. unfold find_cwd_packfiles. rewrite elem_of_list_In, filter_In, bool_decide_eq_true, <-elem_of_list_In. done. }
  split; [done|]. intros p Hp. destruct (decide (p ∈ find_cwd_packfiles (w_packs w) ix')) as [?|Hn]; [by left|right].
  rewrite forallb_forall in Hall. apply (bool_decide_eq_true (is_Some (k_packs k !! p))). apply Hall. apply filter_In. split; [by apply elem_of_list_In|].
  by apply negb_true_iff, bool_decide_eq_false.
Qed.
Print Assumptions C14_resuming_checks_the_packs.

(** A pack named by the index that was left is nowhere. *)
Definition pack_is_lost (k : backend) (w : workdir) : Prop :=
  exists ix p, w_wip w = Some ix /\ p ∈ map fst (ix_packs ix) /\ w_packs w !! p = None /\ k_packs k !! p = None.

Lemma lost_err k w : pack_is_lost k w -> find_resumable k w = Err.
Proof.
  intros (ix & p & Hw & Hp & H1 & H2). destruct (find_resumable k w) as [[[ix' ups]|]| |] eqn:E; try done.
  - destruct (C14_resuming_checks_the_packs _ _ _ _ E) as (Hw' & Hu & Ha). rewrite Hw in Hw'. injection Hw' as <-.
    destruct (Ha p Hp) as [Hi|[? Hi]]; [|congruence]. apply Hu in Hi as [_ [? Hi]]. congruence.
  - unfold find_resumable in E. rewrite Hw in E. by destruct (forallb _ _).
  - unfold find_resumable in E. rewrite Hw in E. by destruct (forallb _ _).
Qed.

(** Then no backup, copy or prune goes beyond the check: there is no run of one,
    save the prune that finds nothing to do. *)
Theorem C14_lost_packs_stop_the_run H k w :
  pack_is_lost k w ->
  find_resumable k w = Err /\
  (forall cuts dry deref empty filter author tz tags now paths parent pf c,
    ~ backup_command H cuts dry deref empty filter author tz tags now paths parent pf k w c) /\
  (forall dry filter src chosen fuel forests c,
    ~ copy_command H dry filter src chosen fuel forests k w c) /\
  (forall dry c, prune_command H dry k w c -> c = None).
Proof.
  intros Hl%lost_err. split; [done|]. split; [|split].
  - intros until c. intros (ix & bmap & snaps & start & ups & packed & s & root & _ & _ & _ & _ & _ & _ & Hr & _).
    unfold resume in Hr. rewrite Hl in Hr. by destruct (blob_id_set ix).
  - intros until c. intros (sx & sbmap & ix & start & ups & packed & s & sns & _ & _ & _ & _ & Hr & _).
    unfold resume in Hr. rewrite Hl in Hr. by destruct (blob_id_set ix).
  - intros dry c (ix & bmap & snaps & fuel & forests & _ & _ & _ & _ & Hr).
    cbv zeta in Hr. case_decide; [done|]. destruct Hr as (start & ups & packed & s & sns & Hr & _).
    unfold prune_start in Hr. rewrite Hl in Hr. by destruct (blob_id_set _).
Qed.
Print Assumptions C14_lost_packs_stop_the_run.

(** ** C13: nor does resuming publish an index with a missing pack *)

(** The packs the index names are named after their manifests. *)
Definition wip_named (H : bytes -> oid) (w : workdir) : Prop :=
  forall ix, w_wip w = Some ix -> om_sorted (ix_packs ix) /\ forall p m, (p, m) ∈ ix_packs ix -> p = pack_id H m.
(** The manifests there are: of packs, and in the index that was left. *)
Definition any_manifest (k : backend) (w : workdir) (bs : list blob) (m : manifest) : Prop :=
  run_manifest k w bs m \/ exists ix p, w_wip w = Some ix /\ (p, m) ∈ ix_packs ix.

(** Other runs, prunes among them, may have changed the backend since the run was
    interrupted, and files may have gone from the directory.  If the check lets a
    run resume, then at every moment of it the published indexes have their packs. *)
Theorem C13_resumed_indexes_have_their_packs H target cpus errors k w ix ups bs s :
  errors <> ErrorAny ->
  packs_named H (k_packs k) -> packs_named H (w_packs w) -> wip_named H w ->
  no_pack_collision H (any_manifest k w bs) -> (forall b, b ∈ bs -> b_bytes b <> []) ->
  indexes_backed k ->
  find_resumable k w = Ok (Some (ix, ups)) ->
  during H target true cpus errors k w ix ups bs s ->
  indexes_backed (ps_back s).
Proof.
  intros He Hk Hw Hn Hc Hb Hi Hf Hd. destruct (C14_resuming_checks_the_packs _ _ _ _ Hf) as (Ew & Hu & Ha).
  destruct (Hn ix Ew) as [Hs Hnamed]. eapply C13_published_indexes_have_their_packs; [done| |done|done].
  assert (forall m p bs', (p, m) ∈ ix_packs ix -> k_packs k !! p = Some bs' \/ w_packs w !! p = Some bs' -> manifest_of bs' = m) as Hsame.
  { intros m p bs' Hp Hx. apply Hc.
    - left. left. eauto.
    - right. eauto.
    - rewrite <-(Hnamed p m Hp). destruct Hx as [E|E]; [symmetry; by apply Hk|symmetry; by apply Hw]. }
  constructor; try done.
  - intros m m' Hm Hm'. apply Hc; by left.
  - intros p m Hp. assert (p ∈ map fst (ix_packs ix)) as Hp'.
    { apply elem_of_list_In, in_map_iff. exists (p, m). split; [done|by apply elem_of_list_In]. }
    destruct (Ha p Hp') as [Hup|[bs' E]].
    + right. split; [|done]. apply Hu in Hup as [_ [bs' E]]. exists bs'. split; [done|]. eauto.
    + left. exists bs'. split; [done|]. eauto.
Qed.
Print Assumptions C13_resumed_indexes_have_their_packs.

(** A run was interrupted with its pack in the directory; now the same with the
    pack gone. *)
Definition ex_lost : workdir := mkWorkdir ∅ (Some ex_wip).

Example C14_witness_resuming_checks :
  find_resumable ex_back ex_work = Ok (Some (ex_wip, [ex_left])) /\
  wip_named quick_hash ex_work /\
  no_pack_collision quick_hash (any_manifest ex_back ex_work [ex_chunk1; ex_dir]) /\
  pack_is_lost ex_back ex_lost.
Proof.
  split; [exact (proj1 (proj2 C13_witness))|]. split; [|split].
  - intros ix E. injection E as <-. split; [constructor; constructor|]. intros p m. unfold ex_wip. cbn [ix_packs].
    rewrite elem_of_list_singleton. intros E. injection E as -> ->. reflexivity.
  - assert (forall m, any_manifest ex_back ex_work [ex_chunk1; ex_dir] m -> run_manifest ex_back ex_work [ex_chunk1; ex_dir] m) as Hm.
    { intros m [?|(ix & p & E & Hp)]; [assumption|]. left. injection E as <-. unfold ex_wip in Hp. cbn [ix_packs] in Hp.
      apply elem_of_list_singleton in Hp. injection Hp as -> ->.
      exists ex_left, [ex_chunk2]. split; [|reflexivity]. right. apply lookup_singleton. }
    intros m m' H1%Hm H2%Hm. exact (rr_collision _ _ _ _ _ _ (proj1 C13_witness) m m' H1 H2).
  - exists ex_wip, ex_left. split; [reflexivity|]. split; [constructor|]. split; apply lookup_empty.
Qed.
