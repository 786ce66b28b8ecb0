(** Histories keep a repository in order. *)

From Verif Require Import Base OMap Formats Hashing Pack Index IndexFacts Meta Forest ForestFacts FsTree FsSpec FsFacts BackupFacts
  Pipeline PipelineFacts PropsPipeline Repo RepoSpec RepoFacts RewriteFacts PublishFacts CommandFacts History PruneFacts ReadFacts.

Lemma del_snaps_lookup H k ids i sn :
  k_snaps (apply_ops H k (map DelSnap ids)) !! i = Some sn <-> k_snaps k !! i = Some sn /\ i ∉ ids.
Proof.
  unfold apply_ops. revert k. induction ids as [|x ids IH]; intros k; cbn [map foldl].
  { split; [intros ?; split; [done|apply not_elem_of_nil]|by intros [? _]]. }
  rewrite IH. simpl. rewrite lookup_delete_Some, not_elem_of_cons. naive_solver.
Qed.

Section facts.
Variables (H : bytes -> oid) (U : blob -> Prop).
Hypothesis HU : universe H U.
Hypothesis Hlen : forall x, length (H x) = 28.
Local Set Default Proof Using "All".

Lemma in_order_usable k : in_order H U k -> usable k.
Proof. intros Hk. destruct (in_order_maps H U HU Hlen k Hk) as (ix & bmap & packed & E1 & E2 & E3 & _). by exists ix, bmap, packed. Qed.

Lemma assembles_reads k ix bmap fo nd n :
  structured H U k -> master k = Ok ix -> blob_to_pack_map ix = Ok bmap ->
  (forall id t, fo !! id = Some t -> stored_as H (repo_store k) id t) ->
  (forall id t s, fo !! id = Some t -> s ∈ subtrees t -> is_Some (fo !! s)) ->
  (forall s, s ∈ node_subtree nd -> is_Some (fo !! s)) ->
  assembles (read_chunk k bmap) fo nd n <-> reads H (repo_store k) nd n.
Proof.
  intros Hk Eix Ebm Hfo Hcl. revert nd. induction n as [m c|m es IH|m t|m] using fsnode_ind'; intros nd Hsub.
  - split.
    + inversion 1 as [m' cs ps HF| |]; subst. constructor. eapply Forall2_impl; [exact HF|]. intros c p Hc.
      by apply (read_chunk_spec H U HU k Hk ix bmap Eix Ebm).
    + inversion 1 as [m' cs ps HF| |]; subst. constructor. eapply Forall2_impl; [exact HF|]. intros c p Hc.
      by apply (read_chunk_spec H U HU k Hk ix bmap Eix Ebm).
  - assert (forall id t, fo !! id = Some t -> stored_as H (repo_store k) id t ->
      Forall2 (fun (a : bytes * node) (b : bytes * fsnode) => a.1 = b.1 /\ assembles (read_chunk k bmap) fo a.2 b.2) t es <->
      Forall2 (fun (a : bytes * node) (b : bytes * fsnode) => a.1 = b.1 /\ reads H (repo_store k) a.2 b.2) t es) as Hmid.
    { intros id t Ht _. assert (forall s, s ∈ subtrees t -> is_Some (fo !! s)) as Hs by eauto. clear Ht.
      revert t Hs. induction IH as [|[nm n] es Hn IH IHes]; intros t Hs.
      - split; intros HF; inversion HF; subst; constructor.
      - assert (forall a t', t = a :: t' -> (forall s, s ∈ node_subtree a.2 -> is_Some (fo !! s)) /\ forall s, s ∈ subtrees t' -> is_Some (fo !! s)) as Hsp.
        { intros [x a] t' ->. split; intros s Hx; apply Hs; rewrite subtrees_cons; apply elem_of_app; auto. }
        split; intros HF; inversion HF as [|a b t' es' [Ea Hr] HF']; subst; destruct (Hsp _ _ eq_refl) as [H1 H2]; constructor.
        + split; [done|]. by apply Hn.
        + by apply IHes.
        + split; [done|]. by apply Hn.
        + by apply IHes. }
    split.
    + inversion 1 as [| |m' id t es' Ht HF]; subst. econstructor; [by apply Hfo|]. by apply (Hmid id); [|apply Hfo|].
    + inversion 1 as [| |m' id t es' Ht HF]; subst. destruct (Hsub id) as [t' Ht']; [by left|].
      assert (t' = t) as -> by (eapply stored_as_fun; eauto). econstructor; [done|]. by apply (Hmid id).
  - split; inversion 1; subst; constructor.
  - split; inversion 1.
Qed.

(** What the program reads is what the stored blobs say. *)
Lemma sound_reads_iff k sn es : sound H U k -> program_reads H k sn es <-> restores H k sn es.
Proof.
  intros Hk. pose proof (sound_structured _ _ _ Hk) as Hst.
  destruct (sound_maps H U HU Hlen k Hk) as (ix & bmap & packed & E1 & E2 & _).
  assert (forall fuel fo t, load_forest H k bmap fuel (sn_tree sn) = Some (Ok fo) -> fo !! sn_tree sn = Some t ->
    stored_as H (repo_store k) (sn_tree sn) t /\
    (Forall2 (fun (a : bytes * node) (b : bytes * fsnode) => a.1 = b.1 /\ assembles (read_chunk k bmap) fo a.2 b.2) t es <->
     Forall2 (fun (a : bytes * node) (b : bytes * fsnode) => a.1 = b.1 /\ reads H (repo_store k) a.2 b.2) t es)) as Hmid.
  { intros fuel fo t El Et. destruct (load_forest_ok H U HU k Hst ix bmap E1 E2 _ _ _ El) as (_ & F2 & F3 & _).
    split; [by apply F2|]. assert (forall s, s ∈ subtrees t -> is_Some (fo !! s)) as Hs by eauto.
    assert (forall a : bytes * node, a ∈ t -> forall n, assembles (read_chunk k bmap) fo a.2 n <-> reads H (repo_store k) a.2 n) as Ha.
    { intros a Hin n. apply (assembles_reads k ix bmap); auto. intros s Hx. apply Hs. unfold subtrees.
      apply elem_of_concat. exists (node_subtree a.2). split; [done|]. apply elem_of_list_fmap. by exists a. }
    clear -Ha. revert es Ha. induction t as [|a t IH]; intros es Ha.
    { split; intros HF; inversion HF; constructor. }
    assert (forall es, Forall2 (fun (a : bytes * node) (b : bytes * fsnode) => a.1 = b.1 /\ assembles (read_chunk k bmap) fo a.2 b.2) t es <->
      Forall2 (fun (a : bytes * node) (b : bytes * fsnode) => a.1 = b.1 /\ reads H (repo_store k) a.2 b.2) t es) as IH'.
    { intros es'. apply IH. intros b Hb. apply Ha. by right. }
    split; intros HF; inversion HF as [|? b ? es' [E Hr] HF']; subst; (constructor; [split; [done|]; apply Ha; [by left|done]|by apply IH']). }
  split.
  - intros (ix' & bmap' & fuel & fo & t & E1' & E2' & El & Et & HF).
    rewrite E1 in E1'. injection E1' as <-. rewrite E2 in E2'. injection E2' as <-.
    destruct (Hmid fuel fo t El Et) as [Hs Hi]. exists t. split; [done|]. by apply Hi.
  - intros Hr. destruct (load_forest_total H U HU Hlen k ix bmap Hst E1 E2 _ _ Hr) as [fo El].
    destruct (load_forest_ok H U HU k Hst ix bmap E1 E2 _ _ _ El) as ([t Et] & _).
    destruct (Hmid _ fo t El Et) as [Hs Hi]. exists ix, bmap, (S (depth es)), fo, t. split_and!; try done.
    destruct Hr as (t' & Ht' & HF). assert (t' = t) as -> by (by eapply stored_as_fun). by apply Hi.
Qed.

Lemma program_reads_iff k sn es : in_order H U k -> program_reads H k sn es <-> restores H k sn es.
Proof. intros Hk. by apply sound_reads_iff, in_order_sound. Qed.

Lemma forget_in_order k ids : in_order H U k -> in_order H U (apply_ops H k (map DelSnap ids)) /\ repo_store (apply_ops H k (map DelSnap ids)) = repo_store k /\
  (forall i sn, k_snaps (apply_ops H k (map DelSnap ids)) !! i = Some sn <-> k_snaps k !! i = Some sn /\ i ∉ ids) /\
  live_packs (apply_ops H k (map DelSnap ids)) = live_packs k /\ k_packs (apply_ops H k (map DelSnap ids)) = k_packs k.
Proof.
  intros Hk. destruct (del_snaps H k ids) as [Hs _]. pose proof (fun i sn => del_snaps_lookup H k ids i sn) as Hsn. set (k' := apply_ops H k (map DelSnap ids)) in *.
  pose proof (same_repo_store _ _ Hs) as Est. pose proof (same_repo_live _ _ Hs) as Elv.
  split; [|by destruct Hs]. destruct Hs as [E1 E2]. constructor.
  - rewrite E1. apply Hk.
  - rewrite E2. apply Hk.
  - rewrite E1, E2. apply Hk.
  - rewrite Elv. apply Hk.
  - intros i sn [Hi _]%Hsn. by apply (io_named _ _ _ Hk).
  - intros i sn [Hi _]%Hsn. unfold snapshot_complete, restores. rewrite Est. by apply (io_snaps _ _ _ Hk i).
Qed.

Definition fine (kw : backend * workdir) : Prop := in_order H U kw.1 /\ own_leftovers H U kw.1 kw.2.

Lemma fine_clean k : in_order H U k -> fine (k, clean).
Proof. intros Hk. split; [done|]. split; [|done]. intros p bs E. simpl in E. by apply lookup_empty_Some in E. Qed.

Lemma fine_no_wip k k' w : in_order H U k' -> own_leftovers H U k w -> w_wip w = None -> fine (k', w).
Proof. intros Hk [Hw _] E. split; [done|]. split; [done|]. simpl. by rewrite E. Qed.

(** Snapshots there before and after read the same. *)
Definition same_snapshots (k k' : backend) : Prop :=
  forall i sn, k_snaps k !! i = Some sn -> k_snaps k' !! i = Some sn -> forall es, restores H k sn es <-> restores H k' sn es.

Lemma same_snapshots_grow k k' : in_order H U k -> repo_store k ⊆ repo_store k' -> same_snapshots k k'.
Proof.
  intros Hk Hsub i sn Hi Hi' es. split; [by apply reads_root_mono|]. intros Hes.
  destruct (io_snaps _ _ _ Hk i sn Hi) as [es' Hes'].
  by rewrite (reads_root_fun _ _ _ _ _ Hes (reads_root_mono _ _ _ _ _ Hsub Hes')).
Qed.

Lemma happens_fine kw kw' : fine kw -> happens H U kw kw' -> fine kw' /\ same_snapshots kw.1 kw'.1.
Proof.
  intros [Hk Hw]. inversion 1 as
    [cuts deref ae filter author tz tags now paths parent pf k w c target cpus errors k' w' Hc Hp HpU Hcl He Hr
    |filter src chosen fuel forests k w c target cpus errors k' w' Hsrc Hch Hc HpU Hcl He Hr
    |filter sn i meta fuel fo k w c target cpus errors k' w' Hwip Hi Hc HpU Hcl He Hr
    |k w c target cpus k' w' Hc Hcl Hr
    |k w ids n|k w k' Hwip Ho Hf Hr|k w]; subst; simpl in *.
  - destruct (backup_adding H U HU Hlen cuts deref ae filter author tz tags now paths parent pf k w c Hk Hw Hc Hp HpU Hcl) as (_ & _ & sns & Ha & _).
    destruct (adds_safe H U HU Hlen k w c _ sns target cpus errors k' w' He Hk Hw Ha HpU Hcl Hr) as (S1 & S2 & S3 & S4).
    split; [done|]. by apply same_snapshots_grow.
  - destruct (copy_adding H U HU Hlen filter src chosen fuel forests k w c Hsrc Hch Hk Hw Hc HpU) as (_ & sns & Ha & _).
    destruct (adds_safe H U HU Hlen k w c _ sns target cpus errors k' w' He Hk Hw Ha HpU Hcl Hr) as (S1 & S2 & S3 & S4).
    split; [done|]. by apply same_snapshots_grow.
  - destruct (filter_adding H U HU Hlen filter sn i meta fuel fo k w c Hk Hw Hwip Hi Hc HpU) as (root & sns & Ha & _).
    destruct (adds_safe H U HU Hlen k w c _ sns target cpus errors k' w' He Hk Hw Ha HpU Hcl Hr) as (S1 & S2 & S3 & S4).
    split; [done|]. by apply same_snapshots_grow.
  - destruct (prune_all H U HU Hlen k w (Some c) Hk (own_prune_leftovers H U HU Hlen k w Hw) Hc) as [_ Hall].
    destruct (Hall target cpus k' w' Hcl) as [Hreach _]. destruct (Hreach Hr) as (P1 & P2 & P3 & _).
    split; [by apply fine_clean|]. intros j sn Hj _ es. by eapply P3.
  - unfold forget_ops. rewrite take_map. destruct (forget_in_order k (take n ids) Hk) as (F1 & F2 & F3 & F4 & F5).
    split; [split; [done|]|].
    + destruct Hw as [Hw1 Hw2]. split; [done|]. simpl. destruct (w_wip w) as [ix|]; [|done]. rewrite F4, F5. done.
    + intros i sn _ _ es. unfold restores. simpl. by rewrite F2.
  - destruct (rebuild_all H U HU Hlen k Hk Ho Hf k' Hr) as (R1 & R2 & R3 & R4).
    split; [by eapply fine_no_wip|]. intros i sn Hi _ es. by eapply R4.
  - split; [by apply fine_clean|]. done.
Qed.

(** *** Prunes in one directory *)

Lemma prunes_fine kw kw' : in_order H U kw.1 -> prune_wip H U kw.1 kw.2 -> prunes H U kw kw' ->
  in_order H U kw'.1 /\ prune_wip H U kw'.1 kw'.2 /\ k_snaps kw.1 ⊆ k_snaps kw'.1.
Proof.
  intros Hk Hw Hp. revert Hk Hw. induction Hp as [kw|kw kw1 kw' Hstep _ IH]; intros Hk Hw; [done|].
  assert (in_order H U kw1.1 /\ prune_wip H U kw1.1 kw1.2 /\ k_snaps kw.1 ⊆ k_snaps kw1.1) as (H1 & H2 & H3).
  { destruct Hstep as [k w c target cpus k' w' Hc Hcl Hr|k w k' (Hk' & Hsn & Hpk)]; simpl in *.
    - destruct (prune_all H U HU Hlen k w (Some c) Hk (fun _ => prune_wip_leftovers H U HU Hlen k w Hw) Hc) as [_ Hall].
      destruct (Hall target cpus k' w' Hcl) as [Hreach _]. destruct (Hreach Hr) as (P1 & P2 & _ & P3 & _).
      split; [done|]. split; [by apply P3|by rewrite P2].
    - split; [done|]. split; [|done]. destruct Hw as [Hw Hwip]. split; [done|]. destruct (w_wip w) as [wx|]; [|done].
      destruct Hwip as (Hso & Hb & Ho & Hneed). split; [done|]. split; [|split; [done|]].
      + intros p m Hp. destruct (Hb p m Hp) as (b & [E|E] & Em); [exists b; auto|]. exists b. split; [|done]. right.
        apply Hpk; [done|]. intros x Hx. apply (Hneed p m (entry_of x) Hp). rewrite <-Em. by apply elem_of_list_fmap_1.
      + intros p m e Hp He. eapply (needed_mono H U HU Hlen k); [done..|]. by eapply Hneed. }
  destruct (IH H1 H2) as (A & B & C). split; [done|]. split; [done|]. by etrans.
Qed.

(** What others do to the repository is of that kind, if they forget nothing. *)
Lemma happens_keep k w k' w' : fine (k, w) -> happens H U (k, w) (k', w') -> k_snaps k ⊆ k_snaps k' -> others_keep H U k k'.
Proof.
  intros Hf Hh Hsn. destruct (happens_fine _ _ Hf Hh) as [[Hk' _] _]. destruct Hf as [Hk Hw]. simpl in *. split; [done|]. split; [done|].
  inversion Hh as
    [cuts deref ae filter author tz tags now paths parent pf k0 w0 c target cpus errors k1 w1 Hc Hp HpU Hcl He Hr
    |filter src chosen fuel forests k0 w0 c target cpus errors k1 w1 Hsrc Hch Hc HpU Hcl He Hr
    |filter sn i meta fuel fo k0 w0 c target cpus errors k1 w1 Hwip Hi Hc HpU Hcl He Hr
    |k0 w0 c target cpus k1 w1 Hc Hcl Hr
    |k0 w0 ids n|k0 w0 k1 Hwip Ho Hfr Hr|k0 w0]; subst; simpl in *.
  - destruct (backup_adding H U HU Hlen cuts deref ae filter author tz tags now paths parent pf k w c Hk Hw Hc Hp HpU Hcl) as (_ & _ & sns & Ha & _).
    intros p b E _. eapply lookup_weaken; [exact E|]. by eapply (adds_packs H U HU Hlen k w c).
  - destruct (copy_adding H U HU Hlen filter src chosen fuel forests k w c Hsrc Hch Hk Hw Hc HpU) as (_ & sns & Ha & _).
    intros p b E _. eapply lookup_weaken; [exact E|]. by eapply (adds_packs H U HU Hlen k w c).
  - destruct (filter_adding H U HU Hlen filter sn i meta fuel fo k w c Hk Hw Hwip Hi Hc HpU) as (root & sns & Ha & _).
    intros p b E _. eapply lookup_weaken; [exact E|]. by eapply (adds_packs H U HU Hlen k w c).
  - destruct (prune_all H U HU Hlen k w (Some c) Hk (own_prune_leftovers H U HU Hlen k w Hw) Hc) as [_ Hall].
    destruct (Hall target cpus k' w1 Hcl) as [Hreach _]. by destruct (Hreach Hr) as (_ & _ & _ & _ & P).
  - unfold forget_ops. rewrite take_map. destruct (forget_in_order k (take n ids) Hk) as (_ & _ & _ & _ & F5). intros p b E _. by rewrite F5.
  - destruct (rebuild_all H U HU Hlen k Hk Ho Hfr k' Hr) as (_ & R2 & R3 & _). intros p b E _. congruence.
  - done.
Qed.

Lemma empty_in_order : in_order H U empty_repo.
Proof.
  constructor.
  - intros p bs E. simpl in E. by apply lookup_empty_Some in E.
  - intros i ix E. simpl in E. by apply lookup_empty_Some in E.
  - intros i ix p m E. simpl in E. by apply lookup_empty_Some in E.
  - intros p m p' m' n n' e e' (i & ix & E & _)%elem_of_live_packs. simpl in E. by apply lookup_empty_Some in E.
  - intros i sn E. simpl in E. by apply lookup_empty_Some in E.
  - intros i sn E. simpl in E. by apply lookup_empty_Some in E.
Qed.

Lemma history_fine kw kw' : fine kw -> history H U kw kw' -> fine kw'.
Proof. intros Hf. induction 1 as [|a b c Hab Hbc IH]; [done|]. apply IH. by eapply happens_fine. Qed.

Lemma start_fine : fine (empty_repo, clean).
Proof. apply fine_clean, empty_in_order. Qed.
End facts.
