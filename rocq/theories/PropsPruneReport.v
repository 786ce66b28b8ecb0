(** C71: prune says what it is going to do, and does that. *)

From Verif Require Import Base OMap Formats FormatsFacts Hashing Pack Index IndexFacts Meta Forest FsTree FsSpec FsFacts BackupFacts
  Pipeline Repo RepoSpec RepoFacts CommandFacts History HistoryFacts PruneFacts SnapshotsFacts BrowseFacts PruneReport Exec Witness Toy PropsRepo PropsBrowse PropsDiffFiles.

(** ** What the numbers mean *)

(** The bytes of the blobs in some packs. *)
Definition pack_blobs (k : backend) (p : oid) : list blob := default [] (k_packs k !! p).
Definition blob_bytes (bs : list blob) : N := foldr (fun b n => (N.of_nat (length (b_bytes b)) + n)%N) 0%N bs.
Definition bytes_in (k : backend) (ps : list oid) : N := blob_bytes (concat (map (pack_blobs k) ps)).

(** The packs the indexes name, divided by whether all, some or none of what is in them is
    needed by a snapshot.  (An empty pack counts as needed.) *)
Record divided (H : bytes -> oid) (k : backend) (keep rewrite drop : list oid) : Prop := {
  dv_once : NoDup (keep ++ rewrite ++ drop);
  dv_all : forall p, p ∈ keep ++ rewrite ++ drop <-> exists m, (p, m) ∈ live_packs k;
  dv_keep : forall p b, p ∈ keep -> b ∈ pack_blobs k p -> needed H k (b_id b);
  dv_rewrite : forall p, p ∈ rewrite ->
    (exists b, b ∈ pack_blobs k p /\ needed H k (b_id b)) /\ (exists b, b ∈ pack_blobs k p /\ ~ needed H k (b_id b));
  dv_drop : forall p, p ∈ drop -> pack_blobs k p <> [] /\ forall b, b ∈ pack_blobs k p -> ~ needed H k (b_id b) }.

(** The line for that. *)
Definition line_for (k : backend) (keep rewrite drop : list oid) (msg : prune_message) : Prop :=
  (rewrite = [] /\ drop = [] /\ msg = AllInUse (bytes_in k keep)) \/
  (rewrite ++ drop <> [] /\
   msg = Plan (length keep) (bytes_in k keep) (length rewrite) (bytes_in k rewrite) (length drop) (bytes_in k drop) (size (k_indexes k))).

(** ** Proofs *)
Lemma blob_bytes_app a b : blob_bytes (a ++ b) = (blob_bytes a + blob_bytes b)%N.
Proof. induction a as [|x a IH]; [done|]. simpl. rewrite IH. lia. Qed.

Lemma manifest_size bs : foldr N.add 0%N (map e_len (manifest_of bs)) = blob_bytes bs.
Proof. induction bs as [|b bs IH]; [done|]. unfold manifest_of in *. cbn [map foldr blob_bytes]. rewrite IH. done. Qed.

Section facts.
Variable H : bytes -> oid.
Variable U : blob -> Prop.
Variable k : backend.
Hypothesis Hk : in_order H U k.
Local Set Default Proof Using "Hk".

Lemma live_manifest p m : (p, m) ∈ live_packs k -> k_packs k !! p = Some (pack_blobs k p) /\ m = manifest_of (pack_blobs k p).
Proof.
  intros Hp. unfold live_packs in Hp. apply elem_of_list_In, in_concat in Hp as (l & Hl & Hp).
  apply in_map_iff in Hl as (ix & <- & Hix). unfold live_indexes in Hix. apply in_map_iff in Hix as ([i ix'] & E & Hix). simpl in E. subst ix'.
  apply filter_In in Hix as [Hix _]. apply elem_of_list_In in Hix, Hp. apply elem_of_map_to_list in Hix.
  destruct (io_backed _ _ _ Hk i ix p m Hix Hp) as (bs & E & <-). unfold pack_blobs. by rewrite E.
Qed.

Lemma size_of_packs (pms : list (oid * manifest)) : (forall p m, (p, m) ∈ pms -> (p, m) ∈ live_packs k) ->
  packs_blob_size pms = bytes_in k (map fst pms).
Proof.
  unfold packs_blob_size, bytes_in. induction pms as [|[p m] pms IH]; intros Hl; [done|]. simpl.
  rewrite blob_bytes_app, <-IH by (intros; apply Hl; by right). f_equal.
  destruct (live_manifest p m (Hl p m ltac:(by left))) as [_ ->]. apply manifest_size.
Qed.

(** Every blob is in one place. *)
Lemma blobs_once ps : NoDup ps -> (forall p, p ∈ ps -> exists m, (p, m) ∈ live_packs k) -> NoDup (concat (map (pack_blobs k) ps)).
Proof.
  assert (forall p m p' m' n n' b, (p, m) ∈ live_packs k -> (p', m') ∈ live_packs k -> pack_blobs k p !! n = Some b ->
    pack_blobs k p' !! n' = Some b -> p = p' /\ n = n') as Honce.
  { intros p m p' m' n n' b Hp Hp' E E'. destruct (live_manifest p m Hp) as [_ Em]. destruct (live_manifest p' m' Hp') as [_ Em'].
    apply (io_once _ _ _ Hk p m p' m' n n' (entry_of b) (entry_of b)); try done; subst; unfold manifest_of; rewrite list_lookup_fmap, ?E, ?E'; done. }
  induction ps as [|p ps IH]; intros Hnd Hl; [constructor|]. apply NoDup_cons in Hnd as [Hni Hnd]. simpl.
  destruct (Hl p ltac:(by left)) as [m Hp]. apply NoDup_app. split_and!.
  - apply NoDup_alt. intros n n' b E E'. by destruct (Honce p m p m n n' b Hp Hp E E').
  - intros b Hb Hb'. apply elem_of_list_In, in_concat in Hb' as (l & Hll & Hb'). apply in_map_iff in Hll as (p' & <- & Hp').
    apply elem_of_list_In in Hp', Hb'. destruct (Hl p' ltac:(by right)) as [m' Hm'].
    apply elem_of_list_lookup in Hb as [n E]. apply elem_of_list_lookup in Hb' as [n' E'].
    destruct (Honce p m p' m' n n' b Hp Hm' E E') as [-> _]. done.
  - apply IH; [done|]. intros q Hq. apply Hl. by right.
Qed.

End facts.

Lemma elem_of_blobs k ps b : b ∈ concat (map (pack_blobs k) ps) <-> exists p, p ∈ ps /\ b ∈ pack_blobs k p.
Proof.
  rewrite elem_of_list_In, in_concat. setoid_rewrite in_map_iff. split.
  - intros (l & (p & <- & Hp) & Hb). exists p. by rewrite !elem_of_list_In.
  - intros (p & Hp & Hb). exists (pack_blobs k p). split; [exists p; split; [done|by apply elem_of_list_In]|by apply elem_of_list_In].
Qed.
Lemma blob_bytes_perm a b : a ≡ₚ b -> blob_bytes a = blob_bytes b.
Proof. induction 1; simpl; lia. Qed.

Lemma blob_bytes_submseteq a b : a ⊆+ b -> (blob_bytes a <= blob_bytes b)%N.
Proof.
  intros Hs. apply submseteq_Permutation in Hs as [c Hp]. rewrite (blob_bytes_perm _ _ Hp), blob_bytes_app. lia.
Qed.

Lemma filter_split {A} (f : A -> bool) l : List.filter f l ++ List.filter (fun x => negb (f x)) l ≡ₚ l.
Proof.
  induction l as [|x l IH]; [done|]. simpl. destruct (f x); simpl; [by rewrite IH|]. by rewrite <-Permutation_middle, IH.
Qed.

Lemma droppable_spec reachable (pm : oid * manifest) : pack_droppable reachable pm = true <-> forall e, e ∈ pm.2 -> e_id e ∉ reachable.
Proof.
  unfold pack_droppable. rewrite negb_true_iff, <-not_true_iff_false, existsb_exists. split.
  - intros Hx e He Hr. apply Hx. exists e. split; [by apply elem_of_list_In|by apply bool_decide_eq_true].
  - intros Hx (e & He & Hr%bool_decide_eq_true). eapply Hx; [by apply elem_of_list_In|done].
Qed.
Lemma not_droppable_spec reachable (pm : oid * manifest) : pack_droppable reachable pm = false <-> exists e, e ∈ pm.2 /\ e_id e ∈ reachable.
Proof.
  unfold pack_droppable. rewrite negb_false_iff, existsb_exists. setoid_rewrite bool_decide_eq_true. by setoid_rewrite elem_of_list_In.
Qed.

Lemma indexes_counted (k : backend) : length (os_of_list (map fst (map_to_list (k_indexes k)))) = size (k_indexes k).
Proof.
  transitivity (length (map fst (map_to_list (k_indexes k)))); [|by rewrite map_length].
  apply Permutation_length, NoDup_Permutation; [apply NoDup_names|apply NoDup_fst_map_to_list|]. intros x. apply elem_of_names.
Qed.

Lemma elem_of_manifest b bs : b ∈ bs -> entry_of b ∈ manifest_of bs.
Proof. intros Hb. apply elem_of_list_fmap. by exists b. Qed.
Lemma manifest_elem_of e bs : e ∈ manifest_of bs -> exists b, b ∈ bs /\ e_id e = b_id b.
Proof. intros (b & -> & Hb)%elem_of_list_fmap. by exists b. Qed.

(** ** The theorems *)

(** What is printed is the truth about the packs there are. *)
Theorem C71_what_prune_says H U k msg :
  universe H U -> (forall x, length (H x) = 28) -> in_order H U k -> prune_says H k msg ->
  exists keep rewrite drop, divided H k keep rewrite drop /\ line_for k keep rewrite drop msg.
Proof.
  intros HU Hlen Hk (ix & bmap & snaps & fuel & forests & Eix & Ebm & Hsn & Hfo & Hmsg). cbv zeta in Hmsg.
  pose proof (elem_of_to_prune H U HU Hlen k ix bmap snaps fuel forests Hk Eix Ebm Hsn Hfo) as Htp. cbv zeta in Htp.
  pose proof (elem_of_reusable H U HU Hlen k ix bmap snaps fuel forests Hk Eix Ebm Hsn Hfo) as Hre. cbv zeta in Hre.
  pose proof (reachable_needed H U HU Hlen k ix bmap snaps fuel forests Hk Eix Ebm Hsn Hfo) as Hn.
  destruct (master_ok H U HU k (in_order_structured _ _ _ Hk)) as (ix' & E & [_ Hs] & Hl). rewrite Eix in E. injection E as <-.
  set (reusable := List.filter (pack_in_use (reachable_blobs forests)) (ix_packs ix)) in *.
  set (to_prune := List.filter (fun pm => negb (pack_in_use (reachable_blobs forests) pm)) (ix_packs ix)) in *.
  set (droppable := List.filter (pack_droppable (reachable_blobs forests)) to_prune) in *.
  set (sparse := List.filter (fun pm => negb (pack_droppable (reachable_blobs forests) pm)) to_prune) in *.
  assert (forall p m, (p, m) ∈ ix_packs ix -> m = manifest_of (pack_blobs k p)) as Hm.
  { intros p m Hp. apply (live_manifest H U k Hk). by apply Hl. }
  assert (forall p, p ∈ map fst sparse -> (p, manifest_of (pack_blobs k p)) ∈ sparse) as Hsp.
  { intros p ([p' m] & -> & Hp)%elem_of_list_fmap. simpl. rewrite <-(Hm p' m); [done|].
    unfold sparse, to_prune in Hp. apply elem_of_list_In, filter_In in Hp as [Hp _]. apply filter_In in Hp as [Hp _]. by apply elem_of_list_In. }
  assert (forall p, p ∈ map fst droppable -> (p, manifest_of (pack_blobs k p)) ∈ droppable) as Hdr.
  { intros p ([p' m] & -> & Hp)%elem_of_list_fmap. simpl. rewrite <-(Hm p' m); [done|].
    unfold droppable, to_prune in Hp. apply elem_of_list_In, filter_In in Hp as [Hp _]. apply filter_In in Hp as [Hp _]. by apply elem_of_list_In. }
  assert (reusable ++ sparse ++ droppable ≡ₚ ix_packs ix) as Hperm.
  { rewrite (Permutation_app_comm sparse). unfold sparse, droppable. rewrite filter_split. apply filter_split. }
  assert (map fst reusable ++ map fst sparse ++ map fst droppable ≡ₚ map fst (ix_packs ix)) as Hids.
  { rewrite <-!map_app. by apply Permutation_map. }
  assert (forall p m, (p, m) ∈ reusable ++ sparse ++ droppable -> (p, m) ∈ live_packs k) as Hlive.
  { intros p m. rewrite Hperm. apply Hl. }
  assert (packs_blob_size reusable = bytes_in k (map fst reusable)) as Z1 by (apply (size_of_packs H U k Hk); intros; apply Hlive; rewrite !elem_of_app; auto).
  assert (packs_blob_size sparse = bytes_in k (map fst sparse)) as Z2 by (apply (size_of_packs H U k Hk); intros; apply Hlive; rewrite !elem_of_app; auto).
  assert (packs_blob_size droppable = bytes_in k (map fst droppable)) as Z3 by (apply (size_of_packs H U k Hk); intros; apply Hlive; rewrite !elem_of_app; auto).
  assert (sparse ++ droppable ≡ₚ to_prune) as Hto.
  { rewrite (Permutation_app_comm sparse). apply filter_split. }
  exists (map fst reusable), (map fst sparse), (map fst droppable). split.
  - split.
    + rewrite Hids. by apply om_sorted_nodup.
    + intros p. rewrite Hids. setoid_rewrite <-Hl. split.
      * intros ([p' m] & -> & Hp)%elem_of_list_fmap. by exists m.
      * intros [m Hp]. apply elem_of_list_fmap. by exists (p, m).
    + intros p b ([p' m] & -> & Hp)%elem_of_list_fmap Hb. simpl in *. apply Hre in Hp as [Hp Hx].
      apply (Hx (entry_of b)). rewrite (Hm p' m) by by apply Hl. by apply elem_of_manifest.
    + intros p Hp%Hsp. split.
      * unfold sparse in Hp. apply elem_of_list_In, filter_In in Hp as [_ Hx]. apply negb_true_iff, not_droppable_spec in Hx as (e & He & Hr).
        apply manifest_elem_of in He as (b & Hb & Eb). exists b. split; [done|]. rewrite <-Eb. by apply Hn.
      * assert ((p, manifest_of (pack_blobs k p)) ∈ to_prune) as Hx by (rewrite <-Hto, elem_of_app; auto).
        apply Htp in Hx as (_ & e & He & Hx). apply manifest_elem_of in He as (b & Hb & Eb). exists b. by rewrite <-Eb.
    + intros p Hp%Hdr. split.
      * assert ((p, manifest_of (pack_blobs k p)) ∈ to_prune) as Hx by (rewrite <-Hto, elem_of_app; auto).
        apply Htp in Hx as (_ & e & He & Hx). intros E0. rewrite E0 in He. by apply elem_of_nil in He.
      * intros b Hb Hx. unfold droppable in Hp. apply elem_of_list_In, filter_In in Hp as [_ Hd].
        apply (proj1 (droppable_spec _ _) Hd (entry_of b)); [by apply elem_of_manifest|]. by apply Hn.
  - case_decide as Hd; subst msg.
    + left. rewrite Hd in Hto. apply Permutation_nil_r, app_eq_nil in Hto as [-> ->]. by rewrite Z1.
    + right. split.
      * intros E. apply app_eq_nil in E as [E1%fmap_nil_inv E2%fmap_nil_inv]. rewrite E1, E2 in Hto. by apply Hd, Permutation_nil.
      * by rewrite Z1, Z2, Z3, !map_length, indexes_counted.
Qed.

(** Whatever is printed is about these three kinds of packs only. *)
Lemma divided_unique H k keep rewrite drop keep' rewrite' drop' :
  divided H k keep rewrite drop -> divided H k keep' rewrite' drop' -> keep ≡ₚ keep' /\ rewrite ≡ₚ rewrite' /\ drop ≡ₚ drop'.
Proof.
  assert (forall a b c a' b' c', divided H k a b c -> divided H k a' b' c' ->
    (forall p, p ∈ a -> p ∈ a') /\ (forall p, p ∈ b -> p ∈ b') /\ (forall p, p ∈ c -> p ∈ c')) as Hx.
  { intros a b c a' b' c' D D'. split_and!; intros p Hp.
    all: assert (p ∈ a' ++ b' ++ c') as Hp' by (apply (dv_all _ _ _ _ _ D'), (dv_all _ _ _ _ _ D); rewrite !elem_of_app; auto).
    all: rewrite !elem_of_app in Hp'; destruct Hp' as [Hp'|[Hp'|Hp']]; try done; exfalso.
    - destruct (dv_rewrite _ _ _ _ _ D' p Hp') as (_ & x & Hx & Hn). by apply Hn, (dv_keep _ _ _ _ _ D p).
    - destruct (dv_drop _ _ _ _ _ D' p Hp') as (Hne & Hn). destruct (pack_blobs k p) as [|x l] eqn:E; [done|].
      apply (Hn x); [by left|]. apply (dv_keep _ _ _ _ _ D p); [done|]. rewrite E. by left.
    - destruct (dv_rewrite _ _ _ _ _ D p Hp) as (_ & x & Hx & Hn). by apply Hn, (dv_keep _ _ _ _ _ D' p).
    - destruct (dv_rewrite _ _ _ _ _ D p Hp) as ((x & Hx & Hn) & _). by apply (proj2 (dv_drop _ _ _ _ _ D' p Hp') x).
    - destruct (dv_drop _ _ _ _ _ D p Hp) as (Hne & Hn). destruct (pack_blobs k p) as [|x l] eqn:E; [done|].
      apply (Hn x); [by left|]. apply (dv_keep _ _ _ _ _ D' p); [done|]. rewrite E. by left.
    - destruct (dv_rewrite _ _ _ _ _ D' p Hp') as ((x & Hx & Hn) & _). by apply (proj2 (dv_drop _ _ _ _ _ D p Hp) x). }
  intros D D'. destruct (Hx _ _ _ _ _ _ D D') as (A & B & C). destruct (Hx _ _ _ _ _ _ D' D) as (A' & B' & C').
  pose proof (dv_once _ _ _ _ _ D) as N. pose proof (dv_once _ _ _ _ _ D') as N'.
  apply NoDup_app in N as (N1 & _ & (N2 & _ & N3)%NoDup_app). apply NoDup_app in N' as (N1' & _ & (N2' & _ & N3')%NoDup_app).
  split_and!; apply NoDup_Permutation; auto; naive_solver.
Qed.

(** Prune then does that: the packs to keep stay as they are, the others go, and what
    is stored afterwards takes no more than what was to be kept and rewritten (and the empty
    tree, which may not have been stored).  If all is in use it does nothing. *)
Theorem C71_prune_does_what_it_says H U k w oc keep rewrite drop msg :
  universe H U -> (forall x, length (H x) = 28) -> in_order H U k -> own_leftovers H U k w ->
  prune_says H k msg -> divided H k keep rewrite drop -> prune_command H false k w oc ->
  (oc = None <-> msg = AllInUse (bytes_in k keep)) /\
  forall c target cpus k' w', oc = Some c -> no_clash H k w c -> command_done H target true cpus k w c k' w' ->
    (forall p, p ∈ keep -> k_packs k' !! p = k_packs k !! p) /\
    (forall p, p ∈ rewrite ++ drop -> k_packs k' !! p = None) /\
    size (k_indexes k') = 1 /\
    exists after, NoDup after /\ (forall p, p ∈ after <-> exists m, (p, m) ∈ live_packs k') /\
      (forall p b, p ∈ after -> b ∈ pack_blobs k' p ->
        (exists q, q ∈ keep ++ rewrite /\ b ∈ pack_blobs k q /\ needed H k (b_id b)) \/ b = tree_blob H []) /\
      (bytes_in k' after <= bytes_in k keep + bytes_in k rewrite + N.of_nat (length (b_bytes (tree_blob H []))))%N.
Proof.
  intros HU Hlen Hk Hw Hsay D Hc.
  pose proof (prune_all H U HU Hlen k w _ Hk (own_prune_leftovers H U HU Hlen k w Hw) Hc) as Hall.
  destruct (C71_what_prune_says H U k msg HU Hlen Hk Hsay) as (keep' & rewrite' & drop' & D' & Hl).
  destruct (divided_unique _ _ _ _ _ _ _ _ D D') as (P1 & P2 & P3).
  assert (forall a b, a ≡ₚ b -> bytes_in k a = bytes_in k b) as Hperm.
  { intros a b Hab. unfold bytes_in. apply blob_bytes_perm. rewrite <-!flat_map_concat_map. by rewrite Hab. }
  assert (rewrite' ++ drop' = [] <-> ~ garbage H k) as Hg.
  { split.
    - intros [-> ->]%app_eq_nil (p & m & e & Hp & He & Hn). apply Hn.
      destruct (live_manifest H U k Hk p m Hp) as [_ Em]. rewrite Em in He. apply manifest_elem_of in He as (b & Hb & ->).
      apply (dv_keep _ _ _ _ _ D' p); [|done]. assert (p ∈ keep' ++ [] ++ []) as Hx; [apply (dv_all _ _ _ _ _ D'); eauto|]. by rewrite !app_nil_r in Hx.
    - intros Hn. destruct (rewrite' ++ drop') as [|p l] eqn:E; [done|]. exfalso. apply Hn.
      assert (p ∈ rewrite' ++ drop') as Hp by (rewrite E; by left).
      destruct (proj1 (dv_all _ _ _ _ _ D' p)) as [m Hm]; [rewrite !elem_of_app in *; naive_solver|]. destruct (live_manifest H U k Hk p m Hm) as [_ Em].
      assert (exists b, b ∈ pack_blobs k p /\ ~ needed H k (b_id b)) as (b & Hb & Hnb).
      { apply elem_of_app in Hp as [Hp|Hp]; [by apply (dv_rewrite _ _ _ _ _ D')|].
        destruct (dv_drop _ _ _ _ _ D' p Hp) as [Hne Hx]. destruct (pack_blobs k p) as [|b l'] eqn:Ep; [done|]. exists b. split; [by left|]. apply Hx. by left. }
      exists p, m, (entry_of b). split; [done|]. split; [rewrite Em; by apply elem_of_manifest|done]. }
  split.
  { rewrite (Hperm _ _ P1). destruct oc as [c|].
    - destruct Hall as [Hgc _]. split; [done|]. intros ->. destruct Hl as [(-> & -> & _)|[_ [=]]]. by destruct (proj1 Hg).
    - split; [intros _|done]. apply Hg in Hall. destruct Hl as [(_ & _ & ->)|[Hne _]]; done. }
  intros c target cpus k' w' -> Hcl Hd. destruct Hall as [_ Hall]. destruct (Hall target cpus k' w' Hcl) as [Hreach Hdone].
  destruct (Hdone Hd) as (_ & B1 & B2 & B3 & (i & jx & Ei)).
  destruct (Hreach ltac:(by eapply done_reaches)) as (Hk' & Esn & _ & _ & Hkeep).
  split; [|split; [|split]].
  - intros p Hp. destruct (proj1 (dv_all _ _ _ _ _ D p)) as [m Hm]; [rewrite !elem_of_app in *; naive_solver|].
    destruct (live_manifest H U k Hk p m Hm) as [Ep _]. rewrite Ep. apply Hkeep; [done|]. intros b. by apply (dv_keep _ _ _ _ _ D).
  - intros p Hp. destruct (proj1 (dv_all _ _ _ _ _ D p)) as [m Hm]; [rewrite !elem_of_app in *; naive_solver|].
    destruct (live_manifest H U k Hk p m Hm) as [_ Em]. apply (B2 p m Hm).
    assert (exists b, b ∈ pack_blobs k p /\ ~ needed H k (b_id b)) as (b & Hb & Hnb).
    { apply elem_of_app in Hp as [Hp|Hp]; [by apply (dv_rewrite _ _ _ _ _ D)|].
      destruct (dv_drop _ _ _ _ _ D p Hp) as [Hne Hx]. destruct (pack_blobs k p) as [|b l'] eqn:Ep; [done|]. exists b. split; [by left|]. apply Hx. by left. }
    exists (entry_of b). split; [rewrite Em; by apply elem_of_manifest|done].
  - rewrite Ei. by rewrite map_size_singleton.
  - destruct (master_ok H U HU k' (in_order_structured _ _ _ Hk')) as (ix & _ & [_ Hs] & Hlp).
    assert (forall p, p ∈ map fst (ix_packs ix) <-> exists m, (p, m) ∈ live_packs k') as Hafter.
    { intros p. setoid_rewrite <-Hlp. split.
      - intros ([p' m] & -> & Hp)%elem_of_list_fmap. by exists m.
      - intros [m Hp]. apply elem_of_list_fmap. by exists (p, m). }
    assert (forall p b, p ∈ map fst (ix_packs ix) -> b ∈ pack_blobs k' p ->
        (exists q, q ∈ keep ++ rewrite /\ b ∈ pack_blobs k q /\ needed H k (b_id b)) \/ b = tree_blob H []) as Hfrom.
    { intros p b Hp Hb. apply Hafter in Hp as [m Hm]. destruct (live_manifest H U k' Hk' p m Hm) as [Ep Em].
      assert (needed H k (b_id b)) as Hn.
      { apply B3. apply (B1 p m Hm (entry_of b)). rewrite Em. by apply elem_of_manifest. }
      assert (U b) as Hub. { destruct (io_packs _ _ _ Hk' p _ Ep) as [_ HF]. by eapply Forall_forall in HF. }
      destruct (needed_stored H U HU Hlen k b Hk Hub Hn) as [E|E].
      - right. apply (un_inj _ _ HU); [done|apply (un_none _ _ HU)|done].
      - left. destruct b as [ty id x]. apply (repo_store_lookup H U HU) in E; [|apply Hk].
        apply elem_of_live_blobs in E as (q & mq & bs & Hq & Eq & Hbq). exists q.
        assert (pack_blobs k q = bs) as Epq by (unfold pack_blobs; by rewrite Eq).
        rewrite Epq. split; [|done]. assert (q ∈ keep ++ rewrite ++ drop) as Hx by (apply (dv_all _ _ _ _ _ D); eauto).
        rewrite !elem_of_app in *. destruct Hx as [Hx|[Hx|Hx]]; auto. exfalso.
        apply (proj2 (dv_drop _ _ _ _ _ D q Hx) (mkBlob ty id x)); [by rewrite Epq|done]. }
    exists (map fst (ix_packs ix)). split; [by apply om_sorted_nodup|]. split; [done|]. split; [done|].
    unfold bytes_in. rewrite <-blob_bytes_app.
    transitivity (blob_bytes ((concat (map (pack_blobs k) keep) ++ concat (map (pack_blobs k) rewrite)) ++ [tree_blob H []])).
    + apply blob_bytes_submseteq, NoDup_submseteq.
      * apply (blobs_once H U k' Hk'); [by apply om_sorted_nodup|]. intros p. apply Hafter.
      * intros b. rewrite elem_of_blobs. intros (p & Hp & Hb). rewrite !elem_of_app, !elem_of_blobs, elem_of_list_singleton.
        destruct (Hfrom p b Hp Hb) as [(q & [Hq|Hq]%elem_of_app & Hbq & _)| ->]; eauto.
    + rewrite (blob_bytes_app _ [_]). simpl. lia.
Qed.

(** A repository in order has such a line. *)
Theorem C71_there_is_a_line H U k : universe H U -> (forall x, length (H x) = 28) -> in_order H U k -> exists msg, prune_says H k msg.
Proof.
  intros HU Hlen Hk. destruct (in_order_maps H U HU Hlen k Hk) as (ix & bmap & packed & Eix & Ebm & _).
  assert (exists fuel forests, load_forests H k bmap fuel (map fst (chrono k)) = Some (Ok forests)) as (fuel & forests & E).
  { assert (forall sn, sn ∈ map fst (chrono k) -> snapshot_complete H k sn) as Hsn.
    { intros sn ([sn' i] & -> & Hi)%elem_of_list_fmap. destruct (chrono_ok k) as [Hp _]. rewrite <-Hp in Hi.
      apply elem_of_list_fmap in Hi as ([j sn''] & [= -> ->] & Hi%elem_of_map_to_list). by apply (io_snaps _ _ _ Hk j). }
    induction (map fst (chrono k)) as [|sn l IH]; [by exists 0, []|].
    destruct IH as (fuel1 & fos & E1); [intros; apply Hsn; by right|]. destruct (Hsn sn ltac:(by left)) as [es Hes].
    destruct (C35_diff_of_two_snapshots H U k ix bmap sn es sn es HU Hlen Hk Eix Ebm Hes Hes) as (f1 & fo1 & _ & _ & _ & E2 & _).
    assert (forall f f' root fo, load_forest H k bmap f root = Some (Ok fo) -> f <= f' -> load_forest H k bmap f' root = Some (Ok fo)) as Hmono.
    { intros f f' root fo E Hf. unfold load_forest in *. destruct (forest_from_root _ f _ _) as [[[c g]| |]|] eqn:Ef; try done. injection E as ->.
      unfold forest_from_root in *. by rewrite (append_tree_more _ f f' _ _ _ _ Hf Ef). }
    assert (forall f f' l fos, load_forests H k bmap f l = Some (Ok fos) -> f <= f' -> load_forests H k bmap f' l = Some (Ok fos)) as Hmonos.
    { clear -Hmono. intros f f' l. induction l as [|sn l IH]; intros fos E Hf; [done|]. cbn [load_forests] in *.
      destruct (load_forest H k bmap f (sn_tree sn)) as [[fo| |]|] eqn:Ef; try done. rewrite (Hmono _ f' _ _ Ef) by done.
      destruct (load_forests H k bmap f l) as [[fos'| |]|] eqn:Efs; try done. by rewrite (IH fos'). }
    exists (fuel1 + f1), ((sn, fo1) :: fos). cbn [load_forests]. rewrite (Hmono f1 (fuel1 + f1) _ fo1 E2) by lia. by rewrite (Hmonos fuel1 (fuel1 + f1) _ fos E1) by lia. }
  destruct (decide (List.filter (fun pm => negb (pack_in_use (reachable_blobs forests) pm)) (ix_packs ix) = [])) as [Hd|Hd];
    (eexists; exists ix, bmap, (chrono k), fuel, forests; split; [done|]; split; [done|]; split; [apply chrono_ok|]; split; [done|]; cbv zeta).
  - rewrite decide_True by done. reflexivity.
  - rewrite decide_False by done. reflexivity.
Qed.

(** ** Examples *)
Definition exec_says (H : bytes -> oid) (fuel : nat) (k : backend) : option prune_message :=
  ix ← Exec.get_ok (master k);
  bmap ← Exec.get_ok (blob_to_pack_map ix);
  forests ← Exec.get_done (load_forests H k bmap fuel (map fst (chrono k)));
  let reachable := reachable_blobs forests in
  let reusable := List.filter (pack_in_use reachable) (ix_packs ix) in
  let to_prune := List.filter (fun pm => negb (pack_in_use reachable pm)) (ix_packs ix) in
  let droppable := List.filter (pack_droppable reachable) to_prune in
  let sparse := List.filter (fun pm => negb (pack_droppable reachable pm)) to_prune in
  Some (if decide (to_prune = []) then AllInUse (packs_blob_size reusable)
        else Plan (length reusable) (packs_blob_size reusable) (length sparse) (packs_blob_size sparse) (length droppable) (packs_blob_size droppable)
               (length (os_of_list (map fst (map_to_list (k_indexes k)))))).
Lemma exec_says_ok H fuel k msg : exec_says H fuel k = Some msg -> prune_says H k msg.
Proof.
  unfold exec_says. intros E. apply bind_Some in E as (ix & E1%Exec.get_ok_inv & E). apply bind_Some in E as (bmap & E2%Exec.get_ok_inv & E).
  apply bind_Some in E as (fo & E3%Exec.get_done_inv & E). injection E as <-.
  exists ix, bmap, (chrono k), fuel, fo. split; [done|]. split; [done|]. split; [apply chrono_ok|]. split; [done|]. cbv zeta. by case_decide.
Qed.

(** One pack of each kind; and nothing to do. *)
Example C71_shown : exec_says quick_hash 20 garbage_kw.1 = Some (Plan 1 107 1 4 1 213 2).
Proof. vm_compute. reflexivity. Qed.
Example C71_all_in_use : exec_says quick_hash 20 (ex_kw two_backups).1 = Some (AllInUse 324).
Proof. vm_compute. reflexivity. Qed.

Lemma line_counts k keep rewrite drop n1 z1 n2 z2 n3 z3 i : line_for k keep rewrite drop (Plan n1 z1 n2 z2 n3 z3 i) ->
  (length keep, length rewrite, length drop) = (n1, n2, n3).
Proof. intros [(_ & _ & Hx)|[_ Hx]]; [discriminate Hx|]. by injection Hx as -> _ -> _ -> _ _. Qed.
Opaque garbage_kw exec_says.

(** All premises are met there, and the prune runs to its end. *)
Example C71_witness : exists c k' w' keep rewrite drop,
  let k := garbage_kw.1 in let w := garbage_kw.2 in
  universe quick_hash (in_list ex_blobs) /\ in_order quick_hash (in_list ex_blobs) k /\ own_leftovers quick_hash (in_list ex_blobs) k w /\
  prune_says quick_hash k (Plan 1 107 1 4 1 213 2) /\ divided quick_hash k keep rewrite drop /\
  (length keep, length rewrite, length drop) = (1, 1, 1) /\
  prune_command quick_hash false k w (Some c) /\ no_clash quick_hash k w c /\
  command_done quick_hash 20000 true 4 k w c k' w'.
Proof.
  destruct C19_C20_witness as (c & k' & w' & Hx). cbv zeta in Hx. destruct Hx as (Hk & Hw & Hc & Hcl & Hd & _).
  pose proof (exec_says_ok _ _ _ _ C71_shown) as Hs.
  destruct (C71_what_prune_says _ _ _ _ ex_universe quick_hash_length Hk Hs) as (keep & rewrite & drop & D & Hl).
  apply line_counts in Hl. exists c, k', w', keep, rewrite, drop. cbv zeta.
  split; [exact ex_universe|]. split; [exact Hk|]. split; [exact Hw|]. split; [exact Hs|]. split; [exact D|].
  split; [exact Hl|]. split; [exact Hc|]. split; [exact Hcl|exact Hd].
Qed.

Print Assumptions C71_what_prune_says.
Print Assumptions C71_prune_does_what_it_says.
Print Assumptions C71_there_is_a_line.
