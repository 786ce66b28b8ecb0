(** In a repository in order the program's own reading succeeds: the indexes
    merge, the trees load and the chunks are found. *)

From Verif Require Import Base OMap Formats Hashing Pack Index IndexFacts Meta Forest ForestFacts FsTree FsSpec BackupFacts
  Pipeline PipelineFacts Repo RepoSpec RepoFacts RewriteFacts PropsPipeline PublishFacts CommandFacts PruneFacts.

Definition depth (es : list (bytes * fsnode)) : nat := list_max (map (fun e : bytes * fsnode => fs_depth e.2) es).

Lemma fold_ids_steps {A} (step : oid -> A -> option (result A)) (P : A -> Prop) ids a :
  P a -> (forall id a, id ∈ ids -> P a -> exists a', step id a = Some (Ok a') /\ P a') ->
  exists a', fold_ids step ids a = Some (Ok a') /\ P a'.
Proof.
  revert a. induction ids as [|id ids IH]; intros a Ha Hs; [by exists a|].
  destruct (Hs id a) as (a1 & E1 & H1); [by left|done|]. simpl. rewrite E1. apply IH; [done|].
  intros id' a' Hi. apply Hs. by right.
Qed.

Section facts.
Variables (H : bytes -> oid) (U : blob -> Prop).
Hypothesis HU : universe H U.
Hypothesis Hlen : forall x, length (H x) = 28.
Local Set Default Proof Using "All".

Section one.
Variables (k : backend) (ix : index) (bmap : gmap oid oid).
Hypothesis Hk : structured H U k.
Hypothesis Eix : master k = Ok ix.
Hypothesis Ebm : blob_to_pack_map ix = Ok bmap.

Definition good_cache (c : forest) : Prop := cache_true H k c /\ c !! empty_id H = Some [].

Lemma read_tree_total c id t : good_cache c -> stored_as H (repo_store k) id t ->
  exists c', read_tree k bmap c id = Ok (t, c') /\ good_cache c'.
Proof.
  intros [Hc He] Ht. destruct (read_tree k bmap c id) as [[t' c']| |] eqn:E.
  - pose proof (read_tree_true H U HU k Hk ix bmap Eix Ebm c id t' c' Hc E) as Hc'.
    destruct (read_tree_mono H U HU k Hk ix bmap Eix Ebm c id t' c' E) as [Hsub Hid].
    assert (t' = t) as -> by (eapply stored_as_fun; [by apply Hc'|done]). exists c'. split; [done|]. split; [done|].
    by eapply lookup_weaken.
  - exfalso. unfold read_tree in E. destruct (c !! id) eqn:Ec; [done|].
    unfold stored_as in Ht. case_decide as Hd; [subst id; congruence|]. destruct Ht as (b & Hb & Ed).
    apply (repo_store_lookup H U HU) in Hb; [|apply Hk].
    rewrite (proj2 (find_blob_spec H U HU k Hk ix bmap Eix Ebm id (mkBlob Tree id b)) (conj Hb eq_refl)) in E.
    simpl in E. by rewrite Ed in E.
  - exfalso. unfold read_tree in E. destruct (c !! id) eqn:Ec; [done|].
    unfold stored_as in Ht. case_decide as Hd; [subst id; congruence|]. destruct Ht as (b & Hb & Ed).
    apply (repo_store_lookup H U HU) in Hb; [|apply Hk].
    rewrite (proj2 (find_blob_spec H U HU k Hk ix bmap Eix Ebm id (mkBlob Tree id b)) (conj Hb eq_refl)) in E.
    simpl in E. by rewrite Ed in E.
Qed.

Lemma sub_depth id t es sub : stored_as H (repo_store k) id t -> reads_root H (repo_store k) id es -> sub ∈ subtrees t ->
  exists es', reads_root H (repo_store k) sub es' /\ depth es' < depth es.
Proof.
  intros Ht (t' & Ht' & HF) Hs. assert (t' = t) as -> by (by eapply stored_as_fun). clear Ht Ht'.
  unfold depth. induction HF as [|[nm nd] [nm' n] t es [Hn Hr] HF IH]; [by apply elem_of_nil in Hs|].
  rewrite subtrees_cons in Hs. apply elem_of_app in Hs as [Hs|Hs].
  - simpl in *. unfold node_subtree in Hs.
    inversion Hr as [| |m i t' es' Hs' HF' E1 E2]; subst; simpl in Hs; try by apply elem_of_nil in Hs.
    apply elem_of_list_singleton in Hs as ->. exists es'. split; [by exists t'|]. simpl. lia.
  - destruct (IH Hs) as (es' & Hes' & Hd). exists es'. split; [done|]. simpl. lia.
Qed.

Lemma append_tree_total fuel stack id es c f :
  reads_root H (repo_store k) id es -> depth es < fuel -> good_cache c ->
  (forall x es', x ∈ stack -> reads_root H (repo_store k) x es' -> depth es < depth es') ->
  exists c' f', append_tree (read_tree k bmap) fuel stack id (c, f) = Some (Ok (c', f')) /\ good_cache c'.
Proof.
  revert stack id es c f. induction fuel as [|fuel IH]; intros stack id es c f Hr Hd Hc Hst; [lia|].
  simpl. rewrite decide_False; [|intros Hx; pose proof (Hst id es Hx Hr); lia].
  destruct Hr as (t & Ht & HF). destruct (read_tree_total c id t Hc Ht) as (c1 & -> & Hc1).
  destruct (fold_ids_steps (append_tree (read_tree k bmap) fuel ({[id]} ∪ stack)) (fun a : forest * forest => good_cache a.1) (subtrees t) (c1, <[id := t]> f))
    as ([c2 f2] & E & H2); [done| |by eauto].
  intros sub [c3 f3] Hsub Hc3. assert (reads_root H (repo_store k) id es) as Hr by by exists t.
  destruct (sub_depth id t es sub Ht Hr Hsub) as (es' & Hes' & Hd').
  destruct (IH ({[id]} ∪ stack) sub es' c3 f3 Hes') as (c4 & f4 & E4 & H4); [lia|done| |].
  - intros x es'' [Hx|Hx]%elem_of_union Hx''.
    + apply elem_of_singleton in Hx as ->. rewrite (reads_root_fun _ _ _ _ _ Hx'' Hr). done.
    + pose proof (Hst x es'' Hx Hx''). lia.
  - exists (c4, f4). done.
Qed.

Lemma load_forest_total id es : reads_root H (repo_store k) id es ->
  exists fo, load_forest H k bmap (S (depth es)) id = Some (Ok fo).
Proof.
  intros Hr. destruct (append_tree_total (S (depth es)) ∅ id es (cache_new H) ∅ Hr) as (c' & fo & E & _).
  - lia.
  - split; [exact (cache_new_true H U HU k Hk ix bmap Eix Ebm)|]. apply lookup_singleton.
  - intros x es' Hx. by apply elem_of_empty in Hx.
  - exists fo. unfold load_forest, forest_from_root. by rewrite E.
Qed.
End one.
End facts.
