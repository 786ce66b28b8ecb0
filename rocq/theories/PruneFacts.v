(** Proofs about prune and rebuild-index. *)
From Verif Require Import Base OMap Formats FormatsFacts Hashing Pack PackFacts Index IndexFacts Meta Forest ForestFacts FsTree FsSpec FsFacts BackupFacts Pipeline PipelineFacts PipelineLive PropsIndex PropsPipeline Repo RepoSpec RepoFacts RewriteFacts PublishFacts PlanFacts CommandFacts History.

(** ** Reading is a function; keeping everything changes nothing *)

Lemma reads_fun H st nd n n' : reads H st nd n -> reads H st nd n' -> n = n'.
Proof.
  revert nd n'. induction n as [m c|m es IH|m tg|m] using fsnode_ind'; intros nd n' H1 H2; inversion H1; subst; inversion H2; subst; try done.
  - f_equal. f_equal. match goal with A : Forall2 _ cs ps, B : Forall2 _ cs ps0 |- _ => revert A B end. clear. revert ps ps0.
    induction cs as [|c cs IH]; intros ps ps0 A B; inversion A; inversion B; subst; [done|]. f_equal; [congruence|by apply IH].
  - f_equal. match goal with A : stored_as H st id t, B : stored_as H st id t0 |- _ => pose proof (stored_as_fun _ _ _ _ _ A B); subst t0; clear A B end.
    match goal with A : Forall2 _ t es, B : Forall2 _ t es0 |- _ => revert A B end. clear -IH. revert es0 t.
    induction es as [|e es IHe]; intros es0 t A B; inversion A; subst; inversion B; subst; [done|].
    apply Forall_cons in IH as [IH1 IH2]. f_equal; [|by eapply IHe].
    destruct e as [n1 x1], y as [n2 x2]. simpl in *. destruct_and!. f_equal; [congruence|]. by eapply IH1.
Qed.

Lemma reads_root_fun H st id es es' : reads_root H st id es -> reads_root H st id es' -> es = es'.
Proof.
  intros (t & Ht & A) (t' & Ht' & B). pose proof (stored_as_fun _ _ _ _ _ Ht Ht'); subst t'. clear Ht Ht'. revert es' t A B.
  induction es as [|e es IHe]; intros es0 t A B; inversion A; subst; inversion B; subst; [done|].
  f_equal; [|by eapply IHe]. destruct e as [n1 x1], y as [n2 x2]. simpl in *. destruct_and!. f_equal; [congruence|]. by eapply reads_fun.
Qed.

Lemma reads_sorted (t : tree) (es : list (bytes * fsnode)) (P : node -> fsnode -> Prop) :
  Forall2 (fun a b => a.1 = b.1 /\ P a.2 b.2) t es -> om_sorted t -> om_sorted es.
Proof.
  intros HF. induction HF as [|[n1 a] [n2 b] t es [E R] HF IH]; [done|]. simpl in *. subst n2. intros [Ha Hs].
  split; [|by apply IH]. clear IH Hs R. induction HF as [|[k1 x] [k2 y] t es [E' _] HF IH]; [constructor|].
  simpl in E'. subst. apply Forall_cons in Ha as [Ha1 Ha2]. constructor; [done|by apply IH].
Qed.

Lemma collect_all {A} (f : bytes * A -> option A) (l : list (bytes * A)) :
  (forall x, x ∈ l -> f x = Some x.2) -> collect fst f l = l.
Proof.
  induction l as [|[k a] l IH]; intros Hf; cbn [collect]; [done|]. rewrite (Hf (k, a)) by left. simpl. f_equal. apply IH.
  intros x Hx. apply Hf. by right.
Qed.

Lemma kept_all H st filter nd n path : (forall p, filter p = true) ->
  (forall id t, stored_as H st id t -> om_sorted t) -> reads H st nd n -> kept filter path n = Some n.
Proof.
  intros Hf Hst. revert nd path. induction n as [m c|m es IH|m tg|m] using fsnode_ind'; intros nd path Hr; inversion Hr; subst;
    cbn [kept]; rewrite Hf; simpl; try done.
  assert (collect fst (fun e : bytes * fsnode => kept filter (join path e.1) e.2) es = es) as ->.
  { apply collect_all. intros x Hx. match goal with A : Forall2 _ t es |- _ => rename A into HF end.
    apply elem_of_list_lookup in Hx as [j Hj]. eapply Forall2_lookup_r in HF as (a & _ & _ & Ha); [|exact Hj].
    eapply Forall_forall in IH; [|by eapply elem_of_list_lookup_2]. by eapply IH. }
  rewrite om_of_list_sorted; [done|]. eapply reads_sorted; eauto.
Qed.

Lemma kept_entries_all H st filter id es : (forall p, filter p = true) ->
  (forall id t, stored_as H st id t -> om_sorted t) -> reads_root H st id es -> kept_entries filter es = es.
Proof.
  intros Hf Hst (t & Ht & HF). unfold kept_entries. apply collect_all. intros x Hx.
  apply elem_of_list_lookup in Hx as [j Hj]. eapply Forall2_lookup_r in HF as (a & _ & _ & Ha); [|exact Hj]. by eapply kept_all.
Qed.

(** ** Sets of ids *)

Lemma elem_of_os_of_list l x : NoDup l -> x ∈ os_of_list l <-> x ∈ l.
Proof.
  intros Hnd. assert (NoDup (fst <$> map (fun k => (k, tt)) l)) as Hnd'.
  { assert (fst <$> map (fun k => (k, tt)) l = l) as ->; [|done]. clear. induction l; simpl; f_equal; auto. }
  unfold os_of_list. rewrite elem_of_list_fmap. split.
  - intros ([y []] & -> & Hy). apply (elem_of_om_of_list _ _ Hnd') in Hy.
    apply elem_of_list_fmap in Hy as (z & Ez & Hz). injection Ez as ->. done.
  - intros Hx. exists (x, tt). split; [done|]. apply (elem_of_om_of_list _ _ Hnd').
    apply elem_of_list_fmap. by exists x.
Qed.

Lemma om_sorted_filter {A} (f : bytes * A -> bool) (l : list (bytes * A)) : om_sorted l -> om_sorted (List.filter f l).
Proof.
  induction l as [|[x v] l IH]; [done|]. simpl. intros [Ha Hs]. destruct (f (x, v)); [|by apply IH].
  simpl. split; [|by apply IH]. apply Forall_forall. intros y Hy. rewrite Forall_forall in Ha. apply Ha.
  apply elem_of_list_In in Hy. apply filter_In in Hy as [Hy _]. by apply elem_of_list_In.
Qed.

Lemma os_of_list_is_sorted l : os_sorted (os_of_list l).
Proof.
  unfold os_of_list, os_sorted.
  assert (map (fun k => (k, tt)) (om_of_list (map (fun k : bytes => (k, tt)) l)).*1 = om_of_list (map (fun k => (k, tt)) l)) as ->.
  { generalize (om_of_list (map (fun k : bytes => (k, tt)) l)). intros l'. induction l' as [|[y []] l' IH]; simpl; f_equal; auto. }
  apply om_of_list_is_sorted.
Qed.

(** ** Deleting *)

Lemma del_indexes H k ids :
  k_packs (apply_ops H k (map DelIndex ids)) = k_packs k /\
  k_snaps (apply_ops H k (map DelIndex ids)) = k_snaps k /\
  (forall i, k_indexes (apply_ops H k (map DelIndex ids)) !! i = if decide (i ∈ ids) then None else k_indexes k !! i).
Proof.
  unfold apply_ops. revert k. induction ids as [|x ids IH]; intros k; cbn [map foldl]; [done|].
  destruct (IH (apply_op H k (DelIndex x))) as (E1 & E2 & E3). split; [done|]. split; [done|]. intros i. rewrite E3. simpl.
  destruct (decide (i ∈ ids)) as [Hi|Hi]; [rewrite decide_True; [done|by right]|].
  destruct (decide (i = x)) as [->|Hne]; [rewrite lookup_delete, decide_True; [done|by left]|].
  rewrite lookup_delete_ne by done. rewrite decide_False; [done|]. by intros [?|?]%elem_of_cons.
Qed.

Lemma del_packs H k ids :
  k_indexes (apply_ops H k (map DelPack ids)) = k_indexes k /\
  k_snaps (apply_ops H k (map DelPack ids)) = k_snaps k /\
  (forall i, k_packs (apply_ops H k (map DelPack ids)) !! i = if decide (i ∈ ids) then None else k_packs k !! i).
Proof.
  unfold apply_ops. revert k. induction ids as [|x ids IH]; intros k; cbn [map foldl]; [done|].
  destruct (IH (apply_op H k (DelPack x))) as (E1 & E2 & E3). split; [done|]. split; [done|]. intros i. rewrite E3. simpl.
  destruct (decide (i ∈ ids)) as [Hi|Hi]; [rewrite decide_True; [done|by right]|].
  destruct (decide (i = x)) as [->|Hne]; [rewrite lookup_delete, decide_True; [done|by left]|].
  rewrite lookup_delete_ne by done. rewrite decide_False; [done|]. by intros [?|?]%elem_of_cons.
Qed.

Section facts.
Variables (H : bytes -> oid) (U : blob -> Prop).
Hypothesis HU : universe H U.
Hypothesis Hlen : forall x, length (H x) = 28.
Local Set Default Proof Using "All".

(** ** What is reachable is what is needed *)

Lemma needs_reach st fo root id : (forall id t, fo !! id = Some t -> stored_as H st id t) ->
  reach fo root id -> forall x, needs H st id x -> needs H st root x.
Proof.
  intros Hfo. induction 1 as [id|a b c Hab Hbc IH]; [done|]. intros x Hx.
  destruct Hab as (t & Ht & Hs). eapply needs_sub; [by eapply Hfo|exact Hs|by apply IH].
Qed.

Lemma elem_of_reachable forests x : x ∈ reachable_blobs forests <->
  exists sn fo id t, (sn, fo) ∈ forests /\ fo !! id = Some t /\ (x = id \/ x ∈ tree_chunks t).
Proof.
  unfold reachable_blobs, forest_blobs. rewrite elem_of_list_to_set, elem_of_list_In, in_concat. split.
  - intros (l & Hl & Hx). apply in_map_iff in Hl as ([sn fo] & <- & Hf). simpl in Hx.
    apply in_concat in Hx as (l' & Hl & Hx). apply in_map_iff in Hl as ([id t] & <- & Ht).
    apply elem_of_list_In in Ht, Hx, Hf. apply elem_of_map_to_list in Ht. apply elem_of_cons in Hx. simpl in Hx. eauto 10.
  - intros (sn & fo & id & t & Hf & Ht & Hx). eexists. split.
    + apply in_map_iff. exists (sn, fo). split; [reflexivity|by apply elem_of_list_In].
    + apply in_concat. eexists. split.
      * apply in_map_iff. exists (id, t). split; [reflexivity|]. apply elem_of_list_In. by apply elem_of_map_to_list.
      * apply elem_of_list_In, elem_of_cons. done.
Qed.

(** A needed blob is there. *)
Lemma needed_stored k b : in_order H U k -> U b -> needed H k (b_id b) ->
  b_id b = empty_id H \/ repo_store k !! b_id b = Some (b_type b, b_bytes b).
Proof.
  intros Hk Hb (i & sn & Hi & Hn). destruct (io_snaps _ _ _ Hk i sn Hi) as [es Hes]. unfold restores in Hes.
  assert (forall id ty x, id = b_id b -> repo_store k !! id = Some (ty, x) -> repo_store k !! b_id b = Some (b_type b, b_bytes b)) as Hsame.
  { intros id ty x -> E. rewrite E. apply (repo_store_lookup H U HU) in E; [|apply Hk].
    pose proof (live_blobs_U H U HU k (io_packs _ _ _ Hk)) as HF. eapply Forall_forall in HF; [|exact E].
    by rewrite <-(un_inj _ _ HU _ _ HF Hb eq_refl). }
  revert es Hes. remember (b_id b) as x eqn:Ex. induction Hn as [id|id t c Ht Hc|id t s x Ht Hs Hn IH]; intros es Hes.
  - destruct Hes as (t & Ht & _). unfold stored_as in Ht. case_decide as Hd; [by left|right].
    destruct Ht as (y & Hy & _). exact (Hsame _ _ _ eq_refl Hy).
  - right. destruct (reads_chunks H U HU Hlen _ _ _ _ _ Hes Ht Hc) as [y Hy]. exact (Hsame _ _ _ eq_refl Hy).
  - destruct (reads_subtree H U HU Hlen _ _ _ _ _ Hes Ht Hs) as [es' Hes']. by eapply IH.
Qed.

(** Two repositories of the same blobs agree. *)
Lemma stores_agree k k' : packs_from H U (k_packs k) -> packs_from H U (k_packs k') ->
  repo_store k ⊆ repo_store k ∪ repo_store k' /\ repo_store k' ⊆ repo_store k ∪ repo_store k'.
Proof.
  intros Hk Hk'. split; [apply map_union_subseteq_l|]. apply map_subseteq_spec. intros id [ty x] E.
  destruct (repo_store k !! id) as [[ty' x']|] eqn:E'; [|by rewrite lookup_union_r].
  erewrite lookup_union_Some_l; [|exact E']. apply (repo_store_lookup H U HU) in E, E'; [|done..].
  pose proof (live_blobs_U H U HU k Hk) as HF. eapply Forall_forall in HF; [|exact E'].
  pose proof (live_blobs_U H U HU k' Hk') as HF'. eapply Forall_forall in HF'; [|exact E].
  pose proof (un_inj _ _ HU _ _ HF HF' eq_refl) as Eb. by injection Eb as -> ->.
Qed.

Lemma needed_mono k k' x : in_order H U k -> in_order H U k' -> k_snaps k ⊆ k_snaps k' -> needed H k x -> needed H k' x.
Proof.
  intros Hk Hk' Hsub (i & sn & Hi & Hn). eapply lookup_weaken in Hi; [|exact Hsub]. exists i, sn. split; [done|].
  destruct (stores_agree k k' (io_packs _ _ _ Hk) (io_packs _ _ _ Hk')) as [A1 A2].
  destruct (io_snaps _ _ _ Hk' i sn Hi) as [es Hes]. unfold restores in Hes. revert es Hes.
  induction Hn as [id|id t c Ht Hc|id t s x Ht Hs Hn IH]; intros es Hes; [constructor|..];
    (assert (stored_as H (repo_store k') id t) as Ht';
      [destruct Hes as (t' & Ht' & _); assert (t = t') as ->; [|done];
       eapply stored_as_fun; (eapply stored_as_mono; [|done]; done)|]).
  - by eapply needs_chunk.
  - destruct (reads_subtree H U HU Hlen _ _ _ _ _ Hes Ht' Hs) as [es' Hes']. eapply needs_sub; [exact Ht'|exact Hs|by eapply IH].
Qed.

Lemma restores_same k k' sn es : in_order H U k -> in_order H U k' -> snapshot_complete H k sn -> snapshot_complete H k' sn ->
  restores H k sn es <-> restores H k' sn es.
Proof.
  intros Hk Hk' [es1 H1] [es2 H2]. destruct (stores_agree k k' (io_packs _ _ _ Hk) (io_packs _ _ _ Hk')) as [A1 A2].
  unfold restores in *.
  assert (es1 = es2) as ->. { eapply reads_root_fun; eapply reads_root_mono; [exact A1|done|exact A2|done]. }
  split; intros Hx; [rewrite (reads_root_fun _ _ _ _ _ Hx H1)|rewrite (reads_root_fun _ _ _ _ _ Hx H2)]; done.
Qed.

(** What prunes leave. *)
Definition prune_wip (k : backend) (w : workdir) : Prop :=
  packs_from H U (w_packs w) /\
  match w_wip w with
  | None => True
  | Some ix =>
      om_sorted (ix_packs ix) /\
      (forall p m, (p, m) ∈ ix_packs ix ->
        exists bs, (w_packs w !! p = Some bs \/ k_packs k !! p = Some bs) /\ manifest_of bs = m) /\
      once (ix_packs ix) /\ forall p m e, (p, m) ∈ ix_packs ix -> e ∈ m -> needed H k (e_id e)
  end.

Lemma prune_wip_leftovers k w : prune_wip k w -> prune_leftovers H U k w.
Proof. intros [Hw Hwip]. split; [done|]. destruct (w_wip w); [|done]. by destruct Hwip as (? & ? & ? & ?). Qed.

Section prune.
Variables (k : backend) (ix : index) (bmap : gmap oid oid) (snaps : list (snapshot * oid)) (fuel : nat) (forests : list (snapshot * forest)).
Hypothesis Hk : in_order H U k.
Hypothesis Eix : master k = Ok ix.
Hypothesis Ebm : blob_to_pack_map ix = Ok bmap.
Hypothesis Hsnaps : chronological k snaps.
Hypothesis Hforests : load_forests H k bmap fuel (map fst snaps) = Some (Ok forests).

Lemma forests_snaps sn : sn ∈ map fst forests <-> exists i, k_snaps k !! i = Some sn.
Proof.
  destruct (load_forests_inv _ _ _ _ _ _ Hforests) as [-> _]. destruct Hsnaps as [Hp _]. rewrite <-Hp.
  rewrite elem_of_list_fmap. split.
  - intros ([sn' i] & -> & Hi). apply elem_of_list_fmap in Hi as ([i' sn''] & E & Hi). apply elem_of_map_to_list in Hi.
    injection E as -> ->. eauto.
  - intros [i Hi]. exists (sn, i). split; [done|]. apply elem_of_list_fmap. exists (i, sn). split; [done|]. by apply elem_of_map_to_list.
Qed.

Lemma forests_in sn fo : (sn, fo) ∈ forests -> exists i, k_snaps k !! i = Some sn /\ load_forest H k bmap fuel (sn_tree sn) = Some (Ok fo).
Proof.
  intros Hx. destruct (proj1 (forests_snaps sn)) as [i Hi]; [apply elem_of_list_fmap; by exists (sn, fo)|].
  exists i. split; [done|]. destruct (load_forests_inv _ _ _ _ _ _ Hforests) as [_ HF]. rewrite Forall_forall in HF. exact (HF _ Hx).
Qed.

Lemma reachable_needed x : x ∈ reachable_blobs forests <-> needed H k x.
Proof.
  rewrite elem_of_reachable. split.
  - intros (sn & fo & id & t & Hf & Ht & Hx). destruct (forests_in sn fo Hf) as (i & Hi & El). exists i, sn. split; [done|].
    destruct (forest_facts H U HU Hlen k ix bmap fuel sn fo i Hk Eix Ebm Hi El) as (F1 & F2 & F3 & F4 & F5).
    eapply needs_reach; [intros; by apply F2|by eapply F4|]. destruct Hx as [->|Hx]; [constructor|].
    eapply needs_chunk; [by eapply F2|done].
  - intros (i & sn & Hi & Hn). assert (sn ∈ map fst forests) as Hsn by (apply forests_snaps; eauto).
    apply elem_of_list_fmap in Hsn as ([sn' fo] & -> & Hf). simpl in *. destruct (forests_in sn' fo Hf) as (i' & Hi' & El).
    destruct (forest_facts H U HU Hlen k ix bmap fuel sn' fo i' Hk Eix Ebm Hi' El) as (F1 & F2 & F3 & F4 & F5).
    exists sn', fo. revert F1. generalize (sn_tree sn') x Hn. clear El F4 Hn x. intros r x Hn. induction Hn as [id|id t ch Ht Hc|id t s x Ht Hs Hn IH]; intros [t' Ht'].
    + exists id, t'. auto.
    + exists id, t'. rewrite (stored_as_fun _ _ _ _ _ (proj1 (F2 _ _ Ht')) Ht). rewrite Ht', (stored_as_fun _ _ _ _ _ (proj1 (F2 _ _ Ht')) Ht). auto.
    + apply IH. eapply F3; [exact Ht'|]. by rewrite (stored_as_fun _ _ _ _ _ (proj1 (F2 _ _ Ht')) Ht).
Qed.

(** What is sent is needed, and known. *)
Lemma planned_needed b : b ∈ rplan_all H (fun _ => true) (chunk_of (repo_store k)) fuel forests ->
  U b /\ needed H k (b_id b).
Proof.
  intros Hb. unfold rplan_all in Hb. apply elem_of_list_In, in_concat in Hb as (bs & Hbs & Hb).
  apply in_map_iff in Hbs as ([sn fo] & E & Hf). apply elem_of_list_In in Hf, Hb. simpl in E.
  destruct (rplan H (fun _ => true) (chunk_of (repo_store k)) fo fuel [] (sn_tree sn)) as [[r bs']|] eqn:Er; subst; [|by apply elem_of_nil in Hb].
  destruct (forests_in sn fo Hf) as (i & Hi & El). pose proof (in_order_structured _ _ _ Hk) as Hst.
  destruct (forest_facts H U HU Hlen k ix bmap fuel sn fo i Hk Eix Ebm Hi El) as (F1 & F2 & F3 & F4 & F5).
  destruct (rplan_same H (fun _ => true) (chunk_of (repo_store k)) fo _ _ _ _ _ (fun _ => eq_refl) (fun id t Ht => proj2 (proj2 (F2 id t Ht))) Er) as [_ HF].
  eapply Forall_forall in HF; [|exact Hb]. rewrite <-reachable_needed, elem_of_reachable.
  destruct HF as [(id & t & c & Ht & Hc & ->)|(id & t & Ht & ->)].
  - split; [|simpl; eauto 10]. destruct (F5 id t c Ht Hc) as [x Hx]. rewrite (chunk_of_spec H U HU Hlen _ _ _ Hx).
    apply (repo_store_lookup H U HU) in Hx; [|apply Hk]. pose proof (live_blobs_U H U HU k (io_packs _ _ _ Hk)) as HF.
    by eapply Forall_forall in HF.
  - destruct (F2 id t Ht) as (Hsd & Hsane & Eid). split.
    + unfold stored_as in Hsd. case_decide as Hd.
      * subst t. apply HU.
      * destruct Hsd as (y & Hy & Hdec). apply (repo_store_lookup H U HU) in Hy; [|apply Hk].
        pose proof (live_blobs_U H U HU k (io_packs _ _ _ Hk)) as HF. eapply Forall_forall in HF; [|exact Hy].
        destruct (un_tree _ _ HU _ HF eq_refl) as (t' & Hs' & Eb). simpl in Eb. subst y.
        pose proof (dec_enc_tree t' [] (proj1 Hs')) as E'. rewrite app_nil_r, Hdec in E'. injection E' as <-.
        unfold tree_blob. by rewrite <-Eid.
    + exists sn, fo, id, t. split; [done|]. split; [done|]. left. by rewrite Eid.
Qed.

Lemma planned_stored b : b ∈ rplan_all H (fun _ => true) (chunk_of (repo_store k)) fuel forests ->
  b_id b = empty_id H \/ repo_store k !! b_id b = Some (b_type b, b_bytes b).
Proof.
  intros Hb. unfold rplan_all in Hb. apply elem_of_list_In, in_concat in Hb as (bs & Hbs & Hb).
  apply in_map_iff in Hbs as ([sn fo] & E & Hf). apply elem_of_list_In in Hf, Hb. simpl in E.
  destruct (rplan H (fun _ => true) (chunk_of (repo_store k)) fo fuel [] (sn_tree sn)) as [[r bs']|] eqn:Er; subst; [|by apply elem_of_nil in Hb].
  destruct (forests_in sn fo Hf) as (i & Hi & El). pose proof (in_order_structured _ _ _ Hk) as Hst.
  destruct (forest_facts H U HU Hlen k ix bmap fuel sn fo i Hk Eix Ebm Hi El) as (F1 & F2 & F3 & F4 & F5).
  destruct (rplan_same H (fun _ => true) (chunk_of (repo_store k)) fo _ _ _ _ _ (fun _ => eq_refl) (fun id t Ht => proj2 (proj2 (F2 id t Ht))) Er) as [_ HF].
  eapply Forall_forall in HF; [|exact Hb].
  destruct HF as [(id & t & c & Ht & Hc & ->)|(id & t & Ht & ->)].
  - right. destruct (F5 id t c Ht Hc) as [x Hx]. simpl. by rewrite (chunk_of_spec H U HU Hlen _ _ _ Hx).
  - destruct (F2 id t Ht) as (Hsd & Hsane & Eid). simpl. rewrite <-Eid.
    unfold stored_as in Hsd. case_decide as Hd; [by left|right].
    destruct Hsd as (y & Hy & Hdec). rewrite Hy. f_equal. f_equal. apply (repo_store_lookup H U HU) in Hy; [|apply Hk].
    pose proof (live_blobs_U H U HU k (io_packs _ _ _ Hk)) as HF. eapply Forall_forall in HF; [|exact Hy].
    destruct (un_tree _ _ HU _ HF eq_refl) as (t' & Hs' & Eb). simpl in Eb. subst y.
    pose proof (dec_enc_tree t' [] (proj1 Hs')) as E'. rewrite app_nil_r, Hdec in E'. by injection E' as <-.
Qed.

(** *** The run *)

Let reachable := reachable_blobs forests.
Let reusable := List.filter (pack_in_use reachable) (ix_packs ix).
Let to_prune := List.filter (fun pm => negb (pack_in_use reachable pm)) (ix_packs ix).
Let superseded := os_of_list (map fst (map_to_list (k_indexes k))).
Let planned := rplan_all H (fun _ => true) (chunk_of (repo_store k)) fuel forests.

Lemma in_use_spec pm : pack_in_use reachable pm = true <-> forall e, e ∈ pm.2 -> needed H k (e_id e).
Proof.
  unfold pack_in_use. rewrite forallb_forall. split; intros Hx e He.
  - apply reachable_needed. specialize (Hx e (proj1 (elem_of_list_In _ _) He)). by apply bool_decide_eq_true in Hx.
  - apply bool_decide_eq_true, reachable_needed, Hx. by apply elem_of_list_In.
Qed.

Lemma elem_of_reusable p m : (p, m) ∈ reusable <-> (p, m) ∈ live_packs k /\ forall e, e ∈ m -> needed H k (e_id e).
Proof.
  unfold reusable. rewrite elem_of_list_In, filter_In, <-elem_of_list_In, in_use_spec.
  destruct (master_ok H U HU k (in_order_structured _ _ _ Hk)) as (ix' & E & _ & Hp). rewrite Eix in E. injection E as <-.
  by rewrite Hp.
Qed.

Lemma elem_of_to_prune p m : (p, m) ∈ to_prune <-> (p, m) ∈ live_packs k /\ exists e, e ∈ m /\ ~ needed H k (e_id e).
Proof.
  unfold to_prune. rewrite elem_of_list_In, filter_In, <-elem_of_list_In.
  destruct (master_ok H U HU k (in_order_structured _ _ _ Hk)) as (ix' & E & _ & Hp). rewrite Eix in E. injection E as <-.
  rewrite Hp. split.
  - intros [Hin Hn]. split; [done|]. apply negb_true_iff in Hn. unfold pack_in_use in Hn. simpl in Hn.
    assert (exists e, e ∈ m /\ bool_decide (e_id e ∈ reachable) = false) as (e & He & Hr).
    { clear -Hn. induction m as [|e m IH]; [done|]. simpl in Hn. apply andb_false_iff in Hn as [Hn|Hn].
      - exists e. split; [by left|done].
      - destruct (IH Hn) as (e' & ? & ?). exists e'. split; [by right|done]. }
    exists e. split; [done|]. apply bool_decide_eq_false in Hr. by rewrite <-reachable_needed.
  - intros (Hin & e & He & Hn). split; [done|]. apply negb_true_iff. apply not_true_is_false. intros Hu.
    apply Hn. by apply (proj1 (in_use_spec _) Hu).
Qed.

Lemma elem_of_superseding i : i ∈ superseded <-> is_Some (k_indexes k !! i).
Proof.
  unfold superseded. rewrite elem_of_os_of_list by apply NoDup_fst_map_to_list. rewrite elem_of_list_fmap. split.
  - intros ([j jx] & -> & Hj). apply elem_of_map_to_list in Hj. by exists jx.
  - intros [jx Hj]. exists (i, jx). split; [done|]. by apply elem_of_map_to_list.
Qed.

Lemma reusable_sorted : om_sorted reusable.
Proof.
  destruct (master_ok H U HU k (in_order_structured _ _ _ Hk)) as (ix' & E & Hs & Hp). rewrite Eix in E. injection E as <-.
  apply om_sorted_filter, Hs.
Qed.

Lemma reusable_nodup : NoDup (flat_ids reusable).
Proof.
  apply once_nodup; [apply om_sorted_nodup, reusable_sorted|].
  eapply once_sub; [|apply (io_once _ _ _ Hk)]. intros p m Hp. by apply elem_of_reusable in Hp as [? _].
Qed.

Lemma reusable_ids packed x : blob_id_set (mkIndex superseded reusable) = Ok packed -> x ∈ packed <-> x ∈ flat_ids reusable.
Proof.
  intros Epacked. set (start := mkIndex superseded reusable) in *.
  assert (NoDup (blob_ids start)) as Hnd by (rewrite <-flat_blob_ids; apply reusable_nodup).
  destruct (proj1 (C11_lookup_maps start) Hnd) as (mp & st & sz & E1 & E2 & _ & _ & Hst & _).
  rewrite Epacked in E2. injection E2 as <-. rewrite Hst, elem_of_flat_ids. split.
  - intros (p & n & m & e & Hm & He & <- & _). by exists p, m, e.
  - intros (p & m & e & Hm & He & <-). by exists p, (e_len e), m, e.
Qed.

(** Where prune starts from: afresh, or from what an earlier one left. *)
Record prune_from (w : workdir) (start : index) (ups : list oid) (packed : gset oid) : Prop := {
  pf_sup : ix_supersedes start = superseded;
  pf_sorted : om_sorted (ix_packs start);
  pf_nodup : NoDup (flat_ids (ix_packs start));
  pf_needed : forall p m e, (p, m) ∈ ix_packs start -> e ∈ m -> needed H k (e_id e);
  pf_backed : forall p m, (p, m) ∈ ix_packs start -> holds (k_packs k) p m \/ (holds (w_packs w) p m /\ p ∈ ups);
  pf_packed : forall x, x ∈ packed <-> x ∈ flat_ids (ix_packs start) }.

Lemma prune_from_scratch w packed : blob_id_set (mkIndex superseded reusable) = Ok packed ->
  prune_from w (mkIndex superseded reusable) [] packed.
Proof.
  intros E. constructor; simpl; [done|apply reusable_sorted|apply reusable_nodup| | |].
  - intros p m e Hp He. apply elem_of_reusable in Hp as [_ Hn]. by apply Hn.
  - intros p m Hp. left. apply elem_of_reusable in Hp as [Hp _].
    by apply (live_pack_bs H U HU k (in_order_structured _ _ _ Hk)).
  - intros x. by apply reusable_ids.
Qed.

Lemma prune_from_start w start ups packed :
  prune_leftovers H U k w ->
  (forall m m', (exists p b, (k_packs k !! p = Some b \/ w_packs w !! p = Some b) /\ m = manifest_of b) ->
     (exists p b, (k_packs k !! p = Some b \/ w_packs w !! p = Some b) /\ m' = manifest_of b) -> pack_id H m = pack_id H m' -> m = m') ->
  prune_start k w superseded reusable = Ok (start, ups, packed) -> prune_from w start ups packed.
Proof.
  intros [Hw Hwip] Hmf Hst. unfold prune_start in Hst.
  destruct (blob_id_set _) as [pk| |] eqn:Epk; simpl in Hst; try done.
  pose proof (prune_from_scratch w pk Epk) as Hscratch.
  assert (resumable k w) as Hres.
  { unfold resumable. destruct (w_wip w) as [wx|]; [|done]. destruct Hwip as (Hso & Hp & _). split; [done|].
    intros p m Hx. destruct (Hp p m Hx) as (b & [E|E] & <-); [left|right]; by exists b. }
  rewrite (resumable_found k w Hres) in Hst. unfold resumable in Hres.
  destruct (w_wip w) as [wx|] eqn:Ew; simpl in Hst; [|by injection Hst as <- <- <-].
  case_bool_decide as Hsup; simpl in Hst; [|by injection Hst as <- <- <-].
  destruct (forallb _ _) eqn:Hall; simpl in Hst; [|by injection Hst as <- <- <-].
  injection Hst as <- <- <-. destruct Hwip as (Hso & Hback & Hw').
  destruct Hw' as [Ho Hneed]. { intros i. rewrite Hsup. apply elem_of_superseding. }
  assert (forall p m, (p, m) ∈ reusable -> (p, m) ∈ ix_packs wx) as Hreus.
  { intros p m Hp. rewrite forallb_forall in Hall. specialize (Hall p (in_map fst _ _ (proj1 (elem_of_list_In _ _) Hp))).
    apply bool_decide_eq_true, elem_of_list_fmap in Hall as ([p' m'] & E & Hp'). simpl in E. subst p'.
    destruct (Hback p m' Hp') as (b & Eb & Em). apply elem_of_reusable in Hp as [Hl _].
    destruct (live_pack_bs H U HU k (in_order_structured _ _ _ Hk) p m Hl) as (b' & Eb' & Em').
    assert (m = m') as ->; [|done]. apply Hmf; [by eauto 10|subst m'; destruct Eb; eauto 10|]. subst m m'.
    destruct (io_packs _ _ _ Hk p b' Eb') as [<- _]. destruct Eb as [Eb|Eb]; [by destruct (Hw p b Eb)|by destruct (io_packs _ _ _ Hk p b Eb)]. }
  constructor; try done.
  - apply once_nodup; [by apply om_sorted_nodup|done].
  - destruct Hres as [_ Hres]. intros p m Hp. destruct (Hres p m Hp) as [Hh|?]; [|by left]. right. split; [done|].
    destruct Hh as (b & E & _). apply elem_of_list_In, filter_In. split.
    + apply in_map_iff. exists (p, m). split; [done|]. by apply elem_of_list_In.
    + apply bool_decide_eq_true. eauto.
  - intros x. rewrite elem_of_union, (reusable_ids pk x Epk), elem_of_list_to_set, flat_blob_ids, blob_ids_entries.
    split; [|by left]. intros [?|Hx]; [done|]. rewrite <-blob_ids_entries, <-flat_blob_ids.
    apply elem_of_flat_ids in Hx as (p & m & e & Hp & He & <-). apply elem_of_flat_ids. exists p, m, e. auto.
Qed.

Section run.
Variables (w : workdir) (start : index) (ups : list oid) (packed : gset oid) (target : N) (cpus : nat) (sns : list snapshot).
Hypothesis Hw : packs_from H U (w_packs w).
Hypothesis Hfrom : prune_from w start ups packed.
Let bs := bs_sent (foldl send_new (mkBstate packed []) planned).
Hypothesis Hrw : rewrite_snapshots H (fun _ => true) (repack_chunk k ix bmap) fuel forests (mkBstate packed []) =
  Some (Ok (foldl send_new (mkBstate packed []) planned, sns)).
Hypothesis Hmf : forall m m', run_manifest k w bs m -> run_manifest k w bs m' -> pack_id H m = pack_id H m' -> m = m'.
Hypothesis Hfr : fresh_index H k start bs.

Lemma prune_sent : NoDup (map b_id bs) /\ (forall b, b ∈ bs -> b ∈ planned /\ b_id b ∉ packed) /\
  (forall b, b ∈ planned -> b_id b ∈ packed \/ b_id b ∈ map b_id bs).
Proof.
  destruct (send_all planned (mkBstate packed [])) as (new & E & H1 & H2 & H3). unfold bs. rewrite E. simpl in *. auto.
Qed.

Lemma prune_U : Forall U bs.
Proof. apply Forall_forall. intros b Hb. apply prune_sent in Hb as [Hb _]. by apply planned_needed in Hb as [? _]. Qed.

Lemma prune_ready : run_ready H k w start ups bs.
Proof.
  constructor; try done.
  - apply (pf_sorted _ _ _ _ Hfrom).
  - intros p b E. by apply (io_packs _ _ _ Hk).
  - intros p b E. by apply Hw.
  - intros b Hb. apply (un_bytes _ _ HU). pose proof prune_U as HF. by eapply Forall_forall in HF.
  - apply (pf_backed _ _ _ _ Hfrom).
Qed.

(** A blob of a pack it starts from. *)
Lemma start_blob p m e : (p, m) ∈ ix_packs start -> e ∈ m -> exists b, e = entry_of b /\ U b.
Proof.
  intros Hp He. assert (exists b', manifest_of b' = m /\ Forall U b') as (b' & <- & HF).
  { destruct (pf_backed _ _ _ _ Hfrom p m Hp) as [(b' & Eb & Em)|[(b' & Eb & Em) _]]; exists b'; (split; [done|]).
    - by destruct (io_packs _ _ _ Hk p b' Eb).
    - by destruct (Hw p b' Eb). }
  apply elem_of_list_fmap in He as (b0 & -> & Hb0). exists b0. split; [done|]. by eapply Forall_forall in HF.
Qed.

Section at_state.
Variables (s : pstate) (n : nat).
Hypothesis Hs : during H target true cpus NoError k w start ups bs s.
Hypothesis Hn : ps_main s = MDone true \/ n = 0.
Let k' := apply_ops H (ps_back s) (take n (map DelIndex superseded ++ map (fun pm : oid * manifest => DelPack pm.1) to_prune)).

Let Hst := in_order_structured _ _ _ Hk.
Let Hne : NoError <> ErrorAny. Proof. done. Qed.
Let Hos : os_sorted (ix_supersedes start). Proof. rewrite (pf_sup _ _ _ _ Hfrom). apply os_of_list_is_sorted. Qed.
Notation the_run L := (L H U HU k w start ups bs target cpus NoError Hne Hst prune_ready prune_U Hw Hos Hfr s Hs).

(** Everything listed in the new index is needed. *)
Lemma current_needed cur p m e : current start bs cur -> (p, m) ∈ ix_packs cur -> e ∈ m -> needed H k (e_id e).
Proof.
  intros Hcur Hp He.
  assert (e ∈ entries_of cur) as Hin.
  { unfold entries_of. apply elem_of_list_In, in_concat. exists m. split; [|by apply elem_of_list_In].
    apply in_map_iff. exists (p, m). split; [done|]. by apply elem_of_list_In. }
  pose proof (elem_of_submseteq _ _ _ Hin (cu_entries _ _ _ Hcur)) as Hx.
  apply elem_of_app in Hx as [Hx|Hx].
  - unfold entries_of in Hx. apply elem_of_list_In, in_concat in Hx as (m' & Hm & Hx). apply in_map_iff in Hm as ([p' m''] & <- & Hp').
    apply elem_of_list_In in Hp', Hx. by eapply (pf_needed _ _ _ _ Hfrom).
  - apply elem_of_list_fmap in Hx as (b & -> & Hb). apply prune_sent in Hb as [Hb _]. by apply planned_needed in Hb as [_ ?].
Qed.

Let di := take n superseded.
Let dp := take (n - length superseded) to_prune.

Lemma deleted : k_snaps k' = k_snaps (ps_back s) /\
  (forall i, k_indexes k' !! i = if decide (i ∈ di) then None else k_indexes (ps_back s) !! i) /\
  (forall p, k_packs k' !! p = if decide (p ∈ map fst dp) then None else k_packs (ps_back s) !! p) /\
  (dp = [] \/ di = superseded).
Proof.
  assert (k' = apply_ops H (apply_ops H (ps_back s) (map DelIndex di)) (map DelPack (map fst dp))) as ->.
  { unfold k', di, dp, apply_ops. rewrite <-foldl_app. f_equal.
    rewrite map_map, <-!take_map. rewrite firstn_app, map_length. done. }
  destruct (del_indexes H (ps_back s) di) as (A1 & A2 & A3).
  destruct (del_packs H (apply_ops H (ps_back s) (map DelIndex di)) (map fst dp)) as (B1 & B2 & B3).
  split; [by rewrite B2|]. split; [intros i; by rewrite B1|]. split; [intros p; by rewrite B3, A1|].
  unfold di, dp. destruct (decide (n <= length superseded)).
  - left. by replace (n - length superseded) with 0 by lia.
  - right. apply take_ge. lia.
Qed.

Lemma snaps_read st' : (forall b, b ∈ planned -> st' !! b_id b = Some (b_type b, b_bytes b)) ->
  forall i sn es, k_snaps k !! i = Some sn -> restores H k sn es -> reads_root H st' (sn_tree sn) es.
Proof.
  intros Hpl i sn es Hi Hes.
  assert (sn ∈ map fst forests) as Hsn by (apply forests_snaps; eauto).
  apply elem_of_list_fmap in Hsn as ([sn' fo] & -> & Hf). simpl in *. destruct (forests_in sn' fo Hf) as (i' & Hi' & El).
  assert (forall x fo', (x, fo') ∈ forests ->
     (forall id t c s, fo' !! id = Some t -> c ∈ tree_chunks t -> packed ⊆ bs_packed s ->
        repack_chunk k ix bmap c s = Ok (send_new s (mkBlob Chunk c (chunk_of (repo_store k) c)))) /\
     (forall id t, fo' !! id = Some t -> om_sorted t)) as Hall.
  { intros x fo' Hx. destruct (forests_in x fo' Hx) as (j & Hj & El').
    destruct (forest_facts H U HU Hlen k ix bmap fuel x fo' j Hk Eix Ebm Hj El') as (_ & F2 & _ & _ & F5). split.
    - intros id t c s' Ht Hc _. destruct (F5 id t c Ht Hc) as [y Hy]. by eapply (repack_chunk_ok H U HU Hlen).
    - intros id t Ht. by destruct (F2 id t Ht) as (_ & [(_ & _ & ?) _] & _). }
  destruct (rewrite_snapshots_plan H (fun _ => true) (chunk_of (repo_store k)) (repack_chunk k ix bmap) packed fuel forests
    (mkBstate packed []) _ sns Hall ltac:(done) Hrw) as [_ HF2].
  apply elem_of_list_lookup in Hf as [j Hj]. eapply Forall2_lookup_l in HF2 as (sn2 & _ & bs' & Er & _); [|exact Hj].
  apply elem_of_list_lookup_2 in Hj. simpl in Er.
  destruct (forest_facts H U HU Hlen k ix bmap fuel sn' fo i' Hk Eix Ebm Hi' El) as (_ & F2 & _ & _ & F5).
  destruct (rplan_same H (fun _ => true) (chunk_of (repo_store k)) fo _ _ _ _ _ (fun _ => eq_refl) (fun id t Ht => proj2 (proj2 (F2 id t Ht))) Er) as [Eq _].
  rewrite <-(kept_entries_all H (repo_store k) (fun _ => true) (sn_tree sn') es); [|done| |done].
  2: { intros id t Ht. by destruct (stored_sane H U HU Hlen k id t Hst Ht) as [[(_ & _ & ?) _] _]. }
  rewrite <-Eq. eapply (rewritten_reads H U HU Hlen k st' (fun _ => true) fuel fo sn'); eauto.
  - intros id t Ht. by apply F2.
  - apply Forall_forall. intros b Hb. apply planned_needed. by eapply (elem_of_rplan_all _ _ _ _ _ (sn', fo)).
  - intros b Hb. apply Hpl. by eapply (elem_of_rplan_all _ _ _ _ _ (sn', fo)).
Qed.

(** Before the index is published nothing has changed. *)
Lemma prune_before : k_indexes (ps_back s) = k_indexes k ->
  (ps_main s = MDone true -> bs = [] /\ ix_packs start = [] /\ ix_supersedes start = []) ->
  k_snaps (ps_back s) = k_snaps k ->
  in_order H U k' /\ k_snaps k' = k_snaps k /\ repo_store k' = repo_store k.
Proof.
  intros Ei Hd Es.
  assert (k' = ps_back s) as ->.
  { unfold k'. destruct Hn as [Hm|Hn0]; [|by rewrite Hn0]. destruct (Hd Hm) as (_ & _ & E). rewrite (pf_sup _ _ _ _ Hfrom) in E. rewrite E. simpl.
    assert (to_prune = []) as ->.
    { destruct to_prune as [|[p m] l] eqn:Et; [done|]. exfalso.
      assert ((p, m) ∈ to_prune) as Hp by (rewrite Et; by left). apply elem_of_to_prune in Hp as [Hp _].
      apply elem_of_live_packs in Hp as (i & jx & Hi & _). assert (i ∈ superseded) as Hx by (apply elem_of_superseding; eauto).
      rewrite E in Hx. by apply elem_of_nil in Hx. }
    by destruct n. }
  assert (live_packs (ps_back s) = live_packs k) as El.
  { unfold live_packs, live_indexes, RepoSpec.superseded. by rewrite Ei. }
  assert (repo_store (ps_back s) = repo_store k) as Er.
  { apply (anti_symm (⊆)); apply (store_subset H U HU); try apply (the_run run_packs_from); try apply Hk.
    - intros b (p & m & b' & Hp & E & Hb)%elem_of_live_blobs. rewrite El in Hp. apply elem_of_live_blobs. exists p, m, b'.
      split; [done|]. split; [|done]. destruct (live_pack_bs H U HU k Hst p m Hp) as (b2 & E2 & _).
      eapply lookup_weaken in E2 as E3; [|apply (the_run run_packs_kept)]. rewrite E in E3. by injection E3 as <-.
    - intros b (p & m & b' & Hp & E & Hb)%elem_of_live_blobs. apply elem_of_live_blobs. exists p, m, b'. rewrite El.
      split; [done|]. split; [|done]. eapply lookup_weaken; [exact E|apply (the_run run_packs_kept)]. }
  pose proof (the_run run_structured) as [S1 S2 S3].
  split; [|done]. constructor; try done.
  - rewrite El. apply Hk.
  - intros i sn. rewrite Es. apply Hk.
  - intros i sn. rewrite Es. unfold snapshot_complete, restores. rewrite Er. apply Hk.
Qed.

(** Afterwards it is all there is. *)
Lemma prune_after cur : current start bs cur -> publishes H k start bs NoError s cur -> k_snaps (ps_back s) = k_snaps k ->
  in_order H U k' /\ k_snaps k' = k_snaps k /\
  (forall i sn es, k_snaps k !! i = Some sn -> restores H k sn es -> restores H k' sn es) /\
  (forall p m, (p, m) ∈ live_packs k' <-> (p, m) ∈ ix_packs cur) /\
  (forall id v, repo_store k' !! id = Some v -> id = empty_id H \/ repo_store k !! id = Some v).
Proof.
  intros Hcur P Es. destruct deleted as (D1 & D2 & D3 & D4).
  assert (k_indexes k' !! index_id H cur = Some cur) as Hid.
  { rewrite D2, decide_False, (pb_indexes _ _ _ _ _ _ _ P), lookup_insert; [done|].
    intros Hx. apply (pb_self _ _ _ _ _ _ _ P). rewrite (pb_sup _ _ _ _ _ _ _ P), (pf_sup _ _ _ _ Hfrom).
    unfold di in Hx. by eapply elem_of_take in Hx as (? & ?%elem_of_list_lookup_2 & _). }
  assert (forall i jx, k_indexes k' !! i = Some jx -> i = index_id H cur \/ (k_indexes k !! i = Some jx /\ i ∉ di)) as Hsub.
  { intros i jx Hi. rewrite D2 in Hi. case_decide as Hd; [done|]. rewrite (pb_indexes _ _ _ _ _ _ _ P) in Hi.
    apply lookup_insert_Some in Hi as [[<- _]|[_ Hi]]; auto. }
  pose proof (the_run superseding_live k' cur P) as Hlive.
  specialize (Hlive ltac:(intros i Hi; rewrite (pf_sup _ _ _ _ Hfrom); by apply elem_of_superseding) Hid).
  specialize (Hlive ltac:(intros i jx Hi; destruct (Hsub i jx Hi) as [?|[? _]]; auto)).
  assert (forall p m, (p, m) ∈ ix_packs cur -> p ∉ map fst dp) as Hkeep.
  { intros p m Hp Hx. apply elem_of_list_fmap in Hx as ([p' m'] & E & Hd). simpl in E. subst p'.
    assert ((p, m') ∈ to_prune) as Ht. { unfold dp in Hd. by eapply elem_of_take in Hd as (? & ?%elem_of_list_lookup_2 & _). }
    apply elem_of_to_prune in Ht as (Hl & e & He & Hne').
    destruct (live_pack_bs H U HU k Hst p m' Hl) as (b & Eb & Em).
    destruct (pb_packs _ _ _ _ _ _ _ P p m Hp) as (b' & Eb' & Em').
    eapply lookup_weaken in Eb; [|apply (the_run run_packs_kept)]. rewrite Eb in Eb'. injection Eb' as <-.
    apply Hne'. eapply current_needed; [exact Hcur|exact Hp|]. by rewrite <-Em', Em. }
  assert (forall p bs', k_packs k' !! p = Some bs' -> k_packs (ps_back s) !! p = Some bs') as Hpk.
  { intros p bs' E. rewrite D3 in E. by case_decide. }
  assert (packs_from H U (k_packs k')) as Hpk'. { intros p bs' E. by apply (the_run run_packs_from), Hpk. }
  assert (forall p m, (p, m) ∈ ix_packs cur -> exists b, k_packs k' !! p = Some b /\ manifest_of b = m) as Hback.
  { intros p m Hp. destruct (pb_packs _ _ _ _ _ _ _ P p m Hp) as (b & Eb & Em). exists b. split; [|done].
    rewrite D3, decide_False; [done|by eapply Hkeep]. }
  assert (forall b, U b -> entry_of b ∈ entries_of cur -> repo_store k' !! b_id b = Some (b_type b, b_bytes b)) as Hoff.
  { intros b Hb He. apply (repo_store_lookup H U HU); [done|]. unfold entries_of in He. apply elem_of_list_In, in_concat in He as (m & Hm & He).
    apply in_map_iff in Hm as ([p m'] & <- & Hp). apply elem_of_list_In in Hp, He. simpl in He.
    destruct (Hback p m' Hp) as (b' & Eb & <-). apply elem_of_list_fmap in He as (b0 & E0 & Hb0).
    assert (b = b0) as ->.
    { apply (un_inj _ _ HU); [done| |].
      - destruct (Hpk' p b' Eb) as [_ HF]. by eapply Forall_forall in HF.
      - by apply (f_equal e_id) in E0. }
    apply elem_of_live_blobs. exists p, (manifest_of b'), b'. rewrite Hlive. destruct b0. done. }
  assert (forall b, b ∈ planned -> repo_store k' !! b_id b = Some (b_type b, b_bytes b)) as Hpl.
  { intros b Hb. destruct (planned_needed b Hb) as [HUb _]. apply Hoff; [done|].
    rewrite (pb_all _ _ _ _ _ _ _ P (or_introl eq_refl)). apply elem_of_app.
    destruct (proj2 (proj2 prune_sent) b Hb) as [Hp|Hp].
    - left. apply (pf_packed _ _ _ _ Hfrom), elem_of_flat_ids in Hp as (p & m & e & Hp & He & Eid).
      destruct (start_blob p m e Hp He) as (b0 & E0 & HU0). assert (b = b0) as ->.
      { apply (un_inj _ _ HU); [done..|]. by rewrite <-Eid, E0. }
      unfold entries_of. apply elem_of_list_In, in_concat. exists m. rewrite <-E0. split.
      + apply in_map_iff. exists (p, m). split; [done|]. by apply elem_of_list_In.
      + by apply elem_of_list_In.
    - right. apply elem_of_list_fmap in Hp as (b' & Eid & Hb'). assert (b = b') as ->.
      { apply (un_inj _ _ HU); [done| |done]. pose proof prune_U as HF. by eapply Forall_forall in HF. }
      by apply elem_of_list_fmap_1. }
  assert (forall i sn es, k_snaps k !! i = Some sn -> restores H k sn es -> restores H k' sn es) as Hread.
  { intros i sn es Hi Hes. by eapply snaps_read. }
  split; [|split; [by rewrite D1|split; [done|split; [done|]]]].
  - pose proof (the_run run_structured) as [S1 S2 S3]. constructor; try done.
    + intros i jx Hi. destruct (Hsub i jx Hi) as [->|[Hi' _]]; [|by apply (io_sorted _ _ _ Hk i)].
      rewrite Hid in Hi. injection Hi as <-. rewrite (pb_sup _ _ _ _ _ _ _ P). split; [apply Hos|apply P].
    + intros i jx p m Hi Hp. destruct (Hsub i jx Hi) as [->|[Hi' Hnd]].
      { rewrite Hid in Hi. injection Hi as <-. by apply Hback. }
      destruct (io_backed _ _ _ Hk i jx p m Hi' Hp) as (b & Eb & Em). exists b. split; [|done].
      rewrite D3, decide_False; [eapply lookup_weaken; [exact Eb|apply (the_run run_packs_kept)]|].
      destruct D4 as [->|D4]; [simpl; by intros ?%elem_of_nil|]. exfalso. apply Hnd. rewrite D4. apply elem_of_superseding. eauto.
    + assert (once (ix_packs cur)) as Ho; [apply nodup_once|exact (once_sub _ (ix_packs cur) (fun p m Hp => proj1 (Hlive p m) Hp) Ho)].
      eapply (the_run current_nodup); [exact Hcur|apply (pf_nodup _ _ _ _ Hfrom)|apply prune_sent|].
      intros b Hb. rewrite <-(pf_packed _ _ _ _ Hfrom). by apply prune_sent.
    + intros i sn. rewrite D1, Es. apply Hk.
    + intros i sn. rewrite D1, Es. intros Hi. destruct (io_snaps _ _ _ Hk i sn Hi) as [es Hes]. exists es. by eapply Hread.
  - intros id [ty x] E. apply (repo_store_lookup H U HU) in E; [|done].
    pose proof E as E'. apply elem_of_live_blobs in E as (p & m & b' & Hp & Eb & Hb). apply Hlive in Hp.
    destruct (Hback p m Hp) as (b2 & Eb2 & Em). rewrite Eb in Eb2. injection Eb2 as <-.
    assert (U (mkBlob ty id x)) as HUb. { destruct (Hpk' p b' Eb) as [_ HF]. by eapply Forall_forall in HF. }
    assert (needed H k id) as Hnd.
    { apply (current_needed cur p m (entry_of (mkBlob ty id x)) Hcur Hp). rewrite <-Em. by apply elem_of_list_fmap_1. }
    (* what is listed comes from old packs or was read from them *)
    pose proof (cu_entries _ _ _ Hcur) as Hent.
    assert (entry_of (mkBlob ty id x) ∈ entries_of cur) as Hin.
    { unfold entries_of. apply elem_of_list_In, in_concat. exists m. split; [apply in_map_iff; exists (p, m); split; [done|by apply elem_of_list_In]|].
      rewrite <-Em. apply elem_of_list_In. by apply elem_of_list_fmap_1. }
    pose proof (elem_of_submseteq _ _ _ Hin Hent) as Hx. apply elem_of_app in Hx as [Hx|Hx].
    + unfold entries_of in Hx. apply elem_of_list_In, in_concat in Hx as (m' & Hm & Hx). apply in_map_iff in Hm as ([p' m''] & <- & Hp').
      apply elem_of_list_In in Hp', Hx. simpl in Hx.
      by apply (needed_stored k (mkBlob ty id x) Hk).
    + apply elem_of_list_fmap in Hx as (b0 & E0 & Hb0).
      assert (mkBlob ty id x = b0) as E1.
      { apply (un_inj _ _ HU); [done| |by apply (f_equal e_id) in E0]. pose proof prune_U as HF. by eapply Forall_forall in HF. }
      apply prune_sent in Hb0 as [Hb0 _]. rewrite <-E1 in Hb0. by apply planned_stored in Hb0.
Qed.
End at_state.

(** *** All in all *)

Section all.
Variables (s : pstate) (n : nat).
Hypothesis Hs : during H target true cpus NoError k w start ups bs s.
Hypothesis Hn : ps_main s = MDone true \/ n = 0.
Let k' := apply_ops H (ps_back s) (take n (map DelIndex superseded ++ map (fun pm : oid * manifest => DelPack pm.1) to_prune)).
Let Hne : NoError <> ErrorAny. Proof. done. Qed.
Let Hos : os_sorted (ix_supersedes start). Proof. rewrite (pf_sup _ _ _ _ Hfrom). apply os_of_list_is_sorted. Qed.
Notation the_run L := (L H U HU k w start ups bs target cpus NoError Hne (in_order_structured _ _ _ Hk) prune_ready prune_U Hw Hos Hfr s Hs).

Lemma prune_reach : in_order H U k' /\ k_snaps k' = k_snaps k /\
  (forall i sn es, k_snaps k !! i = Some sn -> restores H k sn es <-> restores H k' sn es).
Proof.
  assert (in_order H U k' /\ k_snaps k' = k_snaps k /\
    (forall i sn es, k_snaps k !! i = Some sn -> restores H k sn es -> restores H k' sn es)) as (H1 & H2 & H3).
  { destruct (the_run run_published) as (Es & cur & Hcur & _ & [[Ei Hd]|P]).
    - destruct (prune_before s n Hs Hn Ei Hd Es) as (A & B & C). split; [done|]. split; [done|].
      intros i sn es _. unfold restores. by fold k' in C; rewrite C.
    - destruct (prune_after s n Hs Hn cur Hcur P Es) as (A & B & C & _). done. }
  split; [done|]. split; [done|]. intros i sn es Hi. split; [by eapply H3|]. intros Hes.
  destruct (io_snaps _ _ _ Hk i sn Hi) as [es' Hes']. pose proof (H3 i sn es' Hi Hes') as Hes2.
  by rewrite (reads_root_fun _ _ _ _ _ Hes Hes2).
Qed.

Lemma prune_finished : ps_main s = MDone true -> length superseded + length to_prune <= n -> to_prune <> [] ->
  ps_wip s = None /\
  (forall p m, (p, m) ∈ live_packs k' -> forall e, e ∈ m -> needed H k' (e_id e)) /\
  (forall p m, (p, m) ∈ live_packs k -> (exists e, e ∈ m /\ ~ needed H k (e_id e)) -> k_packs k' !! p = None) /\
  (forall x, needed H k' x <-> needed H k x) /\
  (exists i jx, k_indexes k' = {[i := jx]}).
Proof.
  intros Hm Hlong Hto. destruct (the_run run_published) as (Es & cur & Hcur & _ & [[Ei Hd]|P]).
  { exfalso. apply Hto. destruct (Hd Hm) as (_ & _ & E). rewrite (pf_sup _ _ _ _ Hfrom) in E.
    destruct to_prune as [|[p m] l] eqn:Et; [done|].
    assert ((p, m) ∈ to_prune) as Hp by (rewrite Et; by left). apply elem_of_to_prune in Hp as [Hp _].
    apply elem_of_live_packs in Hp as (i & jx & Hi & _). assert (i ∈ superseded) as Hx by (apply elem_of_superseding; eauto).
    rewrite E in Hx. by apply elem_of_nil in Hx. }
  destruct (prune_after s n Hs Hn cur Hcur P Es) as (A & B & C & D & E). fold k' in A, B, C, D, E.
  destruct (deleted s n Hs Hn) as (D1 & D2 & D3 & D4). fold k' in D1, D2, D3.
  assert (forall x, needed H k' x <-> needed H k x) as Hneed.
  { assert (forall id t, stored_as H (repo_store k') id t -> stored_as H (repo_store k) id t) as Hback.
    { intros id t Ht. unfold stored_as in *. case_decide as Hd; [done|]. destruct Ht as (y & Hy & Hdec). exists y.
      split; [|done]. by destruct (E id _ Hy). }
    assert (forall a x, needs H (repo_store k') a x -> needs H (repo_store k) a x) as Hn1.
    { induction 1 as [id|id t c Ht Hc|id t s' x Ht Hc Hx IH]; [constructor|eapply needs_chunk; eauto|eapply needs_sub; eauto]. }
    assert (forall a x, needs H (repo_store k) a x -> (exists es, reads_root H (repo_store k') a es) -> needs H (repo_store k') a x) as Hn2.
    { induction 1 as [id|id t c Ht Hc|id t s' x Ht Hc Hx IH]; [constructor|..]; intros (es & t' & Ht' & HF);
        pose proof (stored_as_fun _ _ _ _ _ (Hback _ _ Ht') Ht); subst t'.
      - eapply needs_chunk; eauto.
      - eapply needs_sub; eauto. apply IH. eapply (reads_subtree H U HU Hlen); [exists t; split; [exact Ht'|exact HF]|exact Ht'|done]. }
    intros x. split; intros (i & sn & Hi & Hx).
    - exists i, sn. rewrite <-B. auto.
    - exists i, sn. rewrite B. split; [done|]. apply Hn2; [done|]. destruct (io_snaps _ _ _ Hk i sn Hi) as [es Hes].
      exists es. by eapply C. }
  split_and!.
  - by eapply C53_success_publishes_everything; [exact Hne|apply prune_ready|exact Hs|].
  - intros p m Hp e He. apply Hneed. apply D in Hp. by eapply (current_needed s n Hs Hn).
  - intros p m Hp Hx. rewrite D3, decide_True; [done|]. apply elem_of_list_fmap. exists (p, m). split; [done|].
    rewrite take_ge by lia. by apply elem_of_to_prune.
  - done.
  - exists (index_id H cur), cur. apply map_eq. intros i. rewrite D2.
    rewrite take_ge by lia. rewrite (pb_indexes _ _ _ _ _ _ _ P).
    destruct (decide (i = index_id H cur)) as [->|Hni].
    + rewrite decide_False, lookup_insert, lookup_singleton; [done|].
      intros Hx. apply (pb_self _ _ _ _ _ _ _ P). by rewrite (pb_sup _ _ _ _ _ _ _ P), (pf_sup _ _ _ _ Hfrom).
    + rewrite lookup_insert_ne, lookup_singleton_ne by done. case_decide as Hd; [done|].
      destruct (k_indexes k !! i) eqn:Ek; [|done]. exfalso. apply Hd, elem_of_superseding. eauto.
Qed.

(** What is left in the working directory. *)
Lemma prune_left : prune_wip k w -> prune_wip k' (mkWorkdir (ps_files s) (ps_wip s)).
Proof.
  intros [_ Hwip]. split; [apply (the_run run_files_from)|]. simpl.
  destruct prune_reach as (Hk' & Es & _).
  destruct (decide (ps_wip s = None)) as [->|Hsome]; [done|].
  assert (k' = ps_back s) as Ek.
  { destruct Hn as [Hm|Hn0]; [|unfold k'; by rewrite Hn0].
    exfalso. apply Hsome. by eapply C53_success_publishes_everything; [exact Hne|apply prune_ready|exact Hs|]. }
  assert (resumable k w) as Hres.
  { unfold resumable. destruct (w_wip w) as [wx|]; [|done]. destruct Hwip as (Hso & Hp & _). split; [done|].
    intros p m Hx. destruct (Hp p m Hx) as (b & [E|E] & <-); [left|right]; by exists b. }
  destruct (C14_interrupted_runs_are_resumable H target cpus NoError k w start ups bs s Hne prune_ready Hres Hs) as (Hres' & _).
  unfold resumable in Hres'. simpl in Hres'.
  destruct (the_run run_published) as (_ & cur & Hcur & Hor & _).
  destruct (ps_wip s) as [wx|] eqn:Ewx; [|done]. destruct Hres' as [Hso Hp].
  split; [done|]. split.
  { intros p m Hx. rewrite Ek. destruct (Hp p m Hx) as [(b & E & <-)|(b & E & <-)]; exists b; auto. }
  destruct Hor as [?|[Ew|Ew]]; [done| |].
  - rewrite <-Ew in Hwip. destruct Hwip as (_ & _ & Ho & Hneed). split; [done|].
    intros p m e Hx He. eapply needed_mono; [exact Hk|exact Hk'|by rewrite Es|]. by eapply Hneed.
  - injection Ew as <-. split.
    + apply nodup_once. eapply (the_run current_nodup); [exact Hcur|apply (pf_nodup _ _ _ _ Hfrom)|apply prune_sent|].
      intros b Hb. rewrite <-(pf_packed _ _ _ _ Hfrom). by apply prune_sent.
    + intros p m e Hx He. eapply needed_mono; [exact Hk|exact Hk'|by rewrite Es|]. by eapply (current_needed s n Hs Hn).
Qed.

(** Packs with only needed blobs stay. *)
Lemma prune_packs p b : k_packs k !! p = Some b -> (forall x, x ∈ b -> needed H k (b_id x)) -> k_packs k' !! p = Some b.
Proof.
  intros E Hx. destruct (deleted s n Hs Hn) as (D1 & D2 & D3 & D4). fold k' in D3. rewrite D3.
  rewrite decide_False; [eapply lookup_weaken; [exact E|apply (the_run run_packs_kept)]|].
  intros Hd. apply elem_of_list_fmap in Hd as ([p' m] & Ep & Hd). simpl in Ep. subst p'.
  assert ((p, m) ∈ to_prune) as Ht by (by eapply elem_of_take in Hd as (? & ?%elem_of_list_lookup_2 & _)).
  apply elem_of_to_prune in Ht as (Hl & e & He & Hne'). destruct (live_pack_bs H U HU k (in_order_structured _ _ _ Hk) p m Hl) as (b' & Eb & <-).
  rewrite E in Eb. injection Eb as <-. apply elem_of_list_fmap in He as (x & -> & Hxb). by apply Hne', Hx.
Qed.
End all.
End run.
End prune.

(** ** Prune, all of it *)

Definition garbage (k : backend) : Prop := exists p m e, (p, m) ∈ live_packs k /\ e ∈ m /\ ~ needed H k (e_id e).

Lemma prune_all k w oc : in_order H U k -> (garbage k -> prune_leftovers H U k w) -> prune_command H false k w oc ->
  match oc with
  | None => ~ garbage k
  | Some c => garbage k /\ forall target cpus k' w', no_clash H k w c ->
      (command_reaches H target true cpus NoError k w c k' w' ->
        in_order H U k' /\ k_snaps k' = k_snaps k /\
        (forall i sn es, k_snaps k !! i = Some sn -> restores H k sn es <-> restores H k' sn es) /\
        (prune_wip k w -> prune_wip k' w') /\
        (forall p b, k_packs k !! p = Some b -> (forall x, x ∈ b -> needed H k (b_id x)) -> k_packs k' !! p = Some b)) /\
      (command_done H target true cpus k w c k' w' ->
        w_wip w' = None /\
        (forall p m, (p, m) ∈ live_packs k' -> forall e, e ∈ m -> needed H k' (e_id e)) /\
        (forall p m, (p, m) ∈ live_packs k -> (exists e, e ∈ m /\ ~ needed H k (e_id e)) -> k_packs k' !! p = None) /\
        (forall x, needed H k' x <-> needed H k x) /\
        (exists i jx, k_indexes k' = {[i := jx]}))
  end.
Proof.
  intros Hk Hw (ix & bmap & snaps & fuel & forests & Eix & Ebm & Hsn & Hfo & Hc). cbv zeta in Hc.
  pose proof (elem_of_to_prune k ix bmap snaps fuel forests Hk Eix Ebm Hsn Hfo) as Htp. cbv zeta in Htp.
  case_decide as Hto.
  { subst oc. intros (p & m & e & Hp & He & Hn). assert ((p, m) ∈ @nil (oid * manifest)) as Hx; [|by apply elem_of_nil in Hx].
    rewrite <-Hto. apply Htp. eauto. }
  destruct Hc as (start & ups & packed & s & sns & Hst & Erw & ->).
  assert (forall x fo', (x, fo') ∈ forests ->
     (forall id t c s, fo' !! id = Some t -> c ∈ tree_chunks t -> packed ⊆ bs_packed s ->
        repack_chunk k ix bmap c s = Ok (send_new s (mkBlob Chunk c (chunk_of (repo_store k) c)))) /\
     (forall id t, fo' !! id = Some t -> om_sorted t)) as Hall.
  { intros x fo' Hx. destruct (forests_in k ix bmap snaps fuel forests Hk Eix Ebm Hsn Hfo x fo' Hx) as (j & Hj & El').
    destruct (forest_facts H U HU Hlen k ix bmap fuel x fo' j Hk Eix Ebm Hj El') as (_ & F2 & _ & _ & F5). split.
    - intros id t c s' Ht Hc _. destruct (F5 id t c Ht Hc) as [y Hy]. eapply (repack_chunk_ok H U HU Hlen); eauto. by apply in_order_structured.
    - intros id t Ht. by destruct (F2 id t Ht) as (_ & [(_ & _ & ?) _] & _). }
  destruct (rewrite_snapshots_plan H (fun _ => true) (chunk_of (repo_store k)) (repack_chunk k ix bmap) packed fuel forests
    (mkBstate packed []) _ sns Hall ltac:(done) Erw) as [-> _].
  assert (garbage k) as Hg.
  { match type of Htp with context [(_, _) ∈ ?l] => destruct l as [|[p m] l'] eqn:Et end; [done|].
    destruct (proj1 (Htp p m)) as (Hp & e & He & Hn); [by left|]. exists p, m, e. auto. }
  split; [done|]. specialize (Hw Hg). intros target cpus k' w' (Hmf & Hfr & _). simpl in Hmf, Hfr.
  assert (prune_from k w start ups packed) as Hfrom.
  { eapply prune_from_start; eauto. intros m m' Hm Hm' E. apply Hmf; [by left|by left|done]. }
  split.
  - intros (s & n & Hs & Hn & -> & ->). simpl in *.
    destruct (prune_reach k ix bmap snaps fuel forests Hk Eix Ebm Hsn Hfo w start ups packed target cpus sns (proj1 Hw) Hfrom Erw Hmf Hfr s n Hs Hn)
      as (A & B & C).
    split; [exact A|]. split; [exact B|]. split; [exact C|]. split.
    + exact (prune_left k ix bmap snaps fuel forests Hk Eix Ebm Hsn Hfo w start ups packed target cpus sns (proj1 Hw) Hfrom Erw Hmf Hfr s n Hs Hn).
    + exact (prune_packs k ix bmap snaps fuel forests Hk Eix Ebm Hsn Hfo w start ups packed target cpus sns (proj1 Hw) Hfrom Erw Hmf Hfr s n Hs Hn).
  - intros (s & Hs & Hm & -> & ->). simpl in *.
    match goal with |- context [apply_ops H (ps_back s) ?l] => rewrite <-(firstn_all l) end.
    apply (prune_finished k ix bmap snaps fuel forests Hk Eix Ebm Hsn Hfo w start ups packed target cpus sns (proj1 Hw) Hfrom Erw Hmf Hfr s); auto.
    by rewrite app_length, !map_length.
Qed.

(** Prune does not go on from what a backup left. *)
Lemma own_prune_leftovers k w : own_leftovers H U k w -> garbage k -> prune_leftovers H U k w.
Proof.
  intros [Hw Hwip] (p & m & e & Hp & _). split; [done|]. destruct (w_wip w) as [wx|]; [|done].
  destruct Hwip as (Es & Hso & _ & Hb). split; [done|]. split; [done|]. intros Hx. exfalso.
  apply elem_of_live_packs in Hp as (i & jx & Hi & _). assert (i ∈ ix_supersedes wx) as Hin by (apply Hx; eauto).
  rewrite Es in Hin. by apply elem_of_nil in Hin.
Qed.

Lemma no_wip_leftovers k w : packs_from H U (w_packs w) -> w_wip w = None -> prune_leftovers H U k w /\ prune_wip k w.
Proof. intros Hw E. unfold prune_leftovers, prune_wip. by rewrite E. Qed.

End facts.

(** ** Rebuilding the index *)

Lemma recv_all_no st pms st' : in_resumable st = false -> om_sorted (ix_packs (in_index st)) -> indexer_recv_all st pms = Ok st' ->
  om_sorted (ix_packs (in_index st')) /\ ix_supersedes (in_index st') = ix_supersedes (in_index st) /\
  forall p m, (p, m) ∈ ix_packs (in_index st') <-> (p, m) ∈ ix_packs (in_index st) \/ (p, m) ∈ pms.
Proof.
  revert st. induction pms as [|[q n] pms IH]; intros st Hr Hs E; cbn [indexer_recv_all] in E.
  { injection E as <-. split; [done|]. split; [done|]. intros p m. rewrite elem_of_nil. tauto. }
  unfold indexer_recv in E. cbn [fst snd] in E. destruct (om_get q (ix_packs (in_index st))) as [m0|] eqn:Eg; [done|].
  simpl in E. rewrite Hr in E. simpl in E.
  apply IH in E as (A & B & C); [|done|by apply om_insert_sorted]. simpl in *. split; [done|]. split; [done|].
  intros p m. rewrite C, elem_of_cons. rewrite <-(om_get_elem p m (om_insert _ _ _)) by (by apply om_insert_sorted).
  rewrite om_get_insert by done. case_decide as Hd.
  - subst q. split; [intros [E'|?]; [injection E' as ->; auto|auto]|]. intros [Hx|[E'|?]]; [|injection E' as <-; auto|auto].
    apply om_get_elem in Hx; [|done]. congruence.
  - rewrite om_get_elem by done. split; [tauto|]. intros [?|[E'|?]]; auto. injection E' as -> ->. done.
Qed.

Lemma recv_all_no_ok st pms : in_resumable st = false -> om_sorted (ix_packs (in_index st)) -> NoDup (map fst pms) ->
  (forall p, p ∈ map fst pms -> om_get p (ix_packs (in_index st)) = None) ->
  exists st', indexer_recv_all st pms = Ok st'.
Proof.
  revert st. induction pms as [|[q n] pms IH]; intros st Hr Hs Hnd Hfree; cbn [indexer_recv_all]; [eauto|].
  simpl in Hnd. apply NoDup_cons in Hnd as [Hq Hnd].
  unfold indexer_recv. cbn [fst snd]. rewrite Hfree by left. simpl. rewrite Hr. simpl.
  apply IH; [done|by apply om_insert_sorted|done|]. simpl. intros p Hp. rewrite om_get_insert by done.
  rewrite decide_False; [|by intros ->]. apply Hfree. by right.
Qed.

Lemma elem_of_all_packs k p m : (p, m) ∈ all_packs k <-> exists bs, k_packs k !! p = Some bs /\ manifest_of bs = m.
Proof.
  unfold all_packs. rewrite elem_of_list_fmap. split.
  - intros ([q bs] & E & Hq). apply elem_of_map_to_list in Hq. injection E as -> ->. eauto.
  - intros (bs & E & <-). exists (p, bs). split; [done|]. by apply elem_of_map_to_list.
Qed.

Lemma rebuilt_spec k packs ix : Permutation packs (map fst (map_to_list (k_packs k))) -> rebuilt_index k packs = Ok ix ->
  os_sorted (ix_supersedes ix) /\ om_sorted (ix_packs ix) /\ (forall i, i ∈ ix_supersedes ix <-> is_Some (k_indexes k !! i)) /\
  (forall p m, (p, m) ∈ ix_packs ix <-> (p, m) ∈ all_packs k).
Proof.
  intros Hp E. unfold rebuilt_index in E.
  destruct (indexer_recv_all _ _) as [st| |] eqn:Er; simpl in E; try done. injection E as <-.
  apply recv_all_no in Er as (A & B & C).
  - rewrite B. unfold indexer_start. rewrite andb_false_r. simpl. split; [apply os_of_list_is_sorted|]. split; [done|]. split.
    + intros i. rewrite elem_of_os_of_list by apply NoDup_fst_map_to_list. rewrite elem_of_list_fmap. split.
      * intros ([j jx] & -> & Hj). apply elem_of_map_to_list in Hj. by exists jx.
      * intros [jx Hj]. exists (i, jx). split; [done|]. by apply elem_of_map_to_list.
    + intros p m. rewrite C. unfold indexer_start. rewrite andb_false_r. simpl. rewrite elem_of_nil, elem_of_list_fmap, elem_of_all_packs. split.
      * intros [[]|(q & E & Hq)]. rewrite Hp in Hq. apply elem_of_list_fmap in Hq as ([q' bs] & -> & Hq). apply elem_of_map_to_list in Hq.
        simpl in E. rewrite Hq in E. simpl in E. injection E as -> ->. eauto.
      * intros (bs & E & <-). right. exists p. rewrite E. split; [done|]. rewrite Hp. apply elem_of_list_fmap. exists (p, bs).
        split; [done|]. by apply elem_of_map_to_list.
  - unfold indexer_start. by rewrite andb_false_r.
  - unfold indexer_start. by rewrite andb_false_r.
Qed.

Lemma rebuilt_exists k packs : Permutation packs (map fst (map_to_list (k_packs k))) -> exists ix, rebuilt_index k packs = Ok ix.
Proof.
  intros Hp. unfold rebuilt_index.
  match goal with |- context [indexer_recv_all ?a ?b] => destruct (recv_all_no_ok a b) as [st E] end.
  - unfold indexer_start. by rewrite andb_false_r.
  - unfold indexer_start. by rewrite andb_false_r.
  - rewrite map_map. simpl. rewrite map_id, Hp. apply NoDup_fst_map_to_list.
  - intros p _. unfold indexer_start. by rewrite andb_false_r.
  - rewrite E. simpl. eauto.
Qed.

Section rebuild.
Variables (H : bytes -> oid) (U : blob -> Prop).
Hypothesis HU : universe H U.
Hypothesis Hlen : forall x, length (H x) = 28.
Local Set Default Proof Using "All".

Lemma rebuild_all k : in_order H U k -> once (all_packs k) ->
  (forall packs ix, Permutation packs (map fst (map_to_list (k_packs k))) -> rebuilt_index k packs = Ok ix ->
     index_id H ix ∉ ix_supersedes ix /\ index_id H ix ∉ superseded k) ->
  forall k', rebuild_reaches H k k' ->
  in_order H U k' /\ k_snaps k' = k_snaps k /\ k_packs k' = k_packs k /\
  forall i sn es, k_snaps k !! i = Some sn -> restores H k sn es <-> restores H k' sn es.
Proof.
  intros Hk Ho Hfresh k' (packs & ix & Hp & E & [->|[_ [n ->]]]); [done|].
  destruct (rebuilt_spec k packs ix Hp E) as (S1 & S2 & S3 & S4). destruct (Hfresh packs ix Hp E) as [Hself Hnsup].
  rewrite take_map. set (k1 := mkBackend _ _ _). destruct (del_indexes H k1 (take n (ix_supersedes ix))) as (A1 & A2 & A3).
  set (k' := apply_ops H k1 _) in *.
  assert (k_indexes k' !! index_id H ix = Some ix) as Hid.
  { rewrite A3, decide_False; [simpl; apply lookup_insert|]. intros Hx. apply Hself.
    by eapply elem_of_take in Hx as (? & ?%elem_of_list_lookup_2 & _). }
  assert (k_indexes k !! index_id H ix = None) as Hnew.
  { destruct (k_indexes k !! index_id H ix) eqn:Ei; [|done]. exfalso. apply Hself, S3. eauto. }
  assert (forall i jx, k_indexes k' !! i = Some jx -> i = index_id H ix \/ k_indexes k !! i = Some jx) as Hsub.
  { intros i jx Hi. rewrite A3 in Hi. case_decide; [done|]. simpl in Hi. apply lookup_insert_Some in Hi as [[<- _]|[_ Hi]]; auto. }
  assert (k_packs k' = k_packs k) as Epk by (by rewrite A1).
  assert (k_snaps k' = k_snaps k) as Esn by (by rewrite A2).
  assert (forall p m, (p, m) ∈ live_packs k' <-> (p, m) ∈ all_packs k) as Hlive.
  { intros p m. rewrite elem_of_live_packs, <-S4. split.
    - intros (i & jx & Hi & Hns & Hm). destruct (Hsub i jx Hi) as [->|Hi']; [by simplify_eq|]. exfalso. apply Hns.
      apply elem_of_superseded. exists (index_id H ix), ix. split; [done|]. apply S3. eauto.
    - intros Hm. exists (index_id H ix), ix. split; [done|]. split; [|done].
      intros (j & jx & Hj & Hx)%elem_of_superseded. destruct (Hsub j jx Hj) as [->|Hj'].
      + simplify_eq. done.
      + apply Hnsup. apply elem_of_superseded. eauto. }
  assert (repo_store k ⊆ repo_store k') as Hstore.
  { apply (store_subset H U HU); [apply Hk|rewrite Epk; apply Hk|].
    intros b (p & m & bs & Hm & Eb & Hb)%elem_of_live_blobs. apply elem_of_live_blobs. exists p, (manifest_of bs), bs.
    rewrite Epk. split; [|done]. apply Hlive, elem_of_all_packs. eauto. }
  assert (forall i sn es, k_snaps k !! i = Some sn -> restores H k sn es -> restores H k' sn es) as Hread.
  { intros i sn es _. by apply reads_root_mono. }
  split; [|split; [done|split; [done|]]].
  - constructor.
    + rewrite Epk. apply Hk.
    + intros i jx Hi. destruct (Hsub i jx Hi) as [->|Hi']; [by simplify_eq|by apply (io_sorted _ _ _ Hk i)].
    + rewrite Epk. intros i jx p m Hi Hm. destruct (Hsub i jx Hi) as [->|Hi']; [|by eapply (io_backed _ _ _ Hk)].
      simplify_eq. by apply elem_of_all_packs, S4.
    + exact (once_sub _ (all_packs k) (fun p m Hm => proj1 (Hlive p m) Hm) Ho).
    + intros i sn. rewrite Esn. apply Hk.
    + intros i sn. rewrite Esn. intros Hi. destruct (io_snaps _ _ _ Hk i sn Hi) as [es Hes]. exists es. by eapply Hread.
  - intros i sn es Hi. split; [by eapply Hread|]. intros Hes. destruct (io_snaps _ _ _ Hk i sn Hi) as [es' Hes'].
    by rewrite (reads_root_fun _ _ _ _ _ Hes (Hread _ _ _ Hi Hes')).
Qed.

End rebuild.
