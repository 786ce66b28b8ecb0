(** Facts about what a repository offers and how it is read. *)

From Verif Require Import Base OMap Formats FormatsFacts Hashing Pack Index IndexFacts PropsIndex Meta Forest ForestFacts
  FsTree FsSpec FsFacts BackupFacts Pipeline PipelineFacts Repo RepoSpec.

Lemma elem_of_superseded k x :
  x ∈ superseded k <-> exists i ix, k_indexes k !! i = Some ix /\ x ∈ ix_supersedes ix.
Proof.
  unfold superseded. rewrite elem_of_concat. split.
  - intros (l & Hx & Hl). apply elem_of_list_fmap in Hl as ([i ix] & -> & Hi).
    apply elem_of_map_to_list in Hi. eauto.
  - intros (i & ix & Hi & Hx). exists (ix_supersedes ix). split; [done|].
    apply elem_of_list_fmap. exists (i, ix). split; [done|]. by apply elem_of_map_to_list.
Qed.

Lemma elem_of_live_packs k p m :
  (p, m) ∈ live_packs k <->
  exists i ix, k_indexes k !! i = Some ix /\ i ∉ superseded k /\ (p, m) ∈ ix_packs ix.
Proof.
  unfold live_packs, live_indexes. rewrite elem_of_concat. split.
  - intros (l & Hx & Hl). apply elem_of_list_fmap in Hl as (ix & -> & Hi).
    apply elem_of_list_fmap in Hi as ([i ix'] & E & Hi). simpl in E. subst ix'.
    apply elem_of_list_In, filter_In in Hi as [Hi Hn]. apply elem_of_list_In, elem_of_map_to_list in Hi.
    apply negb_true_iff, bool_decide_eq_false in Hn. eauto.
  - intros (i & ix & Hi & Hn & Hx). exists (ix_packs ix). split; [done|].
    apply elem_of_list_fmap. exists ix. split; [done|]. apply elem_of_list_fmap. exists (i, ix). split; [done|].
    apply elem_of_list_In, filter_In. split; [by apply elem_of_list_In, elem_of_map_to_list|].
    by apply negb_true_iff, bool_decide_eq_false.
Qed.

Lemma elem_of_live_blobs k b :
  b ∈ live_blobs k <-> exists p m bs, (p, m) ∈ live_packs k /\ k_packs k !! p = Some bs /\ b ∈ bs.
Proof.
  unfold live_blobs. rewrite elem_of_concat. split.
  - intros (l & Hb & Hl). apply elem_of_list_fmap in Hl as ([p m] & -> & Hp). simpl in Hb.
    destruct (k_packs k !! p) as [bs|] eqn:E; [|by apply elem_of_nil in Hb]. exists p, m, bs. eauto.
  - intros (p & m & bs & Hp & E & Hb). exists bs. split; [done|]. apply elem_of_list_fmap.
    exists (p, m). simpl. by rewrite E.
Qed.

Lemma store_of_inv' bs id ty x :
  store_of bs !! id = Some (ty, x) -> mkBlob ty id x ∈ bs.
Proof.
  unfold store_of. intros E. apply elem_of_list_to_map_2 in E.
  apply elem_of_list_fmap in E as ([ty' id' x'] & [= -> -> ->] & Hb). done.
Qed.

Lemma store_of_lookup (U : blob -> Prop) bs b :
  (forall b b', U b -> U b' -> b_id b = b_id b' -> b = b') ->
  Forall U bs -> b ∈ bs -> store_of bs !! b_id b = Some (b_type b, b_bytes b).
Proof.
  intros Hinj HU Hb.
  assert (is_Some (store_of bs !! b_id b)) as [[ty x] E].
  { clear HU. induction bs as [|b' bs IH]; [by apply elem_of_nil in Hb|]. unfold store_of. simpl.
    destruct (decide (b_id b' = b_id b)) as [->|Hne]; [rewrite lookup_insert; eauto|].
    rewrite lookup_insert_ne by done. apply IH. apply elem_of_cons in Hb as [->|Hb]; done. }
  rewrite E. apply store_of_inv' in E. eapply Forall_forall in HU as HUb; [|exact Hb].
  eapply Forall_forall in HU; [|exact E]. rewrite (Hinj b _ HUb HU); done.
Qed.

(** Only the structure: no snapshots. *)
Record structured (H : bytes -> oid) (U : blob -> Prop) (k : backend) : Prop := {
  st_packs : packs_from H U (k_packs k);
  st_sorted : forall i ix, k_indexes k !! i = Some ix -> os_sorted (ix_supersedes ix) /\ om_sorted (ix_packs ix);
  st_backed : forall i ix p m, k_indexes k !! i = Some ix -> (p, m) ∈ ix_packs ix ->
    exists bs, k_packs k !! p = Some bs /\ manifest_of bs = m }.

Lemma in_order_structured H U k : in_order H U k -> structured H U k.
Proof. intros []. by constructor. Qed.
Lemma in_order_sound H U k : in_order H U k -> sound H U k.
Proof. intros []. by constructor. Qed.
Lemma sound_structured H U k : sound H U k -> structured H U k.
Proof. intros []. by constructor. Qed.

Section repo.
Variables (H : bytes -> oid) (U : blob -> Prop).
Hypothesis HU : universe H U.
Local Set Default Proof Using "All".

Lemma un_empty b : U b -> b_id b = empty_id H -> b_bytes b = enc_tree [].
Proof. intros Hb E. by rewrite (un_inj _ _ HU b _ Hb (un_none _ _ HU)). Qed.

Lemma live_blobs_U k : packs_from H U (k_packs k) -> Forall U (live_blobs k).
Proof.
  intros Hp. apply Forall_forall. intros b (p & m & bs & _ & E & Hb)%elem_of_live_blobs.
  destruct (Hp p bs E) as [_ HF]. by eapply Forall_forall in HF.
Qed.

Lemma repo_store_lookup k id ty x : packs_from H U (k_packs k) ->
  repo_store k !! id = Some (ty, x) <-> mkBlob ty id x ∈ live_blobs k.
Proof.
  intros Hp. split; [apply store_of_inv'|]. intros Hb.
  pose proof (store_of_lookup U _ _ (un_inj _ _ HU) (live_blobs_U k Hp) Hb) as E. exact E.
Qed.

Lemma repo_store_sane k : packs_from H U (k_packs k) -> store_sane H (repo_store k).
Proof.
  intros Hp id ty x E. apply repo_store_lookup in E; [|done].
  pose proof (live_blobs_U k Hp) as HF. eapply Forall_forall in HF; [|exact E].
  split; [by apply (un_id _ _ HU) in HF|]. intros ->.
  destruct (un_tree _ _ HU _ HF) as (t & Hs & Hb); [done|]. simpl in Hb. subst x.
  exists t. split; [|done]. rewrite <-(app_nil_r (enc_tree t)). apply dec_enc_tree. apply Hs.
Qed.

Lemma store_subset k k' : packs_from H U (k_packs k) -> packs_from H U (k_packs k') ->
  (forall b, b ∈ live_blobs k -> b ∈ live_blobs k') -> repo_store k ⊆ repo_store k'.
Proof.
  intros H1 H2 Hb. apply map_subseteq_spec. intros id [ty x] E.
  apply repo_store_lookup in E; [|done]. apply repo_store_lookup; auto.
Qed.

(** ** The combined index *)

Section k.
Variable k : backend.
Hypothesis Hk : structured H U k.

Lemma k_files_sorted : Forall (fun f => sorted_index f.2) (map_to_list (k_indexes k)).
Proof.
  apply Forall_forall. intros [i ix] Hi. apply elem_of_map_to_list in Hi. by apply (st_sorted _ _ _ Hk i).
Qed.

Lemma live_counts f : counts (map_to_list (k_indexes k)) f <-> k_indexes k !! f.1 = Some f.2 /\ f.1 ∉ superseded k.
Proof.
  destruct f as [i ix]. unfold counts. rewrite elem_of_map_to_list, elem_of_superseded. simpl. split.
  - intros [Hi Hn]. split; [done|]. intros (j & jx & Hj & Hx). apply Hn. exists (j, jx).
    by rewrite elem_of_map_to_list.
  - intros [Hi Hn]. split; [done|]. intros ([j jx] & Hj & Hx). apply Hn. exists j, jx.
    by rewrite <-elem_of_map_to_list.
Qed.

Lemma master_ok : exists ix, master k = Ok ix /\ sorted_index ix /\
  forall p m, (p, m) ∈ ix_packs ix <-> (p, m) ∈ live_packs k.
Proof.
  destruct (C10_combined_index (map_to_list (k_indexes k))) as (ix & E & Hs & _); [apply NoDup_fst_map_to_list|apply k_files_sorted|].
  exists ix. split; [exact E|]. split; [done|]. intros p m.
  rewrite (C10_combined_index_exact _ _ (NoDup_fst_map_to_list _) k_files_sorted) by
    (try exact E; intros [i fx] [j gx] q m1 m2 Hf Hg H1 H2; simpl in *;
     apply elem_of_map_to_list in Hf, Hg;
     destruct (st_backed _ _ _ Hk _ _ _ _ Hf H1) as (b1 & E1 & <-);
     destruct (st_backed _ _ _ Hk _ _ _ _ Hg H2) as (b2 & E2 & <-); congruence).
  rewrite elem_of_live_packs. setoid_rewrite live_counts. split.
  - intros ([i jx] & [Hi Hn] & Hp). eauto.
  - intros (i & jx & Hi & Hn & Hp). exists (i, jx). auto.
Qed.

Lemma live_pack_bs p m : (p, m) ∈ live_packs k -> exists bs, k_packs k !! p = Some bs /\ manifest_of bs = m.
Proof. intros (i & ix & Hi & _ & Hp)%elem_of_live_packs. by eapply (st_backed _ _ _ Hk). Qed.

(** An id is listed by the combined index exactly if the repository has it. *)
Lemma listed_live ix p id : master k = Ok ix ->
  (exists n, listed ix p id n) <-> exists m bs b, (p, m) ∈ live_packs k /\ k_packs k !! p = Some bs /\ b ∈ bs /\ b_id b = id.
Proof.
  intros E. destruct master_ok as (ix' & E' & _ & Hp). rewrite E in E'. injection E' as <-. split.
  - intros (n & m & e & Hm & He & <- & _). apply Hp in Hm. destruct (live_pack_bs p m Hm) as (bs & Eb & <-).
    apply elem_of_list_fmap in He as (b & -> & Hb). eauto 10.
  - intros (m & bs & b & Hm & Eb & Hb & <-). destruct (live_pack_bs p m Hm) as (bs' & Eb' & <-).
    assert (bs' = bs) as -> by congruence.
    exists (e_len (entry_of b)), (manifest_of bs), (entry_of b). split; [by apply Hp|]. split; [by apply elem_of_list_fmap_1|done].
Qed.

Lemma find_id bs b : Forall U bs -> b ∈ bs -> List.find (fun b' => bool_decide (b_id b' = b_id b)) bs = Some b.
Proof.
  intros HF Hb. destruct (List.find _ bs) as [b'|] eqn:E.
  - apply find_some in E as [Hb' Eid]. apply bool_decide_eq_true in Eid. apply elem_of_list_In in Hb'.
    rewrite Forall_forall in HF. f_equal. by apply (un_inj _ _ HU); auto.
  - eapply find_none in E; [|by apply elem_of_list_In]. by apply bool_decide_eq_false in E.
Qed.

Section maps.
Variables (ix : index) (bmap : gmap oid oid).
Hypothesis Hix : master k = Ok ix.
Hypothesis Hbmap : blob_to_pack_map ix = Ok bmap.

Lemma no_doubles : NoDup (blob_ids ix).
Proof.
  destruct (decide (NoDup (blob_ids ix))) as [Hn|Hn]; [done|].
  destruct (proj2 (C11_lookup_maps ix) Hn) as (E & _). congruence.
Qed.

Lemma bmap_lookup id p : bmap !! id = Some p <->
  exists m bs b, (p, m) ∈ live_packs k /\ k_packs k !! p = Some bs /\ b ∈ bs /\ b_id b = id.
Proof.
  destruct (proj1 (C11_lookup_maps ix) no_doubles) as (mp & ? & ? & E & _ & _ & Hm & _).
  rewrite Hbmap in E. injection E as <-. rewrite Hm. by apply listed_live.
Qed.

Lemma find_blob_spec id b : find_blob k bmap id = Ok b <-> b ∈ live_blobs k /\ b_id b = id.
Proof.
  unfold find_blob. split.
  - intros E. apply rbind_ok in E as (p & Ep & E). apply rbind_ok in E as (bs & Ebs & E).
    destruct (bmap !! id) as [p'|] eqn:Eb; [|done]. injection Ep as ->.
    destruct (k_packs k !! p) as [bs'|] eqn:Ek; [|done]. injection Ebs as ->.
    destruct (List.find _ bs) as [b'|] eqn:Ef; [|done]. injection E as ->.
    apply find_some in Ef as [Hin Eid]. apply bool_decide_eq_true in Eid. split; [|done].
    apply bmap_lookup in Eb as (m & bs' & b0 & Hm & Ek' & _). apply elem_of_live_blobs.
    exists p, m, bs. split; [done|]. split; [done|]. by apply elem_of_list_In.
  - intros [Hb <-]. apply elem_of_live_blobs in Hb as (p & m & bs & Hm & Ek & Hb).
    assert (bmap !! b_id b = Some p) as -> by (apply bmap_lookup; eauto 10). simpl. rewrite Ek. simpl.
    rewrite find_id; [done| |done]. by apply (st_packs _ _ _ Hk p).
Qed.

Lemma find_blob_total id : find_blob k bmap id <> Panic.
Proof.
  unfold find_blob. destruct (bmap !! id); simpl; [|done]. destruct (k_packs k !! _); simpl; [|done]. by destruct (List.find _ _).
Qed.

Lemma read_chunk_spec id x : read_chunk k bmap id = Ok x <-> repo_store k !! id = Some (Chunk, x).
Proof.
  rewrite repo_store_lookup by apply Hk. unfold read_chunk. split.
  - intros E. apply rbind_ok in E as (b & Eb & E). apply find_blob_spec in Eb as [Hb <-].
    destruct b as [[] i y]; simpl in *; [|done]. injection E as ->. done.
  - intros Hb. assert (find_blob k bmap id = Ok (mkBlob Chunk id x)) as -> by (by apply find_blob_spec). done.
Qed.

Lemma blob_size_ok id b : b ∈ live_blobs k -> b_id b = id -> exists n, blob_size ix bmap id = Ok n.
Proof.
  intros Hb <-. apply elem_of_live_blobs in Hb as (p & m & bs & Hm & Ek & Hb).
  unfold blob_size. assert (bmap !! b_id b = Some p) as -> by (apply bmap_lookup; eauto 10). simpl.
  destruct master_ok as (ix' & E' & [_ Hs] & Hp). rewrite Hix in E'. injection E' as <-.
  assert (om_get p (ix_packs ix) = Some m) as -> by (apply om_get_elem; [done|by apply Hp]). simpl.
  destruct (live_pack_bs p m Hm) as (bs' & Ek' & <-). assert (bs' = bs) as -> by congruence.
  destruct (List.find _ (manifest_of bs)) as [e|] eqn:Ef; simpl; [eauto|]. exfalso.
  eapply find_none in Ef; [|apply elem_of_list_In, (elem_of_list_fmap_1 entry_of); exact Hb].
  by apply bool_decide_eq_false in Ef.
Qed.

(** ** Loading trees *)

Definition cache_true (c : forest) : Prop := forall id t, c !! id = Some t -> stored_as H (repo_store k) id t.

Lemma cache_new_true : cache_true (cache_new H).
Proof.
  intros id t E. unfold cache_new in E. apply lookup_singleton_Some in E as [<- <-].
  unfold stored_as. by rewrite decide_True.
Qed.

Lemma stored_tree_live id t b : b ∈ live_blobs k -> b_id b = id -> b_type b = Tree ->
  dec_tree (b_bytes b) = Some (t, []) -> stored_as H (repo_store k) id t.
Proof.
  intros Hb <- Hty Ed. unfold stored_as. case_decide as He.
  - pose proof (live_blobs_U k (st_packs _ _ _ Hk)) as HF. eapply Forall_forall in HF; [|exact Hb].
    apply un_empty in He; [|done]. rewrite He in Ed. vm_compute in Ed. by injection Ed.
  - exists (b_bytes b). split; [|done]. apply repo_store_lookup; [apply Hk|]. rewrite <-Hty. by destruct b.
Qed.

Lemma live_tree b : b ∈ live_blobs k -> b_type b = Tree ->
  exists t, tree_sane t /\ b = tree_blob H t /\ forall t' r, dec_tree (b_bytes b) = Some (t', r) -> t' = t /\ r = [].
Proof using HU Hk.
  intros Hb Hty. pose proof (live_blobs_U k (st_packs _ _ _ Hk)) as HF. eapply Forall_forall in HF; [|exact Hb].
  destruct (un_tree _ _ HU b HF Hty) as (t & Hs & Eb). exists t. split; [done|]. split.
  - pose proof (un_id _ _ HU b HF) as Hid. destruct b as [ty i x]. simpl in *. subst. unfold tree_blob, tree_id. done.
  - intros t' r E. rewrite Eb, <-(app_nil_r (enc_tree t)), dec_enc_tree in E by apply Hs. by injection E as <- <-.
Qed.

Lemma read_tree_mono c id t c' : read_tree k bmap c id = Ok (t, c') -> c ⊆ c' /\ c' !! id = Some t.
Proof.
  unfold read_tree. destruct (c !! id) as [t0|] eqn:Ec; [intros [= <- <-]; auto|].
  intros E. apply rbind_ok in E as (b & _ & E). apply rbind_ok in E as (t' & _ & E). injection E as -> <-.
  split; [by apply insert_subseteq|apply lookup_insert].
Qed.

Lemma read_tree_true c id t c' : cache_true c -> read_tree k bmap c id = Ok (t, c') -> cache_true c'.
Proof.
  intros Hc. unfold read_tree. destruct (c !! id) as [t0|] eqn:Ec; [by intros [= <- <-]|].
  intros E. apply rbind_ok in E as (b & Eb & E). apply rbind_ok in E as (t' & Et & E). injection E as -> <-.
  apply find_blob_spec in Eb as [Hb Hid]. intros i u. destruct (decide (id = i)) as [<-|Hne].
  - rewrite lookup_insert. intros [= <-]. destruct (b_type b) eqn:Hty; [done|].
    destruct (dec_tree (b_bytes b)) as [[t' r]|] eqn:Ed; [|done]. injection Et as ->.
    destruct (live_tree b Hb Hty) as (t1 & _ & _ & Hd). destruct (Hd _ _ Ed) as [-> ->]. by eapply stored_tree_live.
  - rewrite lookup_insert_ne by done. apply Hc.
Qed.

Lemma load_forest_ok fuel root fo : load_forest H k bmap fuel root = Some (Ok fo) ->
  is_Some (fo !! root) /\
  (forall id t, fo !! id = Some t -> stored_as H (repo_store k) id t) /\
  (forall id t s, fo !! id = Some t -> s ∈ subtrees t -> is_Some (fo !! s)) /\
  (forall id t, fo !! id = Some t -> reach fo root id).
Proof.
  unfold load_forest, forest_from_root.
  destruct (append_tree (read_tree k bmap) fuel ∅ root (cache_new H, ∅)) as [[[c f]| |]|] eqn:E; try done.
  intros [= ->].
  pose proof (append_tree_inv _ cache_true _ _ _ (cache_new H, ∅) _ (fun c id t c' => read_tree_true c id t c') cache_new_true E) as Hc.
  simpl in Hc.
  destruct (append_tree_ok (read_tree k bmap) read_tree_mono _ _ _ _ _ _ _ E) as [_ Hok].
  destruct (Hok c) as [Ha Hb]; [done|].
  assert (forall id t, fo !! id = Some t -> reach c root id /\ c !! id = Some t) as Hfo.
  { intros id t Et. destruct (Hb id) as [E0|Hr]; [by rewrite E0, lookup_empty in Et|]. split; [done|].
    destruct (Ha id Hr) as (_ & _ & _ & <-). done. }
  split; [|split; [|split]].
  - destruct (Ha root) as (_ & Hs & _ & ->); done.
  - intros id t Et. apply Hc. by apply Hfo.
  - intros id t s Et Hs. destruct (Hfo id t Et) as [Hr Ec].
    destruct (Ha s) as (_ & Hs' & _ & ->); [|done]. eapply rtc_r; [exact Hr|]. by exists t.
  - intros id t Et. destruct (Hfo id t Et) as [Hr _]. clear Et t Hb Hfo.
    assert (forall x, reach c root x -> reach fo root x) as Hx; [|by apply Hx].
    apply (rtc_ind_r (fun x => reach fo root x) root); [done|].
    intros y z Hy (t & Et & Hz) IH. eapply rtc_r; [exact IH|]. exists t.
    destruct (Ha y Hy) as (_ & _ & _ & ->). done.
Qed.

End maps.
End k.
End repo.
