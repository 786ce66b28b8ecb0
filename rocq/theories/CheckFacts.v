(** Facts about checking a repository: the tree cache of any repository agrees
    with a fixed store, whatever was read before. *)

From Verif Require Import Base OMap Cbor Formats Hashing Pack PackFacts Index IndexFacts Meta Forest ForestFacts
  PropsPack PropsIndex PropsForest Reader ReaderFacts PropsRead Check.

(** Failures, panics included, when reading agrees with a fixed store. *)
Lemma append_tree_bad (read : forest -> oid -> result (tree * forest)) (store : forest) (I : forest -> Prop) fuel stack id st :
  (forall c id, I c -> match read c id with
     | Ok (t, c') => I c' /\ store !! id = Some t
     | _ => store !! id = None end) ->
  I st.1 ->
  match append_tree read fuel stack id st with
  | Some (Ok st') => I st'.1
  | Some _ => exists x, reach store id x /\ (x ∈ stack \/ store !! x = None \/ tc (child store) x x)
  | None => True
  end.
Proof.
  intros HI. revert stack id st. induction fuel as [|fuel IH]; intros stack id [c f] Hc; [done|].
  cbn [append_tree fst snd] in *. case_decide as Hs. { exists id. split; [done|]. by left. }
  specialize (HI c id Hc) as Hr. destruct (read c id) as [[t c1]| |]; [|exists id; split; [done|auto]..].
  destruct Hr as [Hc1 Ht].
  assert (Forall (fun i => child store id i) (subtrees t)) as Hch.
  { apply Forall_forall. intros i Hi. by exists t. }
  revert Hch. generalize (subtrees t) as ids. intros ids. generalize (<[id := t]> f) as f1.
  revert c1 Hc1. induction ids as [|i ids IHids]; intros c1 Hc1 f1 Hch; cbn [fold_ids]; [done|].
  apply Forall_cons in Hch as [Hi Hch].
  specialize (IH ({[id]} ∪ stack) i (c1, f1) Hc1).
  assert (forall x, reach store i x -> x ∈ {[id]} ∪ stack \/ store !! x = None \/ tc (child store) x x ->
    exists y, reach store id y /\ (y ∈ stack \/ store !! y = None \/ tc (child store) y y)) as Hup.
  { intros x Hr Hx. destruct (decide (x = id)) as [->|Hne].
    + exists id. split; [done|]. right; right. by eapply tc_rtc_r; [apply tc_once|].
    + exists x. split; [by eapply rtc_l|]. set_solver. }
  destruct (append_tree read fuel ({[id]} ∪ stack) i (c1, f1)) as [[[c2 f2]| |]|] eqn:E2; try done.
  - by apply IHids.
  - destruct IH as (x & Hr & Hx). by eapply Hup.
  - destruct IH as (x & Hr & Hx). by eapply Hup.
Qed.

(** Reading a pack's trees does not depend on what else is in the cache. *)
Definition same_trees (m : manifest) (fo1 fo2 : forest) : Prop :=
  forall e, e ∈ m -> e_type e = Tree -> (is_Some (fo1 !! e_id e) <-> is_Some (fo2 !! e_id e)).

Lemma append_entries_same H m st fo1 fo2 : same_trees m fo1 fo2 ->
  match append_entries H m st fo1, append_entries H m st fo2 with
  | Ok a, Ok b => exists d : forest, a = d ∪ fo1 /\ b = d ∪ fo2 /\
      (forall i t, d !! i = Some t -> fo1 !! i = None /\ fo2 !! i = None /\ exists e, e ∈ m /\ e_type e = Tree /\ e_id e = i) /\
      (forall e, e ∈ m -> e_type e = Tree -> is_Some (d !! e_id e) \/ is_Some (fo1 !! e_id e))
  | Err, Err => True
  | Panic, Panic => True
  | _, _ => False
  end.
Proof.
  revert st fo1 fo2. induction m as [|e m IH]; intros st fo1 fo2 Hs; cbn [append_entries].
  { exists ∅. rewrite !(left_id_L ∅ (∪)). split; [done|]. split; [done|]. split; [intros i t Hi; by rewrite lookup_empty in Hi|].
    intros e He. by apply elem_of_nil in He. }
  assert (bool_decide (e_type e <> Tree) || bool_decide (is_Some (fo1 !! e_id e)) =
    bool_decide (e_type e <> Tree) || bool_decide (is_Some (fo2 !! e_id e)))%bool as Eb.
  { destruct (decide (e_type e = Tree)) as [Ht|Ht].
    - rewrite (bool_decide_ext (is_Some (fo1 !! e_id e)) (is_Some (fo2 !! e_id e))); [done|]. apply Hs; [left|done].
    - rewrite (bool_decide_eq_true_2 (e_type e <> Tree)) by done. done. }
  rewrite <- Eb. destruct (_ || _)%bool eqn:Eo.
  - destruct (read_take (e_len e) st) as [[b st']| |]; cbn [rbind]; [|done|done].
    destruct (rassert _) as [[]| |]; cbn [rbind]; [|done|done].
    assert (same_trees m fo1 fo2) as Hs' by (intros e' He'; apply Hs; by right).
    specialize (IH st' fo1 fo2 Hs'). destruct (append_entries H m st' fo1), (append_entries H m st' fo2); try done.
    destruct IH as (d & H1 & H2 & H3 & H4). exists d. split; [done|]. split; [done|]. split.
    + intros i t Hi. destruct (H3 i t Hi) as (? & ? & e' & ? & ? & ?). split; [done|]. split; [done|].
      exists e'. split; [by right|done].
    + intros e' He' Ht'. apply elem_of_cons in He' as [->|He']; [|auto]. right.
      apply orb_true_iff in Eo as [Eo|Eo]; [by apply bool_decide_eq_true in Eo|by apply bool_decide_eq_true in Eo].
  - apply orb_false_iff in Eo as [Et Ei]. apply bool_decide_eq_false in Et, Ei.
    assert (e_type e = Tree) as Ht by (destruct (e_type e); [by destruct Et|done]).
    assert (fo1 !! e_id e = None) as Hn1 by (by apply eq_None_not_Some).
    assert (fo2 !! e_id e = None) as Hn2.
    { apply eq_None_not_Some. intros Hi. apply Ei. apply Hs; [left|done|done]. }
    cbv zeta. destruct (from_hashing_reader H dec_tree _) as [[[t h] r]| |]; cbn [rbind]; [|done|done].
    destruct (ensure _) as [[]| |]; cbn [rbind]; [|done|done].
    match goal with |- context [append_entries H m ?st' _] => set (st1 := st') end.
    assert (same_trees m (<[e_id e := t]> fo1) (<[e_id e := t]> fo2)) as Hs'.
    { intros e' He' Ht'. rewrite !lookup_insert_is_Some. specialize (Hs e' ltac:(by right) Ht'). tauto. }
    specialize (IH st1 _ _ Hs'). clearbody st1.
    destruct (append_entries H m st1 (<[e_id e := t]> fo1)), (append_entries H m st1 (<[e_id e := t]> fo2)); try done.
    destruct IH as (d & H1 & H2 & H3 & H4).
    assert (d !! e_id e = None) as Hd.
    { destruct (d !! e_id e) as [u|] eqn:Ed; [|done]. destruct (H3 _ _ Ed) as (Hx & _). by rewrite lookup_insert in Hx. }
    exists (<[e_id e := t]> d). split; [|split; [|split]].
    + rewrite H1. by rewrite <- insert_union_r, insert_union_l by done.
    + rewrite H2. by rewrite <- insert_union_r, insert_union_l by done.
    + intros i u Hi. apply lookup_insert_Some in Hi as [[<- <-]|[Hne Hi]].
      * split; [done|]. split; [done|]. exists e. split; [left|done].
      * destruct (H3 i u Hi) as (Ha & Hb & e' & He' & Ht' & Hi').
        rewrite lookup_insert_ne in Ha, Hb by done. split; [done|]. split; [done|]. exists e'. split; [by right|done].
    + intros e' He' Ht'. destruct (decide (e_id e' = e_id e)) as [->|Hne]; [left; rewrite lookup_insert; by eexists|].
      apply elem_of_cons in He' as [->|He']; [done|].
      destruct (H4 e' He' Ht') as [Hi|Hi]; [left|right]; by rewrite lookup_insert_ne in *.
Qed.

Lemma of_nat_clock : forall i j : nat, i < j -> (N.of_nat i < N.of_nat j)%N.
Proof. intros i j. lia. Qed.

Section cache.
Local Set Default Proof Using "All".
Variables (H : bytes -> oid) (zdec : bytes -> bytes * bool) (ix : index) (bmap : gmap oid oid) (packs : gmap oid bytes).
Hypothesis Hmap : blob_to_pack_map ix = Ok bmap.
Hypothesis Hsorted : om_sorted (ix_packs ix).

(** The trees of the pack said to hold [id]. *)
Definition pack_forest (p : oid) : result forest :=
  let* file := of_option (packs !! p) in
  let* m := of_option (om_get p (ix_packs ix)) in
  append_to_forest H zdec file m (cache_new H).

(** The trees that can be read. *)
Definition readable : forest :=
  cache_new H ∪ map_imap (fun id p => match pack_forest p with Ok fo => fo !! id | _ => None end) bmap.

Record cache_fine (c : forest) : Prop := {
  cf_new : cache_new H ⊆ c;
  cf_sub : c ⊆ readable;
  cf_whole : forall p m e e', om_get p (ix_packs ix) = Some m -> e ∈ m -> e_type e = Tree ->
    is_Some (c !! e_id e) -> e_id e <> empty_id H -> e' ∈ m -> e_type e' = Tree -> is_Some (c !! e_id e') }.

Lemma cache_new_lookup i : cache_new H !! i = if decide (i = empty_id H) then Some [] else None.
Proof.
  unfold cache_new. case_decide as E; [subst; apply lookup_singleton|by apply lookup_singleton_ne].
Qed.

Lemma cache_new_fine : cache_fine (cache_new H).
Proof.
  split; [done|apply map_union_subseteq_l|].
  intros p m e e' Hm He Ht [t Hi] Hne. rewrite cache_new_lookup in Hi. by case_decide.
Qed.

Lemma bmap_get i p : bmap !! i = Some p <-> exists m e, om_get p (ix_packs ix) = Some m /\ e ∈ m /\ e_id e = i.
Proof.
  rewrite (bmap_entry H zdec ix bmap packs N.of_nat of_nat_clock Hmap Hsorted (fun _ _ => True)). split.
  - intros (e & He & Hi). apply elem_of_index_entries_get in He as (m & Hm & He); [|done]. eauto.
  - intros (m & e & Hm & He & Hi). exists e. split; [|done]. apply elem_of_index_entries_get; eauto.
Qed.

Lemma entry_once p m e p' m' e' : om_get p (ix_packs ix) = Some m -> e ∈ m -> om_get p' (ix_packs ix) = Some m' -> e' ∈ m' ->
  e_id e = e_id e' -> p = p' /\ e = e'.
Proof.
  intros Hm He Hm' He' E.
  eapply (entry_unique H zdec ix bmap packs N.of_nat of_nat_clock Hmap Hsorted (fun _ _ => True));
    [apply elem_of_index_entries_get; eauto..|done].
Qed.

Lemma readable_lookup i : cache_new H !! i = None ->
  readable !! i = p ← bmap !! i; match pack_forest p with Ok fo => fo !! i | _ => None end.
Proof. intros Hn. unfold readable. rewrite lookup_union_r by done. by rewrite map_lookup_imap. Qed.

Lemma cache_read_fine c id : cache_fine c ->
  match cache_read H zdec ix bmap packs c id with
  | Ok (t, c') => cache_fine c' /\ readable !! id = Some t
  | _ => readable !! id = None
  end.
Proof.
  intros [Hnew Hsub Hwhole]. unfold cache_read. destruct (c !! id) as [t|] eqn:Ec.
  { split; [done|]. by eapply lookup_weaken. }
  assert (cache_new H !! id = None) as Hn0.
  { destruct (cache_new H !! id) as [t|] eqn:E0; [|done]. rewrite (lookup_weaken _ _ _ _ E0 Hnew) in Ec. done. }
  pose proof (readable_lookup id Hn0) as Hr.
  destruct (bmap !! id) as [p|] eqn:Ep; cbn [of_option rbind mbind option_bind] in *; [|done].
  assert (exists pf, pack_forest p = pf) as [pf Hpf] by eauto. rewrite Hpf in Hr.
  assert (Hpf' := Hpf). unfold pack_forest in Hpf'.
  destruct (packs !! p) as [file|] eqn:Ef; cbn [of_option rbind] in *; [|by rewrite Hr, <- Hpf'].
  apply bmap_get in Ep as (m & e & Em & He & Hi). rewrite Em in *. cbn [of_option rbind] in *.
  unfold append_to_forest in *. destruct (check_magic pack_magic file) as [body| |]; cbn [rbind] in *; [|by rewrite Hr, <- Hpf'..].
  destruct (decide (e_type e = Tree)) as [Hty|Hty].
  - (* a tree: the cache holds nothing of this pack *)
    assert (same_trees m c (cache_new H)) as Hsame.
    { intros e' He' Ht'. split; [|intros [t Ht]; exists t; by eapply lookup_weaken].
      intros Hs. rewrite cache_new_lookup. destruct (decide (e_id e' = empty_id H)) as [E|Hne]; [by eexists|].
      destruct (Hwhole p m e' e Em He' Ht' Hs Hne He Hty) as [t Ht]. rewrite Hi in Ht. congruence. }
    pose proof (append_entries_same H m (zdec body) c (cache_new H) Hsame) as Ha.
    destruct (append_entries H m (zdec body) c) as [a| |], (append_entries H m (zdec body) (cache_new H)) as [b| |];
      cbn [rbind] in *; try done; [|by rewrite Hr, <- Hpf'..].
    destruct Ha as (d & -> & -> & Hd & Hall). rewrite <- Hpf' in Hr, Hpf.
    destruct (Hall e He Hty) as [[t Ht]|[t Hx]]; rewrite Hi in *; [|congruence].
    rewrite (lookup_union_Some_l d c id t Ht). rewrite (lookup_union_Some_l d _ id t Ht) in Hr.
    cbn [of_option rbind]. split; [|done]. split.
    + apply map_subseteq_spec. intros i u Hu. rewrite lookup_union_r; [by eapply lookup_weaken|].
      destruct (d !! i) as [v|] eqn:Ed; [|done]. destruct (Hd i v Ed) as (Hx & _).
      rewrite (lookup_weaken _ _ _ _ Hu Hnew) in Hx. done.
    + apply map_subseteq_spec. intros i u Hu. apply lookup_union_Some_raw in Hu as [Hu|[_ Hu]]; [|by eapply lookup_weaken].
      destruct (Hd i u Hu) as (_ & H2 & e' & He' & Ht' & Hi').
      rewrite (readable_lookup i H2), (proj2 (bmap_get i p)) by eauto. cbn [mbind option_bind]. rewrite Hpf.
      by apply lookup_union_Some_l.
    + intros p' m' e1 e2 Em' He1 Ht1 [u Hu] Hne He2 Ht2. apply lookup_union_Some_raw in Hu as [Hu|[_ Hu]].
      * destruct (Hd _ _ Hu) as (_ & _ & e' & He' & Ht' & Hi').
        destruct (entry_once _ _ _ _ _ _ Em He' Em' He1 Hi') as [<- _]. rewrite Em in Em'. injection Em' as <-.
        apply lookup_union_is_Some. by apply Hall.
      * apply lookup_union_is_Some. right. exact (Hwhole p' m' e1 e2 Em' He1 Ht1 (ex_intro _ u Hu) Hne He2 Ht2).
  - (* a chunk: no forest has it *)
    assert (forall (fo r : forest), append_entries H m (zdec body) fo = Ok r -> fo !! id = None -> r !! id = None) as Hno.
    { intros fo r E Hfo. pose proof (append_entries_same H m (zdec body) fo fo ltac:(done)) as Ha. rewrite E in Ha.
      destruct Ha as (d & -> & _ & Hd & _). apply lookup_union_None. split; [|done].
      destruct (d !! id) as [u|] eqn:Ed; [|done]. destruct (Hd _ _ Ed) as (_ & _ & e' & He' & Ht' & Hi').
      destruct (entry_once _ _ _ _ _ _ Em He' Em He ltac:(congruence)) as [_ ->]. done. }
    assert (readable !! id = None) as Hrn.
    { rewrite Hr, <- Hpf'. destruct (append_entries H m (zdec body) (cache_new H)) eqn:E; [|done..]. by eapply Hno. }
    destruct (append_entries H m (zdec body) c) as [a| |] eqn:E; cbn [rbind]; [|done|done].
    rewrite (Hno _ _ E Ec). done.
Qed.

Notation read := (cache_read H zdec ix bmap packs).

(** [fo] is what is reachable from [root]. *)
Definition loads (root : oid) (fo : forest) : Prop := forall x,
  (reach readable root x -> is_Some (readable !! x) /\ ~ tc (child readable) x x /\ fo !! x = readable !! x) /\
  (fo !! x = None \/ reach readable root x).

Lemma loads_unique root fo fo' : loads root fo -> loads root fo' -> fo = fo'.
Proof.
  intros H1 H2. apply map_eq. intros x. destruct (H1 x) as [A1 A2], (H2 x) as [B1 B2].
  destruct A2 as [A2|A2]; [|destruct (A1 A2) as (_ & _ & ->), (B1 A2) as (_ & _ & ->); done].
  destruct B2 as [B2|B2]; [congruence|].
  destruct (A1 B2) as (_ & _ & ->), (B1 B2) as (_ & _ & ->). done.
Qed.

Lemma fine_dom c : cache_fine c -> dom c ⊆ {[empty_id H]} ∪ ix_ids ix.
Proof.
  intros [_ Hsub _] x Hx. apply elem_of_dom in Hx as [t Ht].
  eapply lookup_weaken in Ht; [|exact Hsub]. clear Hsub. destruct (cache_new H !! x) as [u|] eqn:E.
  - rewrite cache_new_lookup in E. case_decide; [|done]. subst. set_solver.
  - rewrite readable_lookup in Ht by done. destruct (bmap !! x) as [p|] eqn:Ep; [|done].
    apply bmap_get in Ep as (m & e & Hm & He & Hi). apply elem_of_union_r. unfold ix_ids. apply elem_of_list_to_set.
    apply elem_of_list_fmap. exists (p, e). split; [done|]. apply elem_of_index_entries_get; eauto.
Qed.

Lemma load_any_cache c root fuel : cache_fine c -> S (size (ix_ids ix)) < fuel ->
  match forest_from_root read fuel c root with
  | Some (Ok (c', fo)) => cache_fine c' /\ loads root fo
  | Some _ => exists x, reach readable root x /\ (readable !! x = None \/ tc (child readable) x x)
  | None => False
  end.
Proof.
  intros Hc Hfuel. set (U := {[empty_id H]} ∪ ix_ids ix).
  assert (size U < fuel) as HU.
  { pose proof (size_union_alt {[empty_id H]} (ix_ids ix)) as E. rewrite size_singleton in E.
    unfold U. rewrite E. pose proof (subseteq_size (ix_ids ix ∖ {[empty_id H]}) (ix_ids ix)) as Hsz.
    assert (ix_ids ix ∖ {[empty_id H]} ⊆ ix_ids ix) as Hss by set_solver. specialize (Hsz Hss). lia. }
  assert (forest_from_root read fuel c root <> None) as Hnn.
  { apply (append_tree_fuel read (cache_read_mono _ _ _ _ _ Hsorted) U).
    - intros c1 id t c' Hd E. destruct (cache_read_inv _ _ _ _ _ _ _ _ _ Hsorted E) as (H1 & H2 & H3).
      assert (dom c' ⊆ U) as Hd'.
      { intros x Hx. apply elem_of_dom in Hx as [u Hu]. destruct (H3 x u Hu) as [Hcc|[Hi _]].
        - apply Hd. by apply elem_of_dom_2 in Hcc.
        - set_solver. }
      split; [|done]. apply Hd'. by apply elem_of_dom_2 in H2.
    - cbn [fst]. by apply fine_dom.
    - by rewrite difference_empty_L. }
  pose proof (append_tree_bad read readable cache_fine fuel ∅ root (c, ∅) (cache_read_fine) Hc) as Hb.
  unfold forest_from_root in *.
  destruct (append_tree read fuel ∅ root (c, ∅)) as [[[c' fo]| |]|] eqn:E; [| | |done].
  - cbn [fst] in Hb. split; [done|].
    destruct (append_tree_ok read (cache_read_mono _ _ _ _ _ Hsorted) _ _ _ _ _ _ _ E) as [_ Hok].
    destruct (Hok readable (cf_sub _ Hb)) as [Ha Hd]. intros x. split.
    + intros Hr. destruct (Ha x Hr) as (_ & ? & ? & ?). done.
    + destruct (Hd x) as [Hx|Hx]; [left|by right]. by rewrite Hx, lookup_empty.
  - destruct Hb as (x & Hr & [Hx|Hx]); [set_solver|]. by exists x.
  - destruct Hb as (x & Hr & [Hx|Hx]); [set_solver|]. by exists x.
Qed.

(** So what is loaded does not depend on what was loaded before. *)
Lemma load_from_fresh c root fuel fuel' c' fo : cache_fine c -> S (size (ix_ids ix)) < fuel -> S (size (ix_ids ix)) < fuel' ->
  forest_from_root read fuel c root = Some (Ok (c', fo)) ->
  cache_fine c' /\ forall c0, cache_fine c0 -> exists c0', forest_from_root read fuel' c0 root = Some (Ok (c0', fo)) /\ cache_fine c0'.
Proof.
  intros Hc Hf Hf' E. pose proof (load_any_cache c root fuel Hc Hf) as H1. rewrite E in H1. destruct H1 as [Hc' Hl].
  split; [done|]. intros c0 Hc0. pose proof (load_any_cache c0 root fuel' Hc0 Hf') as H2.
  destruct (forest_from_root read fuel' c0 root) as [[[c2 fo2]| |]|]; [| | |done].
  - destruct H2 as [Hc2 Hl2]. rewrite (loads_unique _ _ _ Hl Hl2). eauto.
  - destruct H2 as (x & Hr & Hx). destruct (Hl x) as [Hx' _]. destruct (Hx' Hr) as ([t Ht] & Ha & _).
    destruct Hx as [Hx|Hx]; [congruence|done].
  - destruct H2 as (x & Hr & Hx). destruct (Hl x) as [Hx' _]. destruct (Hx' Hr) as ([t Ht] & Ha & _).
    destruct Hx as [Hx|Hx]; [congruence|done].
Qed.

(** A snapshot by itself: its file loads, and its forest from a new cache. *)
Definition snapshot_fine (fuel : nat) (id : oid) (file : bytes) (fo : forest) : Prop :=
  exists s c', snapshot_load H id file = Ok s /\
    forest_from_root read fuel (cache_new H) (any_tree s) = Some (Ok (c', fo)).

Lemma snapshot_chunks_spec fuel c files : cache_fine c -> S (size (ix_ids ix)) < fuel ->
  match snapshot_chunks H read fuel c files with
  | Some (Ok cs) => exists fos, Forall2 (fun kf fo => snapshot_fine fuel kf.1 kf.2 fo) files fos /\
      forall x, x ∈ cs <-> exists fo i t, fo ∈ fos /\ fo !! i = Some t /\ x ∈ tree_chunks t
  | Some _ => exists kf, kf ∈ files /\ forall fo, ~ snapshot_fine fuel kf.1 kf.2 fo
  | None => False
  end.
Proof.
  intros Hc Hf. revert c Hc. induction files as [|[id f] files IH]; intros c Hc; cbn [snapshot_chunks].
  { exists []. split; [constructor|]. intros x. split; [intros Hx; by apply elem_of_nil in Hx|].
    intros (fo & _ & _ & Hx & _). by apply elem_of_nil in Hx. }
  assert (forall r, snapshot_load H id f = r -> (forall s, r <> Ok s) ->
    exists kf, kf ∈ (id, f) :: files /\ forall fo, ~ snapshot_fine fuel kf.1 kf.2 fo) as Hno.
  { intros r E Hr. exists (id, f). split; [left|]. intros fo (s & c' & E' & _). cbn [fst snd] in E'.
    rewrite E in E'. by eapply Hr. }
  destruct (snapshot_load H id f) as [s| |] eqn:Es; [|by apply (Hno Err)|by apply (Hno Panic)].
  assert ((forall c1 fo1, forest_from_root read fuel c (any_tree s) <> Some (Ok (c1, fo1))) ->
    exists kf, kf ∈ (id, f) :: files /\ forall fo, ~ snapshot_fine fuel kf.1 kf.2 fo) as Hno'.
  { intros Hr. exists (id, f). split; [left|]. intros fo (s' & c' & E1 & E2). cbn [fst snd] in E1.
    rewrite Es in E1. injection E1 as <-.
    destruct (load_from_fresh _ _ _ fuel _ _ cache_new_fine Hf Hf E2) as [_ Hany].
    destruct (Hany c Hc) as (c0 & E0 & _). by apply Hr in E0. }
  pose proof (load_any_cache c (any_tree s) fuel Hc Hf) as Hl.
  destruct (forest_from_root read fuel c (any_tree s)) as [[[c' fo]| |]|] eqn:El; [|by apply Hno'|by apply Hno'|done].
  destruct (load_from_fresh _ _ _ fuel _ _ Hc Hf Hf El) as [Hc' Hany].
  destruct (Hany _ cache_new_fine) as (c0 & E0 & _).
  specialize (IH c' Hc'). destruct (snapshot_chunks H read fuel c' files) as [[cs| |]|]; [| | |done].
  - destruct IH as (fos & Hfos & Hcs). exists (fo :: fos). split.
    + constructor; [|done]. by exists s, c0.
    + intros x. rewrite elem_of_app, Hcs. split.
      * intros [Hx|(fo' & i & t & ? & ? & ?)].
        -- apply elem_of_list_In, in_concat in Hx as (l & Hl1 & Hl2).
           apply in_map_iff in Hl1 as ([i t] & <- & Hin). apply elem_of_list_In, elem_of_map_to_list in Hin.
           exists fo, i, t. split; [left|]. split; [done|]. by apply elem_of_list_In.
        -- exists fo', i, t. split; [by right|done].
      * intros (fo' & i & t & Hfo' & Hi & Hx). apply elem_of_cons in Hfo' as [->|Hfo']; [left|right; by exists fo', i, t].
        apply elem_of_list_In, in_concat. exists (tree_chunks t). split; [|by apply elem_of_list_In].
        apply in_map_iff. exists (i, t). split; [done|]. by apply elem_of_list_In, elem_of_map_to_list.
  - destruct IH as (kf & ? & ?). exists kf. split; [by right|done].
  - destruct IH as (kf & ? & ?). exists kf. split; [by right|done].
Qed.
End cache.

(** ** Reading chunks from verified packs *)

Lemma load_entries_verified H (clock : nat -> N) m st n s : verify_entries H m st = Ok tt ->
  (forall e, e ∈ m -> e_type e = Chunk) -> exists n' s', load_entries H clock m st n s = (Ok n', s').
Proof.
  revert st n s. induction m as [|e m IH]; intros st n s E Hc; cbn [load_entries]; [eauto|].
  cbn [verify_entries] in E. apply rbind_ok in E as ([b st'] & E1 & E). apply rbind_ok in E as ([] & E2 & E).
  rewrite (Hc e) by left. rewrite E1. destruct (bool_decide (e_id e = H b)); [|done].
  apply IH; [done|]. intros e' He'. apply Hc. by right.
Qed.

Lemma read_blob_verified (H : bytes -> oid) (zdec : bytes -> bytes * bool) (ix : index) (bmap packs : gmap oid bytes) clock s id r s' :
  read_blob H zdec ix bmap packs clock s id r s' ->
  (exists p m file, bmap !! id = Some p /\ om_get p (ix_packs ix) = Some m /\ packs !! p = Some file /\
     verify H zdec file m = Ok tt /\ forall e, e ∈ m -> e_type e = Chunk) ->
  r <> Err.
Proof.
  intros Hr (p & m & file & Hp & Hm & Hf & Hv & Hc). destruct Hr as [| ?  | p' s' Eg Em El| | | |]; try done; [congruence|].
  intros _. rewrite Hp in Em. injection Em as <-. unfold load_pack in El. rewrite Hf, Hm in El.
  apply verify_inv in Hv as (body & i & -> & Hv & _). rewrite check_magic_ok in El.
  destruct (load_entries_verified H clock m (zdec body) 0 s Hv Hc) as (n' & s2 & E). congruence.
Qed.

Lemma read_blobs_verified (H : bytes -> oid) (zdec : bytes -> bytes * bool) (ix : index) (bmap packs : gmap oid bytes) clock s ids rs s' :
  read_blobs H zdec ix bmap packs clock s ids rs s' ->
  (forall id, id ∈ ids -> exists p m file, bmap !! id = Some p /\ om_get p (ix_packs ix) = Some m /\ packs !! p = Some file /\
     verify H zdec file m = Ok tt /\ forall e, e ∈ m -> e_type e = Chunk) ->
  Forall (fun r => r <> Err) rs.
Proof.
  induction 1 as [s|s id ids s' Hr|s id ids r rs s' s'' Hr Hp Hrs IH]; intros Hall; [constructor|by constructor|].
  constructor; [eapply read_blob_verified; [exact Hr|apply Hall; left]|]. apply IH. intros i Hi. apply Hall. by right.
Qed.

Lemma om_append_sorted {A} (m m' : list (bytes * A)) : om_sorted m -> om_sorted (om_append m m').
Proof.
  unfold om_append. revert m. induction m' as [|[k v] m' IH]; intros m Hm; cbn [foldl]; [done|].
  apply IH. by apply om_insert_sorted.
Qed.

Lemma disk_index_sorted H zdec d ix : disk_index H zdec d = Ok ix -> om_sorted (ix_packs ix).
Proof.
  unfold disk_index, build_master_index. intros E. apply rbind_ok in E as (l & _ & E).
  apply rbind_ok in E as (rs & _ & E). injection E as <-. unfold master_of. cbn [ix_packs].
  generalize (foldl (fun (l : list (oid * list (oid * manifest))) s => om_remove s l) (rs_loaded rs) (rs_superseded rs)). intros kept.
  assert (om_sorted (@nil (oid * manifest))) as Hn by done. revert Hn. generalize (@nil (oid * manifest)).
  induction kept as [|kv kept IH]; intros acc Ha; cbn [foldl]; [done|]. apply IH. by apply om_append_sorted.
Qed.
