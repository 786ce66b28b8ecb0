(** How much a repository holds: C58. *)

From Verif Require Import PropsForest.
From Verif Require Import Base OMap Formats FormatsFacts Hashing Pack Index IndexFacts PropsIndex Meta Forest ForestFacts FsTree FsSpec FsFacts BackupFacts
  Pipeline PipelineFacts PropsPipeline Repo RepoSpec RepoFacts RewriteFacts PublishFacts PlanFacts CommandFacts
  History PruneFacts ReadFacts HistoryFacts Exec Toy Witness PropsRepo
  Browse BrowseSpec BrowseFacts DiffFacts BrowseRepo ReadBack Select PropsSelect PropsBrowse Snapshots SnapshotsSpec SnapshotsFacts PropsSnapshots Usage.

(** * C58: the figures are right *)

(** The listing is that of repository [k]. *)
Definition lists (k : backend) (l : listing) : Prop :=
  map fst (li_packs l) ≡ₚ map fst (map_to_list (k_packs k)) /\
  map fst (li_indexes l) ≡ₚ map fst (map_to_list (k_indexes k)) /\
  map fst (li_snapshots l) ≡ₚ map fst (map_to_list (k_snaps k)).

(** What is stored although no snapshot needs it. *)
Definition unused (H : bytes -> oid) (k : backend) (x : oid) : Prop := is_Some (repo_store k !! x) /\ ~ needed H k x.

Definition total (f : fsizes -> N) (ss : list fsizes) : N := foldr (fun s a => (f s + a)%N) 0%N ss.

(** The sizes of some files together. *)
Definition bytes_of (files : list (oid * N)) : N := foldr N.add 0%N (map snd files).

Record right_usage (H : bytes -> oid) (k : backend) (sm : gmap oid N) (snaps : list (snapshot * oid)) (l : listing) (r : usage_report) : Prop := {
  (* how many snapshots, the oldest and the newest *)
  ru_count : us_snapshots r = size (k_snaps k);
  ru_span : match us_span r with
            | None => k_snaps k = ∅
            | Some (a, b) => (exists i j, k_snaps k !! i = Some a /\ k_snaps k !! j = Some b) /\
                forall i sn, k_snaps k !! i = Some sn -> (sn_time a <= sn_time sn <= sn_time b)%Z
            end;
  (* the bytes of everything some snapshot needs *)
  ru_unique : forall X : gset oid, (forall x, x ∈ X <-> needed H k x) -> us_unique r = set_sizes sm X;
  (* what all snapshots reuse, each as [snapshots --sizes] shows it *)
  ru_reused : exists ss, length ss = length snaps /\
    (forall i sn id, snaps !! i = Some (sn, id) -> exists s, ss !! i = Some s /\
       right_sizes H (repo_store k) sm (seen_before H (repo_store k) snaps i) (sn_tree sn) s) /\
    us_unique r = total fs_introduced ss /\ us_reused r = total fs_reused ss;
  (* the indexes there are, and the packs that the ones in use name *)
  ru_indexes : us_indexes r = size (k_indexes k);
  ru_packs : forall X : gset oid, (forall p, p ∈ X <-> exists m, (p, m) ∈ live_packs k) -> us_packs r = size X;
  (* the bytes nobody needs, if any *)
  ru_unused : match us_unused r with
              | None => forall x, ~ unused H k x
              | Some n => (exists x, unused H k x) /\ forall X : gset oid, (forall x, x ∈ X <-> unused H k x) -> n = set_sizes sm X
              end;
  (* nothing is missing *)
  ru_missing : us_missing r = None;
  ru_unlisted : forall p, p ∈ us_unlisted r <-> is_Some (k_packs k !! p) /\ forall m, (p, m) ∉ live_packs k;
  (* the files' sizes *)
  ru_total : us_total r = (us_snapshot_bytes r + us_index_bytes r + us_pack_bytes r)%N;
  ru_bytes : us_snapshot_bytes r = bytes_of (li_snapshots l) /\ us_index_bytes r = bytes_of (li_indexes l) /\ us_pack_bytes r = bytes_of (li_packs l) }.

Lemma sum_of_bytes l : sum_of l = bytes_of l.
Proof. induction l as [|[i n] l IH]; [done|]. unfold bytes_of in *. cbn. by rewrite <-IH. Qed.

(** ** Proofs *)

Lemma total_app f a b : total f (a ++ b) = (total f a + total f b)%N.
Proof. induction a as [|x a IH]; [done|]. cbn [app total foldr]. unfold total in *. rewrite IH. lia. Qed.

Section loop.
Local Set Default Proof Using "All".
Variables (H : bytes -> oid) (U : blob -> Prop).
Hypothesis HU : universe H U.
Hypothesis Hlen : forall x, length (H x) = 28.
Variables (k : backend) (ix : index) (bmap : gmap oid oid).
Hypothesis Hk : in_order H U k.
Hypothesis Eix : master k = Ok ix.
Hypothesis Ebm : blob_to_pack_map ix = Ok bmap.
Variable fuel : nat.
Variable snaps : list (snapshot * oid).
Hypothesis Hsnaps : forall sn id, (sn, id) ∈ snaps -> exists es, restores H k sn es /\ depth es < fuel.
Variable sm : gmap oid N.
Hypothesis Hsized : forall sn id x, (sn, id) ∈ snaps -> needs H (repo_store k) (sn_tree sn) x -> is_Some (sm !! x).

Lemma usage_loop c : good_cache H k c ->
  exists c' v tot ss, usage_sizes (read_tree k bmap) sm fuel c snaps = Some (Ok (c', v, tot)) /\
    (forall x, x ∈ v <-> seen_before H (repo_store k) snaps (length snaps) x) /\
    fs_introduced tot = set_sizes sm v /\ length ss = length snaps /\
    (forall i sn id, snaps !! i = Some (sn, id) -> exists s, ss !! i = Some s /\
       right_sizes H (repo_store k) sm (seen_before H (repo_store k) snaps i) (sn_tree sn) s) /\
    fs_introduced tot = total fs_introduced ss /\ fs_reused tot = total fs_reused ss.
Proof.
  intros Hc. unfold usage_sizes.
  assert (forall l i c v tot ss, good_cache H k c -> drop i snaps = l -> i <= length snaps ->
    (forall x, x ∈ v <-> seen_before H (repo_store k) snaps i x) ->
    fs_introduced tot = set_sizes sm v -> length ss = i ->
    (forall j sn id, j < i -> snaps !! j = Some (sn, id) -> exists s, ss !! j = Some s /\
       right_sizes H (repo_store k) sm (seen_before H (repo_store k) snaps j) (sn_tree sn) s) ->
    fs_introduced tot = total fs_introduced ss -> fs_reused tot = total fs_reused ss ->
    exists c' v' tot' ss', ofold (fun (x : snapshot * oid) (st : forest * gset oid * fsizes) =>
      let '(cache, visited, totals) := st in
      obind (forest_from_root (read_tree k bmap) fuel cache (sn_tree x.1)) (fun r =>
      obind (forest_sizes_at r.2 sm fuel (sn_tree x.1) visited) (fun y =>
        let '(visited', s, _) := y in
        Some (Ok (r.1, visited', fsizes_add totals s))))) l (c, v, tot) = Some (Ok (c', v', tot')) /\
    (forall x, x ∈ v' <-> seen_before H (repo_store k) snaps (length snaps) x) /\
    fs_introduced tot' = set_sizes sm v' /\ length ss' = length snaps /\
    (forall j sn id, snaps !! j = Some (sn, id) -> exists s, ss' !! j = Some s /\
       right_sizes H (repo_store k) sm (seen_before H (repo_store k) snaps j) (sn_tree sn) s) /\
    fs_introduced tot' = total fs_introduced ss' /\ fs_reused tot' = total fs_reused ss') as Hgen.
  2:{ apply (Hgen snaps 0 c ∅ fsizes_zero []).
      - done.
      - done.
      - lia.
      - intros x. split; [intros Hx; by apply elem_of_empty in Hx|]. intros (j & _ & _ & Hj & _). lia.
      - by rewrite set_sizes_empty.
      - done.
      - intros; lia.
      - done.
      - done. }
  clear c Hc. induction l as [|[sn id] l IH]; intros i c v tot ss Hc Hl Hi Hv Hvs Hss Hj Ht1 Ht2; cbn [ofold].
  { assert (i = length snaps) as ->. { assert (length (drop i snaps) = 0) as E by by rewrite Hl. rewrite drop_length in E. lia. }
    exists c, v, tot, ss. do 5 (split; [first [done|intros j sn id E; apply (Hj j sn id); [by apply lookup_lt_Some in E|done]]|]). done. }
  assert (snaps !! i = Some (sn, id)) as Ei by (rewrite <-(Nat.add_0_r i), <-lookup_drop, Hl; done).
  assert ((sn, id) ∈ snaps) as Hin by by eapply elem_of_list_lookup_2.
  destruct (Hsnaps sn id Hin) as (es & Hes & Hd).
  destruct (good_load H U HU Hlen k ix bmap Hk Eix Ebm (fun _ => 0) fuel c (sn_tree sn) es Hc Hes Hd) as (c1 & fo & E1 & Hc1 & Hg).
  cbn [fst snd]. rewrite E1. cbn [obind fst snd].
  destruct (one_sizes H U HU Hlen k ix bmap Hk Eix Ebm (fun _ => 0) fuel (sn_tree sn) fo es sm (seen_before H (repo_store k) snaps i) v Hg Hes
    (fun x => Hsized sn id x Hin) Hv) as (v1 & s & files & E2 & Rs & Rf & Hv1).
  rewrite E2. cbn [obind].
  assert (v ⊆ v1) as Hsub by (intros x Hx; apply Hv1; left; by apply Hv).
  assert (fs_introduced s = set_sizes sm (v1 ∖ v)) as Ens.
  { apply Rs. intros b. rewrite elem_of_difference, Hv1, Hv. tauto. }
  apply (IH (S i) c1 v1 (fsizes_add tot s) (ss ++ [s])).
  - done.
  - rewrite <-Nat.add_1_r, <-drop_drop, Hl. done.
  - apply lookup_lt_Some in Ei. lia.
  - intros x. rewrite Hv1. symmetry.
    apply (seen_next H U HU Hlen k ix bmap Hk Eix Ebm (fun _ => 0) fuel snaps Hsnaps ltac:(lia) sm (mkFlags false false false false false) Hsized i sn id x Ei).
  - cbn [fsizes_add fs_introduced]. rewrite Hvs, Ens, <-set_sizes_union by set_solver. f_equal. apply set_eq. intros x.
    destruct (decide (x ∈ v)); set_solver.
  - rewrite app_length, Hss. cbn. lia.
  - intros j sn' id' Hlt Ej. destruct (decide (j = i)) as [->|Hne].
    + rewrite Ei in Ej. injection Ej as <- <-. exists s. split; [|exact Rs]. rewrite lookup_app_r by lia. by rewrite Hss, Nat.sub_diag.
    + destruct (Hj j sn' id') as (s' & Es' & R'); [lia|done|]. exists s'. split; [|done]. rewrite lookup_app_l; [done|]. lia.
  - cbn [fsizes_add fs_introduced]. rewrite total_app, Ht1. cbn. lia.
  - cbn [fsizes_add fs_reused]. rewrite total_app, Ht2. cbn. lia.
Qed.
End loop.

Lemma sum_sizes_zero sm l x : sum_sizes sm l = 0%N -> x ∈ l -> default 0%N (sm !! x) = 0%N.
Proof.
  induction l as [|y l IH]; intros E Hx; [by apply elem_of_nil in Hx|]. unfold sum_sizes in *. cbn [map foldr] in E.
  apply elem_of_cons in Hx as [->|Hx]; [lia|]. apply IH; [lia|done].
Qed.

(** Everything in the packs, in bytes. *)
Lemma packed_size_all ix sm : NoDup (blob_ids ix) -> blob_to_size_map ix = Ok sm -> packed_size ix = set_sizes sm (dom sm).
Proof.
  intros Hnd Esm. destruct (proj1 (C11_lookup_maps ix) Hnd) as (mp & st & sz & _ & _ & E3 & _ & _ & Hsz). rewrite Esm in E3. injection E3 as <-.
  assert (forall l, (forall p e, (p, e) ∈ l -> (p, e) ∈ index_entries ix) ->
    foldr (fun pe a => (e_len pe.2 + a)%N) 0%N l = sum_sizes sm (map (fun pe : oid * entry => e_id pe.2) l)) as Hl.
  { induction l as [|[p e] l IH]; intros Hin; [done|]. cbn [foldr map snd]. rewrite IH by (intros p' e' Hx; apply Hin; by right).
    unfold sum_sizes. cbn [map foldr]. f_equal. assert (sm !! e_id e = Some (e_len e)) as ->; [|done].
    apply Hsz. exists p. assert ((p, e) ∈ index_entries ix) as Hx by (apply Hin; by left). apply elem_of_index_entries in Hx as (m & Hm & He).
    by exists m, e. }
  unfold packed_size. rewrite Hl by done. unfold set_sizes. apply sum_sizes_perm. apply NoDup_Permutation.
  - by rewrite <-blob_ids_entries.
  - apply NoDup_elements.
  - intros x. rewrite elem_of_elements, elem_of_dom. split.
    + intros Hx. change (map ?f ?l) with (f <$> l) in Hx. apply elem_of_list_fmap in Hx as ([p e] & -> & Hx). cbn [snd]. apply elem_of_index_entries in Hx as (m & Hm & He).
      exists (e_len e). apply Hsz. exists p. by exists m, e.
    + intros [n Hn]. apply Hsz in Hn as (p & m & e & Hm & He & <- & _). change (map ?f ?l) with (f <$> l). apply elem_of_list_fmap. exists (p, e). split; [done|].
      apply elem_of_index_entries. by exists m.
Qed.

(** [usage] shows the right figures and never fails.

    Partial: as in C56, an empty directory must not be in any snapshot unless the
    empty tree happens to be stored; see the refutation. *)
Theorem C58_usage_is_exact_partial H U k ix bmap sm snaps l word filter :
  universe H U -> (forall x, length (H x) = 28) -> in_order H U k ->
  master k = Ok ix -> blob_to_pack_map ix = Ok bmap -> blob_to_size_map ix = Ok sm ->
  chronological k snaps -> lists k l ->
  (forall f, filter = Some f -> is_Some (word f)) ->
  (needed H k (empty_id H) -> is_Some (repo_store k !! empty_id H)) ->
  exists fuel0, forall fuel, fuel0 <= fuel ->
  exists r, usage (read_tree k bmap) sm fuel word filter ix l (cache_new H) snaps = Some (Ok r) /\
    right_usage H k sm snaps l r /\ us_filter r = (f ← filter; word f).
Proof.
  intros HU Hlen Hk Eix Ebm Esm Hch (Hl1 & Hl2 & Hl3) Hw Hnone.
  pose proof (in_order_structured _ _ _ Hk) as Hst.
  destruct (master_ok H U HU k Hst) as (ix' & E & Hs & Hp). rewrite Eix in E. injection E as <-.
  assert (NoDup (blob_ids ix)) as Hnd.
  { rewrite <-flat_blob_ids. apply once_nodup; [apply om_sorted_nodup, Hs|]. eapply once_sub; [|apply (io_once _ _ _ Hk)]. intros p m. by apply Hp. }
  pose proof (size_map_store H U k ix sm HU Hk Eix Esm) as Hsm.
  assert (forall x, x ∈ dom sm <-> is_Some (repo_store k !! x)) as Hdom.
  { intros x. rewrite elem_of_dom. split.
    - intros [n Hn]. apply Hsm in Hn as (ty & b & Eb & _). by eexists.
    - intros [[ty b] Eb]. exists (N.of_nat (length b)). apply Hsm. by exists ty, b. }
  pose proof (chronological_in k snaps) as Hcin.
  assert (forall x, seen_before H (repo_store k) snaps (length snaps) x <-> needed H k x) as Hseen.
  { intros x. split.
    - intros (j & sn & id & _ & Ej & Hn). apply elem_of_list_lookup_2, (Hcin sn id Hch) in Ej. by exists id, sn.
    - intros (id & sn & Ej & Hn). apply (Hcin sn id Hch) in Ej. apply elem_of_list_lookup in Ej as [j Ej]. exists j, sn, id.
      split; [by apply lookup_lt_Some in Ej|done]. }
  assert (forall sn id x, (sn, id) ∈ snaps -> needs H (repo_store k) (sn_tree sn) x -> is_Some (sm !! x)) as Hsized.
  { intros sn id x Hin Hx. apply elem_of_dom, Hdom. apply (Hcin sn id Hch) in Hin. destruct (io_snaps _ _ _ Hk _ _ Hin) as (es & Hes).
    destruct (needs_in_store H (repo_store k) _ _ _ Hes Hx) as [->|?]; [|done]. apply Hnone. by exists id, sn. }
  destruct (fuel_for (fun (x : snapshot * oid) es => restores H k x.1 es) snaps) as [f0 Hf0].
  { intros [sn id] Hx. apply (Hcin sn id Hch) in Hx. by apply (io_snaps _ _ _ Hk) in Hx. }
  exists f0. intros fuel Hf.
  destruct (usage_loop H U HU Hlen k ix bmap Hk Eix Ebm fuel snaps (fun sn id Hx => Hf0 fuel Hf (sn, id) Hx) sm Hsized (cache_new H)
    (good_new H U HU Hlen k ix bmap Hk Eix Ebm)) as (c' & v & tot & ss & E & Hv & Hvs & Hss & Hrs & Ht1 & Ht2).
  assert (exists r, usage (read_tree k bmap) sm fuel word filter ix l (cache_new H) snaps = Some (Ok r) /\ us_filter r = (f ← filter; word f) /\
    r = mkUsage (length snaps) (match head snaps, last snaps with Some a, Some b => Some (a.1, b.1) | _, _ => None end)
      (fs_introduced tot) (fs_reused tot) (length (li_indexes l)) (length (ix_packs ix))
      (if (fs_introduced tot <? packed_size ix)%N then Some (packed_size ix - fs_introduced tot)%N else None)
      (if (packed_size ix <? fs_introduced tot)%N then Some (fs_introduced tot - packed_size ix)%N else None)
      (unlisted_packs ix (li_packs l)) (f ← filter; word f)
      (sum_of (li_snapshots l)) (sum_of (li_indexes l)) (sum_of (li_packs l))
      (sum_of (li_packs l) + sum_of (li_indexes l) + sum_of (li_snapshots l))%N) as (r & Er & Hfil & Hr).
  { unfold usage.
    assert (match snaps with [] => Some (Ok fsizes_zero) | _ => obind (usage_sizes (read_tree k bmap) sm fuel (cache_new H) snaps) (fun x => Some (Ok x.2)) end
      = Some (Ok tot)) as ->.
    { destruct snaps as [|x snaps']; [|by rewrite E]. cbn in E. by injection E as _ _ <-. }
    cbn [obind]. destruct filter as [f|].
    - destruct (Hw f eq_refl) as [w Ew]. cbn [mbind option_bind]. rewrite Ew. cbn [obind]. eexists. split; [done|]. split; done.
    - cbn [obind mbind option_bind]. eexists. split; [done|]. split; done. }
  exists r. split; [exact Er|]. split; [|exact Hfil]. clear Er Hfil. subst r.
  assert (v ⊆ dom sm) as Hsub.
  { intros x Hx. apply Hv in Hx as (j & sn & id & _ & Ej & Hn). apply elem_of_dom. eapply Hsized; [by eapply elem_of_list_lookup_2|done]. }
  assert (packed_size ix = (set_sizes sm (dom sm ∖ v) + set_sizes sm v)%N) as Hpk.
  { rewrite (packed_size_all ix sm Hnd Esm), <-set_sizes_union by set_solver. f_equal. apply set_eq. intros x. destruct (decide (x ∈ v)); set_solver. }
  assert (forall x, x ∈ dom sm ∖ v <-> unused H k x) as Hun.
  { intros x. rewrite elem_of_difference, Hdom, Hv, Hseen. done. }
  split; cbn [us_snapshots us_span us_unique us_reused us_indexes us_packs us_unused us_missing us_unlisted us_snapshot_bytes us_index_bytes us_pack_bytes us_total].
  - destruct Hch as [Hperm _]. apply Permutation_length in Hperm. rewrite map_length in Hperm. by rewrite <-Hperm.
  - destruct snaps as [|x snaps'] eqn:Es.
    { cbn. apply map_eq. intros i. rewrite lookup_empty. destruct (k_snaps k !! i) as [sn|] eqn:Ei; [|done]. apply (Hcin sn i Hch), elem_of_nil in Ei. done. }
    cbn [head]. destruct (last (x :: snaps')) as [y|] eqn:El; [|by apply last_None in El].
    assert (y ∈ x :: snaps') as Hy by (apply last_Some in El as [l' ->]; set_solver).
    destruct x as [a i], y as [b j]. cbn [fst]. split.
    { exists i, j. split; [apply (Hcin a i Hch); by left|by apply (Hcin b j Hch)]. }
    intros i' sn Hi'. apply (Hcin sn i' Hch) in Hi'. destruct Hch as [_ Hso]. apply Sorted_StronglySorted in Hso; [|intros ? ? ? ? ?; lia].
    split.
    + apply StronglySorted_inv in Hso as [_ Hfa]. apply elem_of_cons in Hi' as [E1|Hi']; [injection E1 as -> _; lia|].
      rewrite Forall_forall in Hfa. exact (Hfa _ Hi').
    + apply last_Some in El as [l' El]. rewrite El in Hi', Hso. apply elem_of_app in Hi' as [Hi'|Hi'].
      * clear -Hso Hi'. induction l' as [|z l' IH]; [by apply elem_of_nil in Hi'|]. cbn [app] in Hso. apply StronglySorted_inv in Hso as [Hso Hfa].
        apply elem_of_cons in Hi' as [<-|Hi']; [|by apply IH]. rewrite Forall_forall in Hfa. apply (Hfa (b, j)). set_solver.
      * apply elem_of_list_singleton in Hi'. injection Hi' as -> _. lia.
  - intros X HX. rewrite Hvs. f_equal. apply set_eq. intros x. by rewrite HX, Hv, Hseen.
  - exists ss. auto.
  - apply Permutation_length in Hl2. rewrite !map_length in Hl2. by rewrite Hl2.
  - intros X HX. assert (X = list_to_set (map fst (ix_packs ix))) as ->.
    { apply set_eq. intros p. rewrite HX, elem_of_list_to_set. change (map fst ?l) with (fst <$> l). rewrite elem_of_list_fmap. split.
      - intros [m Hm]. apply Hp in Hm. by exists (p, m).
      - intros ([p' m] & -> & Hm). exists m. by apply Hp. }
    assert (NoDup (map fst (ix_packs ix))) as Hn by apply om_sorted_nodup, Hs. rewrite (size_list_to_set (C := gset oid) _ Hn). by rewrite map_length.
  - rewrite Hvs. destruct (N.ltb_spec (set_sizes sm v) (packed_size ix)) as [Hlt|Hge].
    + split.
      * destruct (set_choose_or_empty (dom sm ∖ v)) as [[x Hx]|Hempty]; [exists x; by apply Hun|].
        exfalso. assert (dom sm ∖ v = ∅) as E0 by by apply leibniz_equiv. rewrite E0, set_sizes_empty in Hpk. lia.
      * intros X HX. assert (X = dom sm ∖ v) as -> by (apply set_eq; intros x; by rewrite HX, Hun). lia.
    + intros x Hx. apply Hun in Hx. assert (set_sizes sm (dom sm ∖ v) = 0%N) as E0 by lia. unfold set_sizes in E0.
      apply (sum_sizes_zero sm _ x) in E0; [|by apply elem_of_elements]. apply elem_of_difference in Hx as [Hx _]. apply elem_of_dom in Hx as [n En].
      rewrite En in E0. cbn in E0. subst n. apply Hsm in En as (ty & b & Eb & En). apply (repo_store_lookup H U HU) in Eb; [|apply Hst].
      destruct b as [|? b]; [|cbn in En; lia]. apply elem_of_live_blobs in Eb as (p & m & bs & Hm & Ebs & Hb).
      destruct (io_packs _ _ _ Hk _ _ Ebs) as [_ HUb]. rewrite Forall_forall in HUb. specialize (HUb _ Hb). by apply (un_bytes H U HU) in HUb.
  - rewrite Hvs. destruct (N.ltb_spec (packed_size ix) (set_sizes sm v)) as [Hlt|Hge]; [lia|done].
  - intros p. unfold unlisted_packs. rewrite elem_of_list_In, filter_In, <-elem_of_list_In, Hl1.
    assert (p ∈ map fst (map_to_list (k_packs k)) <-> is_Some (k_packs k !! p)) as ->.
    { change (map fst ?l) with (fst <$> l). rewrite elem_of_list_fmap. split.
      - intros ([p' bs] & -> & Hin). apply elem_of_map_to_list in Hin. by eexists.
      - intros [bs Eb]. exists (p, bs). split; [done|]. by apply elem_of_map_to_list. }
    apply and_iff_compat_l. split.
    + intros Hg m Hm. apply Hp in Hm. apply om_get_elem in Hm; [|apply Hs]. by rewrite Hm in Hg.
    + intros Hno. destruct (om_get p (ix_packs ix)) as [m|] eqn:Eg; [|done]. apply om_get_elem in Eg; [|apply Hs]. apply Hp in Eg. by apply Hno in Eg.
  - lia.
  - by rewrite !sum_of_bytes.
Qed.

Lemma unused_garbage H U k : universe H U -> in_order H U k ->
  (exists x, unused H k x) <-> exists p m e, (p, m) ∈ live_packs k /\ e ∈ m /\ ~ needed H k (e_id e).
Proof.
  intros HU Hk. pose proof (in_order_structured _ _ _ Hk) as Hst. split.
  - intros (x & [[ty b] Eb] & Hn). apply (repo_store_lookup H U HU) in Eb; [|apply Hst]. apply elem_of_live_blobs in Eb as (p & m & bs & Hm & Ebs & Hb).
    pose proof Hm as Hm'. apply elem_of_live_packs in Hm' as (i & ix & Hi & _ & Hm'). destruct (io_backed _ _ _ Hk _ _ _ _ Hi Hm') as (bs' & Ebs' & <-).
    rewrite Ebs in Ebs'. injection Ebs' as <-. exists p, (manifest_of bs), (entry_of (mkBlob ty x b)). split; [done|]. split; [|exact Hn].
    unfold manifest_of. change (map entry_of bs) with (entry_of <$> bs). apply elem_of_list_fmap. by exists (mkBlob ty x b).
  - intros (p & m & e & Hm & He & Hn). exists (e_id e). split; [|done].
    pose proof Hm as Hm'. apply elem_of_live_packs in Hm' as (i & ix & Hi & _ & Hm'). destruct (io_backed _ _ _ Hk _ _ _ _ Hi Hm') as (bs & Ebs & <-).
    unfold manifest_of in He. change (map entry_of bs) with (entry_of <$> bs) in He. apply elem_of_list_fmap in He as (b & -> & Hb).
    exists (b_type b, b_bytes b). apply (repo_store_lookup H U HU); [apply Hst|]. apply elem_of_live_blobs. exists p, (manifest_of bs), bs.
    split; [done|]. split; [done|]. by destruct b.
Qed.

(** It is suggested to run [prune] exactly if that has something to do; and when
    that is done, nothing unused is shown. *)
Theorem C58_prune_is_suggested_when_useful H U k w oc sm snaps l r :
  universe H U -> (forall x, length (H x) = 28) ->
  in_order H U k -> own_leftovers H U k w -> prune_command H false k w oc ->
  right_usage H k sm snaps l r ->
  (us_unused r <> None <-> oc <> None) /\
  forall c target cpus k' w' sm' snaps' l' r', oc = Some c -> no_clash H k w c -> command_done H target true cpus k w c k' w' ->
    right_usage H k' sm' snaps' l' r' -> us_unused r' = None.
Proof.
  intros HU Hlen Hk Hw Hc Hr.
  pose proof (prune_all H U HU Hlen k w _ Hk (own_prune_leftovers H U HU Hlen k w Hw) Hc) as Hall. split.
  - rewrite (C20_prune_acts_on_garbage_only H U k w oc HU Hlen Hk Hw Hc), <-(unused_garbage H U k HU Hk).
    pose proof (ru_unused _ _ _ _ _ _ Hr) as Hun. destruct (us_unused r) as [n|].
    + split; [intros _; apply Hun|done].
    + split; [done|]. intros [x Hx]. by destruct (Hun x).
  - intros c target cpus k' w' sm' snaps' l' r' -> Hcl Hd Hr'. destruct Hall as [_ Hall]. destruct (Hall target cpus k' w' Hcl) as [Hreach Hdone].
    destruct (Hdone Hd) as (_ & Hno & _). pose proof (ru_unused _ _ _ _ _ _ Hr') as Hun.
    destruct (us_unused r') as [n|] eqn:En; [|done]. exfalso. destruct Hun as [Hex _].
    destruct (Hreach (done_reaches _ _ _ _ _ _ _ _ _ Hd)) as (Hk' & _).
    apply (unused_garbage H U k' HU Hk') in Hex as (p & m & e & Hm & He & Hn). by eapply Hn, Hno.
Qed.

(** ** The example: the second snapshot of [bx_k] alone *)

Definition us_k : backend := single quick_hash bx_blobs [bx_snap bx_after 2].
Definition us_files : listing := mkListing [(hd [] (map fst (map_to_list (k_packs us_k))), 700%N)]
  [(hd [] (map fst (map_to_list (k_indexes us_k))), 90%N)] [(hd [] (map fst (map_to_list (k_snaps us_k))), 5%N)].
Lemma us_in_order : in_order quick_hash (in_list bx_blobs) us_k.
Proof.
  unfold us_k. apply single_in_order.
  - apply Forall_forall. intros b Hb. exact Hb.
  - assert (bool_decide (NoDup (map b_id bx_blobs)) = true) as Hx by (vm_compute; reflexivity). by apply bool_decide_eq_true in Hx.
  - destruct bx_restores as [_ H2]. unfold restores, bx_k in H2. rewrite single_store in H2. cbn [bx_snap sn_tree] in H2.
    intros sn [->|Hin%elem_of_nil]%elem_of_cons; [by eexists|done].
Qed.
(** The words of a text, as far as spaces go. *)
Fixpoint first_word (b : bytes) : option bytes :=
  match b with
  | [] => None
  | x :: b' => if bool_decide (x = x20) then first_word b'
      else Some (x :: (fix go l := match l with [] => [] | y :: l' => if bool_decide (y = x20) then [] else y :: go l' end) b')
  end.
Definition us_report : option (result usage_report) :=
  usage (read_tree us_k bx_map) bx_sizes 9 first_word (Some (ascii_bytes "gpg --encrypt")) bx_ix us_files (cache_new quick_hash) (chrono us_k).

Example C58_witness :
  universe quick_hash (in_list bx_blobs) /\ in_order quick_hash (in_list bx_blobs) us_k /\
  master us_k = Ok bx_ix /\ blob_to_pack_map bx_ix = Ok bx_map /\ blob_to_size_map bx_ix = Ok bx_sizes /\
  chronological us_k (chrono us_k) /\ lists us_k us_files /\ is_Some (first_word (ascii_bytes "gpg --encrypt")) /\
  is_Some (repo_store us_k !! empty_id quick_hash) /\
  match us_report with
  | Some (Ok r) => (us_snapshots r, us_unique r, us_reused r, us_indexes r, us_packs r) = (1, 589%N, 0%N, 1, 1) /\
      us_unused r = Some 674%N /\ us_missing r = None /\ us_unlisted r = [] /\ us_filter r = Some (ascii_bytes "gpg") /\ us_total r = 795%N
  | _ => False
  end.
Proof.
  split; [apply bx_universe|]. split; [apply us_in_order|]. split; [apply single_master|]. split; [apply bx_maps|]. split; [apply bx_sizes_ok|].
  split; [apply chrono_ok|]. split; [|split; [by eexists|split]].
  - split; [|split]; vm_compute; reflexivity.
  - assert (bool_decide (is_Some (repo_store us_k !! empty_id quick_hash)) = true) as Hx by (vm_compute; reflexivity). by apply bool_decide_eq_true in Hx.
  - vm_compute. auto 10.
Qed.

(** ** What goes wrong *)

(** Any empty directory in any snapshot: nothing is shown at all. *)
Theorem C58_refuted : exists H U k ix bmap sm snaps l word fuel,
  universe H U /\ (forall x, length (H x) = 28) /\ in_order H U k /\
  master k = Ok ix /\ blob_to_pack_map ix = Ok bmap /\ blob_to_size_map ix = Ok sm /\
  chronological k snaps /\ lists k l /\
  usage (read_tree k bmap) sm fuel word None ix l (cache_new H) snaps = Some Err.
Proof.
  exists quick_hash, (in_list (tree_blob quick_hash [] :: ey_blobs)), ey_k, ey_ix, ey_map, ey_sizes, (chrono ey_k),
    (mkListing (map (fun x => (x.1, 1%N)) (map_to_list (k_packs ey_k))) (map (fun x => (x.1, 1%N)) (map_to_list (k_indexes ey_k)))
       (map (fun x => (x.1, 1%N)) (map_to_list (k_snaps ey_k)))), first_word, 9.
  split; [apply ey_universe|]. split; [apply quick_hash_length|]. split; [apply ey_in_order|]. split; [apply single_master|].
  split; [|split; [|split; [apply chrono_ok|split]]].
  - assert (match blob_to_pack_map ey_ix with Ok _ => true | _ => false end = true) as Hx by (vm_compute; reflexivity).
    unfold ey_map. by destruct (blob_to_pack_map ey_ix).
  - assert (match blob_to_size_map ey_ix with Ok _ => true | _ => false end = true) as Hx by (vm_compute; reflexivity).
    unfold ey_sizes. by destruct (blob_to_size_map ey_ix).
  - unfold lists. cbn [li_packs li_indexes li_snapshots]. by rewrite !map_map.
  - vm_compute. reflexivity.
Qed.

(** A filter without a word in the configuration, and it crashes (after most of it
    is printed). *)
Theorem C58_refuted_blank_filter H U k ix bmap sm snaps l word f :
  universe H U -> (forall x, length (H x) = 28) -> in_order H U k ->
  master k = Ok ix -> blob_to_pack_map ix = Ok bmap -> blob_to_size_map ix = Ok sm ->
  chronological k snaps -> lists k l ->
  (needed H k (empty_id H) -> is_Some (repo_store k !! empty_id H)) -> word f = None ->
  exists fuel, usage (read_tree k bmap) sm fuel word (Some f) ix l (cache_new H) snaps = Some Panic.
Proof.
  intros HU Hlen Hk Eix Ebm Esm Hch Hl Hnone Hw.
  destruct (C58_usage_is_exact_partial H U k ix bmap sm snaps l word None HU Hlen Hk Eix Ebm Esm Hch Hl ltac:(done) Hnone) as [fuel Hf].
  exists fuel. destruct (Hf fuel ltac:(lia)) as (r & E & _). unfold usage in *.
  match type of E with obind ?x _ = _ => destruct x as [[t| |]|] end; [|done|done|done]. cbn [obind]. by rewrite Hw.
Qed.

Print Assumptions C58_usage_is_exact_partial.
Print Assumptions C58_prune_is_suggested_when_useful.
Print Assumptions C58_refuted.
Print Assumptions C58_refuted_blank_filter.
