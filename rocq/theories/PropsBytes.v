(** C64: the files' bytes carry the repository. *)

From Verif Require Import Base OMap Cbor CborFacts Formats FormatsFacts Hashing Pack PackFacts Index IndexFacts Meta Forest ForestFacts
  PropsPack PropsIndex PropsForest Reader ReaderFacts PropsRead Check CheckFacts PropsCheck FsTree FsSpec FsFacts BackupFacts PropsBackup
  Pipeline PipelineFacts PropsPipeline Repo RepoSpec RepoFacts RewriteFacts PublishFacts PlanFacts CommandFacts PruneFacts ReadFacts
  Locations PropsLocations History HistoryFacts PathFacts Exec RepeatFacts Toy Witness PropsRepo PropsWhole Bytes BytesFacts BytesRead.

(** ** What is listed *)

Lemma get_location st kd i : oid_wf i -> get_object st kd i = of_option (st !! location kd i).
Proof. intros Hi. unfold get_object, be_read. destruct C50_locations_one_to_one as (Hd & _). by rewrite Hd. Qed.

Lemma list_locations zdec st k kd p : stored_in zdec st k ->
  p ∈ list_objects st kd <-> exists i x, oid_wf i /\ st !! location kd i = Some x /\ p = location kd i.
Proof.
  intros [_ _ _ So]. unfold list_objects, be_list. rewrite elem_of_list_filter. split.
  - intros [[Hs He] Hin]. change (map fst (map_to_list st)) with ((map_to_list st).*1) in Hin.
    apply elem_of_list_fmap in Hin as ([p' x] & -> & Hin). cbn [fst] in *. apply elem_of_map_to_list in Hin.
    destruct (So p' x Hin) as [(k' & i & Hi & ->)|Hpart]; [|done]. apply starts_with_location in Hs as ->. eauto.
  - intros (i & x & Hi & Hx & ->). split; [split|].
    + rewrite location_eq. apply starts_with_app.
    + rewrite location_extension by done. by destruct kd.
    + change (map fst (map_to_list st)) with ((map_to_list st).*1). apply elem_of_list_fmap. exists (location kd i, x).
      split; [done|]. by apply elem_of_map_to_list.
Qed.

Lemma listed_spec zdec st k kd files : stored_in zdec st k -> listed st kd files ->
  NoDup (map fst files) /\ forall i x, (i, x) ∈ files <-> oid_wf i /\ st !! location kd i = Some x.
Proof.
  intros Hst (names & HP & HF). destruct C50_locations_one_to_one as (_ & Hinj & Hid & _).
  assert (NoDup names) as Hnd.
  { rewrite HP. unfold list_objects, be_list. apply NoDup_filter. apply (NoDup_fst_map_to_list st). }
  assert (forall p, p ∈ names <-> exists i x, oid_wf i /\ st !! location kd i = Some x /\ p = location kd i) as Hn.
  { intros p. rewrite HP. by eapply list_locations. }
  assert (Forall2 (fun p f => oid_wf f.1 /\ p = location kd f.1 /\ st !! location kd f.1 = Some f.2) names files) as HF'.
  { apply Forall2_same_length_lookup in HF as [Hl HF]. apply Forall2_same_length_lookup. split; [done|]. intros n p [i x] Ep Ef.
    destruct (HF n p (i, x) Ep Ef) as [E1 E2]. cbn [fst snd] in *.
    assert (p ∈ names) as (j & y & Hj & Hy & ->)%Hn by (apply elem_of_list_lookup; eauto). rewrite Hid in E1 by done. injection E1 as <-.
    split; [done|]. split; [done|]. rewrite get_location in E2 by done. rewrite Hy in E2. simpl in E2. by injection E2 as <-. }
  clear HF. split.
  - clear Hn HP. induction HF' as [|p [i x] names files (Hi & -> & Hx) HF' IH]; [constructor|].
    apply NoDup_cons in Hnd as [Hnot Hnd]. constructor; [|by apply IH]. cbn [fst] in *. intros Hin. apply Hnot.
    apply elem_of_list_fmap in Hin as ([j y] & -> & Hin). apply elem_of_list_lookup in Hin as [n Hn].
    destruct (Forall2_lookup_r _ _ _ _ _ HF' Hn) as (q & Hq & _ & -> & _). apply elem_of_list_lookup. eauto.
  - intros i x. split.
    + intros Hin. apply elem_of_list_lookup in Hin as [n Hn']. destruct (Forall2_lookup_r _ _ _ _ _ HF' Hn') as (q & Hq & Hi & -> & Hx). done.
    + intros [Hi Hx]. assert (location kd i ∈ names) as Hin by (apply Hn; eauto). apply elem_of_list_lookup in Hin as [n Hin].
      destruct (Forall2_lookup_l _ _ _ _ _ HF' Hin) as ([j y] & Hf & Hj & E & Hy). cbn [fst snd] in *.
      destruct (Hinj kd i kd j Hi Hj E) as [_ <-]. rewrite Hx in Hy. injection Hy as <-. apply elem_of_list_lookup. eauto.
Qed.

(** Names are ids, so there is something to find. *)
Lemma found_exists zdec st k : stored_in zdec st k -> exists d, found st d.
Proof.
  intros Hst.
  assert (forall kd, exists files, listed st kd files) as Hl.
  { intros kd. destruct C50_locations_one_to_one as (_ & _ & Hid & _).
    assert (forall names, (forall p, p ∈ names -> p ∈ list_objects st kd) ->
      exists files, Forall2 (fun p f => id_from_path p = Ok f.1 /\ get_object st kd f.1 = Ok f.2) names files) as Hn.
    { induction names as [|p names IH]; intros Hin; [by exists []|]. destruct IH as [files HF]; [intros; apply Hin; by right|].
      destruct (proj1 (list_locations zdec st k kd p Hst) (Hin p ltac:(left))) as (i & x & Hi & Hx & ->).
      exists ((i, x) :: files). constructor; [|done]. cbn [fst snd]. rewrite Hid, get_location by done. by rewrite Hx. }
    destruct (Hn (list_objects st kd)) as [files HF]; [done|]. exists files, (list_objects st kd). done. }
  destruct (Hl APack) as [ps Hps], (Hl AnIndex) as [is His], (Hl ASnapshot) as [ss Hss].
  exists (mkDisk (list_to_map ps) is ss). split; [|done]. intros i Hi. cbn [d_packs]. rewrite get_location by done. f_equal.
  destruct (listed_spec zdec st k APack ps Hst Hps) as [Hnd Hin]. destruct (st !! location APack i) as [x|] eqn:E.
  - symmetry. apply elem_of_list_to_map_1; [done|]. by apply Hin.
  - symmetry. apply not_elem_of_list_to_map_1. intros Hx. apply elem_of_list_fmap in Hx as ([j x] & -> & Hx). cbn [fst] in *.
    apply Hin in Hx as [_ Hx]. congruence.
Qed.

Section disk.
Variable H : bytes -> oid.
Variable zdec : bytes -> bytes * bool.
Hypothesis Hlen : forall x, length (H x) = 28.
Variables (k : backend) (st : fstore) (d : disk).
Hypothesis Hix : forall i ix, k_indexes k !! i = Some ix -> i = index_id H ix.
Hypothesis Hsn : forall i sn, k_snaps k !! i = Some sn -> i = snapshot_id H sn.
Hypothesis Hpk : tidy_packs (k_packs k).
Hypothesis Hfit : fits k.
Hypothesis Hst : stored_in zdec st k.
Hypothesis Hd : found st d.
Local Set Default Proof Using "All".

(** The indexes. *)
Lemma found_indexes : disk_index H zdec d = master k.
Proof.
  destruct Hd as (_ & Hl & _). destruct (listed_spec zdec st k AnIndex _ Hst Hl) as [Hnd Hin].
  assert (exists l, load_all (fun id f => index_load H zdec id (Some f)) (d_indexes d) = Ok l /\
    map fst l = map fst (d_indexes d) /\ (forall i ix, (i, ix) ∈ l -> k_indexes k !! i = Some ix)) as (l & El & Efst & Hl2).
  { assert (forall f, f ∈ d_indexes d -> exists ix, k_indexes k !! f.1 = Some ix /\ index_load H zdec f.1 (Some f.2) = Ok ix) as Hone.
    { intros [i f] Hf. apply Hin in Hf as [Hi Hf]. cbn [fst snd]. pose proof (si_indexes _ _ _ Hst i Hi) as Ho. rewrite Hf in Ho.
      destruct (k_indexes k !! i) as [ix|] eqn:E; inversion Ho as [? ? (z & -> & Hz)|]; subst. exists ix. split; [done|].
      rewrite (Hix i ix E). apply (C09_index_stores_and_loads H zdec ix z); [by eapply fit_indexes|done]. }
    clear -Hone. induction (d_indexes d) as [|[i f] fs IH]; [exists []; split_and!; [done|done|]; by intros ? ? ?%elem_of_nil|].
    destruct IH as (l & El & Efst & Hl). { intros g Hg. apply Hone. by right. }
    destruct (Hone (i, f)) as (ix & E1 & E2); [by left|]. cbn [fst snd] in *. exists ((i, ix) :: l). cbn [load_all]. rewrite E2. cbn [rbind]. rewrite El.
    split; [done|]. split; [simpl; by rewrite Efst|]. intros j jx [[= -> ->]|Hj]%elem_of_cons; eauto. }
  unfold disk_index. rewrite El. cbn [rbind]. unfold master. apply C10_order_irrelevant.
  apply NoDup_Permutation; [|apply NoDup_map_to_list|].
  - apply (NoDup_fmap_1 fst). change (NoDup (map fst l)). by rewrite Efst.
  - intros [i ix]. rewrite elem_of_map_to_list. split; [apply Hl2|]. intros E.
    assert (oid_wf i) as Hi by (rewrite (Hix i ix E); apply Hlen).
    pose proof (si_indexes _ _ _ Hst i Hi) as Ho. rewrite E in Ho. inversion Ho as [? f _ E1 E2|]; subst. symmetry in E2.
    assert (i ∈ map fst l) as Hil. { rewrite Efst. apply elem_of_list_fmap. exists (i, f). split; [done|]. by apply Hin. }
    apply elem_of_list_fmap in Hil as ([j jx] & -> & Hj). cbn [fst] in *. pose proof (Hl2 _ _ Hj) as E'. rewrite E in E'. by injection E' as <-.
Qed.

(** The snapshots. *)
Lemma found_snapshots id file : (id, file) ∈ d_snapshots d <-> exists sn, k_snaps k !! id = Some sn /\ file = snapshot_bytes sn.
Proof.
  destruct Hd as (_ & _ & Hl). destruct (listed_spec zdec st k ASnapshot _ Hst Hl) as [_ Hin]. rewrite Hin. split.
  - intros [Hi E]. rewrite (si_snaps _ _ _ Hst id Hi) in E. destruct (k_snaps k !! id) as [sn|]; [|done]. injection E as <-. eauto.
  - intros (sn & E & ->). assert (oid_wf id) as Hi by (rewrite (Hsn id sn E); apply Hlen). split; [done|].
    rewrite (si_snaps _ _ _ Hst id Hi). by rewrite E.
Qed.

Lemma snapshot_loads id sn : k_snaps k !! id = Some sn -> snapshot_load H id (snapshot_bytes sn) = Ok (Version2 sn).
Proof.
  intros E. unfold snapshot_load, snapshot_from_reader, snapshot_bytes. rewrite check_magic_ok. cbn [rbind].
  rewrite bool_decide_eq_false_2 by done. rewrite bool_decide_eq_true_2 by done.
  pose proof (dec_enc_snapshot sn [] (fit_snaps _ Hfit id sn E)) as Ed. rewrite app_nil_r in Ed.
  unfold from_hashing_reader. rewrite Ed. cbn [of_option rbind length]. rewrite Nat.sub_0_r, firstn_all. cbn [rbind].
  rewrite bool_decide_eq_true_2; [done|]. apply (Hsn id sn E).
Qed.

(** The packs. *)
Lemma found_packs p bs : k_packs k !! p = Some bs -> exists x, d_packs d !! p = Some x /\ pack_bytes zdec bs x.
Proof.
  intros E. destruct (Hpk p bs E) as [Hp _]. destruct Hd as (Hg & _). specialize (Hg p Hp). rewrite get_location in Hg by done.
  pose proof (si_packs _ _ _ Hst p Hp) as Ho. rewrite E in Ho. destruct (st !! location APack p) as [x|]; inversion Ho; subst.
  destruct (d_packs d !! p) as [y|]; [|done]. injection Hg as ->. eauto.
Qed.
End disk.

(** ** One answer *)

Lemma assembles_fun rd rd' fo nd n n' :
  (forall x u i, fo !! x = Some u -> i ∈ tree_chunks u -> rd i = rd' i) -> (forall i, i ∈ node_chunks nd -> rd i = rd' i) ->
  assembles rd fo nd n -> assembles rd' fo nd n' -> n = n'.
Proof.
  intros Hfo. revert nd n'. induction n as [m c|m es IH|m t|m] using fsnode_ind'; intros nd n' Hnd Ha Ha'; inversion Ha; subst; inversion Ha'; subst; [|clear Ha Ha'|done].
  - f_equal. f_equal. match goal with H1 : Forall2 (fun c p => rd c = Ok p) _ _, H2 : Forall2 (fun c p => rd' c = Ok p) _ _ |- _ => rename H1 into F1, H2 into F2 end.
    unfold node_chunks in Hnd. cbn [n_contents] in Hnd. clear Ha Ha'.
    revert Hnd ps0 F2. induction F1 as [|c p cs ps E F1 IHF]; intros Hnd ps0 F2; inversion F2 as [|? q ? qs E' F2']; subst; [done|].
    f_equal; [|apply IHF; [intros; apply Hnd; by right|done]]. rewrite (Hnd c) in E by (by left). congruence.
  - f_equal. match goal with E1 : fo !! ?x = Some ?t1, E2 : fo !! ?x = Some ?t2 |- _ => rewrite E1 in E2; injection E2 as <-; rename E1 into Et end.
    match goal with H1 : Forall2 _ ?t es, H2 : Forall2 _ ?t ?es' |- _ => rename H1 into F1, H2 into F2; rename es' into es2 end.
    assert (forall i, i ∈ tree_chunks t -> rd i = rd' i) as Ht by eauto. clear Et Hnd.
    revert es2 F2. induction F1 as [|a b t es [E1 A1] F1 IHF]; intros es2 F2; inversion F2 as [|? b2 ? es3 [E2 A2] F3]; subst; [done|].
    apply Forall_cons in IH as [IHb IHes].
    rewrite tree_chunks_cons in Ht. f_equal; [|apply IHF; [done| |done]; intros; apply Ht, elem_of_app; by right].
    destruct b as [nm b], b2 as [nm2 b2]. cbn [fst snd] in *. f_equal; [congruence|]. apply (IHb a.2); [|done..].
    intros; apply Ht, elem_of_app; by left.
Qed.

(** Reading the bytes has one outcome. *)
Lemma bytes_read_fun H zdec clock d id sn es es' : bytes_read H zdec clock d id sn es -> bytes_read H zdec clock d id sn es' -> es = es'.
Proof.
  intros (ix & bmap & file & fo & t & bd & chunk & E1 & E2 & _ & _ & Ef & Et & HF & Hrd)
    (ix' & bmap' & file' & fo' & t' & bd' & chunk' & E1' & E2' & _ & _ & Ef' & Et' & HF' & Hrd').
  rewrite E1 in E1'. injection E1' as <-. rewrite E2 in E2'. injection E2' as <-.
  destruct (Ef (S (bd + bd')) ltac:(lia)) as [c Ec], (Ef' (S (bd + bd')) ltac:(lia)) as [c' Ec']. rewrite Ec in Ec'. injection Ec' as <- <-.
  rewrite Et in Et'. injection Et' as <-.
  assert (forall x u i, fo !! x = Some u -> i ∈ tree_chunks u -> Ok (chunk i) = Ok (chunk' i)) as Hagree.
  { intros x u i Hx Hi. assert (forall j, j ∈ [i] -> exists x u, fo !! x = Some u /\ j ∈ tree_chunks u) as Hin
      by (intros j ->%elem_of_list_singleton; eauto).
    destruct (Hrd [i] Hin) as [(rs & s & Hr) Hall], (Hrd' [i] Hin) as [_ Hall'].
    pose proof (Hall _ _ Hr) as Er. rewrite (Hall' _ _ Hr) in Er. by injection Er as ->. }
  assert (forall i, i ∈ tree_chunks t -> Ok (chunk i) = Ok (chunk' i)) as Ht by eauto. clear -HF HF' Hagree Ht.
  revert es' HF'. induction HF as [|a b t es [N1 A1] F1 IHF]; intros es2 F2; inversion F2 as [|? b2 ? es3 [N2 A2] F3]; subst; [done|].
  rewrite tree_chunks_cons in Ht. f_equal; [|apply IHF; [|done]; intros; apply Ht, elem_of_app; by right].
  destruct b as [nm b], b2 as [nm2 b2]. cbn [fst snd] in *. f_equal; [congruence|].
  eapply assembles_fun; [exact Hagree| |exact A1|exact A2]. intros; apply Ht, elem_of_app; by left.
Qed.

(** * C64: the files' bytes carry the repository *)

(** Whatever the history, the repository changes one object at a time, and each
    change is one change of the files: the new file with the object's bytes at the
    object's place, or its removal.  Done one after the other to files that are the
    repository, at every moment they are the repository.  *)
Theorem C64_histories_change_one_file_at_a_time H U zdec k w k' w' st :
  (forall x, length (H x) = 28) -> tidy H (k, w) -> stored_in zdec st k -> history H U (k, w) (k', w') ->
  tidy H (k', w') /\ exists cs, Forall change_wf cs /\ foldl (apply_change H) k cs = k' /\
    forall xs n, Forall2 (change_bytes zdec) cs xs ->
      stored_in zdec (foldl (fun st c => change_files H st c.1 c.2) st (take n (zip cs xs))) (foldl (apply_change H) k (take n cs)).
Proof.
  intros Hlen T Hst Hh. destruct (tidy_history H Hlen U (k, w) (k', w') T Hh) as [T' (cs & Hwf & E)]. split; [done|].
  exists cs. split; [done|]. split; [done|]. intros xs n HF.
  replace (take n (zip cs xs)) with (zip (take n cs) (take n xs)) by (clear; revert n xs; induction cs; intros [|n] [|x xs]; simpl; f_equal; auto).
  apply changes_stored; [done|by apply Forall_take|by apply Forall2_take|done].
Qed.
Print Assumptions C64_histories_change_one_file_at_a_time.

(** Any files that are the repository, listed in any order, however they were
    compressed, say the same as the repository: the same index, the same snapshots,
    and reading a snapshot from the bytes, through both caches, gives just the files
    and directories that it gives. *)
Theorem C64_files_carry_the_repository H U zdec clock k w st d :
  universe H U -> (forall x, length (H x) = 28) -> clock_advances clock ->
  in_order H U k -> tidy H (k, w) -> fits k -> stored_in zdec st k -> found st d ->
  disk_index H zdec d = master k /\
  (forall id sn, k_snaps k !! id = Some sn <-> exists file, (id, file) ∈ d_snapshots d /\ snapshot_load H id file = Ok (Version2 sn)) /\
  (forall id sn es, k_snaps k !! id = Some sn -> bytes_read H zdec clock d id sn es <-> program_reads H k sn es) /\
  (forall id sn, k_snaps k !! id = Some sn -> exists es, bytes_read H zdec clock d id sn es).
Proof.
  intros HU Hlen Hck Hk (Tp & _ & Ti & Ts) Hfit Hst Hd. cbn [fst snd] in *.
  pose proof (found_indexes H zdec Hlen k st d Ti Ts Tp Hfit Hst Hd) as Eix.
  pose proof (found_snapshots H zdec Hlen k st d Ti Ts Tp Hfit Hst Hd) as Hsnaps.
  pose proof (snapshot_loads H zdec Hlen k st d Ti Ts Tp Hfit Hst Hd) as Hload.
  pose proof (found_packs H zdec Hlen k st d Ti Ts Tp Hfit Hst Hd) as Hpacks.
  assert (forall id sn es, k_snaps k !! id = Some sn -> program_reads H k sn es -> bytes_read H zdec clock d id sn es) as Hread.
  { intros id sn es E Hr. rewrite (program_reads_iff H U HU Hlen) in Hr by done.
    destruct (in_order_maps H U HU Hlen k Hk) as (ix & bmap & _ & Em & Eb & _).
    pose proof (in_order_sound _ _ _ Hk) as Hs.
    pose proof (fun fuel => bytes_forest H U zdec HU Hlen k ix bmap (d_packs d) Hs Tp Em Eb Hpacks [] [] (cache_new H) (sn_tree sn) es fuel eq_refl Hr) as Hfo.
    destruct (Hfo (S (size (live_trees H k))) ltac:(lia)) as (c & fo & Ec & Hspec).
    destruct (fo !! sn_tree sn) as [t|] eqn:Et.
    2:{ exfalso. destruct Hr as (t & Ht & _). apply (stored_tree_iff H U zdec HU Hlen k ix bmap (d_packs d) Hs Tp Em Eb Hpacks),
          (live_trees_spec H U zdec HU Hlen k ix bmap (d_packs d) Hs Tp Em Eb Hpacks) in Ht.
        assert (fo !! sn_tree sn = Some t) as E' by (apply Hspec; split; [constructor|done]). congruence. }
    destruct (bytes_assemble H U zdec HU Hlen k ix bmap (d_packs d) Hs Tp Em Eb Hpacks fo (sn_tree sn) t es Hspec Et Hr) as [HF Hch].
    exists ix, bmap, (snapshot_bytes sn), fo, t, (size (live_trees H k)), (live_chunk k bmap).
    split; [by rewrite Eix|]. split; [done|]. split; [apply Hsnaps; eauto|]. split; [by apply Hload|]. split; [|split; [done|split; [done|]]].
    - intros fuel Hf. destruct (Hfo fuel Hf) as (c' & fo' & Ec' & Hspec'). exists c'. rewrite Ec'.
      assert (fo' = fo) as -> by (apply map_eq; intros x; apply option_eq; intros u; by rewrite Hspec, Hspec'). done.
    - intros ids Hids. apply (bytes_chunks H U zdec HU Hlen k ix bmap (d_packs d) Hs Tp Em Eb Hpacks); [done|].
      intros i Hi. destruct (Hids i Hi) as (x & u & Hx & Hu). eauto. }
  assert (forall id sn, k_snaps k !! id = Some sn -> exists es, program_reads H k sn es) as Hex.
  { intros id sn E. destruct (io_snaps _ _ _ Hk id sn E) as [es Hes]. exists es. by rewrite (program_reads_iff H U HU Hlen). }
  split; [done|]. split; [|split].
  - intros id sn. split.
    + intros E. exists (snapshot_bytes sn). split; [apply Hsnaps; eauto|by apply Hload].
    + intros (file & (sn' & E & ->)%Hsnaps & El). rewrite (Hload _ _ E) in El. by injection El as <-.
  - intros id sn es E. split; [|by apply Hread]. intros Hb. destruct (Hex id sn E) as [es' Hr].
    by rewrite (bytes_read_fun _ _ _ _ _ _ _ _ Hb (Hread _ _ _ E Hr)).
  - intros id sn E. destruct (Hex id sn E) as [es Hr]. eauto.
Qed.
Print Assumptions C64_files_carry_the_repository.

(** The check command finds nothing wrong with them, in both modes. *)
Theorem C64_check_finds_nothing_wrong H U zdec k w st d :
  universe H U -> (forall x, length (H x) = 28) ->
  in_order H U k -> tidy H (k, w) -> fits k -> stored_in zdec st k -> found st d ->
  exists bound : nat, forall rp fuel, bound < fuel -> check H zdec rp fuel d = Some (Ok tt).
Proof.
  intros HU Hlen Hk (Tp & _ & Ti & Ts) Hfit Hst Hd. cbn [fst snd] in *.
  pose proof (found_indexes H zdec Hlen k st d Ti Ts Tp Hfit Hst Hd) as Eix.
  pose proof (found_snapshots H zdec Hlen k st d Ti Ts Tp Hfit Hst Hd) as Hsnaps.
  pose proof (snapshot_loads H zdec Hlen k st d Ti Ts Tp Hfit Hst Hd) as Hload.
  pose proof (found_packs H zdec Hlen k st d Ti Ts Tp Hfit Hst Hd) as Hpacks.
  destruct (in_order_maps H U HU Hlen k Hk) as (ix & bmap & _ & Em & Eb & _).
  pose proof (in_order_sound _ _ _ Hk) as Hs. exists (S (size (ix_ids ix))). intros rp fuel Hf.
  apply (C37_intact_repository_passes H zdec rp fuel d ix (live_content k ix) (live_trees H k)); [|done].
  split; [by rewrite Eix|]. split; [exact (bytes_hold H U zdec HU Hlen k ix bmap (d_packs d) Hs Tp Em Eb Hpacks)|]. split; [|split; [|split]].
  - intros p bs [E _]%(content_spec H U zdec HU Hlen k ix bmap (d_packs d) Hs Tp Em Eb Hpacks). split.
    + apply (good_manifest_wf H); [done| |exact (fit_packs _ Hfit p bs E)]. destruct (io_packs _ _ _ Hk p bs E) as [_ HbU].
      destruct (Tp p bs E) as (_ & ty & Hty). apply Forall_forall. intros b Hb. rewrite Forall_forall in HbU, Hty.
      specialize (HbU b Hb). split; [by apply (un_id H U HU)|]. split; [by apply Hty|]. intros Ht.
      destruct (un_tree H U HU b HbU Ht) as (t & [Hw _] & Ebt). eauto.
    + destruct (Hpacks p bs E) as (x & Ex & z & zm & -> & Hz & Hzm & Hn). exists z, zm. done.
  - destruct (decide (NoDup (blob_ids ix))) as [|Hn]; [done|]. destruct (proj2 (C11_lookup_maps ix) Hn) as [E _]. by rewrite Eb in E.
  - intros i t. apply (live_trees_spec H U zdec HU Hlen k ix bmap (d_packs d) Hs Tp Em Eb Hpacks).
  - intros id file (sn & E & ->)%Hsnaps. exists (Version2 sn). split; [by apply Hload|]. intros x Hx. cbn [any_tree] in Hx.
    destruct (io_snaps _ _ _ Hk id sn E) as [es Hes].
    destruct (reach_reads H U zdec HU Hlen k ix bmap (d_packs d) Hs Tp Em Eb Hpacks (sn_tree sn) es x Hes Hx) as (es' & Hr & _).
    pose proof Hr as (t & Ht & HF).
    apply (stored_tree_iff H U zdec HU Hlen k ix bmap (d_packs d) Hs Tp Em Eb Hpacks),
      (live_trees_spec H U zdec HU Hlen k ix bmap (d_packs d) Hs Tp Em Eb Hpacks) in Ht.
    exists t. split; [done|]. split.
    + intros Hcy. destruct (cycle_reads H U zdec HU Hlen k ix bmap (d_packs d) Hs Tp Em Eb Hpacks x es' x Hr Hcy) as (es2 & Hes2 & D).
      rewrite (reads_root_fun _ _ _ _ _ Hr Hes2) in D. lia.
    + intros i Hi. destruct (reads_chunks H (repo_store k) t es' i HF Hi) as [y Ey].
      destruct (live_chunk_spec H U zdec HU Hlen k ix bmap (d_packs d) Hs Tp Em Eb Hpacks i y Ey) as [_ Hin]. unfold in_chunk_pack in Hin.
      destruct Hin as (p & bs & b & Hp & _ & Hb & Hi' & _). eauto 10.
Qed.
Print Assumptions C64_check_finds_nothing_wrong.

(** From the files that were backed up to the bytes on the backend and back: after
    any history, when a backup has come to its end, whatever files now are the
    repository, reading them gives what was backed up. *)
Theorem C64_backed_up_files_come_back_from_the_bytes
    H U zdec clock cuts deref allow_empty filter author tz tags now paths parent pf k w c target cpus k' w' st d :
  universe H U -> (forall x, length (H x) = 28) -> (forall x, concat (cuts x) = x) -> clock_advances clock ->
  history H U (empty_repo, clean) (k, w) ->
  backup_command H cuts false deref allow_empty filter author tz tags now paths parent pf k w c ->
  paths_ok cuts deref paths -> Forall U (plan_blobs H cuts filter pf (sn_tree <$> parent) paths) ->
  (forall p before, parent = Some p -> program_reads H k p before -> stamps_honest before (kept_paths filter paths)) ->
  no_clash H k w c -> command_done H target true cpus k w c k' w' ->
  fits k' -> stored_in zdec st k' -> found st d ->
  (kept_paths filter paths = [] /\ allow_empty = false) \/
  exists id sn, sn_author sn = author /\ sn_tags sn = tags /\ sn_paths sn = map (fun e : fspath => e.1.1) paths /\
    forall es, bytes_read H zdec clock d id sn es <-> es = kept_paths filter paths.
Proof.
  intros HU Hlen Hcuts Hck Hh Hc Hp HpU Hhon Hcl Hdone Hfit Hst Hd.
  destruct (history_fine H U HU Hlen _ _ (start_fine H U HU Hlen) Hh) as [Hk Hw]. cbn [fst snd] in *.
  destruct (tidy_history H Hlen U _ _ (tidy_start H) Hh) as [T _].
  destruct (backup_adding H U HU Hlen _ _ _ _ _ _ _ _ _ _ _ _ _ _ Hk Hw Hc Hp HpU Hcl) as (_ & _ & sns & Ha & _).
  destruct (adds_safe H U HU Hlen k w c _ sns target cpus NoError k' w' ltac:(done) Hk Hw Ha HpU Hcl (done_reaches _ _ _ _ _ _ _ _ _ Hdone)) as (Hk' & _).
  destruct (tidy_command H Hlen target true cpus NoError k w c k' w' T (done_reaches _ _ _ _ _ _ _ _ _ Hdone)) as [T' _].
  destruct (C16_finished_backup_gives_the_files_back _ _ _ _ _ _ _ _ _ _ _ _ _ _ _ _ _ _ _ _ HU Hlen Hcuts Hk Hw Hc Hp HpU Hhon Hcl Hdone)
    as (_ & _ & [(E & Ea & _)|(i & sn & E & _ & Eau & Etg & Epa & Hr)]); [by left|right].
  destruct (C64_files_carry_the_repository H U zdec clock k' w' st d HU Hlen Hck Hk' T' Hfit Hst Hd) as (_ & _ & Hread & _).
  exists i, sn. split_and!; [done..|]. intros es. rewrite (Hread i sn es E). split; [|by intros ->]. intros Hes.
  rewrite (program_reads_iff H U HU Hlen) in Hes, Hr by done. by apply (reads_root_fun _ _ _ _ _ Hes Hr).
Qed.
Print Assumptions C64_backed_up_files_come_back_from_the_bytes.

(** ** There are such files *)

(** With a compressor whose output decompresses, every repository can be stored. *)
Theorem C64_every_repository_can_be_stored H zenc zdec k w :
  (forall x, length (H x) = 28) -> (forall x, zstream_of zdec (zenc x) x) ->
  (forall p bs, k_packs k !! p = Some bs -> (N.of_nat (length (zenc (enc_manifest (manifest_of bs)))) < 2 ^ 32)%N) ->
  tidy H (k, w) -> exists st d, stored_in zdec st k /\ found st d.
Proof.
  intros Hlen Hz Hm (Tp & _ & Ti & Ts). cbn [fst snd] in *.
  enough (exists st, stored_in zdec st k) as [st Hst]. { destruct (found_exists zdec st k Hst) as [d Hd]. eauto. }
  destruct k as [ps is ss]. cbn [k_packs k_indexes k_snaps] in *.
  assert (exists st, stored_in zdec st (mkBackend ps ∅ ∅)) as Hps.
  { clear Ti Ts. induction ps as [|p bs ps Hp IH] using map_ind; [exists ∅; apply stored_in_empty|].
    destruct IH as [st Hst].
    { intros q b E. apply (Hm q). rewrite lookup_insert_ne; [done|]. intros ->. congruence. }
    { intros q b E. apply (Tp q). rewrite lookup_insert_ne; [done|]. intros ->. congruence. }
    destruct (Tp p bs ltac:(apply lookup_insert)) as [Hwf _].
    exists (change_files H st (NewPack p bs) (pack_file (zenc (concat (map b_bytes bs))) (zenc (enc_manifest (manifest_of bs))))).
    apply (change_stored H zdec (mkBackend ps ∅ ∅) st (NewPack p bs)); [done|done| |done].
    eexists _, _. split_and!; [done|apply Hz|apply Hz|]. apply (Hm p). apply lookup_insert. }
  assert (exists st, stored_in zdec st (mkBackend ps is ∅)) as His.
  { clear Ts. induction is as [|i ix is Hi IH] using map_ind; [done|]. destruct IH as [st Hst].
    { intros j b E. apply (Ti j). rewrite lookup_insert_ne; [done|]. intros ->. congruence. }
    pose proof (Ti i ix ltac:(apply lookup_insert)) as ->.
    exists (change_files H st (NewIndex ix) (index_file (zenc (enc_index ix)))).
    apply (change_stored H zdec (mkBackend ps is ∅) st (NewIndex ix)); [done|done| |done]. eexists. split; [done|apply Hz]. }
  induction ss as [|i sn ss Hi IH] using map_ind; [done|]. destruct IH as [st Hst].
  { intros j b E. apply (Ts j). rewrite lookup_insert_ne; [done|]. intros ->. congruence. }
  pose proof (Ts i sn ltac:(apply lookup_insert)) as ->.
  exists (change_files H st (Op (PutSnap sn)) (snapshot_bytes sn)). by apply (change_stored H zdec (mkBackend ps is ss) st (Op (PutSnap sn))).
Qed.
Print Assumptions C64_every_repository_can_be_stored.

(** *** A concrete case *)

Definition fitsb (k : backend) : bool :=
  forallb (fun pb : oid * list blob => bool_decide (len_wf pb.2) &&
    bool_decide (N.of_nat (length (toy_zenc (enc_manifest (manifest_of pb.2)))) < 2 ^ 32)%N) (map_to_list (k_packs k)) &&
  forallb (fun ix : oid * index => bool_decide (index_wf ix.2)) (map_to_list (k_indexes k)) &&
  forallb (fun sn : oid * snapshot => bool_decide (snapshot_wf sn.2)) (map_to_list (k_snaps k)).
Lemma forallb_map {A} (f : oid * A -> bool) (m : gmap oid A) i x : forallb f (map_to_list m) = true -> m !! i = Some x -> f (i, x) = true.
Proof. intros Hf E. rewrite forallb_forall in Hf. apply Hf, elem_of_list_In. by apply elem_of_map_to_list. Qed.
Lemma fitsb_ok k : fitsb k = true -> fits k /\
  forall p bs, k_packs k !! p = Some bs -> (N.of_nat (length (toy_zenc (enc_manifest (manifest_of bs)))) < 2 ^ 32)%N.
Proof.
  unfold fitsb. intros [[Hp Hi]%andb_true_iff Hs]%andb_true_iff. split; [split|].
  - intros p bs E. by apply (forallb_map _ _ p bs Hp) in E as [?%bool_decide_eq_true _]%andb_true_iff.
  - intros i ix E. by apply (forallb_map _ _ i ix Hi) in E as ?%bool_decide_eq_true.
  - intros i sn E. by apply (forallb_map _ _ i sn Hs) in E as ?%bool_decide_eq_true.
  - intros p bs E. by apply (forallb_map _ _ p bs Hp) in E as [_ ?%bool_decide_eq_true]%andb_true_iff.
Qed.

(** An interrupted backup, then one that goes on where it stopped: its files. *)
Example C64_witness : exists k w parent pf c k' w' st d,
  history quick_hash (in_list ex_blobs) (empty_repo, clean) (k, w) /\ w_wip w <> None /\
  backup_command quick_hash toy_cuts false false false (fun _ => true) [] [] [] 3 [fa; fb] parent pf k w c /\
  paths_ok toy_cuts false [fa; fb] /\
  Forall (in_list ex_blobs) (plan_blobs quick_hash toy_cuts (fun _ => true) pf (sn_tree <$> parent) [fa; fb]) /\
  parent = None /\ no_clash quick_hash k w c /\ command_done quick_hash 20000 true 4 k w c k' w' /\
  in_order quick_hash (in_list ex_blobs) k' /\ tidy quick_hash (k', w') /\
  fits k' /\ stored_in toy_zdec st k' /\ found st d /\ clock_advances N.of_nat /\
  size (k_packs k') = 2 /\ size (k_snaps k') = 1 /\ kept_paths (fun _ => true) [fa; fb] <> [].
Proof.
  set (k := interrupted_kw.1). set (w := interrupted_kw.2).
  assert (negb (no_wip w) && holds (backup_of quick_hash toy_cuts [fa; fb] 3 k w) (fun r =>
    in_listb ex_blobs (plan_blobs quick_hash toy_cuts (fun _ => true) r.1.2 (sn_tree <$> r.1.1) [fa; fb]) && clash_free quick_hash k w r.2 &&
    bool_decide (r.1.1 = None) && holds (ex_run k w r.2) (fun kw1 => fitsb kw1.1 && bool_decide ((size (k_packs kw1.1), size (k_snaps kw1.1)) = (2, 1)))) = true) as Hx
    by (vm_compute; reflexivity).
  apply andb_true_iff in Hx as [Hw Hx]. apply holds_inv in Hx as ([[parent pf] c] & E1%backup_of_ok & Hx).
  apply andb_true_iff in Hx as [[[Hu%in_listb_ok Hcl%clash_free_ok]%andb_true_iff Hpar%bool_decide_eq_true]%andb_true_iff Hx].
  apply holds_inv in Hx as ([k1 w1] & E2%ex_run_ok & Hx). cbn [fst snd] in *.
  apply andb_true_iff in Hx as [[Hfit Hm]%fitsb_ok Hsz%bool_decide_eq_true].
  assert (history quick_hash (in_list ex_blobs) (empty_repo, clean) (k, w)) as Hh.
  { pose proof (ex_history [Backup [fa; fb] 1 (Some 14)] ltac:(vm_compute; reflexivity)) as Hh0.
    unfold k, w. rewrite <-surjective_pairing. exact Hh0. }
  destruct (history_fine _ _ ex_universe quick_hash_length _ _ (start_fine _ _ ex_universe quick_hash_length) Hh) as [Hk Hlo].
  destruct (tidy_history _ quick_hash_length _ _ _ (tidy_start _) Hh) as [T _].
  assert (paths_ok toy_cuts false [fa; fb]) as Hok by (apply paths_okb_ok; vm_compute; reflexivity).
  destruct (backup_adding _ _ ex_universe quick_hash_length _ _ _ _ _ _ _ _ _ _ _ _ _ _ Hk Hlo E1 Hok Hu Hcl) as (_ & _ & sns & Ha & _).
  destruct (adds_safe _ _ ex_universe quick_hash_length _ _ _ _ _ _ _ NoError _ _ ltac:(discriminate) Hk Hlo Ha Hu Hcl (done_reaches _ _ _ _ _ _ _ _ _ E2))
    as (Hk' & _).
  destruct (tidy_command _ quick_hash_length _ _ _ _ _ _ _ _ _ T (done_reaches _ _ _ _ _ _ _ _ _ E2)) as [T' _].
  destruct (C64_every_repository_can_be_stored quick_hash toy_zenc toy_zdec k1 w1 quick_hash_length toy_zstream Hm T') as (st & d & Hst & Hd).
  exists k, w, parent, pf, c, k1, w1, st, d. split; [exact Hh|]. split; [exact (wip_inv _ Hw)|]. split; [exact E1|]. split; [exact Hok|].
  split; [exact Hu|]. split; [exact Hpar|]. split; [exact Hcl|]. split; [exact E2|]. split; [exact Hk'|]. split; [exact T'|]. split; [exact Hfit|].
  split; [exact Hst|]. split; [exact Hd|]. split; [intros i j Hij; lia|]. injection Hsz as Hs1 Hs2. split; [exact Hs1|]. split; [exact Hs2|].
  vm_compute. discriminate.
Qed.
