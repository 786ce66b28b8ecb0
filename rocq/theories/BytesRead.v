(** Reading a repository from its files' bytes. *)

From Verif Require Import Base OMap Cbor CborFacts Formats FormatsFacts Hashing Pack PackFacts Index IndexFacts Meta Forest ForestFacts
  PropsPack PropsIndex PropsForest Reader ReaderFacts PropsRead Check CheckFacts PropsCheck FsTree FsSpec FsFacts BackupFacts
  Pipeline PipelineFacts Repo RepoSpec RepoFacts PruneFacts ReadFacts Locations PropsLocations History HistoryFacts Bytes BytesFacts.

Lemma assembles_mono rd rd' fo nd n : (forall i x, rd i = Ok x -> rd' i = Ok x) -> assembles rd fo nd n -> assembles rd' fo nd n.
Proof.
  intros Hrd. revert nd. induction n as [m c|m es IH|m t|m] using fsnode_ind'; intros nd Ha; inversion Ha; subst.
  - constructor. eapply Forall2_impl; [done|]. intros ? ? ?. by apply Hrd.
  - econstructor; [done|]. match goal with HF : Forall2 _ _ es |- _ => rename HF into HF0 end.
    clear -IH HF0. induction HF0 as [|a b t es [E R] HF IHF]; constructor.
    + split; [done|]. apply Forall_cons in IH as [Hb _]. by apply Hb.
    + apply IHF. by apply Forall_cons in IH as [_ ?].
  - constructor.
Qed.

Lemma tree_chunks_cons a t : tree_chunks (a :: t) = node_chunks a.2 ++ tree_chunks t.
Proof. done. Qed.

(** The chunks of a tree that reads back are stored. *)
Lemma reads_chunks H st t es c :
  Forall2 (fun (a : bytes * node) (b : bytes * fsnode) => a.1 = b.1 /\ reads H st a.2 b.2) t es -> c ∈ tree_chunks t ->
  exists x, st !! c = Some (Chunk, x).
Proof.
  induction 1 as [|a b t es [_ Hr] HF IH]; [by intros ?%elem_of_nil|]. rewrite tree_chunks_cons. intros [Hc|Hc]%elem_of_app; [|auto].
  inversion Hr as [m cs ps HF2 E1 E2|m tg E1 E2|m id u es' Hu HF2 E1 E2]; rewrite <-E1 in Hc; cbn [node_chunks n_contents] in Hc;
    [|by apply elem_of_nil in Hc..].
  apply elem_of_list_lookup in Hc as [n Hn]. destruct (Forall2_lookup_l _ _ _ _ _ HF2 Hn) as (x & _ & Hx). eauto.
Qed.

Section bytes.
Variable H : bytes -> oid.
Variable U : blob -> Prop.
Variable zdec : bytes -> bytes * bool.
Hypothesis HU : universe H U.
Hypothesis Hlen : forall x, length (H x) = 28.
Variables (k : backend) (ix : index) (bmap : gmap oid oid) (packs : gmap oid bytes).
Hypothesis Hk : sound H U k.
Hypothesis Htidy : tidy_packs (k_packs k).
Hypothesis Eix : master k = Ok ix.
Hypothesis Ebm : blob_to_pack_map ix = Ok bmap.
Hypothesis Hpacks : forall p bs, k_packs k !! p = Some bs -> exists x, packs !! p = Some x /\ pack_bytes zdec bs x.
Local Set Default Proof Using "All".

Definition live_content : gmap oid (list blob) :=
  filter (fun kv : oid * list blob => is_Some (om_get kv.1 (ix_packs ix))) (k_packs k).

Lemma ix_sorted : om_sorted (ix_packs ix).
Proof.
  destruct (master_ok H U HU k (sound_structured _ _ _ Hk)) as (ix' & E & [_ Hs] & _). rewrite Eix in E. by injection E as <-.
Qed.
Lemma ix_live p m : (p, m) ∈ ix_packs ix <-> (p, m) ∈ live_packs k.
Proof.
  destruct (master_ok H U HU k (sound_structured _ _ _ Hk)) as (ix' & E & _ & Hl). rewrite Eix in E. injection E as <-. apply Hl.
Qed.

Lemma content_spec p bs : live_content !! p = Some bs <-> k_packs k !! p = Some bs /\ (p, manifest_of bs) ∈ live_packs k.
Proof.
  unfold live_content. rewrite map_filter_lookup_Some. simpl. split.
  - intros [Hp [m Hm]]. split; [done|]. apply om_get_elem in Hm; [|apply ix_sorted]. apply ix_live in Hm.
    destruct (live_pack_bs H U HU k (sound_structured _ _ _ Hk) p m Hm) as (bs' & E & Em). rewrite Hp in E. injection E as <-. by rewrite Em.
  - intros [Hp Hm]. split; [done|]. apply ix_live in Hm. exists (manifest_of bs). by apply om_get_elem; [apply ix_sorted|].
Qed.

Lemma content_live b : (exists p bs, live_content !! p = Some bs /\ b ∈ bs) <-> b ∈ live_blobs k.
Proof.
  rewrite elem_of_live_blobs. split.
  - intros (p & bs & [Hp Hm]%content_spec & Hb). eauto 10.
  - intros (p & m & bs & Hm & Hp & Hb). exists p, bs. split; [|done]. apply content_spec. split; [done|].
    destruct (live_pack_bs H U HU k (sound_structured _ _ _ Hk) p m Hm) as (bs' & E & <-). rewrite Hp in E. by injection E as <-.
Qed.

Lemma live_U b : b ∈ live_blobs k -> U b.
Proof. intros Hb. pose proof (live_blobs_U H U HU k (so_packs _ _ _ Hk)) as HF. by eapply Forall_forall in HF. Qed.

Lemma bytes_hold : repo_holds H zdec ix packs live_content.
Proof.
  split; [apply ix_sorted|]. split.
  - intros p. destruct (om_get p (ix_packs ix)) as [m|] eqn:Em.
    + apply om_get_elem in Em; [|apply ix_sorted]. apply ix_live in Em.
      destruct (live_pack_bs H U HU k (sound_structured _ _ _ Hk) p m Em) as (bs & E & <-).
      by rewrite (proj2 (content_spec p bs) (conj E Em)).
    + destruct (live_content !! p) as [bs|] eqn:E; [|done]. apply content_spec in E as [_ Hm]. apply ix_live in Hm.
      apply om_get_elem in Hm; [congruence|apply ix_sorted].
  - intros p bs Hp. split.
    + apply Forall_forall. intros b Hb. assert (b ∈ live_blobs k) as Hl by (apply content_live; eauto). apply live_U in Hl.
      apply content_spec in Hp as [Hp _]. destruct (Htidy p bs Hp) as (_ & ty & HF). eapply Forall_forall in HF as [_ Hn]; [|exact Hb].
      split; [by apply (un_id H U HU)|]. split; [done|]. intros Hty. destruct (un_tree H U HU b Hl Hty) as (t & [Ht _] & E). eauto.
    + apply content_spec in Hp as [Hp _]. destruct (Hpacks p bs Hp) as (x & E & z & zm & -> & Hz & _). eauto.
Qed.

Lemma stored_tree_iff id t : stored_tree H live_content id t <-> stored_as H (repo_store k) id t.
Proof.
  unfold stored_tree, stored_as. case_decide as Hd.
  - subst id. split.
    + intros [[_ ->]|(p & bs & b & Hp & Hb & Hty & Hi & Eb & Hw)]; [done|].
      assert (U b) as Hub by (apply live_U, content_live; eauto).
      assert (b = tree_blob H []) as -> by (apply (un_inj H U HU); [done|apply (un_none H U HU)|done]).
      cbn [tree_blob b_bytes] in Eb. symmetry. apply enc_tree_inj; [|done|done]. apply (bool_decide_unpack _). vm_compute. exact I.
    + intros ->. by left.
  - split.
    + intros [[? _]|(p & bs & b & Hp & Hb & Hty & Hi & Eb & Hw)]; [done|]. exists (b_bytes b). split.
      * apply (repo_store_lookup H U HU); [apply (so_packs _ _ _ Hk)|]. apply content_live. exists p, bs. split; [done|].
        destruct b. simpl in *. by subst.
      * rewrite Eb. rewrite <-(app_nil_r (enc_tree t)). by apply dec_enc_tree.
    + intros (x & Hx & Ed). right. apply (repo_store_lookup H U HU) in Hx; [|apply (so_packs _ _ _ Hk)].
      pose proof (live_U _ Hx) as Hu. destruct (un_tree H U HU _ Hu eq_refl) as (t' & [Ht' _] & E). simpl in E.
      assert (t' = t) as ->. { rewrite E in Ed. rewrite <-(app_nil_r (enc_tree t')) in Ed. rewrite dec_enc_tree in Ed by done. by injection Ed. }
      apply content_live in Hx as (p & bs & Hp & Hb). eexists p, bs, _. split; [exact Hp|]. split; [exact Hb|]. done.
Qed.

(** The trees as a map. *)
Definition live_trees : forest :=
  <[empty_id H := []]> (omap (fun x : blob_type * bytes => match x.1 with Tree => fst <$> dec_tree x.2 | Chunk => None end) (repo_store k)).

Lemma live_trees_spec id t : live_trees !! id = Some t <-> stored_tree H live_content id t.
Proof.
  rewrite stored_tree_iff. unfold live_trees, stored_as. case_decide as Hd.
  - subst id. rewrite lookup_insert. split; [by intros [= <-]|by intros ->].
  - rewrite lookup_insert_ne by done. rewrite lookup_omap. destruct (repo_store k !! id) as [[[] x]|] eqn:E; simpl.
    + split; [done|]. by intros (b & ? & _).
    + apply (repo_store_lookup H U HU) in E; [|apply (so_packs _ _ _ Hk)].
      pose proof (live_U _ E) as Hu. destruct (un_tree H U HU _ Hu eq_refl) as (t' & [Ht' _] & Eb). simpl in Eb. subst x.
      pose proof (dec_enc_tree t' [] Ht') as Ed. rewrite app_nil_r in Ed. rewrite Ed. simpl. split.
      * intros [= ->]. eauto.
      * intros (b & [= <-] & Eb). rewrite Ed in Eb. by injection Eb as ->.
    + split; [done|]. by intros (b & ? & _).
Qed.

Lemma reach_reads root es x : reads_root H (repo_store k) root es -> reach live_trees root x ->
  exists es', reads_root H (repo_store k) x es' /\ depth es' <= depth es.
Proof.
  intros Hr Hx. revert es Hr. induction Hx as [x|x y z (t & Ht & Hy) _ IH]; intros es Hr; [eauto|].
  apply live_trees_spec, stored_tree_iff in Ht.
  destruct (sub_depth H U HU Hlen k ix bmap (sound_structured _ _ _ Hk) Eix Ebm x t es y Ht Hr Hy) as (es1 & H1 & D1).
  destruct (IH es1 H1) as (es2 & H2 & D2). exists es2. split; [done|lia].
Qed.

Lemma cycle_reads root es x : reads_root H (repo_store k) root es -> tc (child live_trees) root x ->
  exists es', reads_root H (repo_store k) x es' /\ depth es' < depth es.
Proof.
  intros Hr Hx. revert es Hr. induction Hx as [x y (t & Ht & Hy)|x y z (t & Ht & Hy) _ IH]; intros es Hr;
    apply live_trees_spec, stored_tree_iff in Ht;
    destruct (sub_depth H U HU Hlen k ix bmap (sound_structured _ _ _ Hk) Eix Ebm x t es y Ht Hr Hy) as (es1 & H1 & D1); [eauto|].
  destruct (IH es1 H1) as (es2 & H2 & D2). exists es2. split; [done|lia].
Qed.

Lemma depth_fun id es es' : reads_root H (repo_store k) id es -> reads_root H (repo_store k) id es' -> depth es = depth es'.
Proof. intros H1 H2. by rewrite (reads_root_fun _ _ _ _ _ H1 H2). Qed.

(** The trees of a snapshot that reads back load, and they are the reachable ones. *)
Lemma bytes_forest before ts c0 root es fuel :
  cache_reads H zdec ix bmap packs (cache_new H) before = Ok (ts, c0) ->
  reads_root H (repo_store k) root es -> size live_trees < fuel ->
  exists c fo, forest_from_root (cache_read H zdec ix bmap packs) fuel c0 root = Some (Ok (c, fo)) /\
    forall x t, fo !! x = Some t <-> reach live_trees root x /\ live_trees !! x = Some t.
Proof.
  intros Ec Hr Hf.
  destruct (C25_loads_exactly_the_reachable_trees H zdec ix bmap packs live_content live_trees before ts c0 fuel root bytes_hold Ebm
    live_trees_spec Ec Hf) as [(c & fo & E & _ & _ & Hfo)|(_ & [(x & Hx & Hn)|(x & Hx & Hcy)])]; [eauto|exfalso..].
  - destruct (reach_reads root es x Hr Hx) as (es' & (t & Ht & _) & _). apply stored_tree_iff, live_trees_spec in Ht. congruence.
  - destruct (reach_reads root es x Hr Hx) as (es' & Hes' & _). destruct (cycle_reads x es' x Hes' Hcy) as (es2 & Hes2 & D).
    rewrite (depth_fun x es' es2 Hes' Hes2) in D. lia.
Qed.

Definition live_chunk (i : oid) : bytes := match read_chunk k bmap i with Ok x => x | _ => [] end.

Lemma live_chunk_spec c x : repo_store k !! c = Some (Chunk, x) -> live_chunk c = x /\ in_chunk_pack live_content c x.
Proof.
  intros E. split.
  { unfold live_chunk. apply (read_chunk_spec H U HU k (sound_structured _ _ _ Hk) ix bmap Eix Ebm) in E. by rewrite E. }
  apply (repo_store_lookup H U HU) in E; [|apply (so_packs _ _ _ Hk)]. apply content_live in E as (p & bs & Hp & Hb).
  eexists p, bs, _. split; [exact Hp|]. split; [|split; [exact Hb|done]]. apply content_spec in Hp as [Hp _].
  destruct (Htidy p bs Hp) as (_ & ty & HF). rewrite Forall_forall in HF. destruct (HF _ Hb) as [Ht _]. simpl in Ht. subst ty.
  intros b' Hb'. by apply HF.
Qed.

(** And so do the chunks. *)
Lemma bytes_chunks clock ids : clock_advances clock ->
  (forall i, i ∈ ids -> exists x, repo_store k !! i = Some (Chunk, x)) ->
  (exists rs s, read_blobs H zdec ix bmap packs clock reader_new ids rs s) /\
  forall rs s, read_blobs H zdec ix bmap packs clock reader_new ids rs s -> rs = map (fun i => Ok (live_chunk i)) ids.
Proof.
  intros Hclock Hids.
  destruct (C27_reads_are_transparent_partial H zdec ix bmap packs live_content clock ids bytes_hold Ebm Hclock) as [Hex Hall].
  { intros i Hi. left. destruct (Hids i Hi) as [x Hx]. exists x. by apply live_chunk_spec. }
  split; [done|]. intros rs s Hr. destruct (Hall rs s Hr) as [HF _]. clear Hex Hall Hr.
  induction HF as [|i r ids rs Hr HF IH]; [done|]. simpl. f_equal; [|apply IH; intros; apply Hids; by right].
  destruct (Hids i) as [x Hx]; [by left|]. destruct (live_chunk_spec i x Hx) as [-> (p & bs & b & Hp & _ & Hb & Hi & Eb)].
  destruct r as [y| |]; [|by destruct (Hr p bs b Hp Hb)|done].
  destruct Hr as (p' & bs' & b' & Hp' & _ & Hb' & Hi' & <-). f_equal. rewrite <-Eb. f_equal.
  apply (un_inj H U HU); [apply live_U, content_live; eauto..|congruence].
Qed.

Lemma bytes_assemble fo root t es :
  (forall x t, fo !! x = Some t <-> reach live_trees root x /\ live_trees !! x = Some t) ->
  fo !! root = Some t -> reads_root H (repo_store k) root es ->
  Forall2 (fun (a : bytes * node) (b : bytes * fsnode) => a.1 = b.1 /\ assembles (fun i => Ok (live_chunk i)) fo a.2 b.2) t es /\
  forall i x u, fo !! x = Some u -> i ∈ tree_chunks u -> exists y, repo_store k !! i = Some (Chunk, y).
Proof.
  intros Hfo Ht Hr. split.
  - assert (forall x u, fo !! x = Some u -> stored_as H (repo_store k) x u) as Hst.
    { intros x u [_ Hu]%Hfo. by apply stored_tree_iff, live_trees_spec. }
    assert (forall x u s, fo !! x = Some u -> s ∈ subtrees u -> is_Some (fo !! s)) as Hsub.
    { intros x u s [Hx Hu]%Hfo Hs. assert (reach live_trees root s) as Hs' by (eapply rtc_r; [exact Hx|]; by exists u).
      destruct (reach_reads root es s Hr Hs') as (es' & (v & Hv & _) & _). apply stored_tree_iff, live_trees_spec in Hv.
      exists v. apply Hfo. done. }
    destruct Hr as (t' & Ht' & HF). assert (t' = t) as -> by (eapply stored_as_fun; eauto).
    assert (forall s, s ∈ subtrees t -> is_Some (fo !! s)) as Hs0 by eauto. clear Ht Ht' Hfo.
    induction HF as [|[nm nd] b t es [E R] HF IH]; constructor.
    + split; [done|]. eapply assembles_mono; [|apply (assembles_reads H U HU Hlen k ix bmap fo nd b.2 (sound_structured _ _ _ Hk) Eix Ebm Hst Hsub); [|exact R]].
      * intros i x Ei. unfold live_chunk. by rewrite Ei.
      * intros s Hs. apply Hs0. rewrite subtrees_cons. apply elem_of_app. by left.
    + apply IH. intros s Hs. apply Hs0. rewrite subtrees_cons. apply elem_of_app. by right.
  - intros i x u [Hx Hu]%Hfo Hi. destruct (reach_reads root es x Hr Hx) as (es' & (v & Hv & HF) & _).
    apply stored_tree_iff, live_trees_spec in Hv. rewrite Hu in Hv. injection Hv as <-. by eapply reads_chunks.
Qed.
End bytes.
