(** Properties C25, C26, C28 and C47: loading trees, size accounting, the tree
    cache, metadata. *)

From Verif Require Import Base OMap Cbor CborFacts Formats FormatsFacts Hashing Pack PackFacts Index IndexFacts
  Meta Forest ForestFacts PropsPack PropsIndex Toy.

(** ** C28 *)

(** The repository holds exactly the blobs [content] (pack id to blobs), intact:
    the index describes each pack, and each pack file was written for its blobs. *)
Definition repo_holds (H : bytes -> oid) (zdec : bytes -> bytes * bool) (ix : index)
    (packs : gmap oid bytes) (content : gmap oid (list blob)) : Prop :=
  om_sorted (ix_packs ix) /\
  (forall p, om_get p (ix_packs ix) = manifest_of <$> content !! p) /\
  (forall p bs, content !! p = Some bs -> Forall (good_blob H) bs /\
     exists z zm, packs !! p = Some (pack_file z zm) /\ zstream_of zdec z (concat (map b_bytes bs))).

(** Tree [t] is stored under [id]: in some pack, or it is the empty tree. *)
Definition stored_tree (H : bytes -> oid) (content : gmap oid (list blob)) (id : oid) (t : tree) : Prop :=
  (id = tree_id H [] /\ t = []) \/
  exists p bs b, content !! p = Some bs /\ b ∈ bs /\
    b_type b = Tree /\ b_id b = id /\ b_bytes b = enc_tree t /\ tree_wf t.

Lemma NoDup_concat_in {A B} (f : A -> B) ls l : NoDup (map f (concat ls)) -> l ∈ ls -> NoDup (map f l).
Proof.
  induction ls as [|l' ls IH]; intros Hnd Hin; [by apply elem_of_nil in Hin|].
  cbn [concat] in Hnd. rewrite map_app in Hnd. apply NoDup_app in Hnd as (H1 & _ & H2).
  apply elem_of_cons in Hin as [->|Hin]; auto.
Qed.

Lemma NoDup_map_inj {A B} (f : A -> B) l x y : NoDup (map f l) -> x ∈ l -> y ∈ l -> f x = f y -> x = y.
Proof.
  induction l as [|z l IH]; intros Hnd Hx Hy E; [by apply elem_of_nil in Hx|].
  cbn [map] in Hnd. apply NoDup_cons in Hnd as [Hn Hnd].
  apply elem_of_cons in Hx as [->|Hx]; apply elem_of_cons in Hy as [->|Hy]; [done| | |auto].
  - destruct Hn. rewrite E. by apply elem_of_list_fmap_1.
  - destruct Hn. rewrite <- E. by apply elem_of_list_fmap_1.
Qed.

Section intact.
Local Set Default Proof Using "All".
Variables (H : bytes -> oid) (zdec : bytes -> bytes * bool) (ix : index) (bmap : gmap oid oid)
  (packs : gmap oid bytes) (content : gmap oid (list blob)).
Hypothesis Hrepo : repo_holds H zdec ix packs content.
Hypothesis Hbmap : blob_to_pack_map ix = Ok bmap.
Hypothesis Hempty : forall t, stored_tree H content (tree_id H []) t -> t = [].

Lemma entries_content p e : (p, e) ∈ index_entries ix <-> exists bs b, content !! p = Some bs /\ b ∈ bs /\ e = entry_of b.
Proof using Hrepo Hbmap.
  destruct Hrepo as (Hs & Hix & _). rewrite elem_of_index_entries_get by done. rewrite Hix. split.
  - intros (m & Hm & He). destruct (content !! p) as [bs|] eqn:Eb; [|done]. injection Hm as <-.
    apply elem_of_list_fmap in He as (b & -> & Hb). by exists bs, b.
  - intros (bs & b & Hb & Hin & ->). rewrite Hb. exists (manifest_of bs). split; [done|]. by apply elem_of_list_fmap_1.
Qed.

Lemma ids_nodup : NoDup (map (fun pe : oid * entry => e_id pe.2) (index_entries ix)).
Proof using Hrepo Hbmap.
  destruct (decide (NoDup (blob_ids ix))) as [Hn|Hn]; [by rewrite <- blob_ids_entries|].
  destruct (proj2 (C11_lookup_maps ix) Hn) as (E & _). congruence.
Qed.

Lemma bmap_spec i p : bmap !! i = Some p <-> exists bs b, content !! p = Some bs /\ b ∈ bs /\ b_id b = i.
Proof using Hrepo Hbmap.
  destruct (map_fold_ok (fun pe => pe.1) (index_entries ix) ∅ ids_nodup) as (mp & E1 & H1); [done|].
  assert (mp = bmap) as ->. { unfold blob_to_pack_map in Hbmap. rewrite Hbmap in E1. congruence. }
  rewrite H1, lookup_empty. split.
  - intros [?|([p' e] & Hin & <- & <-)]; [done|]. apply entries_content in Hin as (bs & b & ? & ? & ->). eauto.
  - intros (bs & b & Hc & Hb & <-). right. exists (p, entry_of b). split; [|done]. apply entries_content. eauto.
Qed.

Lemma blob_unique p p' bs bs' b b' :
  content !! p = Some bs -> content !! p' = Some bs' -> b ∈ bs -> b' ∈ bs' -> b_id b = b_id b' -> p = p' /\ b = b'.
Proof using Hrepo Hbmap.
  intros Hp Hp' Hb Hb' E.
  assert ((p, entry_of b) = (p', entry_of b')) as Eq.
  { eapply (NoDup_map_inj (fun pe : oid * entry => e_id pe.2)); [apply ids_nodup| | |done];
      apply entries_content; eauto. }
  injection Eq as <- _ _. split; [done|]. assert (bs' = bs) as -> by congruence.
  assert (NoDup (map b_id bs)) as Hnd.
  { destruct Hrepo as (Hs & Hix & _). specialize (Hix p). rewrite Hp in Hix. cbn in Hix.
    pose proof ids_nodup as Hn. unfold index_entries in Hn.
    apply (NoDup_concat_in _ _ (map (fun e => (p, e)) (manifest_of bs))) in Hn.
    - unfold manifest_of in Hn. rewrite !map_map in Hn. exact Hn.
    - apply om_get_elem in Hix; [|done].
      apply (elem_of_list_fmap_1 (fun kv : oid * manifest => map (fun e => (kv.1, e)) kv.2)) in Hix. exact Hix. }
  by eapply NoDup_map_inj.
Qed.

Lemma stored_unique i t t' : stored_tree H content i t -> stored_tree H content i t' -> t = t'.
Proof.
  intros H1 H2. destruct (decide (i = tree_id H [])) as [->|Hne].
  { rewrite (Hempty t H1). by rewrite (Hempty t' H2). }
  destruct H1 as [[? ?]|(p & bs & b & Hp & Hb & _ & Hi & E & W)]; [done|].
  destruct H2 as [[? ?]|(p' & bs' & b' & Hp' & Hb' & _ & Hi' & E' & W')]; [done|].
  destruct (blob_unique p p' bs bs' b b') as [_ ->]; [done..|congruence|].
  apply enc_tree_inj; congruence.
Qed.

Definition cache_ok (c : forest) : Prop :=
  c !! tree_id H [] = Some [] /\ forall i t, c !! i = Some t -> stored_tree H content i t.

Lemma cache_new_ok : cache_ok (cache_new H).
Proof.
  unfold cache_new, empty_id. split; [by rewrite lookup_singleton|].
  intros i t [<- <-]%lookup_singleton_Some. by left.
Qed.

Lemma cache_read_intact c id : cache_ok c ->
  match cache_read H zdec ix bmap packs c id with
  | Ok (t, c') => cache_ok c' /\ stored_tree H content id t
  | Err => forall t, ~ stored_tree H content id t
  | Panic => False
  end.
Proof.
  intros [He Hc]. unfold cache_read. destruct (c !! id) as [t|] eqn:Eid; [split; [split; done|auto]|].
  destruct (bmap !! id) as [p|] eqn:Ep; cbn [of_option rbind].
  2:{ intros t [[-> _]|(p & bs & b & Hp & Hb & _ & Hi & _)]; [congruence|].
      assert (bmap !! id = Some p) by (apply bmap_spec; eauto). congruence. }
  apply bmap_spec in Ep as (bs & b & Hp & Hb & Hi). destruct Hrepo as (Hs & Hix & Hpk).
  destruct (Hpk p bs Hp) as (Hg & z & zm & Hf & Hz). rewrite Hf. cbn [of_option rbind].
  rewrite Hix, Hp. cbn [fmap option_fmap option_map rbind].
  destruct (append_to_forest_ok H zdec bs z zm c) as (c' & E & H1 & H2 & H3).
  { eapply Forall_impl; [exact Hg|]. by intros ? (? & _). }
  { eapply Forall_impl; [exact Hg|]. intros b' (_ & _ & Ht) Hty. destruct (Ht Hty) as (t & ? & ?). by exists t. }
  { done. }
  rewrite E. cbn [rbind].
  assert (cache_ok c') as Hc'.
  { split; [by apply H1|]. intros i t Hit. destruct (H2 i t Hit) as [?|(b' & ? & ? & ? & ? & ?)]; [auto|].
    right. eauto 10. }
  destruct (c' !! id) as [t|] eqn:Et; cbn [of_option rbind].
  - split; [done|]. by apply Hc'.
  - intros t [[-> _]|(p' & bs' & b' & Hp' & Hb' & Hty & Hi' & Hbt & Hw)]; [congruence|].
    destruct (blob_unique p p' bs bs' b b') as [<- <-]; [done..|congruence|].
    destruct (H3 b Hb Hty) as [t' Ht']. congruence.
Qed.

Lemma cache_reads_intact ids c : cache_ok c ->
  match cache_reads H zdec ix bmap packs c ids with
  | Ok (ts, c') => cache_ok c' /\ Forall2 (stored_tree H content) ids ts
  | Err => True
  | Panic => False
  end.
Proof.
  revert c; induction ids as [|id ids IH]; intros c Hc; cbn [cache_reads]; [by split|].
  pose proof (cache_read_intact c id Hc) as Hr.
  destruct (cache_read H zdec ix bmap packs c id) as [[t c1]| |]; cbn [rbind]; [|done|done].
  destruct Hr as [Hc1 Ht]. specialize (IH c1 Hc1).
  destruct (cache_reads H zdec ix bmap packs c1 ids) as [[ts c2]| |]; cbn [rbind]; [|done|done].
  destruct IH as [Hc2 Hts]. split; [done|]. by constructor.
Qed.
End intact.

(** After any successful reads [before], from the fresh cache, reading any id
    gives the tree stored under it, or fails if there is none. *)
Theorem C28_tree_cache_transparent : forall H zdec ix bmap packs content,
  repo_holds H zdec ix packs content -> blob_to_pack_map ix = Ok bmap ->
  (forall t, stored_tree H content (tree_id H []) t -> t = []) ->
  forall before ts c, cache_reads H zdec ix bmap packs (cache_new H) before = Ok (ts, c) ->
  Forall2 (stored_tree H content) before ts /\
  forall id,
    (forall t, stored_tree H content id t -> exists c', cache_read H zdec ix bmap packs c id = Ok (t, c')) /\
    ((forall t, ~ stored_tree H content id t) -> cache_read H zdec ix bmap packs c id = Err).
Proof.
  intros H zdec ix bmap packs content Hr Hb He before ts c E.
  pose proof (cache_reads_intact H zdec ix bmap packs content Hr Hb He before (cache_new H)
    (cache_new_ok H zdec ix bmap packs content Hr Hb He)) as Hi. rewrite E in Hi. destruct Hi as [Hc Hts].
  split; [done|]. intros id.
  pose proof (cache_read_intact H zdec ix bmap packs content Hr Hb He c id Hc) as Hi.
  split.
  - intros t Ht. destruct (cache_read H zdec ix bmap packs c id) as [[t' c']| |]; [|by destruct (Hi t)|done].
    destruct Hi as [_ Ht']. exists c'. do 2 f_equal. by eapply stored_unique.
  - intros Hn. destruct (cache_read H zdec ix bmap packs c id) as [[t' c']| |]; [|done|done].
    destruct Hi as [_ Ht']. by destruct (Hn t').
Qed.
Print Assumptions C28_tree_cache_transparent.

(** Whatever the index says and whatever bytes the pack files have, a tree
    obtained through the cache was decoded from bytes that hash to its id. *)
Theorem C28_only_genuine_trees : forall H zdec ix bmap packs before ts c,
  om_sorted (ix_packs ix) ->
  cache_reads H zdec ix bmap packs (cache_new H) before = Ok (ts, c) ->
  Forall2 (fun id t => (id = tree_id H [] /\ t = []) \/ genuine H id t) before ts.
Proof.
  intros H zdec ix bmap packs before ts c Hs.
  assert (forall i t, cache_new H !! i = Some t -> (i = tree_id H [] /\ t = []) \/ genuine H i t) as H0.
  { unfold cache_new, empty_id. intros i t [<- <-]%lookup_singleton_Some. by left. }
  revert H0 ts c. generalize (cache_new H) as c0.
  induction before as [|id before IH]; intros c0 H0 ts c E; cbn [cache_reads] in E.
  { injection E as <- _. constructor. }
  apply rbind_ok in E as ([t c1] & E1 & E). apply rbind_ok in E as ([ts' c2] & E2 & E). injection E as <- <-.
  destruct (cache_read_inv _ _ _ _ _ _ _ _ _ Hs E1) as (_ & Hid & Hall).
  assert (forall i t, c1 !! i = Some t -> (i = tree_id H [] /\ t = []) \/ genuine H i t) as H1.
  { intros i u Hu. destruct (Hall i u Hu) as [?|[_ ?]]; auto. }
  constructor; [by apply H1|]. by eapply IH.
Qed.
Print Assumptions C28_only_genuine_trees.

(** So corruption is noticed: for the id of a tree, only that tree can be
    obtained, unless other bytes have the same hash. *)
Theorem C28_corruption_detected : forall H id t0 t,
  tree_wf t0 -> id = tree_id H t0 -> (forall b, H b = id -> b = enc_tree t0) ->
  genuine H id t -> t = t0.
Proof.
  intros H id t0 t Hw -> Hc (b & rest & Hb & Hd). apply Hc in Hb as ->.
  rewrite dec_enc_tree in Hd by done. congruence.
Qed.
Print Assumptions C28_corruption_detected.

(** *** A concrete repository: directory [r] with a file and two subdirectories,
    [a] holding a file and [e] empty. *)

Definition ex_chunkid : oid := toy_hash (ascii_bytes "hello").

Definition ex_hello : blob := mkBlob Chunk (fold_hash (ascii_bytes "hello")) (ascii_bytes "hello").
Definition ex_a : tree := [(ascii_bytes "x", mkNode (CFile [b_id ex_hello]) ex_filemeta)].
Definition ex_r : tree :=
  [(ascii_bytes "a", mkNode (CDir (tree_id fold_hash ex_a)) ex_dirmeta);
   (ascii_bytes "e", mkNode (CDir (tree_id fold_hash [])) ex_dirmeta);
   (ascii_bytes "f", mkNode (CFile [b_id ex_hello; b_id ex_hello]) ex_filemeta)].
Definition ex_tree_blob (t : tree) : blob := mkBlob Tree (tree_id fold_hash t) (enc_tree t).
Definition ex_chunk_pack : list blob := [ex_hello].
Definition ex_tree_pack : list blob := [ex_tree_blob ex_a; ex_tree_blob ex_r].
Definition ex_content : gmap oid (list blob) :=
  {[ pk x01 := ex_chunk_pack; pk x02 := ex_tree_pack ]}.
Definition ex_repo_ix : index :=
  mkIndex [] [(pk x01, manifest_of ex_chunk_pack); (pk x02, manifest_of ex_tree_pack)].
Definition ex_file (bs : list blob) : bytes :=
  pack_file (toy_zenc (concat (map b_bytes bs))) (toy_zenc (enc_manifest (manifest_of bs))).
Definition ex_packs : gmap oid bytes :=
  {[ pk x01 := ex_file ex_chunk_pack; pk x02 := ex_file ex_tree_pack ]}.
Definition get_ok {A} (d : A) (r : result A) : A := match r with Ok a => a | _ => d end.
Definition get_fuel {A} (d : A) (r : option (result A)) : A := get_ok d (default Err r).
Definition fails {A} (r : option (result A)) : bool := match r with Some Err => true | _ => false end.
Definition ex_bmap : gmap oid oid := get_ok ∅ (blob_to_pack_map ex_repo_ix).

Lemma result_get {A} (r : result A) d :
  match r with Ok _ => true | _ => false end = true -> r = Ok (get_ok d r).
Proof. by destruct r. Qed.
Lemma ex_bmap_ok : blob_to_pack_map ex_repo_ix = Ok ex_bmap.
Proof. apply result_get. vm_compute. reflexivity. Qed.

Lemma ex_a_wf : tree_wf ex_a.
Proof. apply (bool_decide_unpack _); vm_compute; exact I. Qed.
Lemma ex_r_wf : tree_wf ex_r.
Proof. apply (bool_decide_unpack _); vm_compute; exact I. Qed.

Lemma ex_repo_holds : repo_holds fold_hash toy_zdec ex_repo_ix ex_packs ex_content.
Proof.
  split; [apply (bool_decide_unpack _); vm_compute; exact I|]. split.
  - intros p. cbn [ex_repo_ix ix_packs om_get]. unfold ex_content.
    destruct (decide (p = pk x01)) as [->|H1]; [done|]. destruct (decide (p = pk x02)) as [->|H2]; [done|].
    rewrite lookup_insert_ne, lookup_singleton_ne by done.
    destruct (bytes_cmp p (pk x01)) eqn:C1; [|done|].
    + by apply bytes_cmp_eq in C1.
    + destruct (bytes_cmp p (pk x02)) eqn:C2; [by apply bytes_cmp_eq in C2|done|done].
  - intros p bs Hp. unfold ex_content in Hp.
    apply lookup_insert_Some in Hp as [[<- <-]|[Hne Hp]]; [|apply lookup_singleton_Some in Hp as [<- <-]].
    + split.
      * repeat constructor. cbn. done.
      * eexists _, _. split; [unfold ex_packs; by rewrite lookup_insert|]. apply toy_zstream.
    + split.
      * repeat constructor; cbn [b_type]; try done; intros _; eexists; split; try done; [apply ex_a_wf|apply ex_r_wf].
      * eexists _, _. split; [unfold ex_packs; by rewrite lookup_insert_ne, lookup_singleton|]. apply toy_zstream.
Qed.

Lemma ex_stored_empty t : stored_tree fold_hash ex_content (tree_id fold_hash []) t -> t = [].
Proof.
  intros [[_ ?]|(p & bs & b & Hp & Hb & Hty & Hi & _)]; [done|].
  unfold ex_content in Hp.
  apply lookup_insert_Some in Hp as [[<- <-]|[Hne Hp]]; [|apply lookup_singleton_Some in Hp as [<- <-]].
  - apply elem_of_list_singleton in Hb as ->. done.
  - apply elem_of_cons in Hb as [->|Hb]; [vm_compute in Hi; discriminate|].
    apply elem_of_list_singleton in Hb as ->. vm_compute in Hi. discriminate.
Qed.

Example C28_witness :
  repo_holds fold_hash toy_zdec ex_repo_ix ex_packs ex_content /\
  blob_to_pack_map ex_repo_ix = Ok ex_bmap /\
  (forall t, stored_tree fold_hash ex_content (tree_id fold_hash []) t -> t = []) /\
  (get_ok ([], ∅) (cache_reads fold_hash toy_zdec ex_repo_ix ex_bmap ex_packs (cache_new fold_hash)
    [tree_id fold_hash ex_a; tree_id fold_hash []; tree_id fold_hash ex_r])).1 = [ex_a; []; ex_r].
Proof.
  split; [apply ex_repo_holds|]. split; [apply ex_bmap_ok|]. split; [apply ex_stored_empty|].
  vm_compute. reflexivity.
Qed.

(** ** C25 *)

Lemma reach_transfer (C fo : forest) root :
  (forall x, reach C root x -> fo !! x = C !! x) -> forall x, reach C root x -> reach fo root x.
Proof.
  intros Hag. apply rtc_ind_r; [done|]. intros y z Hr (t & Ht & Hz) IH.
  eapply rtc_r; [exact IH|]. exists t. split; [|done]. by rewrite Hag.
Qed.

Lemma tc_mono {A} (R S : A -> A -> Prop) x y : (forall a b, R a b -> S a b) -> tc R x y -> tc S x y.
Proof. intros HRS Ht. induction Ht as [x y Hxy|x y z Hxy _ IH]; [by apply tc_once, HRS|eapply tc_l; eauto]. Qed.

Lemma child_mono (C fo : forest) x y : fo ⊆ C -> child fo x y -> child C x y.
Proof. intros Hs (t & Ht & Hy). exists t. split; [by eapply lookup_weaken|done]. Qed.

Section load.
Variables (read : forest -> oid -> result (tree * forest)).
Hypothesis read_mono : forall c id t c', read c id = Ok (t, c') -> c ⊆ c' /\ c' !! id = Some t.
Local Set Default Proof Using "All".

Lemma load_ok fuel c root c' fo :
  forest_from_root read fuel c root = Some (Ok (c', fo)) ->
  fo ⊆ c' /\ c ⊆ c' /\
  (forall x, is_Some (fo !! x) <-> reach fo root x) /\
  (forall x, ~ tc (child fo) x x) /\
  forall C, c' ⊆ C -> forall x, (reach C root x <-> reach fo root x) /\
    (reach C root x -> fo !! x = C !! x /\ ~ tc (child C) x x).
Proof.
  intros E. destruct (append_tree_ok read read_mono _ _ _ _ _ _ _ E) as [Hcc Hok].
  assert (forall C, c' ⊆ C -> fo ⊆ C /\ forall x, (reach C root x <-> reach fo root x) /\
    (reach C root x -> fo !! x = C !! x /\ is_Some (C !! x) /\ ~ tc (child C) x x)) as Hgen.
  { intros C HC. destruct (Hok C HC) as [H1 H2].
    assert (fo ⊆ C) as Hsub.
    { apply map_subseteq_spec. intros x t Hx. destruct (H2 x) as [E'|Hr]; [by rewrite E' in Hx|].
      destruct (H1 x Hr) as (_ & _ & _ & Eq). congruence. }
    split; [done|]. intros x. split; [split|].
    - apply reach_transfer. intros y Hy. by apply H1.
    - intros Hr. eapply rtc_subrel; [|exact Hr]. intros y z. by apply child_mono.
    - intros Hr. destruct (H1 x Hr) as (_ & ? & ? & ?). done. }
  destruct (Hgen c') as [Hsub H1]; [done|].
  assert (forall x, is_Some (fo !! x) <-> reach fo root x) as Hdom.
  { intros x. split.
    - intros [t Ht]. apply H1. destruct (Hok c') as [_ Hb]; [done|].
      destruct (Hb x) as [E'|Hr]; [by rewrite E' in Ht|done].
    - intros Hr. apply H1 in Hr. destruct (proj2 (H1 x) Hr) as (-> & ? & _). done. }
  split; [done|]. split; [done|]. split; [done|]. split.
  - intros x Hcy. assert (is_Some (fo !! x)) as Hx.
    { inversion Hcy as [? ? (t & Ht & _)|? ? ? (t & Ht & _) _]; subst; by eexists. }
    apply Hdom, H1 in Hx. destruct (proj2 (H1 x) Hx) as (_ & _ & Hn). apply Hn.
    eapply tc_mono; [|exact Hcy]. intros y z. by apply child_mono.
  - intros C HC x. destruct (Hgen C HC) as [_ HgC]. destruct (HgC x) as [HA HB]. split; [done|].
    intros Hr. destruct (HB Hr) as (? & _ & ?). done.
Qed.
End load.

Lemma cache_read_mono H zdec ix bmap packs : om_sorted (ix_packs ix) ->
  forall c id t c', cache_read H zdec ix bmap packs c id = Ok (t, c') -> c ⊆ c' /\ c' !! id = Some t.
Proof. intros Hs c id t c' E. by destruct (cache_read_inv _ _ _ _ _ _ _ _ _ Hs E) as (? & ? & _). Qed.

(** On an intact repository, whatever was loaded before: loading from [root]
    gives exactly the trees reachable from it, or fails; and it fails only if a
    reachable tree is missing or a directory contains itself.  [fuel] bounds the
    recursion depth: with more fuel than there are trees it is never exhausted. *)
Theorem C25_loads_exactly_the_reachable_trees : forall H zdec ix bmap packs content store before ts c fuel root,
  repo_holds H zdec ix packs content -> blob_to_pack_map ix = Ok bmap ->
  (forall id t, store !! id = Some t <-> stored_tree H content id t) ->
  cache_reads H zdec ix bmap packs (cache_new H) before = Ok (ts, c) ->
  size store < fuel ->
  let missing := exists x, reach store root x /\ store !! x = None in
  let cyclic := exists x, reach store root x /\ tc (child store) x x in
  (exists c' fo, forest_from_root (cache_read H zdec ix bmap packs) fuel c root = Some (Ok (c', fo)) /\
     ~ missing /\ ~ cyclic /\ forall x t, fo !! x = Some t <-> reach store root x /\ store !! x = Some t)
  \/ (forest_from_root (cache_read H zdec ix bmap packs) fuel c root = Some Err /\ (missing \/ cyclic)).
Proof.
  intros H zdec ix bmap packs content store before ts c fuel root Hr Hb Hst Ec Hfuel missing cyclic.
  assert (forall t, stored_tree H content (tree_id H []) t -> t = []) as He.
  { intros t Ht. apply Hst in Ht. assert (store !! tree_id H [] = Some []) as E by (apply Hst; by left). congruence. }
  pose proof (cache_reads_intact H zdec ix bmap packs content Hr Hb He before (cache_new H)
    (cache_new_ok H zdec ix bmap packs content Hr Hb He)) as Hc. rewrite Ec in Hc. destruct Hc as [Hc _].
  assert (forall c, cache_ok H content c -> c ⊆ store) as Hsub.
  { intros c0 [_ H0]. apply map_subseteq_spec. intros i t Hi. apply Hst. auto. }
  assert (Hsrt := proj1 Hr).
  set (I := fun c => cache_ok H content c).
  assert (forall c id, I c -> match cache_read H zdec ix bmap packs c id with
     | Ok (t, c') => I c' /\ store !! id = Some t
     | Err => store !! id = None
     | Panic => False end) as Hread.
  { intros c0 id H0. pose proof (cache_read_intact H zdec ix bmap packs content Hr Hb He c0 id H0) as Hi.
    destruct (cache_read H zdec ix bmap packs c0 id) as [[t c']| |]; [|destruct (store !! id) eqn:Es; [|done]; apply Hst in Es; by destruct (Hi _ Es)|done].
    destruct Hi as [Hc' Ht]. split; [done|]. by apply Hst. }
  pose proof (append_tree_err (cache_read H zdec ix bmap packs) (cache_read_mono _ _ _ _ _ Hsrt) store I fuel ∅ root (c, ∅) Hread Hc) as Herr.
  assert (append_tree (cache_read H zdec ix bmap packs) fuel ∅ root (c, ∅) <> None) as Hnn.
  { (* fuel, using a reader restricted to good caches *)
    assert (forall fuel stack id st, I st.1 -> size (dom store ∖ stack) < fuel ->
      append_tree (cache_read H zdec ix bmap packs) fuel stack id st <> None) as Hf.
    { clear fuel Hfuel Herr. induction fuel as [|fuel IH]; intros stack id [c0 f0] H0 Hlt; [lia|].
      cbn [append_tree fst snd] in *. case_decide as Hs; [done|].
      pose proof (Hread c0 id H0) as Hrd. destruct (cache_read H zdec ix bmap packs c0 id) as [[t c1]| |]; try done.
      destruct Hrd as [Hc1 Ht]. 
      assert (size (dom store ∖ ({[id]} ∪ stack)) < fuel) as Hlt'.
      { assert (id ∈ dom store) by (by apply elem_of_dom_2 in Ht).
        assert (dom store ∖ stack = {[id]} ∪ dom store ∖ ({[id]} ∪ stack)) as Heq.
        { apply set_eq. intros x. destruct (decide (x = id)); set_solver. }
        rewrite Heq in Hlt. rewrite size_union in Hlt by set_solver. rewrite size_singleton in Hlt. lia. }
      generalize (<[id:=t]> f0) as f1. generalize (subtrees t) as ids. clear Ht. revert c1 Hc1.
      intros c1 Hc1 ids. revert c1 Hc1. induction ids as [|i ids IHids]; intros c1 Hc1 f1; cbn [fold_ids]; [done|].
      specialize (IH ({[id]} ∪ stack) i (c1, f1) Hc1 Hlt').
      pose proof (append_tree_err (cache_read H zdec ix bmap packs) (cache_read_mono _ _ _ _ _ Hsrt) store I fuel ({[id]} ∪ stack) i (c1, f1) Hread Hc1) as Hok.
      destruct (append_tree (cache_read H zdec ix bmap packs) fuel ({[id]} ∪ stack) i (c1, f1)) as [[[c2 f2]| |]|]; try done.
      by apply IHids. }
    apply Hf; [done|]. rewrite difference_empty_L, size_dom. done. }
  destruct (append_tree (cache_read H zdec ix bmap packs) fuel ∅ root (c, ∅)) as [[[c' fo]| |]|] eqn:E; try done.
  - left. exists c', fo. split; [exact E|].
    destruct (load_ok _ (cache_read_mono _ _ _ _ _ Hsrt) _ _ _ _ _ E) as (_ & _ & Hdom & _ & HC).
    specialize (HC store (Hsub c' Herr)). unfold missing, cyclic. split; [|split].
    + intros (x & Hx & Hn). destruct (HC x) as [H1 H2]. destruct (H2 Hx) as [H3 _].
      apply H1, Hdom in Hx as [t Ht]. congruence.
    + intros (x & Hx & Hcy). destruct (HC x) as [H1 H2]. by destruct (H2 Hx) as [_ H3].
    + intros x t. destruct (HC x) as [H1 H2]. split.
      * intros Ht. assert (reach store root x) as Hx by (apply H1, Hdom; by eexists).
        split; [done|]. destruct (H2 Hx) as [H3 _]. congruence.
      * intros [Hx Ht]. destruct (H2 Hx) as [H3 _]. congruence.
  - right. split; [exact E|]. destruct Herr as (x & Hx & [Hs|[Hs|Hs]]); [set_solver|left|right]; by exists x.
Qed.
Print Assumptions C25_loads_exactly_the_reachable_trees.

(** Whatever the index says and whatever bytes are in the packs: loading
    terminates (the fuel suffices) and, if it succeeds, the forest holds the
    root, every subdirectory named in it, and nothing that is not reachable; no
    directory contains itself; and each tree's bytes hash to its id. *)
Theorem C25_any_repository : forall H zdec ix bmap packs root fuel,
  om_sorted (ix_packs ix) -> S (size (ix_ids ix)) < fuel ->
  forest_from_root (cache_read H zdec ix bmap packs) fuel (cache_new H) root <> None /\
  forall c' fo, forest_from_root (cache_read H zdec ix bmap packs) fuel (cache_new H) root = Some (Ok (c', fo)) ->
    is_Some (fo !! root) /\
    (forall x t s, fo !! x = Some t -> s ∈ subtrees t -> is_Some (fo !! s)) /\
    (forall x, is_Some (fo !! x) -> reach fo root x) /\
    (forall x, ~ tc (child fo) x x) /\
    (forall x t, fo !! x = Some t -> (x = tree_id H [] /\ t = []) \/ genuine H x t).
Proof.
  intros H zdec ix bmap packs root fuel Hs Hfuel.
  set (U := {[empty_id H]} ∪ ix_ids ix).
  assert (size U < fuel) as HU.
  { pose proof (size_union_alt {[empty_id H]} (ix_ids ix)) as E. rewrite size_singleton in E.
    unfold U. rewrite E. pose proof (subseteq_size (ix_ids ix ∖ {[empty_id H]}) (ix_ids ix)). 
    assert (ix_ids ix ∖ {[empty_id H]} ⊆ ix_ids ix) by set_solver. specialize (H0 H1). lia. }
  assert (forall c id t c', dom c ⊆ U -> cache_read H zdec ix bmap packs c id = Ok (t, c') -> id ∈ U /\ dom c' ⊆ U) as Hrd.
  { intros c id t c' Hd E. destruct (cache_read_inv _ _ _ _ _ _ _ _ _ Hs E) as (H1 & H2 & H3).
    assert (dom c' ⊆ U) as Hd'.
    { intros x Hx. apply elem_of_dom in Hx as [u Hu]. destruct (H3 x u Hu) as [Hc|[Hi _]].
      - apply Hd. by apply elem_of_dom_2 in Hc.
      - set_solver. }
    split; [|done]. apply Hd'. by apply elem_of_dom_2 in H2. }
  assert (dom (cache_new H) ⊆ U) as Hd0.
  { unfold cache_new. rewrite dom_singleton_L. set_solver. }
  split.
  { apply (append_tree_fuel (cache_read H zdec ix bmap packs) (cache_read_mono _ _ _ _ _ Hs) U); [done|done|].
    by rewrite difference_empty_L. }
  intros c' fo E.
  destruct (load_ok _ (cache_read_mono _ _ _ _ _ Hs) _ _ _ _ _ E) as (Hsub & _ & Hdom & Hcy & _).
  split; [by apply Hdom|]. split.
  { intros x t s Hx Hin. apply Hdom. assert (reach fo root x) as Hr by (apply Hdom; by eexists).
    eapply rtc_r; [exact Hr|]. by exists t. }
  split; [by intros x Hx; apply Hdom|]. split; [done|].
  assert (forall i t, c' !! i = Some t -> (i = tree_id H [] /\ t = []) \/ genuine H i t) as Hg.
  { set (I := fun c : forest => forall i t, c !! i = Some t -> (i = tree_id H [] /\ t = []) \/ genuine H i t).
    change (I (c', fo).1). eapply append_tree_inv; [| |exact E].
    - intros c id t c1 Hc Er i u Hu. destruct (cache_read_inv _ _ _ _ _ _ _ _ _ Hs Er) as (_ & _ & H3).
      destruct (H3 i u Hu) as [?|[_ ?]]; auto.
    - cbn [fst]. unfold cache_new, empty_id. intros i t [<- <-]%lookup_singleton_Some. by left. }
  intros x t Hx. apply Hg. by eapply lookup_weaken.
Qed.
Print Assumptions C25_any_repository.

Example C25_witness :
  repo_holds fold_hash toy_zdec ex_repo_ix ex_packs ex_content /\
  om_sorted (ix_packs ex_repo_ix) /\
  let fo := (get_fuel (∅, ∅) (forest_from_root (cache_read fold_hash toy_zdec ex_repo_ix ex_bmap ex_packs) 6
    (cache_new fold_hash) (tree_id fold_hash ex_r))).2 in
  fo !! tree_id fold_hash [] = Some [] /\ fo !! tree_id fold_hash ex_a = Some ex_a /\
  fo !! tree_id fold_hash ex_r = Some ex_r /\ size fo = 3.
Proof.
  split; [apply ex_repo_holds|]. split; [apply ex_repo_holds|]. vm_compute. auto.
Qed.

(** Failures: a missing subdirectory, and (with a hash that allows it) a
    directory that contains itself. *)
Example C25_failures :
  fails (forest_from_root (cache_read fold_hash toy_zdec ex_repo_ix (delete (tree_id fold_hash ex_a) ex_bmap)
     (<[pk x02 := ex_file [ex_tree_blob ex_r]]> ex_packs)) 6 (cache_new fold_hash) (tree_id fold_hash ex_r)) = true /\
  fails (forest_from_root (fun c _ => Ok ([(ascii_bytes "d", mkNode (CDir (pk x05)) ex_dirmeta)], <[pk x05 := []]> c))
    6 ∅ (pk x05)) = true.
Proof. split; vm_compute; reflexivity. Qed.

(** ** C26 *)

(** The blobs a snapshot needs: its reachable trees and their files' chunks. *)
Definition needs (fo : forest) (root b : oid) : Prop :=
  exists x t, reach fo root x /\ fo !! x = Some t /\ (b = x \/ b ∈ tree_chunks t).

(** The blobs of set [X], in bytes. *)
Notation bytes_of := set_sizes.

(** For the snapshots of a repository in order, sets of the blobs each needs;
    [seen] are those of the snapshots before. *)
Fixpoint introduces (sm : gmap oid N) (seen : gset oid) (needed : list (gset oid)) (ss : list fsizes) : Prop :=
  match needed, ss with
  | [], [] => True
  | X :: needed', s :: ss' =>
      fs_introduced s = bytes_of sm (X ∖ seen) /\ introduces sm (X ∪ seen) needed' ss'
  | _, _ => False
  end.

Lemma forest_sizes_ok fo sm fuel root v v' s :
  forest_sizes fo sm fuel root v = Some (Ok (v', s)) ->
  exists l, occurs fo root l /\ accounts sm l (v, fsizes_zero) (v', s).
Proof.
  unfold forest_sizes. destruct (tree_size fo sm fuel root (v, fsizes_zero)) as [[[v1 s1]| |]|] eqn:E; try done.
  case_match; [|done]. intros [= <- <-]. by eapply tree_size_ok.
Qed.

Lemma forest_sizes_no_panic fo sm fuel root v :
  (forall x, reach fo root x -> is_Some (fo !! x)) -> forest_sizes fo sm fuel root v <> Some Panic.
Proof.
  intros Hcl. unfold forest_sizes.
  assert (forall fuel id a, (forall x, reach fo id x -> is_Some (fo !! x)) -> tree_size fo sm fuel id a <> Some Panic) as Hnp.
  { clear. induction fuel as [|fuel IH]; intros id a Hcl; [done|]. cbn [tree_size].
    destruct (Hcl id) as [t Ht]; [done|]. rewrite Ht. destruct (sm !! id); [|done]. destruct a as [v s].
    set (a' := if decide _ then _ else _). clearbody a'.
    assert (forall s x, s ∈ subtrees t -> reach fo s x -> is_Some (fo !! x)) as Hs.
    { intros s' x Hin Hr. apply Hcl. eapply rtc_l; [|exact Hr]. by exists t. }
    clear Ht. revert a'. induction t as [|[k nd] t IHt]; intros a'; cbn [fold_nodes]; [done|].
    rewrite subtrees_cons in Hs. destruct nd as [[cs|s'|tg] m]; cbn [n_contents node_subtree app] in *.
    - destruct (chunk_sizes sm cs a') as [a1| |] eqn:E; [by apply IHt|done|].
      exfalso. clear -E. revert a' E. induction cs as [|c cs IH]; intros a' E; cbn [chunk_sizes] in E; [done|].
      unfold chunk_size in E. destruct a' as [v s]. destruct (sm !! c); cbn [of_option rbind] in E; [|done].
      destruct (decide (c ∈ v)); cbn [rbind] in E; by eapply IH.
    - destruct (tree_size fo sm fuel s' a') as [[a1| |]|] eqn:E; [|done| |done].
      + apply IHt. intros; eapply Hs; [|done]. set_solver.
      + exfalso. apply (IH s' a'); [|done]. intros x. apply Hs. set_solver.
    - by apply IHt. }
  specialize (Hnp fuel root (v, fsizes_zero) Hcl).
  destruct (tree_size fo sm fuel root (v, fsizes_zero)) as [[[v1 s1]| |]|] eqn:E; try done.
  apply tree_size_ok in E as (l & _ & _ & _ & _ & H1 & H2). cbn [fst snd fsizes_zero fs_introduced fs_reused fs_tree fs_chunk] in *.
  rewrite (proj2 (N.eqb_eq _ _)); [done|]. lia.
Qed.

(** Whenever sizes are reported they are exact: each snapshot introduces the
    total size of the blobs it needs that no earlier one needs, introduced and
    reused add up to the walk of the snapshot, and the introduced sizes of all
    snapshots add up to the total size of all distinct blobs they need. *)
Theorem C26_sizes_exact : forall sm fuel (snaps : list (oid * forest)) v ss,
  sizes_all fuel sm snaps ∅ = Some (Ok (v, ss)) ->
  exists needed : list (gset oid),
    Forall2 (fun X snap => forall b, b ∈ X <-> needs snap.2 snap.1 b) needed snaps /\
    introduces sm ∅ needed ss /\
    v = ⋃ needed /\
    (usage_totals ss).1 = bytes_of sm (⋃ needed) /\
    Forall2 (fun snap s => exists walk, occurs snap.2 snap.1 walk /\
      (fs_tree s + fs_chunk s = sum_sizes sm walk)%N /\
      (fs_introduced s + fs_reused s = sum_sizes sm walk)%N) snaps ss.
Proof.
  intros sm fuel snaps v ss.
  assert (forall v0, sizes_all fuel sm snaps v0 = Some (Ok (v, ss)) ->
    exists needed : list (gset oid),
    Forall2 (fun X snap => forall b, b ∈ X <-> needs snap.2 snap.1 b) needed snaps /\
    introduces sm v0 needed ss /\ v = ⋃ needed ∪ v0 /\
    (usage_totals ss).1 = bytes_of sm (⋃ needed ∖ v0) /\
    Forall2 (fun snap s => exists walk, occurs snap.2 snap.1 walk /\
      (fs_tree s + fs_chunk s = sum_sizes sm walk)%N /\
      (fs_introduced s + fs_reused s = sum_sizes sm walk)%N) snaps ss) as Hgen.
  2:{ intros E. destruct (Hgen ∅ E) as (needed & H1 & H2 & H3 & H4 & H5). exists needed.
      rewrite difference_empty_L in H4. rewrite union_empty_r_L in H3. done. }
  revert v ss. induction snaps as [|[root fo] snaps IH]; intros v ss v0 E; cbn [sizes_all] in E.
  { injection E as <- <-. exists []. split; [constructor|]. split; [done|]. split; [set_solver|].
    split; [|constructor]. cbn. assert ((∅ : gset oid) ∖ v0 = ∅) as -> by (apply set_eq; set_solver).
    by rewrite set_sizes_empty. }
  destruct (forest_sizes fo sm fuel root v0) as [[[v1 s]| |]|] eqn:Ef; try done.
  destruct (sizes_all fuel sm snaps v1) as [[[v2 ss']| |]|] eqn:Es; try done. injection E as <- <-.
  apply forest_sizes_ok in Ef as (l & Ho & _ & Hv & Hi & Hr & Ht).
  cbn [fst snd fsizes_zero fs_introduced fs_reused fs_tree fs_chunk] in *.
  destruct (IH _ _ _ Es) as (needed & H1 & H2 & H3 & H4 & H5).
  exists (list_to_set l :: needed). split; [|split; [|split; [|split]]].
  - constructor; [|done]. intros b. rewrite elem_of_list_to_set. cbn [fst snd]. by apply occurs_reach.
  - cbn [introduces]. split; [lia|]. by rewrite <- Hv.
  - rewrite H3, Hv. cbn. set_solver.
  - cbn [usage_totals fst foldr]. unfold usage_totals in H4. cbn [fst] in H4. rewrite H4, Hi, Hv.
    change (⋃ (list_to_set l :: needed)) with ((list_to_set l : gset oid) ∪ ⋃ needed).
    rewrite N.add_0_l. rewrite <- set_sizes_union by set_solver. f_equal. apply set_eq. intros x.
    destruct (decide (x ∈ (list_to_set l : gset oid))); set_solver.
  - constructor; [|done]. exists l. cbn [fst snd]. split; [done|]. lia.
Qed.
Print Assumptions C26_sizes_exact.

(** Sizes are available for every loaded snapshot whose needed blobs are all
    listed with a size. *)
Theorem C26_sizes_available_partial : forall read fuel c root c' fo sm visited,
  (forall c id t c', read c id = Ok (t, c') -> c ⊆ c' /\ c' !! id = Some t) ->
  forest_from_root read fuel c root = Some (Ok (c', fo)) ->
  (forall b, needs fo root b -> is_Some (sm !! b)) ->
  exists v s, forest_sizes fo sm fuel root visited = Some (Ok (v, s)).
Proof.
  intros read fuel c root c' fo sm visited Hmono E Hs.
  destruct (load_ok read Hmono _ _ _ _ _ E) as (_ & _ & Hdom & _ & HC). specialize (HC c' (reflexivity _)).
  assert (exists b, tree_size fo sm fuel root (visited, fsizes_zero) = Some (Ok b)) as [[v s] Hb].
  { apply tree_size_total.
    - intros x Hr. destruct (proj2 (Hdom x) Hr) as [t Ht]. exists t. split; [done|]. split.
      + apply Hs. exists x, t. auto.
      + intros ch Hch. apply Hs. exists x, t. auto.
    - exists ∅, read, c, ∅, c', fo. split; [exact E|]. split; [done|]. intros x Hr. by apply HC. }
  exists v, s. unfold forest_sizes. rewrite Hb.
  apply tree_size_ok in Hb as (l & _ & _ & _ & _ & H1 & H2).
  cbn [fst snd fsizes_zero fs_introduced fs_reused fs_tree fs_chunk] in *.
  rewrite (proj2 (N.eqb_eq _ _)); [done|]. lia.
Qed.
Print Assumptions C26_sizes_available_partial.

Definition ex_loaded := forest_from_root (cache_read fold_hash toy_zdec ex_repo_ix ex_bmap ex_packs) 6
  (cache_new fold_hash) (tree_id fold_hash ex_r).
Definition ex_size_map : gmap oid N := get_ok ∅ (blob_to_size_map ex_repo_ix).
Lemma ex_size_map_ok : blob_to_size_map ex_repo_ix = Ok ex_size_map.
Proof. apply result_get. vm_compute. reflexivity. Qed.
Definition ex_fo_a : forest := {[ tree_id fold_hash ex_a := ex_a ]}.

(** Two snapshots of the directory [a]: the second introduces nothing. *)
Example C26_witness :
  let ss := (get_fuel (∅, []) (sizes_all 3 ex_size_map
     [(tree_id fold_hash ex_a, ex_fo_a); (tree_id fold_hash ex_a, ex_fo_a)] ∅)).2 in
  map fs_introduced ss = [5 + N.of_nat (length (enc_tree ex_a)); 0]%N /\
  map fs_reused ss = [0; 5 + N.of_nat (length (enc_tree ex_a))]%N.
Proof. vm_compute. auto. Qed.

(** But on an intact repository sizes are not always available: the empty tree
    is never stored, so it has no size, and any snapshot with an empty directory
    makes [usage] and [snapshots --sizes] fail. *)
Theorem C26_sizes_available_refuted :
  exists H zdec ix bmap packs content sm root,
    repo_holds H zdec ix packs content /\ blob_to_pack_map ix = Ok bmap /\ blob_to_size_map ix = Ok sm /\
    exists c' fo, forest_from_root (cache_read H zdec ix bmap packs) 6 (cache_new H) root = Some (Ok (c', fo)) /\
      forest_sizes fo sm 6 root ∅ = Some Err.
Proof.
  exists fold_hash, toy_zdec, ex_repo_ix, ex_bmap, ex_packs, ex_content, ex_size_map, (tree_id fold_hash ex_r).
  split; [apply ex_repo_holds|]. split; [apply ex_bmap_ok|]. split; [apply ex_size_map_ok|].
  assert (match ex_loaded with Some (Ok _) => true | _ => false end = true) as Hl by (vm_compute; reflexivity).
  unfold ex_loaded in Hl. 
  exists (get_fuel (∅, ∅) ex_loaded).1, (get_fuel (∅, ∅) ex_loaded).2. split.
  - unfold ex_loaded. by destruct (forest_from_root _ _ _ _) as [[[c' fo]| |]|].
  - assert (fails (forest_sizes (get_fuel (∅, ∅) ex_loaded).2 ex_size_map 6 (tree_id fold_hash ex_r) ∅) = true) as Hf
      by (vm_compute; reflexivity).
    by destruct (forest_sizes _ _ _ _ _) as [[?| |]|].
Qed.
Print Assumptions C26_sizes_available_refuted.

(** ** C47 *)

(** Which fields differ, for POSIX metadata. *)
Definition owner_differs (l r : posix) : Prop := p_uid l <> p_uid r \/ p_gid l <> p_gid r.

Theorem C47_metadata_differences : forall l r,
  (meta_diff_char l r = None <-> l = r) /\
  (forall lp rp, l = Posix lp -> r = Posix rp ->
    (meta_diff_char l r = Some MarkOwner <-> owner_differs lp rp) /\
    (meta_diff_char l r = Some MarkPermissions <-> ~ owner_differs lp rp /\ p_mode lp <> p_mode rp) /\
    (meta_diff_char l r = Some MarkMtime <->
       ~ owner_differs lp rp /\ p_mode lp = p_mode rp /\ p_mtime lp <> p_mtime rp) /\
    (meta_diff_char l r = Some MarkAtime <->
       ~ owner_differs lp rp /\ p_mode lp = p_mode rp /\ p_mtime lp = p_mtime rp /\ p_atime lp <> p_atime rp)).
Proof.
  intros l r. split.
  - unfold meta_diff_char. case_decide; naive_solver.
  - intros lp rp -> ->. unfold meta_diff_char, owner_differs. case_decide as Heq.
    { injection Heq as ->. naive_solver. }
    destruct (N.eqb_spec (p_uid lp) (p_uid rp)), (N.eqb_spec (p_gid lp) (p_gid rp)),
      (N.eqb_spec (p_mode lp) (p_mode rp)), (Z.eqb_spec (p_mtime lp) (p_mtime rp)), (Z.eqb_spec (p_atime lp) (p_atime rp));
      cbn [negb orb]; naive_solver.
Qed.
Print Assumptions C47_metadata_differences.

(** The kind shown for a node is the one its contents record, whenever metadata
    and contents agree; the POSIX kinds are told apart by the file type bits. *)
Theorem C47_kind : forall n,
  (forall k, node_kind n = Ok k -> k = contents_kind (n_contents n) /\ k = meta_kind (n_meta n)) /\
  (meta_kind (n_meta n) = contents_kind (n_contents n) -> node_kind n = Ok (contents_kind (n_contents n))).
Proof.
  intros n. unfold node_kind. case_bool_decide as Hb; cbn; [|naive_solver].
  split; [|done]. intros k [= <-]. auto.
Qed.
Print Assumptions C47_kind.

Theorem C47_posix_kind : forall mode,
  (posix_kind mode = KSymlink <-> N.land mode 61440 = 40960%N) /\
  (posix_kind mode = KDirectory <-> N.land mode 61440 = 16384%N) /\
  (posix_kind mode = KFile <-> N.land mode 61440 = 32768%N).
Proof.
  intros mode. unfold posix_kind. cbv zeta. generalize (N.land mode 61440). intros b.
  destruct (N.eqb_spec b 40960) as [->|]; [done|]. destruct (N.eqb_spec b 16384) as [->|]; [done|].
  destruct (N.eqb_spec b 32768) as [->|]; [done|]. naive_solver.
Qed.
Print Assumptions C47_posix_kind.

(** What was saved on Windows: bit 10 is FILE_ATTRIBUTE_REPARSE_POINT, bit 4 FILE_ATTRIBUTE_DIRECTORY. *)
Theorem C47_windows_kind : forall w,
  (meta_kind (Windows w) = KSymlink <-> N.testbit (w_attributes w) 10 = true) /\
  (meta_kind (Windows w) = KDirectory <-> N.testbit (w_attributes w) 10 = false /\ N.testbit (w_attributes w) 4 = true) /\
  (meta_kind (Windows w) = KFile <-> N.testbit (w_attributes w) 10 = false /\ N.testbit (w_attributes w) 4 = false).
Proof.
  intros w. cbn [meta_kind]. generalize (w_attributes w). intros a. unfold windows_kind.
  assert (forall i, N.eqb (N.land a (2 ^ i)) 0 = negb (N.testbit a i)) as Hbit.
  { intros i. destruct (N.eqb_spec (N.land a (2 ^ i)) 0) as [E|E].
    - apply (f_equal (fun x => N.testbit x i)) in E. rewrite N.land_spec, N.pow2_bits_true, andb_true_r, N.bits_0 in E. by rewrite E.
    - destruct (N.testbit a i) eqn:Et; [done|]. destruct E. apply N.bits_inj. intros j. rewrite N.land_spec, N.bits_0, N.pow2_bits_eqb.
      destruct (N.eqb_spec i j) as [<-|]; [by rewrite Et|by rewrite andb_false_r]. }
  change 1024%N with (2 ^ 10)%N. change 16%N with (2 ^ 4)%N. rewrite !Hbit, !negb_involutive.
  destruct (N.testbit a 10), (N.testbit a 4); naive_solver.
Qed.
Print Assumptions C47_windows_kind.

Example C47_witness :
  meta_diff_char ex_filemeta (ex_meta 33184 (Some 5%N)) = Some MarkPermissions /\
  meta_diff_char ex_filemeta (Posix (mkPosix 33188 (Some 5%N) 1000 1000 6 7)) = Some MarkAtime /\
  meta_diff_char ex_filemeta (ex_meta 33188 (Some 6%N)) = Some MarkOther /\
  node_kind (mkNode (CFile []) ex_filemeta) = Ok KFile /\ posix_kind 41471 = KSymlink.
Proof. repeat split; vm_compute; reflexivity. Qed.
