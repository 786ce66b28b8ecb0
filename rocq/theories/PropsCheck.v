(** Property C37: what a clean [check] means, and when it comes out clean. *)

From Verif Require Import Base OMap Cbor Formats FormatsFacts Hashing Pack PackFacts Index IndexFacts Meta Forest ForestFacts
  PropsPack PropsIndex PropsForest Reader ReaderFacts PropsRead Check CheckFacts Toy.

(** ** What the theorems speak about *)

(** The snapshot stored as [file] under the name [id] can be read back: its file
    loads; its trees load, from a new cache, with every subdirectory there, to
    whatever depth; and its files' chunks can be read in any order and any number
    of times with a new chunk cache, each coming out with the right hash. *)
Definition reads_back (H : bytes -> oid) (zdec : bytes -> bytes * bool) (ix : index) (bmap : gmap oid oid)
    (packs : gmap oid bytes) (clock : nat -> N) (fuel : nat) (id : oid) (file : bytes) : Prop :=
  exists s c fo,
    snapshot_load H id file = Ok s /\
    forest_from_root (cache_read H zdec ix bmap packs) fuel (cache_new H) (any_tree s) = Some (Ok (c, fo)) /\
    is_Some (fo !! any_tree s) /\
    (forall x t sub, fo !! x = Some t -> sub ∈ subtrees t -> is_Some (fo !! sub)) /\
    forall ids, (forall i, i ∈ ids -> exists x t, fo !! x = Some t /\ i ∈ tree_chunks t) ->
      (exists rs s', read_blobs H zdec ix bmap packs clock reader_new ids rs s') /\
      forall rs s', read_blobs H zdec ix bmap packs clock reader_new ids rs s' ->
        Forall2 (fun i r => exists x, r = Ok x /\ H x = i) ids rs.

(** No pack holds both chunks and trees. *)
Definition unmixed (ix : index) : Prop := forall p m e e',
  om_get p (ix_packs ix) = Some m -> e ∈ m -> e' ∈ m -> e_type e = e_type e'.

(** No file of snapshot [id] has a tree for a chunk. *)
Definition chunks_are_chunks (H : bytes -> oid) (zdec : bytes -> bytes * bool) (ix : index) (bmap : gmap oid oid)
    (packs : gmap oid bytes) (fuel : nat) (id : oid) (file : bytes) : Prop :=
  forall s c fo x t i p m e, snapshot_load H id file = Ok s ->
    forest_from_root (cache_read H zdec ix bmap packs) fuel (cache_new H) (any_tree s) = Some (Ok (c, fo)) ->
    fo !! x = Some t -> i ∈ tree_chunks t ->
    om_get p (ix_packs ix) = Some m -> e ∈ m -> e_id e = i -> e_type e = Chunk.

Lemma check_inv H zdec rp fuel d : check H zdec rp fuel d = Some (Ok tt) ->
  exists ix bmap chunks, disk_index H zdec d = Ok ix /\ blob_to_pack_map ix = Ok bmap /\
    snapshot_chunks H (cache_read H zdec ix bmap (d_packs d)) fuel (cache_new H) (d_snapshots d) = Some (Ok chunks) /\
    (forall p m, om_get p (ix_packs ix) = Some m -> pack_fine H zdec rp d (p, m) = true) /\
    (forall c, c ∈ chunks -> is_Some (bmap !! c)).
Proof.
  unfold check. intros E. destruct (disk_index H zdec d) as [ix| |] eqn:Ei; [|done..].
  destruct (blob_to_pack_map ix) as [bmap| |] eqn:Eb; [|done..].
  destruct (snapshot_chunks H _ fuel (cache_new H) (d_snapshots d)) as [[chunks| |]|] eqn:Ec; [|done..].
  destruct (forallb _ (ix_packs ix) && _)%bool eqn:Ef; [|done]. apply andb_true_iff in Ef as [E1 E2].
  rewrite forallb_forall in E1, E2. exists ix, bmap, chunks. split; [done|]. split; [done|]. split; [done|]. split.
  - intros p m Hm. apply om_get_elem in Hm; [|by eapply disk_index_sorted]. apply E1. by apply elem_of_list_In.
  - intros c Hc. apply elem_of_list_In, E2 in Hc. by apply bool_decide_eq_true in Hc.
Qed.

(** ** C37 *)

(** A clean check, in either mode: the index loads, no blob is in it twice, every
    pack it lists is there, and, if packs were read, every blob of every pack
    comes out of its pack with the right hash. *)
Theorem C37_clean_check_means_sound_packs : forall H zdec rp fuel d,
  check H zdec rp fuel d = Some (Ok tt) ->
  exists ix, disk_index H zdec d = Ok ix /\ NoDup (blob_ids ix) /\
    forall p m, om_get p (ix_packs ix) = Some m -> exists file, d_packs d !! p = Some file /\
      (rp = true -> forall e, e ∈ m -> exists e' b, extract_blob H zdec file (e_id e) m = Ok (e', b) /\ H b = e_id e).
Proof.
  intros H zdec rp fuel d E. destruct (check_inv _ _ _ _ _ E) as (ix & bmap & cs & Ei & Eb & _ & Hp & _).
  exists ix. split; [done|]. split.
  { destruct (decide (NoDup (blob_ids ix))) as [Hn|Hn]; [done|].
    destruct (proj2 (C11_lookup_maps ix) Hn) as (E' & _). congruence. }
  intros p m Hm. specialize (Hp p m Hm). unfold pack_fine in Hp. cbn [fst snd] in Hp.
  destruct (d_packs d !! p) as [file|]; [|done]. exists file. split; [done|]. intros -> e He.
  destruct (verify H zdec file m) as [[]| |] eqn:Ev; [|done..].
  destruct (verify_extract H zdec file m (e_id e) Ev) as (e' & b & Ex & _ & _ & Hb); [by apply elem_of_list_fmap_1|].
  eauto.
Qed.
Print Assumptions C37_clean_check_means_sound_packs.

(** A clean check that read the packs: every snapshot can be read back.  The last
    two premises are what the full statement lacks (see the refutations below);
    what this program writes meets them unless a file's chunk happens to have the
    id of a tree. *)
Theorem C37_clean_check_means_readable_partial : forall H zdec fuel d ix bmap clock,
  disk_index H zdec d = Ok ix -> blob_to_pack_map ix = Ok bmap -> S (size (ix_ids ix)) < fuel ->
  check H zdec true fuel d = Some (Ok tt) -> clock_advances clock ->
  unmixed ix ->
  (forall id file, (id, file) ∈ d_snapshots d -> chunks_are_chunks H zdec ix bmap (d_packs d) fuel id file) ->
  forall id file, (id, file) ∈ d_snapshots d -> reads_back H zdec ix bmap (d_packs d) clock fuel id file.
Proof.
  intros H zdec fuel d ix bmap clock Ei Eb Hfuel E Hclock Hmix Hcc id file Hin.
  destruct (check_inv _ _ _ _ _ E) as (ix' & bmap' & cs & Ei' & Eb' & Ec & Hp & Hcs).
  rewrite Ei in Ei'. injection Ei' as <-. rewrite Eb in Eb'. injection Eb' as <-.
  assert (om_sorted (ix_packs ix)) as Hs by by eapply disk_index_sorted.
  pose proof (snapshot_chunks_spec H zdec ix bmap (d_packs d) Eb Hs fuel (cache_new H) (d_snapshots d)
    (cache_new_fine H zdec ix bmap (d_packs d) Eb Hs) Hfuel) as Hspec.
  rewrite Ec in Hspec. destruct Hspec as (fos & Hfos & Hchunks).
  apply elem_of_list_lookup in Hin as [k Hk]. destruct (Forall2_lookup_l _ _ _ _ _ Hfos Hk) as (fo & Hfo & s & c & Es & Ef).
  cbn [fst snd] in Es. assert (fo ∈ fos) as Hin' by (apply elem_of_list_lookup; eauto).
  assert ((id, file) ∈ d_snapshots d) as Hin by (apply elem_of_list_lookup; eauto).
  exists s, c, fo. split; [done|]. split; [done|].
  destruct (C25_any_repository H zdec ix bmap (d_packs d) (any_tree s) fuel Hs Hfuel) as [_ H25].
  destruct (H25 c fo Ef) as (G1 & G2 & _ & _ & _). split; [done|]. split; [done|].
  intros ids Hids.
  assert (forall i p m e, i ∈ ids -> om_get p (ix_packs ix) = Some m -> e ∈ m -> e_id e = i -> e_type e = Chunk) as Hty.
  { intros i p m e Hi Hm He Hei. destruct (Hids i Hi) as (x & t & Hx & Hit). by eapply (Hcc id file Hin). }
  destruct (C27_never_wrong_never_crashes_partial H zdec ix bmap (d_packs d) clock ids Hs Eb Hclock Hty) as [Hex Hall].
  split; [done|]. intros rs s' Hr. destruct (Hall rs s' Hr) as [Hf2 _].
  assert (Forall (fun r => r <> Err) rs) as Hne.
  { eapply read_blobs_verified; [exact Hr|]. intros i Hi. destruct (Hids i Hi) as (x & t & Hx & Hit).
    assert (i ∈ cs) as Hics by (apply Hchunks; eauto 6). destruct (Hcs i Hics) as [p Hbp].
    pose proof Hbp as Hbp'. apply (bmap_get H zdec ix bmap (d_packs d) Eb Hs) in Hbp' as (m & e & Hm & He & Hei).
    specialize (Hp p m Hm). unfold pack_fine in Hp. cbn [fst snd] in Hp.
    destruct (d_packs d !! p) as [pf|] eqn:Epf; [|done]. destruct (verify H zdec pf m) as [[]| |] eqn:Ev; [|done..].
    exists p, m, pf. split; [done|]. split; [done|]. split; [done|]. split; [done|].
    intros e' He'. rewrite (Hmix p m e' e Hm He' He). by eapply Hty. }
  clear -Hf2 Hne. induction Hf2 as [|i r ids rs Hir Hf2 IH]; [constructor|].
  apply Forall_cons in Hne as [Hr Hne]. constructor; [|auto]. destruct r as [x| |]; [by exists x|done|done].
Qed.
Print Assumptions C37_clean_check_means_readable_partial.

(** The repository is intact: each pack the index lists was written for its blobs,
    with its manifest; no blob is in two packs; and every snapshot's file loads and
    everything reachable from its tree is stored ([store] says under which id
    which tree), without a directory inside itself. *)
Definition intact (H : bytes -> oid) (zdec : bytes -> bytes * bool) (d : disk) (ix : index)
    (content : gmap oid (list blob)) (store : forest) : Prop :=
  disk_index H zdec d = Ok ix /\
  repo_holds H zdec ix (d_packs d) content /\
  (forall p bs, content !! p = Some bs -> manifest_wf (manifest_of bs) /\
     exists z zm, d_packs d !! p = Some (pack_file z zm) /\ zstream_of zdec z (concat (map b_bytes bs)) /\
       zstream_of zdec zm (enc_manifest (manifest_of bs)) /\ (N.of_nat (length zm) < 2 ^ 32)%N) /\
  NoDup (blob_ids ix) /\
  (forall i t, store !! i = Some t <-> stored_tree H content i t) /\
  (forall id file, (id, file) ∈ d_snapshots d -> exists s, snapshot_load H id file = Ok s /\
     forall x, reach store (any_tree s) x -> exists t, store !! x = Some t /\ ~ tc (child store) x x /\
       forall i, i ∈ tree_chunks t -> exists p bs b, content !! p = Some bs /\ b ∈ bs /\ b_id b = i).

(** An intact repository passes the check, in both modes. *)
Theorem C37_intact_repository_passes : forall H zdec rp fuel d ix content store,
  intact H zdec d ix content store -> S (size (ix_ids ix)) < fuel ->
  check H zdec rp fuel d = Some (Ok tt).
Proof.
  intros H zdec rp fuel d ix content store (Ei & Hrepo & Hpk & Hnd & Hst & Hsn) Hfuel.
  destruct (proj1 (C11_lookup_maps ix) Hnd) as (bmap & st0 & sz0 & Eb & _).
  assert (om_sorted (ix_packs ix)) as Hs by by eapply disk_index_sorted.
  assert (forall i t t', stored_tree H content i t -> stored_tree H content i t' -> t = t') as Hun.
  { intros i t t' H1%Hst H2%Hst. congruence. }
  assert (forall t, stored_tree H content (tree_id H []) t -> t = []) as Hempty.
  { intros t Ht. apply (Hun _ _ _ Ht). by left. }
  unfold check. rewrite Ei, Eb.
  pose proof (snapshot_chunks_spec H zdec ix bmap (d_packs d) Eb Hs fuel (cache_new H) (d_snapshots d)
    (cache_new_fine H zdec ix bmap (d_packs d) Eb Hs) Hfuel) as Hspec.
  assert (forall id file, (id, file) ∈ d_snapshots d -> exists s c fo, snapshot_load H id file = Ok s /\
    forest_from_root (cache_read H zdec ix bmap (d_packs d)) fuel (cache_new H) (any_tree s) = Some (Ok (c, fo)) /\
    forall x t, fo !! x = Some t -> reach store (any_tree s) x /\ store !! x = Some t) as Hone.
  { intros id file Hin. destruct (Hsn id file Hin) as (s & Es & Hreach).
    assert (size store < fuel) as Hsz.
    { assert (dom store ⊆ {[empty_id H]} ∪ ix_ids ix) as Hd.
      { intros x Hx. apply elem_of_dom in Hx as [t Ht]. apply Hst in Ht as [[-> _]|(p & bs & b & Hp & Hb & _ & Hi & _)].
        - apply elem_of_union_l, elem_of_singleton. done.
        - apply elem_of_union_r, elem_of_list_to_set, elem_of_list_fmap. exists (p, entry_of b). split; [done|].
          apply (entries_content H zdec ix bmap (d_packs d) content Hrepo Eb). eauto. }
      apply subseteq_size in Hd. rewrite size_dom in Hd.
      pose proof (size_union_alt {[empty_id H]} (ix_ids ix)) as E1. rewrite size_singleton in E1. rewrite E1 in Hd.
      pose proof (subseteq_size (ix_ids ix ∖ {[empty_id H]}) (ix_ids ix)) as Hss.
      assert (ix_ids ix ∖ {[empty_id H]} ⊆ ix_ids ix) as Hsub by set_solver. specialize (Hss Hsub). lia. }
    destruct (C25_loads_exactly_the_reachable_trees H zdec ix bmap (d_packs d) content store [] [] (cache_new H) fuel (any_tree s))
      as [(c & fo & Ef & _ & _ & Hfo)|[_ [(x & Hx & Hn)|(x & Hx & Hcy)]]]; try done.
    - exists s, c, fo. split; [done|]. split; [done|]. intros x t Hx. by apply Hfo.
    - destruct (Hreach x Hx) as (t & Ht & _). congruence.
    - destruct (Hreach x Hx) as (t & _ & Ha & _). done. }
  destruct (snapshot_chunks H _ fuel (cache_new H) (d_snapshots d)) as [[cs| |]|]; [| | |done].
  - destruct Hspec as (fos & Hfos & Hcs).
    assert (forallb (pack_fine H zdec rp d) (ix_packs ix) = true) as ->.
    { apply forallb_forall. intros [p m] Hin. apply elem_of_list_In, om_get_elem in Hin; [|done].
      destruct Hrepo as (_ & Hix & Hr2). rewrite Hix in Hin. destruct (content !! p) as [bs|] eqn:Ep; [|done].
      injection Hin as <-. destruct (Hpk p bs Ep) as (Hw & z & zm & Hf & Hz & Hzm & Hl). destruct (Hr2 p bs Ep) as (Hg & _).
      unfold pack_fine. cbn [fst snd]. rewrite Hf. destruct rp; [|done].
      rewrite (verify_ok H zdec bs z zm); try done. eapply Forall_impl; [exact Hg|]. by intros ? (? & _). }
    cbn [andb]. replace (forallb _ cs) with true; [done|]. symmetry. apply forallb_forall. intros i Hi.
    apply bool_decide_eq_true. apply elem_of_list_In, Hcs in Hi as (fo & x & t & Hfo & Hx & Hi).
    apply elem_of_list_lookup in Hfo as [k Hk]. destruct (Forall2_lookup_r _ _ _ _ _ Hfos Hk) as ([id file] & Hsnap & s & c & Es & Ef).
    cbn [fst snd] in Es. assert ((id, file) ∈ d_snapshots d) as Hin by (apply elem_of_list_lookup; eauto).
    destruct (Hone id file Hin) as (s' & c' & fo' & Es' & Ef' & Hfo').
    rewrite Es in Es'. injection Es' as <-. rewrite Ef in Ef'. injection Ef' as <- <-.
    destruct (Hfo' x t Hx) as [Hr Ht]. destruct (Hsn id file Hin) as (s' & Es' & Hreach).
    rewrite Es in Es'. injection Es' as <-. destruct (Hreach x Hr) as (t' & Ht' & _ & Hc).
    rewrite Ht in Ht'. injection Ht' as <-. destruct (Hc i Hi) as (p & bs & b & Hp & Hb & Hbi).
    exists p. apply (bmap_spec H zdec ix bmap (d_packs d) content Hrepo Eb). eauto.
  - destruct Hspec as ([id file] & Hin & Hno). destruct (Hone id file Hin) as (s & c & fo & Es & Ef & _).
    destruct (Hno fo). by exists s, c.
  - destruct Hspec as ([id file] & Hin & Hno). destruct (Hone id file Hin) as (s & c & fo & Es & Ef & _).
    destruct (Hno fo). by exists s, c.
Qed.
Print Assumptions C37_intact_repository_passes.

(** ** A repository that meets the premises *)

Definition ck_snapshot (root : oid) : snapshot := mkSnapshot 1700000000000000000 (ascii_bytes "UTC") (ascii_bytes "me") [] [ascii_bytes "/r"] root.
Definition ck_snapshot_file (s : snapshot) : bytes := snapshot_magic ++ x32 :: enc_snapshot s.
Definition ck_snap (root : oid) : oid * bytes := (fold_hash (enc_snapshot (ck_snapshot root)), ck_snapshot_file (ck_snapshot root)).
Definition ck_index (ix : index) : oid * bytes := (index_id fold_hash ix, index_file (toy_zenc (enc_index ix))).
Definition ck_disk (ix : index) (packs : gmap oid bytes) (roots : list oid) : disk :=
  mkDisk packs [ck_index ix] (map ck_snap roots).

Definition ck_roots : list oid := [tree_id fold_hash ex_r; tree_id fold_hash ex_a].
Definition ck_ex : disk := ck_disk ex_repo_ix ex_packs ck_roots.
Definition is_ok {A} (r : option (result A)) : bool := match r with Some (Ok _) => true | _ => false end.

Lemma is_ok_unit (r : option (result unit)) : is_ok r = true -> r = Some (Ok tt).
Proof. by destruct r as [[[]| |]|]. Qed.

Lemma is_ok_pair {A B} (r : option (result (A * B))) d : is_ok r = true -> r = Some (Ok ((get_fuel d r).1, (get_fuel d r).2)).
Proof. by destruct r as [[[? ?]| |]|]. Qed.

Lemma ck_ex_index : disk_index fold_hash toy_zdec ck_ex = Ok ex_repo_ix.
Proof. vm_compute. reflexivity. Qed.
Lemma ck_ex_clean : check fold_hash toy_zdec true 8 ck_ex = Some (Ok tt).
Proof. apply is_ok_unit. vm_compute. reflexivity. Qed.

Lemma unmixed_by ix : om_sorted (ix_packs ix) ->
  forallb (fun pm : oid * manifest => forallb (fun e => forallb (fun e' => bool_decide (e_type e = e_type e')) pm.2) pm.2) (ix_packs ix) = true ->
  unmixed ix.
Proof.
  intros Hs E p m e e' Hm He He'. apply om_get_elem in Hm; [|done]. rewrite forallb_forall in E.
  specialize (E (p, m) (proj1 (elem_of_list_In _ _) Hm)). cbn [snd] in E. rewrite forallb_forall in E.
  specialize (E e (proj1 (elem_of_list_In _ _) He)). rewrite forallb_forall in E.
  specialize (E e' (proj1 (elem_of_list_In _ _) He')). by apply bool_decide_eq_true in E.
Qed.

Definition chunks_by (H : bytes -> oid) (zdec : bytes -> bytes * bool) (ix : index) (bmap : gmap oid oid)
    (packs : gmap oid bytes) (fuel : nat) (kf : oid * bytes) : bool :=
  match snapshot_load H kf.1 kf.2 with
  | Ok s =>
      match forest_from_root (cache_read H zdec ix bmap packs) fuel (cache_new H) (any_tree s) with
      | Some (Ok (_, fo)) =>
          forallb (fun xt : oid * tree => forallb (fun i => forallb (fun pe : oid * entry =>
            bool_decide (e_id pe.2 = i -> e_type pe.2 = Chunk)) (index_entries ix)) (tree_chunks xt.2)) (map_to_list fo)
      | _ => true
      end
  | _ => true
  end.

Lemma chunks_by_ok H zdec ix bmap packs fuel kf : om_sorted (ix_packs ix) ->
  chunks_by H zdec ix bmap packs fuel kf = true -> chunks_are_chunks H zdec ix bmap packs fuel kf.1 kf.2.
Proof.
  intros Hs E s c fo x t i p m e Es Ef Hx Hi Hm He Hei. unfold chunks_by in E. rewrite Es, Ef in E.
  rewrite forallb_forall in E. apply elem_of_map_to_list, elem_of_list_In in Hx. specialize (E _ Hx). cbn [snd] in E.
  rewrite forallb_forall in E. specialize (E i (proj1 (elem_of_list_In _ _) Hi)). rewrite forallb_forall in E.
  assert ((p, e) ∈ index_entries ix) as Hpe by (apply elem_of_index_entries_get; eauto).
  specialize (E _ (proj1 (elem_of_list_In _ _) Hpe)). apply bool_decide_eq_true in E. auto.
Qed.

Lemma pair_inv {A B} (a a' : A) (b b' : B) : (a, b) = (a', b') -> a = a' /\ b = b'.
Proof. by intros [= -> ->]. Qed.

(** Trees in layers: no directory is inside itself. *)
Lemma ranked (store : forest) (rank : oid -> nat) x :
  (forall a b, child store a b -> rank b < rank a) -> ~ tc (child store) x x.
Proof.
  intros Hr Ht. assert (forall a b, tc (child store) a b -> rank b < rank a) as Htc.
  { clear x Ht. intros a b Hab. induction Hab as [a b Hab|a b c Hab _ IH]; [auto|]. specialize (Hr a b Hab). lia. }
  specialize (Htc x x Ht). lia.
Qed.

Definition ck_store : forest := list_to_map [(tree_id fold_hash [], []); (tree_id fold_hash ex_a, ex_a); (tree_id fold_hash ex_r, ex_r)].
Definition ck_rank (x : oid) : nat :=
  if bool_decide (x = tree_id fold_hash ex_r) then 2 else if bool_decide (x = tree_id fold_hash ex_a) then 1 else 0.

Lemma ck_children a b : child ck_store a b -> ck_rank b < ck_rank a /\ is_Some (ck_store !! b).
Proof.
  intros (t & Ht & Hb). assert (forallb (fun xt : oid * tree => forallb (fun y => Nat.ltb (ck_rank y) (ck_rank xt.1) &&
    bool_decide (is_Some (ck_store !! y))) (subtrees xt.2)) (map_to_list ck_store) = true) as E by (vm_compute; reflexivity).
  rewrite forallb_forall in E. apply elem_of_map_to_list, elem_of_list_In in Ht. specialize (E _ Ht). cbn [fst snd] in E.
  rewrite forallb_forall in E. apply elem_of_list_In in Hb. specialize (E _ Hb). apply andb_true_iff in E as [E1 E2].
  split; [exact (proj1 (Nat.ltb_lt _ _) E1)|exact (proj1 (bool_decide_eq_true _) E2)].
Qed.

Lemma ck_store_spec i t : ck_store !! i = Some t <-> stored_tree fold_hash ex_content i t.
Proof.
  split.
  - intros Hi. apply elem_of_list_to_map_2 in Hi.
    rewrite !elem_of_cons in Hi. destruct Hi as [E|[E|[E|E]]]; [| | |by apply elem_of_nil in E].
    + apply pair_inv in E as [-> ->]. by left.
    + apply pair_inv in E as [-> ->]. right. exists (pk x02), ex_tree_pack, (ex_tree_blob ex_a).
      split; [unfold ex_content; by rewrite lookup_insert_ne, lookup_singleton|]. split; [left|].
      split; [done|]. split; [done|]. split; [done|apply ex_a_wf].
    + apply pair_inv in E as [-> ->]. right. exists (pk x02), ex_tree_pack, (ex_tree_blob ex_r).
      split; [unfold ex_content; by rewrite lookup_insert_ne, lookup_singleton|]. split; [right; left|].
      split; [done|]. split; [done|]. split; [done|apply ex_r_wf].
  - assert (NoDup (map fst [(tree_id fold_hash [], @nil (bytes * node)); (tree_id fold_hash ex_a, ex_a); (tree_id fold_hash ex_r, ex_r)])) as Hnd
      by (apply (bool_decide_unpack _); vm_compute; exact I).
    intros [[-> ->]|(p & bs & b & Hp & Hb & Hty & Hi & Hbt & Hw)]; [apply elem_of_list_to_map_1; [done|left]|].
    unfold ex_content in Hp.
    apply lookup_insert_Some in Hp as [[<- <-]|[Hne Hp]]; [|apply lookup_singleton_Some in Hp as [<- <-]].
    + apply elem_of_list_singleton in Hb as ->. done.
    + apply elem_of_cons in Hb as [->|Hb]; [|apply elem_of_list_singleton in Hb as ->].
      * cbn [ex_tree_blob b_id b_bytes] in *. assert (t = ex_a) as -> by (apply enc_tree_inj; [done|apply ex_a_wf|done]).
        subst i. apply elem_of_list_to_map_1; [done|right; left].
      * cbn [ex_tree_blob b_id b_bytes] in *. assert (t = ex_r) as -> by (apply enc_tree_inj; [done|apply ex_r_wf|done]).
        subst i. apply elem_of_list_to_map_1; [done|right; right; left].
Qed.

Lemma ck_ex_intact : intact fold_hash toy_zdec ck_ex ex_repo_ix ex_content ck_store.
Proof.
  split; [apply ck_ex_index|]. split; [apply ex_repo_holds|]. split; [|split; [|split; [apply ck_store_spec|]]].
  - intros p bs Hp. unfold ex_content in Hp.
    apply lookup_insert_Some in Hp as [[<- <-]|[Hne Hp]]; [|apply lookup_singleton_Some in Hp as [<- <-]].
    + split; [apply (bool_decide_unpack _); vm_compute; exact I|]. eexists _, _.
      split; [cbn [ck_ex ck_disk d_packs]; unfold ex_packs; by rewrite lookup_insert|]. split; [apply toy_zstream|].
      split; [apply toy_zstream|]. vm_compute. reflexivity.
    + split; [apply (bool_decide_unpack _); vm_compute; exact I|]. eexists _, _.
      split; [cbn [ck_ex ck_disk d_packs]; unfold ex_packs; by rewrite lookup_insert_ne, lookup_singleton|].
      split; [apply toy_zstream|]. split; [apply toy_zstream|]. vm_compute. reflexivity.
  - apply (bool_decide_unpack _). vm_compute. exact I.
  - intros id file Hin.
    assert (exists root, (root = tree_id fold_hash ex_r \/ root = tree_id fold_hash ex_a) /\ (id, file) = ck_snap root) as (root & Hroot & E).
    { change ((id, file) ∈ map ck_snap ck_roots) in Hin. apply elem_of_list_fmap in Hin as (root & -> & Hin).
      exists root. split; [|done]. unfold ck_roots in Hin. rewrite !elem_of_cons in Hin.
      destruct Hin as [->|[->|Hin]]; [auto..|by apply elem_of_nil in Hin]. }
    apply pair_inv in E as [-> ->]. exists (Version2 (ck_snapshot root)). split.
    { destruct Hroot as [->| ->]; vm_compute; reflexivity. }
    cbn [any_tree ck_snapshot sn_tree]. intros x Hx.
    assert (is_Some (ck_store !! x)) as [t Ht].
    { revert x Hx. apply rtc_ind_r; [destruct Hroot as [->| ->]; (apply (bool_decide_unpack _); vm_compute; exact I)|].
      intros y z _ Hyz _. by destruct (ck_children y z Hyz). }
    exists t. split; [done|]. split; [apply (ranked _ ck_rank); intros a b Hab; by destruct (ck_children a b Hab)|].
    intros i Hi. exists (pk x01), ex_chunk_pack, ex_hello. split; [unfold ex_content; by rewrite lookup_insert|]. split; [left|].
    assert (forallb (fun xt : oid * tree => forallb (fun i => bool_decide (b_id ex_hello = i)) (tree_chunks xt.2)) (map_to_list ck_store) = true)
      as E by (vm_compute; reflexivity).
    rewrite forallb_forall in E. apply elem_of_map_to_list, elem_of_list_In in Ht. specialize (E _ Ht). cbn [snd] in E.
    rewrite forallb_forall in E. apply elem_of_list_In in Hi. specialize (E i Hi). by apply bool_decide_eq_true in E.
Qed.

(** Two snapshots, one of them of a subdirectory of the other, three directories,
    one chunk: intact, the check is clean, and the premises of the readability
    theorem hold.  Damage of each kind is reported: a pack missing, a byte of a
    pack changed (noticed only when packs are read), a chunk no pack holds, a
    snapshot under the wrong name, an index under the wrong name. *)
Definition ck_flip (f : bytes) : bytes := take 14 f ++ x7a :: drop 15 f.
Example C37_witness :
  intact fold_hash toy_zdec ck_ex ex_repo_ix ex_content ck_store /\
  S (size (ix_ids ex_repo_ix)) < 8 /\
  check fold_hash toy_zdec true 8 ck_ex = Some (Ok tt) /\
  blob_to_pack_map ex_repo_ix = Ok ex_bmap /\ clock_advances N.of_nat /\ unmixed ex_repo_ix /\
  (forall id file, (id, file) ∈ d_snapshots ck_ex -> chunks_are_chunks fold_hash toy_zdec ex_repo_ix ex_bmap ex_packs 8 id file) /\
  fails (check fold_hash toy_zdec false 8 (ck_disk ex_repo_ix (delete (pk x01) ex_packs) ck_roots)) = true /\
  fails (check fold_hash toy_zdec true 8 (ck_disk ex_repo_ix (alter ck_flip (pk x01) ex_packs) ck_roots)) = true /\
  check fold_hash toy_zdec false 8 (ck_disk ex_repo_ix (alter ck_flip (pk x01) ex_packs) ck_roots) = Some (Ok tt) /\
  fails (check fold_hash toy_zdec false 8 (ck_disk (mkIndex [] [(pk x02, manifest_of ex_tree_pack)]) ex_packs ck_roots)) = true /\
  fails (check fold_hash toy_zdec false 8 (mkDisk ex_packs [ck_index ex_repo_ix] [(pk x09, (ck_snap (tree_id fold_hash ex_r)).2)])) = true /\
  fails (check fold_hash toy_zdec false 8 (mkDisk ex_packs [(pk x09, (ck_index ex_repo_ix).2)] [])) = true.
Proof.
  assert (om_sorted (ix_packs ex_repo_ix)) as Hs by apply ex_repo_holds.
  split; [apply ck_ex_intact|]. split; [vm_compute; lia|]. split; [apply ck_ex_clean|]. split; [apply ex_bmap_ok|].
  split; [intros i j; lia|]. split; [apply unmixed_by; [done|vm_compute; reflexivity]|]. split.
  { intros id file Hin. apply (chunks_by_ok _ _ _ _ _ _ (id, file) Hs). revert id file Hin.
    assert (forallb (chunks_by fold_hash toy_zdec ex_repo_ix ex_bmap ex_packs 8) (d_snapshots ck_ex) = true) as E by (vm_compute; reflexivity).
    rewrite forallb_forall in E. intros id file Hin. apply E. by apply elem_of_list_In. }
  split; [vm_compute; reflexivity|]. split; [vm_compute; reflexivity|].
  split; [apply is_ok_unit; vm_compute; reflexivity|].
  split; [vm_compute; reflexivity|]. split; vm_compute; reflexivity.
Qed.

(** ** What a clean check does not mean *)

(** A file that names a tree where it should name a chunk: every pack is in order,
    the check that reads the packs is clean, and reading the file panics. *)
Definition ck_evil : tree := [(ascii_bytes "f", mkNode (CFile [tree_id fold_hash ex_a]) ex_filemeta)].
Definition ck_evil_repo : list (oid * list blob) :=
  [(pk x01, ex_chunk_pack); (pk x02, [ex_tree_blob ex_a; ex_tree_blob ck_evil])].
Definition ck_evil_disk : disk := ck_disk (made_ix ck_evil_repo) (made_packs ck_evil_repo) [tree_id fold_hash ck_evil].
Definition ck_evil_map : gmap oid oid := get_ok ∅ (blob_to_pack_map (made_ix ck_evil_repo)).
Theorem C37_refuted_tree_for_a_chunk : exists H zdec fuel d ix bmap clock s c fo x t i r,
  disk_index H zdec d = Ok ix /\ blob_to_pack_map ix = Ok bmap /\ S (size (ix_ids ix)) < fuel /\ unmixed ix /\
  check H zdec true fuel d = Some (Ok tt) /\ clock_advances clock /\
  (exists id file, (id, file) ∈ d_snapshots d /\ snapshot_load H id file = Ok s) /\
  forest_from_root (cache_read H zdec ix bmap (d_packs d)) fuel (cache_new H) (any_tree s) = Some (Ok (c, fo)) /\
  fo !! x = Some t /\ i ∈ tree_chunks t /\
  read_blobs H zdec ix bmap (d_packs d) clock reader_new [i] [Panic] r.
Proof.
  assert (om_sorted (ix_packs (made_ix ck_evil_repo))) as Hs by (apply (bool_decide_unpack _); vm_compute; exact I).
  set (ld := forest_from_root (cache_read fold_hash toy_zdec (made_ix ck_evil_repo) ck_evil_map (d_packs ck_evil_disk)) 8
    (cache_new fold_hash) (tree_id fold_hash ck_evil)).
  destruct (run_get (blobs_run fold_hash toy_zdec (made_ix ck_evil_repo) ck_evil_map (d_packs ck_evil_disk) N.of_nat pick_first
    reader_new [tree_id fold_hash ex_a]) [Panic]) as (r & Hr); [vm_compute; reflexivity|].
  exists fold_hash, toy_zdec, 8, ck_evil_disk, (made_ix ck_evil_repo), ck_evil_map, N.of_nat,
    (Version2 (ck_snapshot (tree_id fold_hash ck_evil))), (get_fuel (∅, ∅) ld).1, (get_fuel (∅, ∅) ld).2,
    (tree_id fold_hash ck_evil), ck_evil, (tree_id fold_hash ex_a), r.
  split; [vm_compute; reflexivity|]. split; [apply result_get; vm_compute; reflexivity|]. split; [vm_compute; lia|].
  split; [apply unmixed_by; [done|vm_compute; reflexivity]|].
  split; [apply is_ok_unit; vm_compute; reflexivity|]. split; [intros a b; lia|]. split.
  { exists (ck_snap (tree_id fold_hash ck_evil)).1, (ck_snap (tree_id fold_hash ck_evil)).2. split; [left|]. vm_compute. reflexivity. }
  split; [apply is_ok_pair; vm_compute; reflexivity|]. split; [vm_compute; reflexivity|]. split; [left|].
  by eapply blobs_run_ok.
Qed.
Print Assumptions C37_refuted_tree_for_a_chunk.
