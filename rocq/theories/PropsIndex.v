(** Properties C09 to C12: index files, the combined index, lookup maps, the
    work-in-progress index. *)

From Verif Require Import Base OMap Cbor CborFacts Formats FormatsFacts Hashing Pack PackFacts Index IndexFacts Toy.

(** ** C09 *)

Theorem C09_index_stores_and_loads : forall H zdec ix z,
  index_wf ix -> zstream_of zdec z (enc_index ix) ->
  index_load H zdec (index_id H ix) (Some (index_file z)) = Ok ix /\
  read_wip H zdec (Some (index_file z)) = Ok (Some ix).
Proof.
  intros H zdec ix z Hw Hz. unfold index_load, read_wip. cbn [of_option rbind].
  rewrite (index_from_reader_ok H zdec ix z) by done. cbn [rbind].
  by rewrite bool_decide_eq_true_2.
Qed.
Print Assumptions C09_index_stores_and_loads.

(** Loading any bytes under an id succeeds only if the bytes decoded hash to that id. *)
Theorem C09_loads_only_under_its_id : forall H zdec id file ix,
  index_load H zdec id (Some file) = Ok ix ->
  exists body n rest, file = index_magic ++ body /\
    dec_index (zdec body).1 = Some (ix, rest) /\ id = H (take n (zdec body).1) /\
    n = length (zdec body).1 - length rest.
Proof.
  intros H zdec id file ix E. unfold index_load, index_from_reader in E. cbn [of_option rbind] in E.
  apply rbind_ok in E as ([ix' cid] & E1 & E). apply rbind_ok in E1 as (body & E1 & E2).
  apply rbind_ok in E2 as ([[ix'' cid'] r] & E2 & E3). injection E3 as -> ->.
  apply rbind_ok in E as ([] & E4 & E). injection E as ->.
  case_bool_decide as Hid; [|done]. subst id.
  unfold from_hashing_reader in E2. apply rbind_ok in E2 as ([a r'] & E2 & E5). injection E5 as -> <- ->.
  destruct (dec_index (zdec body).1) as [[a' r'']|] eqn:Ed; [|done]. injection E2 as -> ->.
  exists body, (length (zdec body).1 - length r), r.
  split; [by apply check_magic_inv|]. done.
Qed.
Print Assumptions C09_loads_only_under_its_id.

(** So what loads under the id of [ix] is [ix], unless the file's contents
    collide with the encoding of [ix]. *)
Theorem C09_corruption_detected : forall H zdec file ix ix',
  index_wf ix -> index_load H zdec (index_id H ix) (Some file) = Ok ix' ->
  (forall body n, file = index_magic ++ body ->
     H (take n (zdec body).1) = H (enc_index ix) -> take n (zdec body).1 = enc_index ix) ->
  ix' = ix.
Proof.
  intros H zdec file ix ix' Hw E Hc.
  apply C09_loads_only_under_its_id in E as (body & n & rest & Hf & Hd & Hid & Hn).
  specialize (Hc body n Hf (eq_sym Hid)).
  rewrite <- (take_drop n (zdec body).1), Hc, dec_enc_index in Hd by done. congruence.
Qed.
Print Assumptions C09_corruption_detected.

Definition pk (b : byte) : oid := replicate 28 b.
Definition ex_ix : index :=
  mkIndex [pk x01] [(pk x02, [mkEntry Chunk 3 (pk x0a); mkEntry Chunk 4 (pk x0b)]);
                    (pk x03, [mkEntry Tree 9 (pk x0c)])].

Example C09_witness : index_wf ex_ix /\
  index_load toy_hash toy_zdec (index_id toy_hash ex_ix) (Some (index_file (toy_zenc (enc_index ex_ix)))) = Ok ex_ix /\
  index_load toy_hash toy_zdec (pk x00) (Some (index_file (toy_zenc (enc_index ex_ix)))) = Err.
Proof.
  split; [apply (bool_decide_unpack _); vm_compute; exact I|]. vm_compute. split; reflexivity.
Qed.

(** ** C10 *)

(** What the combination should be: an index file counts unless some stored
    index supersedes it. *)
Definition counts (files : list (oid * index)) (f : oid * index) : Prop :=
  f ∈ files /\ ~ exists g, g ∈ files /\ f.1 ∈ ix_supersedes g.2.

Definition sorted_index (ix : index) : Prop := os_sorted (ix_supersedes ix) /\ om_sorted (ix_packs ix).

Theorem C10_combined_index : forall files,
  NoDup (map fst files) -> Forall (fun f => sorted_index f.2) files ->
  exists ix, build_master_index files = Ok ix /\ sorted_index ix /\
    (forall s, s ∈ ix_supersedes ix <-> exists f, f ∈ files /\ s ∈ ix_supersedes f.2) /\
    (* every pack listed comes, with its manifest, from an index that counts *)
    (forall p m, (p, m) ∈ ix_packs ix -> exists f, counts files f /\ (p, m) ∈ ix_packs f.2) /\
    (* every pack of an index that counts is listed *)
    (forall p m f, counts files f -> (p, m) ∈ ix_packs f.2 -> exists m', (p, m') ∈ ix_packs ix).
Proof.
  intros files Hnd Hw. destruct (results_of_ok (mkResults [] []) files) as (rs & E & [Ws Wl] & Hsup & Hload);
    [done|done|done|].
  unfold build_master_index. rewrite E. cbn [rbind]. eexists. split; [done|].
  unfold master_of. destruct (fold_om_remove (rs_superseded rs) (rs_loaded rs) Wl) as [Hk1 Hk2].
  set (kept := foldl _ (rs_loaded rs) (rs_superseded rs)) in *.
  assert (forall k v, (k, v) ∈ kept <-> exists f, counts files f /\ f.1 = k /\ ix_packs f.2 = v) as Hkept.
  { intros k v. rewrite <- om_get_elem by done. rewrite Hk2, Hload, Hsup. cbn [rs_loaded rs_superseded om_get].
    unfold counts. split.
    - intros [[?|(f & Hf & <- & <-)] Hn]; [done|]. exists f. split; [|done]. split; [done|].
      intros (g & Hg & Hin). apply Hn. right. by exists g.
    - intros (f & [Hf Hn] & <- & <-). split; [right; by exists f|].
      intros [Hin|(g & Hg & Hin)]; [by apply elem_of_nil in Hin|]. apply Hn. by exists g. }
  destruct (fold_om_append kept []) as (Hm1 & Hm2 & Hm3); [done| |].
  { apply Forall_forall. intros [k v] (f & [Hf _] & _ & <-)%Hkept. rewrite Forall_forall in Hw. by apply Hw. }
  cbn [ix_packs ix_supersedes]. split; [by split|]. split; [|split].
  - intros s. rewrite Hsup. set_solver.
  - intros p m Hp. apply om_get_elem in Hp; [|done]. apply Hm2 in Hp as [?|([k v] & Hin & Hp)]; [done|].
    apply Hkept in Hin as (f & Hc & <- & <-). exists f. split; [done|].
    rewrite <- om_get_elem; [done|]. rewrite Forall_forall in Hw. by apply Hw, Hc.
  - intros p m f Hc Hp. assert (om_sorted (ix_packs f.2)) as Hs by (rewrite Forall_forall in Hw; by apply Hw, Hc).
    destruct (om_get p (foldl (fun m kv => om_append m kv.2) [] kept)) as [m'|] eqn:Eg.
    + exists m'. by rewrite <- om_get_elem.
    + exfalso. revert Eg. apply Hm3. right. exists (f.1, ix_packs f.2).
      split; [apply Hkept; by exists f|]. cbn [snd]. apply om_get_elem in Hp; [congruence|done].
Qed.
Print Assumptions C10_combined_index.

(** When the stored indexes agree on each pack's manifest (a pack's id is the
    hash of its manifest), the combination is exact. *)
Theorem C10_combined_index_exact : forall files ix,
  NoDup (map fst files) -> Forall (fun f => sorted_index f.2) files ->
  (forall f g p m m', f ∈ files -> g ∈ files -> (p, m) ∈ ix_packs f.2 -> (p, m') ∈ ix_packs g.2 -> m = m') ->
  build_master_index files = Ok ix ->
  forall p m, (p, m) ∈ ix_packs ix <-> exists f, counts files f /\ (p, m) ∈ ix_packs f.2.
Proof.
  intros files ix Hnd Hw Hag E p m.
  destruct (C10_combined_index files Hnd Hw) as (ix' & E' & _ & _ & H1 & H2).
  rewrite E in E'. injection E' as <-. split; [apply H1|].
  intros (f & Hc & Hp). destruct (H2 p m f Hc Hp) as [m' Hm']. 
  destruct (H1 p m' Hm') as (g & Hcg & Hg).
  by rewrite (Hag f g p m m' (proj1 Hc) (proj1 Hcg) Hp Hg).
Qed.
Print Assumptions C10_combined_index_exact.

(** The order in which the indexes are listed and loaded is irrelevant. *)
Theorem C10_order_irrelevant : forall files files',
  files ≡ₚ files' -> build_master_index files = build_master_index files'.
Proof.
  intros files files' HP. unfold build_master_index.
  assert (map fst files ≡ₚ map fst files') as HP1 by by apply fmap_Permutation.
  assert (results_wf (mkResults [] [])) as W0 by by split.
  destruct (decide (NoDup (map fst files))) as [Hnd|Hnd].
  - assert (NoDup (map fst files')) as Hnd' by by rewrite <- HP1.
    destruct (results_of_ok _ files W0 Hnd) as (rs & -> & [Ws Wl] & Hs & Hl); [done|].
    destruct (results_of_ok _ files' W0 Hnd') as (rs' & -> & [Ws' Wl'] & Hs' & Hl'); [done|].
    cbn [rbind]. do 2 f_equal. destruct rs as [s l], rs' as [s' l']. cbn [rs_superseded rs_loaded] in *. f_equal.
    + apply os_sorted_ext; [done|done|]. intros x. rewrite Hs, Hs'. by setoid_rewrite HP.
    + apply om_get_ext; [done|done|]. intros k. apply option_eq. intros v. rewrite Hl, Hl'. by setoid_rewrite HP.
  - rewrite (results_of_err _ files W0) by by left.
    rewrite (results_of_err _ files' W0); [done|]. left. by rewrite <- HP1.
Qed.
Print Assumptions C10_order_irrelevant.

Definition ex_files : list (oid * index) :=
  [(pk x11, mkIndex [] [(pk x02, [mkEntry Chunk 3 (pk x0a)])]);
   (pk x12, mkIndex [pk x11] [(pk x03, [mkEntry Chunk 3 (pk x0b)])]);
   (pk x13, mkIndex [] [(pk x04, [])])].

Example C10_witness :
  NoDup (map fst ex_files) /\ Forall (fun f => sorted_index f.2) ex_files /\
  build_master_index ex_files =
    Ok (mkIndex [pk x11] [(pk x03, [mkEntry Chunk 3 (pk x0b)]); (pk x04, [])]) /\
  build_master_index (rev ex_files) = build_master_index ex_files.
Proof.
  split; [apply (bool_decide_unpack _); vm_compute; exact I|].
  split; [|vm_compute; split; reflexivity].
  repeat constructor; apply (bool_decide_unpack _); vm_compute; exact I.
Qed.

(** Nothing stops two stored indexes from superseding each other; then the
    packs of both are missing from the combined index. *)
Example C10_mutually_superseding :
  build_master_index
    [(pk x11, mkIndex [pk x12] [(pk x02, [])]); (pk x12, mkIndex [pk x11] [(pk x03, [])])]
  = Ok (mkIndex [pk x11; pk x12] []).
Proof. vm_compute. reflexivity. Qed.

(** ** C11 *)

(** All blob entries of an index, with repetitions. *)
Definition blob_ids (ix : index) : list oid :=
  concat (map (fun kv => map e_id kv.2) (ix_packs ix)).

(** Blob [i] of length [n] is listed for pack [p]. *)
Definition listed (ix : index) (p i : oid) (n : N) : Prop :=
  exists m e, (p, m) ∈ ix_packs ix /\ e ∈ m /\ e_id e = i /\ e_len e = n.

Lemma blob_ids_entries ix : blob_ids ix = map (fun pe => e_id pe.2) (index_entries ix).
Proof.
  unfold blob_ids, index_entries. induction (ix_packs ix) as [|[p m] l IH]; [done|].
  cbn [map concat]. rewrite map_app, IH. f_equal. rewrite map_map. done.
Qed.

Lemma elem_of_index_entries ix p e :
  (p, e) ∈ index_entries ix <-> exists m, (p, m) ∈ ix_packs ix /\ e ∈ m.
Proof.
  unfold index_entries. rewrite elem_of_list_In, in_concat. setoid_rewrite <- elem_of_list_In.
  split.
  - intros (l & Hl & Hin). apply elem_of_list_fmap in Hl as ([p' m] & -> & Hm).
    apply elem_of_list_fmap in Hin as (e' & [= -> ->] & Hin). by exists m.
  - intros (m & Hm & Hin). exists (map (fun e => (p, e)) m). split.
    + apply elem_of_list_fmap. by exists (p, m).
    + by apply elem_of_list_fmap_1.
Qed.

Theorem C11_lookup_maps : forall ix,
  (NoDup (blob_ids ix) ->
     exists mp st sz, blob_to_pack_map ix = Ok mp /\ blob_id_set ix = Ok st /\ blob_to_size_map ix = Ok sz /\
       (forall i p, mp !! i = Some p <-> exists n, listed ix p i n) /\
       (forall i, i ∈ st <-> exists p n, listed ix p i n) /\
       (forall i n, sz !! i = Some n <-> exists p, listed ix p i n)) /\
  (~ NoDup (blob_ids ix) ->
     blob_to_pack_map ix = Err /\ blob_id_set ix = Err /\ blob_to_size_map ix = Err).
Proof.
  intros ix. rewrite blob_ids_entries. split.
  - intros Hnd.
    destruct (map_fold_ok (fun pe => pe.1) (index_entries ix) ∅ Hnd) as (mp & E1 & H1); [done|].
    destruct (set_fold_ok (index_entries ix) ∅ Hnd) as (st & E2 & H2); [set_solver|].
    destruct (map_fold_ok (fun pe => e_len pe.2) (index_entries ix) ∅ Hnd) as (sz & E3 & H3); [done|].
    exists mp, st, sz. split; [exact E1|]. split; [exact E2|]. split; [exact E3|].
    unfold listed. split; [|split].
    + intros i p. rewrite H1, lookup_empty. split.
      * intros [?|([p' e] & Hin & <- & <-)]; [done|]. apply elem_of_index_entries in Hin as (m & ? & ?).
        exists (e_len e), m, e. done.
      * intros (n & m & e & ? & ? & <- & <-). right. exists (p, e). split; [|done].
        apply elem_of_index_entries. by exists m.
    + intros i. rewrite H2. split.
      * intros [?|([p' e] & Hin & <-)]; [set_solver|]. apply elem_of_index_entries in Hin as (m & ? & ?).
        exists p', (e_len e), m, e. done.
      * intros (p & n & m & e & ? & ? & <- & <-). right. exists (p, e). split; [|done].
        apply elem_of_index_entries. by exists m.
    + intros i n. rewrite H3, lookup_empty. split.
      * intros [?|([p' e] & Hin & <- & <-)]; [done|]. apply elem_of_index_entries in Hin as (m & ? & ?).
        exists p', m, e. done.
      * intros (p & m & e & ? & ? & <- & <-). right. exists (p, e). split; [|done].
        apply elem_of_index_entries. by exists m.
  - intros Hnd. split; [|split].
    + apply (map_fold_err (fun pe => pe.1)). by left.
    + apply set_fold_err. by left.
    + apply (map_fold_err (fun pe => e_len pe.2)). by left.
Qed.
Print Assumptions C11_lookup_maps.

Example C11_witness :
  NoDup (blob_ids ex_ix) /\
  (exists mp, blob_to_pack_map ex_ix = Ok mp /\ mp !! pk x0b = Some (pk x02) /\ mp !! pk x0c = Some (pk x03)) /\
  ~ NoDup (blob_ids (mkIndex [] [(pk x02, [mkEntry Chunk 3 (pk x0a)]); (pk x03, [mkEntry Chunk 3 (pk x0a)])])).
Proof.
  split; [apply (bool_decide_unpack _); vm_compute; exact I|]. split.
  - eexists. split; [vm_compute; reflexivity|]. split; vm_compute; reflexivity.
  - apply (bool_decide_unpack _). vm_compute. exact I.
Qed.

(** ** C12 *)

(** The starting index plus some received packs. *)
Definition index_plus (start : index) (pms : list (oid * manifest)) : index :=
  mkIndex (ix_supersedes start) (foldl (fun m pm => om_insert pm.1 pm.2 m) (ix_packs start) pms).

(** What [index_plus] means. *)
Lemma index_plus_spec start pms : om_sorted (ix_packs start) ->
  NoDup (map fst pms) -> (forall pm, pm ∈ pms -> om_get pm.1 (ix_packs start) = None) ->
  forall p m, (p, m) ∈ ix_packs (index_plus start pms) <-> (p, m) ∈ ix_packs start \/ (p, m) ∈ pms.
Proof.
  unfold index_plus. cbn [ix_packs]. generalize (ix_packs start) as ps. clear start.
  induction pms as [|[p0 m0] pms IH]; intros ps Hs Hnd Hfree p m; cbn [foldl].
  { set_solver. }
  cbn [map fst snd] in *. apply NoDup_cons in Hnd as [Hn Hnd].
  rewrite IH; [|by apply om_insert_sorted|done|].
  - rewrite <- (om_get_elem p m (om_insert _ _ _)) by by apply om_insert_sorted. rewrite om_get_insert by done.
    rewrite elem_of_cons, <- (om_get_elem p m ps) by done.
    destruct (decide (p0 = p)) as [<-|Hne]; [|naive_solver].
    pose proof (Hfree (p0, m0) ltac:(set_solver)) as Hf. cbn [fst] in Hf. rewrite Hf. naive_solver.
  - intros [p' m'] Hin. cbn [fst]. rewrite om_get_insert_ne; [apply (Hfree (p', m')); set_solver|done|].
    intros ->. apply Hn. by apply (elem_of_list_fmap_1 fst) in Hin.
Qed.

Lemma indexer_recv_all_yes st pms :
  in_resumable st = true -> in_wip st = Some (in_index st) \/ pms <> [] ->
  om_sorted (ix_packs (in_index st)) -> NoDup (map fst pms) ->
  (forall pm, pm ∈ pms -> om_get pm.1 (ix_packs (in_index st)) = None) ->
  exists st', indexer_recv_all st pms = Ok st' /\ in_index st' = index_plus (in_index st) pms /\
    in_wip st' = Some (in_index st') /\ in_resumable st' = true /\
    (in_persisted st' = Some (in_index st') \/ pms = [] /\ in_persisted st' = in_persisted st).
Proof.
  revert st; induction pms as [|[p m] pms IH]; intros st Hr Hwip Hs Hnd Hfree; cbn [indexer_recv_all].
  { exists st. split; [done|]. destruct st as [r [s ps] pe w]. cbn in *. unfold index_plus; cbn.
    destruct Hwip as [Hwip|Hwip]; [rewrite Hwip; split_and!; auto|by destruct Hwip]. }
  cbn [map fst] in Hnd. apply NoDup_cons in Hnd as [Hn Hnd].
  unfold indexer_recv at 1. cbn [fst snd]. pose proof (Hfree (p, m) ltac:(set_solver)) as Hf. cbn [fst] in Hf.
  rewrite Hf. cbn [ensure rbind]. rewrite Hr.
  set (ix := mkIndex _ _).
  destruct (IH (mkIndexer true ix (Some ix) (Some ix))) as (st' & E & H1 & H2 & H3 & H4);
    [done|by left|by apply om_insert_sorted|done| |].
  - intros [p' m'] Hin. cbn [fst in_index ix_packs ix]. rewrite om_get_insert_ne; [apply (Hfree (p', m')); set_solver|done|].
    intros ->. apply Hn. by apply (elem_of_list_fmap_1 fst) in Hin.
  - exists st'. split; [exact E|]. split; [rewrite H1; done|]. split; [done|]. split; [done|]. left.
    destruct H4 as [|[-> H4]]; [done|]. rewrite H4. cbn in *. by injection E as <-.
Qed.

Lemma index_is_empty_spec ix : index_is_empty ix = true <-> ix = index_default.
Proof. unfold index_is_empty, index_default. destruct ix as [[] []]; cbn; split; (done || congruence). Qed.

Lemma foldl_om_insert_nonempty (pms : list (oid * manifest)) ps :
  pms <> [] -> foldl (fun m pm => om_insert pm.1 pm.2 m) ps pms <> [].
Proof.
  destruct pms as [|[p m] pms]; [done|]. intros _. cbn [foldl].
  assert (om_insert p m ps <> []) as Hne.
  { destruct ps as [|[q n] ps]; cbn; [done|]. by destruct (bytes_cmp p q). }
  revert Hne. cbn [fst snd]. generalize (om_insert p m ps). induction pms as [|[q n] pms IH]; intros l Hl; [done|].
  cbn [foldl]. apply IH. destruct l as [|[q' n'] l]; [done|]. cbn. by destruct (bytes_cmp q q').
Qed.

(** Resumable indexing of fresh packs, interrupted after any number [k] of
    them: the WIP file holds the starting index plus those packs (if that is
    anything at all); when the stream ends, the published index is the WIP
    file's content. *)
Theorem C12_wip_describes_packs : forall start wip pms k,
  om_sorted (ix_packs start) -> NoDup (map fst pms) ->
  (forall pm, pm ∈ pms -> om_get pm.1 (ix_packs start) = None) ->
  exists st, indexer_recv_all (indexer_start true start wip) (take k pms) = Ok st /\
    in_wip st = (if index_is_empty (index_plus start (take k pms)) then wip
                 else Some (index_plus start (take k pms))) /\
    (indexer_end st).2 = (if index_is_empty (index_plus start (take k pms)) then None
                          else Some (index_plus start (take k pms))) /\
    in_wip (indexer_end st).1 = in_wip st.
Proof.
  intros start wip pms k Hs Hnd Hfree.
  assert (NoDup (map fst (take k pms))) as Hnd'.
  { rewrite <- (take_drop k pms), map_app in Hnd. by apply NoDup_app in Hnd as (? & _). }
  assert (forall pm, pm ∈ take k pms -> om_get pm.1 (ix_packs start) = None) as Hfree'.
  { intros pm Hin. apply Hfree. rewrite <- (take_drop k pms). set_solver. }
  revert Hnd' Hfree'. generalize (take k pms) as ps. clear Hnd Hfree pms k. intros ps Hnd Hfree.
  unfold indexer_start. rewrite andb_true_r.
  destruct (index_is_empty start) eqn:Ee; cbn [negb].
  - destruct ps as [|pm ps].
    + cbn [indexer_recv_all]. eexists. split; [done|]. apply index_is_empty_spec in Ee as ->. done.
    + destruct (indexer_recv_all_yes (mkIndexer true start None wip) (pm :: ps)) as (st' & E & H1 & H2 & H3 & H4);
        try done; [by right|].
      exists st'. split; [exact E|].
      assert (index_is_empty (index_plus start (pm :: ps)) = false) as ->.
      { unfold index_is_empty, index_plus. cbn [ix_packs ix_supersedes].
        pose proof (foldl_om_insert_nonempty (pm :: ps) (ix_packs start) ltac:(done)) as Hne.
        destruct (foldl _ _ _); [done|]. by destruct (ix_supersedes start). }
      rewrite H2, H1. split; [done|]. unfold indexer_end. rewrite H3. cbn [negb]. rewrite andb_false_r. split; [|cbn [fst]; by rewrite H2, H1].
      destruct H4 as [H4|[? _]]; [|done]. cbn [snd]. by rewrite H4, H1.
  - destruct (indexer_recv_all_yes (mkIndexer true start (Some start) (Some start)) ps) as (st' & E & H1 & H2 & H3 & H4);
      try done; [by left|].
    exists st'. split; [exact E|].
    assert (index_is_empty (index_plus start ps) = false) as ->.
    { destruct (index_is_empty (index_plus start ps)) eqn:E2; [|done].
      apply index_is_empty_spec in E2. destruct ps as [|pm ps].
      - destruct start as [s l]. unfold index_plus in E2. cbn in E2. by injection E2 as -> ->.
      - apply (f_equal ix_packs) in E2. by apply (foldl_om_insert_nonempty (pm :: ps) (ix_packs start)) in E2. }
    rewrite H2, H1. split; [done|]. unfold indexer_end. rewrite H3. cbn [negb]. rewrite andb_false_r. split; [|cbn [fst]; by rewrite H2, H1].
    cbn [snd]. destruct H4 as [H4|[-> H4]]; rewrite H4; [by rewrite H1|]. cbn. by destruct start.
Qed.
Print Assumptions C12_wip_describes_packs.

(** A pack received twice, or one the starting index already has, is refused,
    whether or not the indexing is resumable. *)
Theorem C12_duplicates_refused : forall resumable start wip pms pm more,
  om_sorted (ix_packs start) ->
  (exists m, (pm.1, m) ∈ ix_packs start \/ (pm.1, m) ∈ pms) ->
  indexer_recv_all (indexer_start resumable start wip) (pms ++ pm :: more) = Err.
Proof.
  intros resumable start wip pms [p m] more Hs (m' & Hin).
  set (st := indexer_start resumable start wip).
  assert (in_index st = start) as E by (unfold st, indexer_start; by destruct (_ && _)).
  assert (om_sorted (ix_packs (in_index st))) as Hs' by by rewrite E.
  assert ((om_get p (ix_packs (in_index st)) <> None) \/ exists m', (p, m') ∈ pms) as Hin'.
  { cbn [fst] in Hin. destruct Hin as [Hin|Hin]; [left|right; by exists m'].
    rewrite E. apply om_get_elem in Hin; [congruence|done]. }
  clear Hin E. clearbody st. revert st Hs' Hin'.
  induction pms as [|[q n] pms IH]; intros st Hs' Hin'; cbn [app indexer_recv_all]; unfold indexer_recv at 1; cbn [fst].
  - destruct Hin' as [Hin|(m'' & Hin)]; [|by apply elem_of_nil in Hin].
    by destruct (om_get p (ix_packs (in_index st))).
  - destruct (om_get q (ix_packs (in_index st))) eqn:Eq; [done|]. cbn [ensure rbind].
    assert (om_get p (om_insert q n (ix_packs (in_index st))) <> None \/ exists m', (p, m') ∈ pms) as Hnext.
    { rewrite om_get_insert by done. destruct Hin' as [Hin|(m'' & [[= <- <-]|Hin]%elem_of_cons)].
      - left. by case_decide.
      - left. by rewrite decide_True.
      - right. by exists m''. }
    destruct (in_resumable st); cbn [rbind]; apply IH; try done; by apply om_insert_sorted.
Qed.
Print Assumptions C12_duplicates_refused.

Example C12_witness :
  let pms := [(pk x04, [mkEntry Chunk 1 (pk x0d)]); (pk x01, [mkEntry Chunk 1 (pk x0e)])] in
  om_sorted (ix_packs ex_ix) /\ NoDup (map fst pms) /\
  (exists st, indexer_recv_all (indexer_start true ex_ix None) pms = Ok st /\
     match in_wip st with Some ix => map fst (ix_packs ix) = [pk x01; pk x02; pk x03; pk x04] | None => False end) /\
  indexer_recv_all (indexer_start true ex_ix None) [(pk x02, [])] = Err /\
  (indexer_end (indexer_start true index_default None)).2 = None.
Proof.
  split; [apply (bool_decide_unpack _); vm_compute; exact I|].
  split; [apply (bool_decide_unpack _); vm_compute; exact I|].
  split; [eexists; split; [vm_compute; reflexivity|vm_compute; reflexivity]|]. split; vm_compute; reflexivity.
Qed.
