(** C16, C17, C18, C51, C52 (walk): backing up a file tree. *)

From Verif Require Import Base OMap Cbor Formats FormatsFacts Hashing Pack Meta Forest
  FsTree FsSpec FsFacts BackupFacts Toy.

(** ** C17: nothing already stored is stored again *)

(** In one backup every blob handed to a packer is new to the repository (and to
    the resumed index) and is handed over once; every blob the new tree consists
    of is known or handed over. *)
Theorem C17_only_new_blobs_are_packed H cuts deref filter pf parent paths packed :
  forest_sane pf -> paths_ok cuts deref paths ->
  exists s root,
    backup_tree H cuts deref filter pf parent paths packed = Ok (s, root) /\
    NoDup (map b_id (bs_sent s)) /\
    (forall b, b ∈ bs_sent s -> b_id b ∉ packed /\ b_id b = H (b_bytes b) /\
       b ∈ plan_blobs H cuts filter pf parent paths) /\
    (forall b, b ∈ plan_blobs H cuts filter pf parent paths ->
       b_id b ∈ packed \/ b_id b ∈ map b_id (bs_sent s)).
Proof.
  intros Hpf Hok. rewrite backup_tree_plan by done.
  destruct (send_all (plan_blobs H cuts filter pf parent paths) (mkBstate packed [])) as (new & E & Hnd & Hnew & Hall).
  simpl in *. eexists _, _. split; [done|]. rewrite E. simpl. split; [done|]. split; [|done].
  intros b Hb. destruct (Hnew b Hb) as [Hin Hp]. split; [done|]. split; [|done].
  unfold plan_blobs in Hin. apply elem_of_list_In, in_concat in Hin as (l & Hl & Hin).
  apply in_map_iff in Hl as ([x|[|kv t]] & <- & _); simpl in Hin; [|done|].
  - by destruct Hin as [<-|[]].
  - by destruct Hin as [<-|[]].
Qed.

(** ** C16: what was backed up reads back *)

(** The byte strings that matter: everything stored, everything offered, and the
    encoding of the empty directory. *)
Definition relevant (st : store) (bs : list blob) (x : bytes) : Prop :=
  (exists id ty, st !! id = Some (ty, x)) \/ (exists b, b ∈ bs /\ b_bytes b = x) \/ x = enc_tree [].

Definition no_collision (H : bytes -> oid) (X : bytes -> Prop) : Prop :=
  forall x y, X x -> X y -> H x = H y -> x = y.

(** No chunk of a file has exactly the bytes of an encoded directory. *)
Definition no_confusion (st : store) (bs : list blob) : Prop :=
  (forall b id ty, b ∈ bs -> st !! id = Some (ty, b_bytes b) -> ty = b_type b) /\
  (forall b b', b ∈ bs -> b' ∈ bs -> b_bytes b = b_bytes b' -> b_type b = b_type b').

Lemma enc_tree_nonempty kv t : enc_tree (kv :: t) <> enc_tree [].
Proof.
  unfold enc_tree, c_tree. cbn [enc map length]. intros E.
  change (enc_head 5 (N.of_nat 0) ++ concat []) with [n2b 160] in E.
  apply (f_equal head) in E. unfold enc_head in E.
  destruct (N.ltb_spec (N.of_nat (S (length (map (fun kv0 : bytes * node => (CText kv0.1, c_node kv0.2)) t)))) 24).
  - cbn [app head] in E. injection E as E. apply (f_equal b2n) in E. rewrite !b2n_n2b_small in E by lia. lia.
  - repeat match type of E with context [if ?c then _ else _] => destruct c end;
      cbn [app head] in E; injection E as E; apply (f_equal b2n) in E; vm_compute in E; discriminate.
Qed.

Lemma plan_blob_shape H cuts filter pf parent paths b :
  b ∈ plan_blobs H cuts filter pf parent paths ->
  (b_type b = Chunk /\ b = chunk_blob H (b_bytes b)) \/
  (exists t, b = tree_blob H t /\ t <> [] /\ ITree t ∈ plan_all H cuts filter pf parent paths).
Proof.
  unfold plan_blobs. intros Hin. apply elem_of_list_In, in_concat in Hin as (l & Hl & Hin).
  apply in_map_iff in Hl as ([x|[|kv t]] & <- & Hi); simpl in Hin; [|done|].
  - destruct Hin as [<-|[]]. by left.
  - destruct Hin as [<-|[]]. right. exists (kv :: t). split; [done|]. split; [done|]. by apply elem_of_list_In.
Qed.

Lemma lookup_store_of bs b :
  NoDup (map b_id bs) -> b ∈ bs -> store_of bs !! b_id b = Some (b_type b, b_bytes b).
Proof.
  intros Hnd Hb. unfold store_of. apply elem_of_list_to_map_1.
  - rewrite <-list_fmap_compose. exact Hnd.
  - apply elem_of_list_fmap. eauto.
Qed.

Lemma store_of_inv bs id ty x :
  store_of bs !! id = Some (ty, x) -> exists b, b ∈ bs /\ b_id b = id /\ b_type b = ty /\ b_bytes b = x.
Proof.
  unfold store_of. intros E. apply elem_of_list_to_map_2 in E.
  apply elem_of_list_fmap in E as (b & [= -> -> ->] & Hb). eauto.
Qed.

(** Take any repository whose blobs are named by their hashes, any parent
    snapshot in it that reads back as some earlier file tree, and any current
    file tree in which whatever kept its size and modification time kept its
    contents.  Backing the current tree up succeeds, and afterwards the new root
    reads back to the current tree: names, structure, link targets, metadata and
    file contents, less what the filter rejects and special files.  The
    repository stays proper, so this can be iterated. *)
Theorem C16_backup_reads_back H cuts deref filter st pf parent paths :
  (forall x, length (H x) = 28) -> (forall x, concat (cuts x) = x) ->
  paths_ok cuts deref paths -> store_sane H st ->
  (forall id t, pf !! id = Some t -> stored_as H st id t) ->
  (forall r, parent = Some r -> exists before,
     reads_root H st r before /\ stamps_honest before (kept_paths filter paths)) ->
  no_collision H (relevant st (plan_blobs H cuts filter pf parent paths)) ->
  no_confusion st (plan_blobs H cuts filter pf parent paths) ->
  exists s root,
    backup_tree H cuts deref filter pf parent paths (dom st) = Ok (s, root) /\
    reads_root H (store_of (bs_sent s) ∪ st) root (kept_paths filter paths) /\
    store_sane H (store_of (bs_sent s) ∪ st) /\
    st ⊆ store_of (bs_sent s) ∪ st.
Proof.
  intros Hlen Hcuts Hok Hst Hpfst Hpar Hcol [Hcf1 Hcf2].
  assert (forest_sane pf) as Hpf.
  { intros id t Ht. apply Hpfst in Ht. unfold stored_as in Ht. destruct (decide (id = empty_id H)).
    - subst t. split; [|constructor]. split; [unfold len_wf; simpl; lia|]. split; [constructor|done].
    - destruct Ht as (b & Eb & Db). destruct (Hst _ _ _ Eb) as [_ Hs].
      destruct (Hs eq_refl) as (t' & Dt & Hsane). rewrite Db in Dt. by injection Dt as <-. }
  rewrite backup_tree_plan by done.
  destruct (send_all (plan_blobs H cuts filter pf parent paths) (mkBstate (dom st) [])) as (new & E & Hnd & Hnew & Hall).
  simpl in *. eexists _, _. split; [done|]. rewrite E. simpl. clear E.
  set (st' := store_of new ∪ st).
  assert (st ⊆ st') as Hsub.
  { apply map_union_subseteq_r. apply map_disjoint_spec. intros id [ty x] v2 E1 E2.
    apply store_of_inv in E1 as (b & Hb & <- & _). destruct (Hnew b Hb) as [_ Hn]. apply Hn.
    by eapply elem_of_dom_2. }
  assert (forall b, b ∈ plan_blobs H cuts filter pf parent paths -> b_id b = H (b_bytes b)) as Hid.
  { intros b [[_ ->]|(t & -> & _)]%plan_blob_shape; done. }
  assert (has_items H st' (plan_all H cuts filter pf parent paths)) as Hhas.
  { intros b Hb. split.
    - destruct (Hall b Hb) as [Hp|Hp].
      + apply elem_of_dom in Hp as [[ty x] E]. destruct (Hst _ _ _ E) as [Hx _].
        assert (b_bytes b = x) as <-.
        { apply Hcol; [right; left; eauto|left; eauto|]. by rewrite <-Hid. }
        rewrite (Hcf1 b _ ty Hb E) in E. by eapply lookup_weaken.
      + apply elem_of_list_fmap in Hp as (b' & Hbb & Hb'). destruct (Hnew b' Hb') as [Hin' _].
        assert (b_bytes b = b_bytes b') as Hby.
        { apply Hcol; [right; left; eauto|right; left; eauto|]. by rewrite <-!Hid. }
        unfold st'. rewrite Hbb, lookup_union_l'.
        2: { exists (b_type b', b_bytes b'). by apply lookup_store_of. }
        rewrite lookup_store_of by done. by rewrite (Hcf2 b b'), Hby.
    - intros Hty Hemp. pose proof Hb as Hb0.
      apply plan_blob_shape in Hb as [[Hc _]|(t & -> & Hne & _)]; [congruence|].
      simpl in Hemp. destruct t as [|kv t]; [done|]. apply (enc_tree_nonempty kv t).
      apply Hcol; [right; left; eauto|right; right; done|exact Hemp]. }
  destruct Hok as (Hlen' & Hnd' & Hokall).
  unfold plan_all, plan_list in Hhas.
  destruct (plan_list_reads H cuts filter pf deref Hlen Hcuts st' Hpf (fun e : fspath => e.1.2)
    (fun e : fspath => plan H cuts filter pf e.1.1 ((parent ≫= (fun id => pf !! id)) ≫= om_get e.1.2) e.2)
    (fun e : fspath => kept filter e.1.1 e.2) paths) as (Hsane & Hroot & HF); [done| | |done|].
  { eapply Forall_impl; [exact Hokall|]. intros e [He _]. exact He. }
  { apply Forall_forall. intros e He. eapply Forall_forall in Hokall as [_ Hoke]; [|exact He].
    eapply plan_reads; try done; [by apply ptree_sane|].
    apply (honest_mono filter pf st st'); [done|].
    eapply (honest_from H); [exact Hpfst|exact Hoke|].
    intros p Hp. destruct parent as [r|]; simpl in Hp; [|done].
    destruct (pf !! r) as [tr|] eqn:Er; simpl in Hp; [|done].
    destruct (Hpar r eq_refl) as (before & (t0 & Ht0 & HF0) & Hhon).
    assert (t0 = tr) as -> by (eapply stored_as_fun; eauto).
    destruct (Forall2_om_get _ _ _ _ _ HF0 Hp) as (n0 & Hg & Hr).
    exists n0. split; [done|]. intros n' Hn'. eapply stamps_honest_node; [exact Hhon|exact Hg|].
    unfold kept_paths. apply om_get_of_list; [by apply collect_nodup|].
    apply collect_elem. eauto. }
  split; [|split; [|done]].
  - exists (plan_tree (plan_list H cuts filter pf parent paths)). split; [exact Hroot|exact HF].
  - intros id ty x Ex. apply lookup_union_Some_raw in Ex as [Ex|[_ Ex]]; [|by apply Hst].
    apply store_of_inv in Ex as (b & Hb & <- & <- & <-). destruct (Hnew b Hb) as [Hin _].
    split; [by apply Hid|]. intros Hty.
    apply plan_blob_shape in Hin as [[Hc _]|(t & -> & _ & Hit)]; [congruence|].
    eapply Forall_forall in Hsane; [|exact Hit]. simpl in *. exists t. split; [|done].
    rewrite <-(app_nil_r (enc_tree t)). apply dec_enc_tree. apply Hsane.
Qed.

(** Snapshots already in the repository read back as before. *)
Theorem C16_old_snapshots_unharmed H st bs root es :
  st ⊆ store_of bs ∪ st -> reads_root H st root es -> reads_root H (store_of bs ∪ st) root es.
Proof. apply reads_root_mono. Qed.

(** ** C18: reusing the parent changes nothing, and changed files are read *)

(** If each file that looks unchanged next to the parent has there the very
    chunks its current contents are cut into, the backup gives the root a backup
    without parent gives. *)
Theorem C18_parent_does_not_change_the_result H cuts deref filter pf parent paths packed packed' :
  forest_sane pf -> paths_ok cuts deref paths ->
  (forall p nd m c, parent ≫= (fun r => node_at pf r p) = Some nd ->
     fs_at (kept_paths filter paths) p = Some (FsFile m c) ->
     n_contents nd <> CFile (map H (cuts c)) ->
     contents_kind (n_contents nd) <> KFile \/
     meta_mtime m <> meta_mtime (n_meta nd) \/ meta_size m <> meta_size (n_meta nd)) ->
  exists s s' root,
    backup_tree H cuts deref filter pf parent paths packed = Ok (s, root) /\
    backup_tree H cuts deref filter ∅ None paths packed' = Ok (s', root).
Proof.
  intros Hpf Hok Hh. rewrite backup_tree_plan by done.
  rewrite (backup_tree_plan H cuts filter ∅) by (try done; by apply map_Forall_empty).
  eexists _, _, _. split; [done|]. f_equal. f_equal. symmetry.
  destruct Hok as (_ & Hnd & Hall). unfold plan_root. f_equal. unfold plan_tree. f_equal.
  unfold plan_list. apply (collect_map_eq _ _ _ fst fst). intros e He.
  eapply Forall_forall in Hall as [_ Hoke]; [|exact He]. cbn [mbind option_bind].
  apply (plan_scratch H cuts filter deref); [done|]. intros n' p q m c Hk Hq Hs Hu.
  destruct parent as [r|]; [|done]. simpl in Hq.
  destruct (decide (n_contents q = CFile (map H (cuts c)))) as [|Hne]; [done|].
  exfalso. simpl in Hu. apply andb_true_iff in Hu as [Hu H3]. apply andb_true_iff in Hu as [H1 H2].
  apply bool_decide_eq_true in H1, H2, H3.
  destruct (Hh (e.1.2 :: p) q m c) as [?|[?|?]]; try done.
  cbn [fs_at]. assert (om_get e.1.2 (kept_paths filter paths) = Some n') as ->; [|done].
  unfold kept_paths. apply om_get_of_list; [by apply collect_nodup|]. apply collect_elem. eauto.
Qed.

(** In the new tree, read from any forest that has the trees just made, each file
    the parent does not have, or has with another kind, size or modification
    time, is recorded with the chunks of its current contents; and every file
    carries its current metadata. *)
Theorem C18_changed_files_are_read H cuts deref filter pf parent paths packed fo p m c :
  forest_sane pf -> paths_ok cuts deref paths ->
  (forall t, ITree t ∈ plan_all H cuts filter pf parent paths -> fo !! tree_id H t = Some t) ->
  fs_at (kept_paths filter paths) p = Some (FsFile m c) ->
  exists s root nd,
    backup_tree H cuts deref filter pf parent paths packed = Ok (s, root) /\
    node_at fo root p = Some nd /\ n_meta nd = m /\
    match parent ≫= (fun r => node_at pf r p) with
    | None => n_contents nd = CFile (map H (cuts c))
    | Some old =>
        contents_kind (n_contents old) <> KFile \/ meta_mtime m <> meta_mtime (n_meta old) \/
        meta_size m <> meta_size (n_meta old) -> n_contents nd = CFile (map H (cuts c))
    end.
Proof.
  intros Hpf Hok Hfo Hat. rewrite backup_tree_plan by done.
  destruct Hok as (_ & Hnd & Hall). destruct p as [|x p]; [done|]. cbn [fs_at] in Hat.
  destruct (om_get x (kept_paths filter paths)) as [k|] eqn:Ek; [|done]. simpl in Hat.
  unfold kept_paths in Ek. apply om_get_of_list in Ek; [|by apply collect_nodup].
  apply collect_elem in Ek as (e & He & <- & Hk).
  eapply Forall_forall in Hall as [_ Hoke]; [|exact He].
  set (f := fun e : fspath => plan H cuts filter pf e.1.1 ((parent ≫= (fun id => pf !! id)) ≫= om_get e.1.2) e.2).
  destruct (f e) as [[nde ise]|] eqn:Ef.
  2: { exfalso. assert (is_Some (f e)) as [y Hy]; [|congruence]. apply plan_kept. eauto. }
  destruct (plan_node_sub H cuts filter deref pf fo e.2 e.1.1 _ nde ise k p m c Hoke Ef Hk) as (nd & E1 & E2 & E3); [|done|].
  { intros t Ht. apply Hfo. unfold plan_all, plan_list. by eapply plan_items_sub. }
  eexists _, _, nd. split; [done|]. unfold plan_root, plan_list. fold f. cbn [node_at].
  rewrite has_trees_root.
  2: { intros t Ht. apply Hfo. exact Ht. }
  simpl. rewrite (plan_tree_get (fun e : fspath => e.1.2) f paths e nde ise) by done. simpl.
  split; [done|]. split; [done|]. rewrite E3.
  destruct parent as [r|]; simpl; [|done]. unfold recorded.
  destruct ((pf !! r ≫= om_get e.1.2) ≫= (fun q => node_sub pf q p)) as [old|]; [|done].
  simpl. intros Hd. destruct (bool_decide (contents_kind (n_contents old) = KFile)) eqn:B1; simpl; [|done].
  destruct (bool_decide (meta_mtime m = meta_mtime (n_meta old))) eqn:B2; simpl; [|done].
  destruct (bool_decide (meta_size m = meta_size (n_meta old))) eqn:B3; simpl; [|done].
  apply bool_decide_eq_true in B1, B2, B3. naive_solver.
Qed.

(** ** C52, the walk: the same files again *)

(** Once a tree has been backed up, backing it up again with that snapshot as
    parent hands nothing to the packers and gives the same root. *)
Theorem C52_unchanged_tree_sends_nothing_partial H cuts deref filter pf parent paths packed s root pf2 packed2 :
  forest_sane pf -> forest_sane pf2 -> paths_ok cuts deref paths ->
  backup_tree H cuts deref filter pf parent paths packed = Ok (s, root) ->
  (forall t, ITree t ∈ plan_all H cuts filter pf parent paths -> pf2 !! tree_id H t = Some t) ->
  bs_packed s ⊆ packed2 ->
  backup_tree H cuts deref filter pf2 (Some root) paths packed2 = Ok (mkBstate packed2 [], root).
Proof.
  intros Hpf Hpf2 Hok E Hfo Hsub. rewrite backup_tree_plan in E by done. rewrite backup_tree_plan by done.
  pose proof (f_equal (fun r : result (bstate * oid) => match r with Ok x => x.2 | _ => [] end) E) as Er.
  pose proof (f_equal (fun r : result (bstate * oid) => match r with Ok x => x.1 | _ => mkBstate ∅ [] end) E) as Es.
  simpl in Er, Es. clear E. destruct Hok as (_ & Hnd & Hall).
  set (f := fun e : fspath => plan H cuts filter pf e.1.1 ((parent ≫= (fun id => pf !! id)) ≫= om_get e.1.2) e.2).
  set (g := fun e : fspath => plan H cuts filter pf2 e.1.1 ((Some root ≫= (fun id => pf2 !! id)) ≫= om_get e.1.2) e.2).
  assert (Some root ≫= (fun id => pf2 !! id) = Some (plan_tree (plan_list H cuts filter pf parent paths))) as Hpt.
  { simpl. rewrite <-Er. unfold plan_root. by apply has_trees_root. }
  destruct (collect_again (fun e : fspath => e.1.2) f g paths) as [Et Hi].
  { intros e nde ise He Hfe. unfold g. rewrite Hpt. simpl. unfold plan_list. fold f.
    rewrite (plan_tree_get (fun e : fspath => e.1.2) f paths e nde ise) by done.
    eapply Forall_forall in Hall as [_ Hoke]; [|exact He].
    eapply (plan_again H cuts filter deref pf pf2); [done|exact Hfe|].
    intros t Ht. apply Hfo. unfold plan_all, plan_list. by eapply plan_items_sub. }
  { intros e He Hfe. destruct (g e) as [y|] eqn:Eg; [|done]. exfalso.
    assert (is_Some (f e)) as [z Hz]; [|congruence]. apply plan_kept.
    apply (plan_kept H cuts filter pf2 e.2 e.1.1 ((Some root ≫= (fun id => pf2 !! id)) ≫= om_get e.1.2)).
    unfold g in Eg. eauto. }
  f_equal. f_equal.
  - destruct (send_all (plan_blobs H cuts filter pf parent paths) (mkBstate packed [])) as (new & E1 & _ & _ & Hcov).
    rewrite E1 in Es. subst s. simpl in *.
    destruct (send_all (plan_blobs H cuts filter pf2 (Some root) paths) (mkBstate packed2 [])) as (new2 & -> & _ & Hnew2 & _).
    simpl in *. destruct new2 as [|b new2]; [simpl; f_equal; set_solver|]. exfalso.
    destruct (Hnew2 b) as [Hb Hn]; [by left|]. apply Hn. apply Hsub.
    apply plan_blob_shape in Hb as Hsh.
    assert (b ∈ plan_blobs H cuts filter pf parent paths) as Hb1.
    { unfold plan_blobs in *. apply elem_of_list_In, in_concat in Hb as (l & Hl & Hin).
      apply in_map_iff in Hl as (i & <- & Hit). apply elem_of_list_In in Hit.
      apply Hi in Hit as [Hit _]. apply elem_of_list_In, in_concat. exists (item_blobs H i). split; [|done].
      apply in_map. apply elem_of_list_In. exact Hit. }
    destruct (Hcov b Hb1) as [Hp|Hp]; apply elem_of_union; [by right|]. left. by apply elem_of_list_to_set.
  - transitivity (tree_id H (plan_tree (collect (fun e : fspath => e.1.2) g paths))); [done|].
    rewrite Et. exact Er.
Qed.

(** ** C51: skips *)

Lemma elem_of_os_of_list l x : x ∈ os_of_list l <-> x ∈ l.
Proof.
  unfold os_of_list. split.
  - intros (kv & -> & Hin)%elem_of_list_fmap. apply om_of_list_subset in Hin.
    apply elem_of_list_fmap in Hin as (y & -> & Hy). done.
  - intros Hx. destruct (om_get x (om_of_list (map (fun k => (k, tt)) l))) as [[]|] eqn:E.
    + apply om_get_in in E. apply elem_of_list_fmap. by exists (x, tt).
    + exfalso. revert E. unfold om_of_list.
      assert (om_sorted (@nil (bytes * unit))) as Hs by done. revert Hs.
      assert ((exists u, om_get x (@nil (bytes * unit)) = Some u) \/ x ∈ l) as Hor by (by right).
      revert Hor. clear Hx. generalize (@nil (bytes * unit)) as acc.
      induction l as [|y l IH]; intros acc [[u Hu]|Hx] Hs E; simpl in E.
      * congruence.
      * by apply elem_of_nil in Hx.
      * apply (IH (om_insert y tt acc)); [|by apply om_insert_sorted|done].
        left. destruct (decide (y = x)) as [->|Hne]; [exists tt; apply om_get_insert_eq|].
        exists u. rewrite om_get_insert_ne; done.
      * apply (IH (om_insert y tt acc)); [|by apply om_insert_sorted|done].
        apply elem_of_cons in Hx as [->|Hx]; [left; exists tt; apply om_get_insert_eq|by right].
Qed.

Lemma elem_of_merge_skips config args r : r ∈ merge_skips config args <-> r ∈ config \/ r ∈ args.
Proof.
  unfold merge_skips. destruct config as [|c config].
  - split; [by right|]. intros [H|H]; [by apply elem_of_nil in H|done].
  - rewrite elem_of_os_of_list, elem_of_app. done.
Qed.

(** Whatever the regex engine answers: an invalid pattern on either list is an
    error, and otherwise a path is let through unless a configured or
    command-line pattern matches it. *)
Theorem C51_skips_are_a_union valid matches config args :
  match skip_matching_paths valid matches (merge_skips config args) with
  | Ok keeps => (forall r, r ∈ config \/ r ∈ args -> valid r = true) /\
      forall path, keeps path = false <-> exists r, (r ∈ config \/ r ∈ args) /\ matches r path = true
  | Err => exists r, (r ∈ config \/ r ∈ args) /\ valid r = false
  | Panic => False
  end.
Proof.
  unfold skip_matching_paths. destruct (forallb valid (merge_skips config args)) eqn:E.
  - split.
    + intros r Hr. rewrite forallb_forall in E. apply E. apply elem_of_list_In. by apply elem_of_merge_skips.
    + intros path. rewrite negb_false_iff, existsb_exists.
      setoid_rewrite <-elem_of_list_In. setoid_rewrite elem_of_merge_skips. done.
  - apply not_true_iff_false in E. rewrite forallb_forall in E.
    assert (exists r, r ∈ merge_skips config args /\ valid r = false) as (r & Hr & Hv).
    { clear -E. induction (merge_skips config args) as [|r l IH].
      - exfalso. apply E. done.
      - destruct (valid r) eqn:Ev.
        + destruct IH as (r' & Hr' & Hv').
          * intros Hall. apply E. intros x [->|Hx]; [done|by apply Hall].
          * exists r'. split; [by right|done].
        + exists r. split; [by left|done]. }
    exists r. rewrite <-elem_of_merge_skips. done.
Qed.

(** What is found below a node. *)
Inductive below : fsnode -> list bytes -> fsnode -> Prop :=
| below_here n : below n [] n
| below_entry m es x k p k' : (x, k) ∈ es -> below k p k' -> below (FsDir m es) (x :: p) k'.

(** An entry is in the snapshot exactly when it is not a special file and neither
    its own path nor that of a directory above it is rejected. *)
Theorem C51_skipped_paths_are_left_out cuts deref filter path n p :
  fs_ok cuts deref n ->
  (exists n' k', kept filter path n = Some n' /\ fs_sub n' p = Some k') <->
  (exists k, below n p k /\ (forall m, k <> FsOther m) /\
     forall q, q `prefix_of` p -> filter (foldl join path q) = true).
Proof.
  revert path n. induction p as [|x p IH]; intros path n Hok.
  - split.
    + intros (n' & k' & Hk & _). exists n. split; [constructor|].
      destruct n; simpl in Hk; destruct (filter path) eqn:Hf; simpl in Hk; try done;
        (split; [done|]; intros q ->%prefix_nil_inv; done).
    + intros (k & Hb & Hs & Hq). inversion Hb; subst. pose proof (Hq [] (prefix_nil _)) as Hf. simpl in Hf.
      destruct k as [m c|m es|m t|m]; simpl; rewrite Hf; simpl; eauto. by destruct (Hs m).
  - split.
    + intros (n' & k' & Hk & Hsub).
      destruct n as [m c|m es|m t|m]; cbn [kept] in Hk; destruct (filter path) eqn:Hf; simpl in Hk; try done;
        injection Hk as <-; try done.
      cbn [fs_sub] in Hsub.
      destruct (om_get x _) as [ke|] eqn:Eg; simpl in Hsub; [|done].
      apply fs_ok_dir in Hok as (_ & _ & _ & Hnd & Hall).
      apply om_get_of_list in Eg; [|by apply collect_nodup].
      apply collect_elem in Eg as ([x' k] & He & Hx & Hke). simpl in Hx, Hke. subst x'.
      eapply Forall_forall in Hall as [_ Hoke]; [|exact He].
      destruct (proj1 (IH (join path x) k Hoke)) as (k1 & Hb & Hs & Hq); [eauto|].
      exists k1. split; [by econstructor|]. split; [done|].
      intros q Hpre. destruct q as [|y q]; [done|].
      apply prefix_cons_inv_1 in Hpre as Hy; subst y. apply prefix_cons_inv_2 in Hpre. simpl. by apply Hq.
    + intros (k & Hb & Hs & Hq). inversion Hb as [|m es x' ke p' k' He Hb']; subst.
      pose proof (Hq [] (prefix_nil _)) as Hf. simpl in Hf.
      apply fs_ok_dir in Hok as (_ & _ & _ & Hnd & Hall).
      eapply Forall_forall in Hall as [_ Hoke]; [|exact He].
      destruct (proj2 (IH (join path x) ke Hoke)) as (n' & k' & Hkk & Hsub).
      { exists k. split; [done|]. split; [done|]. intros q Hpre. apply (Hq (x :: q)). by apply prefix_cons. }
      cbn [kept]. rewrite Hf. simpl. eexists _, k'. split; [done|]. cbn [fs_sub].
      assert (om_get x (om_of_list (collect fst (fun e0 : bytes * fsnode => kept filter (join path e0.1) e0.2) es))
        = Some n') as ->; [|done].
      apply om_get_of_list; [by apply collect_nodup|]. apply collect_elem. exists (x, ke). done.
Qed.


(** ** Concrete cases *)

(** Deciding the premises about hashes on finite data. *)
Definition store_bytes (st : store) : list bytes := map (fun v => v.2.2) (map_to_list st).
Definition relevant_list (st : store) (bs : list blob) : list bytes :=
  store_bytes st ++ map b_bytes bs ++ [enc_tree []].

Lemma relevant_in st bs x : relevant st bs x -> x ∈ relevant_list st bs.
Proof.
  unfold relevant_list, store_bytes. rewrite !elem_of_app, elem_of_list_singleton.
  intros [(id & ty & E)|[(b & Hb & <-)| ->]]; [|right; left; apply elem_of_list_fmap; eauto|auto].
  left. apply elem_of_list_fmap. exists (id, (ty, x)). split; [done|]. by apply elem_of_map_to_list.
Qed.

Lemma no_collision_by H st bs :
  (let l := map (fun x => (H x, x)) (relevant_list st bs) in
   forallb (fun x => forallb (fun y => implb (bool_decide (x.1 = y.1)) (bool_decide (x.2 = y.2))) l) l) = true ->
  no_collision H (relevant st bs).
Proof.
  intros E x y Hx%relevant_in Hy%relevant_in Hh. rewrite forallb_forall in E.
  apply elem_of_list_In in Hx, Hy. specialize (E _ (in_map (fun x => (H x, x)) _ _ Hx)).
  rewrite forallb_forall in E. specialize (E _ (in_map (fun x => (H x, x)) _ _ Hy)). simpl in E.
  rewrite bool_decide_eq_true_2 in E by done. by apply bool_decide_eq_true in E.
Qed.

Lemma no_confusion_by st bs :
  forallb (fun b => forallb (fun v : oid * (blob_type * bytes) =>
    implb (bool_decide (v.2.2 = b_bytes b)) (bool_decide (v.2.1 = b_type b))) (map_to_list st)) bs = true ->
  forallb (fun b => forallb (fun b' => implb (bool_decide (b_bytes b = b_bytes b')) (bool_decide (b_type b = b_type b'))) bs) bs = true ->
  no_confusion st bs.
Proof.
  intros E1 E2. split.
  - intros b id ty Hb E. rewrite forallb_forall in E1. apply elem_of_list_In in Hb. specialize (E1 b Hb).
    rewrite forallb_forall in E1. apply elem_of_map_to_list, elem_of_list_In in E. specialize (E1 _ E). simpl in E1.
    rewrite bool_decide_eq_true_2 in E1 by done. by apply bool_decide_eq_true in E1.
  - intros b b' Hb Hb' E. rewrite forallb_forall in E2. apply elem_of_list_In in Hb, Hb'. specialize (E2 b Hb).
    rewrite forallb_forall in E2. specialize (E2 b' Hb').
    rewrite bool_decide_eq_true_2 in E2 by done. by apply bool_decide_eq_true in E2.
Qed.

(** A home directory with a file, a fifo, an empty directory, a link and
    something the user wants skipped; then the same with one file changed. *)
Definition ex_tree1 (hello : bytes) (mtime : Z) : list fspath :=
  [(ascii_bytes "/home/me", ascii_bytes "me", FsDir ex_dirmeta
     [(ascii_bytes "b", FsFile (Posix (mkPosix 33188 (Some 5%N) 1 1 5 mtime)) hello);
      (ascii_bytes "a", FsFile ex_filemeta (ascii_bytes "other"));
      (ascii_bytes "e", FsDir ex_dirmeta []);
      (ascii_bytes "fifo", FsOther ex_fifometa);
      (ascii_bytes "l", FsLink ex_linkmeta (ascii_bytes "a"));
      (ascii_bytes "skip", FsFile ex_filemeta (ascii_bytes "hello"))])].
Definition ex_skip (p : bytes) : bool := negb (bool_decide (p = ascii_bytes "/home/me/skip")).
Definition ex_paths1 := ex_tree1 (ascii_bytes "hello") 7.
Definition ex_paths2 := ex_tree1 (ascii_bytes "world") 8.

Lemma ex_paths_ok h t : (length h < 30) -> i64_wf t -> paths_ok toy_cuts false (ex_tree1 h t).
Proof.
  intros Hl Ht. split; [unfold len_wf; simpl; lia|]. split; [apply (bool_decide_unpack _); vm_compute; exact I|].
  constructor; [|constructor]. split; [apply (bool_decide_unpack _); vm_compute; exact I|].
  assert (forall acc x, length (chop acc x) <= length acc + length x) as Hchop.
  { intros acc x; revert acc; induction x as [|b x IH]; intros acc; simpl; [destruct acc; simpl; lia|].
    destruct (Nat.eqb_spec (length acc) 2); simpl; [pose proof (IH []) as H0; simpl in H0; lia|].
    pose proof (IH (acc ++ [b])) as H0. rewrite app_length in H0. simpl in H0. lia. }
  unfold ex_tree1. cbn [snd]. apply fs_ok_dir.
  split; [reflexivity|]. split; [apply (bool_decide_unpack _); vm_compute; exact I|].
  split; [apply (bool_decide_unpack _); vm_compute; exact I|]. split; [apply (bool_decide_unpack _); vm_compute; exact I|].
  repeat (constructor; [split; [apply (bool_decide_unpack _); vm_compute; exact I|]|]); [..|constructor]; cbn [fs_ok snd].
  - split; [reflexivity|]. split; [|split; [eauto|]].
    + unfold metadata_wf; cbn. split_and!; try lia; try done; apply Ht.
    + unfold len_wf, toy_cuts. pose proof (Hchop [] h) as H1. simpl in H1. lia.
  - split; [reflexivity|]. split; [apply (bool_decide_unpack _); vm_compute; exact I|]. split; [eauto|]. vm_compute. done.
  - apply fs_ok_dir. split; [reflexivity|]. split; [apply (bool_decide_unpack _); vm_compute; exact I|].
    split; [vm_compute; done|]. split; constructor.
  - done.
  - split; [done|]. split; [reflexivity|]. split; apply (bool_decide_unpack _); vm_compute; exact I.
  - split; [reflexivity|]. split; [apply (bool_decide_unpack _); vm_compute; exact I|]. split; [eauto|]. vm_compute. done.
Qed.

Definition ex_get {A} (d : A) (r : result A) : A := match r with Ok a => a | _ => d end.
Definition ex_run1 : bstate * oid :=
  ex_get (mkBstate ∅ [], []) (backup_tree quick_hash toy_cuts false ex_skip ∅ None ex_paths1 ∅).
Definition ex_st1 : store := store_of (bs_sent ex_run1.1).
Definition ex_trees1 : list tree :=
  omap (fun i => match i with ITree t => Some t | _ => None end) (plan_all quick_hash toy_cuts ex_skip ∅ None ex_paths1).
Definition ex_pf1 : forest := list_to_map (map (fun t => (tree_id quick_hash t, t)) ex_trees1).

Lemma store_sane_empty H : store_sane H ∅.
Proof. intros id ty x E. by rewrite lookup_empty in E. Qed.

(** The hypotheses of [C16_backup_reads_back] hold for a first backup into an
    empty repository ... *)
Lemma ex_first :
  no_collision quick_hash (relevant ∅ (plan_blobs quick_hash toy_cuts ex_skip ∅ None ex_paths1)) /\
  no_confusion ∅ (plan_blobs quick_hash toy_cuts ex_skip ∅ None ex_paths1).
Proof. split; [apply no_collision_by|apply no_confusion_by]; vm_compute; reflexivity. Qed.

Lemma ex_first_reads :
  reads_root quick_hash ex_st1 ex_run1.2 (kept_paths ex_skip ex_paths1) /\ store_sane quick_hash ex_st1.
Proof.
  destruct (C16_backup_reads_back quick_hash toy_cuts false ex_skip ∅ ∅ None ex_paths1) as (s & root & E & Hr & Hs & _).
  - apply quick_hash_length.
  - apply toy_cuts_concat.
  - apply ex_paths_ok; [vm_compute; lia|done].
  - apply store_sane_empty.
  - intros id t Et. by rewrite lookup_empty in Et.
  - done.
  - apply ex_first.
  - apply ex_first.
  - rewrite map_union_empty in Hr, Hs.
    assert (dom (∅ : store) = ∅) as Ed by (apply dom_empty_L). rewrite Ed in E.
    unfold ex_st1, ex_run1. rewrite E. cbn [ex_get fst snd]. split; [exact Hr|exact Hs].
Qed.

Lemma ex_pf_stored : forall id t, ex_pf1 !! id = Some t -> stored_as quick_hash ex_st1 id t.
Proof.
  intros id t Et. unfold ex_pf1 in Et. apply elem_of_list_to_map_2 in Et.
  apply elem_of_list_fmap in Et as (t' & [= -> <-] & Ht).
  assert (forallb (fun t => bool_decide (tree_id quick_hash t = empty_id quick_hash) && bool_decide (t = []) ||
    negb (bool_decide (tree_id quick_hash t = empty_id quick_hash)) &&
    bool_decide (ex_st1 !! tree_id quick_hash t = Some (Tree, enc_tree t)) && bool_decide (tree_wf t)) ex_trees1 = true) as E
    by (vm_compute; reflexivity).
  rewrite forallb_forall in E. specialize (E t (proj1 (elem_of_list_In _ _) Ht)).
  unfold stored_as. apply orb_true_iff in E as [E|E].
  - apply andb_true_iff in E as [E1 E2]. apply bool_decide_eq_true in E1, E2. by rewrite decide_True.
  - apply andb_true_iff in E as [E E3]. apply andb_true_iff in E as [E1 E2].
    apply negb_true_iff, bool_decide_eq_false in E1. apply bool_decide_eq_true in E2, E3.
    rewrite decide_False by done. exists (enc_tree t). split; [done|].
    rewrite <-(app_nil_r (enc_tree t)). by apply dec_enc_tree.
Qed.

(** ... and for a second one, over the first, with one file changed. *)
Definition ex_second := plan_blobs quick_hash toy_cuts ex_skip ex_pf1 (Some ex_run1.2) ex_paths2.

Example C16_witness :
  paths_ok toy_cuts false ex_paths2 /\ store_sane quick_hash ex_st1 /\
  (forall id t, ex_pf1 !! id = Some t -> stored_as quick_hash ex_st1 id t) /\
  (exists before, reads_root quick_hash ex_st1 ex_run1.2 before /\ stamps_honest before (kept_paths ex_skip ex_paths2)) /\
  no_collision quick_hash (relevant ex_st1 ex_second) /\ no_confusion ex_st1 ex_second /\
  map (fun b => (b_type b, length (b_bytes b)))
    (bs_sent (ex_get (mkBstate ∅ [], []) (backup_tree quick_hash toy_cuts false ex_skip ex_pf1 (Some ex_run1.2) ex_paths2 (dom ex_st1))).1)
  = [(Chunk, 3); (Chunk, 2); (Tree, 434); (Tree, 98)].
Proof.
  split; [apply ex_paths_ok; [vm_compute; lia|done]|]. split; [apply ex_first_reads|]. split; [apply ex_pf_stored|].
  split.
  - exists (kept_paths ex_skip ex_paths1). split; [apply ex_first_reads|].
    intros [|x p] m0 c0 m c; [done|]. unfold fs_at.
    assert (kept_paths ex_skip ex_paths1 = [(ascii_bytes "me", FsDir ex_dirmeta
      [(ascii_bytes "a", FsFile ex_filemeta (ascii_bytes "other"));
       (ascii_bytes "b", FsFile (Posix (mkPosix 33188 (Some 5%N) 1 1 5 7)) (ascii_bytes "hello"));
       (ascii_bytes "e", FsDir ex_dirmeta []);
       (ascii_bytes "l", FsLink ex_linkmeta (ascii_bytes "a"))])]) as -> by (vm_compute; reflexivity).
    assert (kept_paths ex_skip ex_paths2 = [(ascii_bytes "me", FsDir ex_dirmeta
      [(ascii_bytes "a", FsFile ex_filemeta (ascii_bytes "other"));
       (ascii_bytes "b", FsFile (Posix (mkPosix 33188 (Some 5%N) 1 1 5 8)) (ascii_bytes "world"));
       (ascii_bytes "e", FsDir ex_dirmeta []);
       (ascii_bytes "l", FsLink ex_linkmeta (ascii_bytes "a"))])]) as -> by (vm_compute; reflexivity).
    cbn [om_get]. destruct (bytes_cmp x (ascii_bytes "me")); try done. cbn [mbind option_bind].
    destruct p as [|y p]; [done|]. cbn [fs_sub om_get].
    destruct (bytes_cmp y (ascii_bytes "a")) eqn:Ea; try done; cbn [mbind option_bind].
    { destruct p; [|done]. cbn. intros [= <- <-] [= <- <-]. done. }
    destruct (bytes_cmp y (ascii_bytes "b")) eqn:Eb; try done; cbn [mbind option_bind].
    { destruct p; [|done]. cbn. intros [= <- <-] [= <- <-]. done. }
    destruct (bytes_cmp y (ascii_bytes "e")) eqn:Ee; try done; cbn [mbind option_bind].
    { destruct p; done. }
    destruct (bytes_cmp y (ascii_bytes "l")) eqn:El; try done; cbn [mbind option_bind].
    { destruct p; done. }
  - split; [apply no_collision_by; vm_compute; reflexivity|].
    split; [apply no_confusion_by; vm_compute; reflexivity|].
    vm_compute. reflexivity.
Qed.

(** ** C16 without the last premise

    Blobs are told apart by id alone.  A file whose bytes happen to be the
    encoding of a directory in the same backup takes that directory's place: the
    tree is never stored, and nothing can read the snapshot. *)
Definition whole (x : bytes) : list bytes := match x with [] => [] | _ => [x] end.
Lemma whole_concat x : concat (whole x) = x.
Proof. destruct x; simpl; by rewrite ?app_nil_r. Qed.

Definition evil_sub : tree := [(ascii_bytes "f", mkNode (CFile []) (ex_meta 33188 (Some 0%N)))].
Definition evil_paths : list fspath :=
  [(ascii_bytes "/d", ascii_bytes "d", FsDir ex_dirmeta
     [(ascii_bytes "a", FsFile (ex_meta 33188 (Some 89%N)) (enc_tree evil_sub));
      (ascii_bytes "b", FsDir ex_dirmeta [(ascii_bytes "f", FsFile (ex_meta 33188 (Some 0%N)) [])])])].

Lemma evil_paths_ok : paths_ok whole false evil_paths.
Proof.
  split; [vm_compute; done|]. split; [apply (bool_decide_unpack _); vm_compute; exact I|].
  constructor; [|constructor]. split; [apply (bool_decide_unpack _); vm_compute; exact I|].
  cbn [snd evil_paths]. apply fs_ok_dir.
  split; [reflexivity|]. split; [apply (bool_decide_unpack _); vm_compute; exact I|].
  split; [vm_compute; done|]. split; [apply (bool_decide_unpack _); vm_compute; exact I|].
  repeat (constructor; [split; [apply (bool_decide_unpack _); vm_compute; exact I|]|]); [..|constructor]; cbn [snd].
  - split; [reflexivity|]. split; [apply (bool_decide_unpack _); vm_compute; exact I|]. split; [eauto|]. vm_compute. done.
  - apply fs_ok_dir. split; [reflexivity|]. split; [apply (bool_decide_unpack _); vm_compute; exact I|].
    split; [vm_compute; done|]. split; [apply (bool_decide_unpack _); vm_compute; exact I|].
    constructor; [|constructor]. split; [apply (bool_decide_unpack _); vm_compute; exact I|].
    cbn [snd]. split; [reflexivity|]. split; [apply (bool_decide_unpack _); vm_compute; exact I|]. split; [eauto|]. vm_compute. done.
Qed.

Definition evil_run : bstate * oid :=
  ex_get (mkBstate ∅ [], []) (backup_tree quick_hash whole false (fun _ => true) ∅ None evil_paths ∅).
Definition evil_d : tree :=
  [(ascii_bytes "a", mkNode (CFile [quick_hash (enc_tree evil_sub)]) (ex_meta 33188 (Some 89%N)));
   (ascii_bytes "b", mkNode (CDir (quick_hash (enc_tree evil_sub))) ex_dirmeta)].
Definition evil_root : tree := [(ascii_bytes "d", mkNode (CDir (tree_id quick_hash evil_d)) ex_dirmeta)].

Theorem C16_chunk_shadowing_a_tree_refuted :
  exists (H : bytes -> oid) (cuts : bytes -> list bytes) (paths : list fspath) (s : bstate) (root : oid),
    (forall x, length (H x) = 28%nat) /\ (forall x, concat (cuts x) = x) /\ paths_ok cuts false paths /\
    no_collision H (relevant ∅ (plan_blobs H cuts (fun _ => true) ∅ None paths)) /\
    backup_tree H cuts false (fun _ => true) ∅ None paths ∅ = Ok (s, root) /\
    forall es, ~ reads_root H (store_of (bs_sent s)) root es.
Proof.
  exists quick_hash, whole, evil_paths, evil_run.1, evil_run.2.
  split; [apply quick_hash_length|]. split; [apply whole_concat|]. split; [apply evil_paths_ok|].
  split; [apply no_collision_by; vm_compute; reflexivity|].
  split.
  { rewrite backup_tree_plan; [|by apply map_Forall_empty|apply evil_paths_ok].
    unfold evil_run. rewrite backup_tree_plan; [|by apply map_Forall_empty|apply evil_paths_ok].
    cbn [ex_get fst snd]. reflexivity. }
  set (st := store_of (bs_sent evil_run.1)).
  assert (forall t, evil_root = t \/ evil_d = t -> stored_as quick_hash st (tree_id quick_hash t) t) as Hst.
  { assert (forallb (fun t => negb (bool_decide (tree_id quick_hash t = empty_id quick_hash)) &&
      bool_decide (st !! tree_id quick_hash t = Some (Tree, enc_tree t)) && bool_decide (tree_wf t)) [evil_root; evil_d] = true) as E
      by (vm_compute; reflexivity).
    intros t Ht. rewrite forallb_forall in E. assert (In t [evil_root; evil_d]) as Hin by (simpl; tauto).
    specialize (E t Hin). apply andb_true_iff in E as [E E3]. apply andb_true_iff in E as [E1 E2].
    apply negb_true_iff, bool_decide_eq_false in E1. apply bool_decide_eq_true in E2, E3.
    unfold stored_as. rewrite decide_False by done. exists (enc_tree t). split; [done|].
    rewrite <-(app_nil_r (enc_tree t)). by apply dec_enc_tree. }
  assert (evil_run.2 = tree_id quick_hash evil_root) as -> by (vm_compute; reflexivity).
  intros es (t & Ht & HF).
  assert (t = evil_root) as -> by (eapply stored_as_fun; [exact Ht|apply Hst; by left]).
  inversion HF as [|? ? ? ? [_ Hr] _]; subst. cbn [snd] in Hr.
  inversion Hr as [| |? ? t' es' Ht' HF']; subst.
  assert (t' = evil_d) as -> by (eapply stored_as_fun; [exact Ht'|apply Hst; by right]).
  inversion HF' as [|? ? ? ? _ HF2]; subst. inversion HF2 as [|? ? ? ? [_ Hr2] _]; subst. cbn [snd] in Hr2.
  inversion Hr2 as [| |? ? t2 es2 Ht2 _]; subst.
  unfold stored_as in Ht2.
  assert (quick_hash (enc_tree evil_sub) <> empty_id quick_hash) as Hne by (apply (bool_decide_unpack _); vm_compute; exact I).
  rewrite decide_False in Ht2 by exact Hne. destruct Ht2 as (b & Eb & _).
  assert (bool_decide (st !! quick_hash (enc_tree evil_sub) = Some (Chunk, enc_tree evil_sub)) = true) as Ec by (vm_compute; reflexivity).
  apply bool_decide_eq_true in Ec. rewrite Ec in Eb. clear -Eb. revert Eb. generalize (enc_tree evil_sub). intros e Eb. discriminate.
Qed.

(** The other theorems' hypotheses are met by the same two backups. *)
Lemma ex_pf_sane : forest_sane ex_pf1.
Proof.
  intros id t Et. unfold ex_pf1 in Et. apply elem_of_list_to_map_2 in Et.
  apply elem_of_list_fmap in Et as (t' & [= -> <-] & Ht).
  assert (forallb (fun t => bool_decide (tree_wf t) &&
    forallb (fun kv : bytes * node => bool_decide (meta_kind (n_meta kv.2) = contents_kind (n_contents kv.2))) t) ex_trees1 = true)
    as E by (vm_compute; reflexivity).
  rewrite forallb_forall in E. specialize (E t (proj1 (elem_of_list_In _ _) Ht)).
  apply andb_true_iff in E as [E1 E2]. apply bool_decide_eq_true in E1. split; [done|].
  apply Forall_forall. intros kv Hkv. rewrite forallb_forall in E2.
  specialize (E2 kv (proj1 (elem_of_list_In _ _) Hkv)). by apply bool_decide_eq_true in E2.
Qed.

Example C17_C18_C52_witness :
  forest_sane ex_pf1 /\ paths_ok toy_cuts false ex_paths1 /\
  (forall t, ITree t ∈ plan_all quick_hash toy_cuts ex_skip ∅ None ex_paths1 -> ex_pf1 !! tree_id quick_hash t = Some t) /\
  length (bs_sent ex_run1.1) = 6 /\
  match fs_at (kept_paths ex_skip ex_paths2) [ascii_bytes "me"; ascii_bytes "b"] with
  | Some (FsFile m c) => bool_decide (c = ascii_bytes "world") | _ => false end = true /\
  match node_at ex_pf1 ex_run1.2 [ascii_bytes "me"; ascii_bytes "b"] with
  | Some nd => bool_decide (meta_mtime (n_meta nd) = Some 7%Z) | _ => false end = true.
Proof.
  split; [apply ex_pf_sane|]. split; [apply ex_paths_ok; [vm_compute; lia|done]|]. split.
  - intros t Ht. unfold ex_pf1. apply elem_of_list_to_map_1.
    + apply (bool_decide_unpack _). vm_compute. exact I.
    + apply elem_of_list_fmap. exists t. split; [done|]. unfold ex_trees1. apply elem_of_list_omap.
      exists (ITree t). done.
  - split; [vm_compute; reflexivity|]. split; vm_compute; reflexivity.
Qed.

Example C51_witness :
  let matches r p := bool_decide (r `prefix_of` p) in
  match skip_matching_paths (fun r => negb (bool_decide (r = []))) matches
    (merge_skips [ascii_bytes "/b"; ascii_bytes "/a"] [ascii_bytes "/c"; ascii_bytes "/a"]) with
  | Ok keeps => map keeps [ascii_bytes "/a/x"; ascii_bytes "/b"; ascii_bytes "/c"; ascii_bytes "/d"]
  | _ => []
  end = [false; false; false; true].
Proof. vm_compute. reflexivity. Qed.

Print Assumptions C17_only_new_blobs_are_packed.
Print Assumptions C16_backup_reads_back.
Print Assumptions C16_old_snapshots_unharmed.
Print Assumptions C16_chunk_shadowing_a_tree_refuted.
Print Assumptions C18_parent_does_not_change_the_result.
Print Assumptions C18_changed_files_are_read.
Print Assumptions C52_unchanged_tree_sends_nothing_partial.
Print Assumptions C51_skips_are_a_union.
Print Assumptions C51_skipped_paths_are_left_out.
