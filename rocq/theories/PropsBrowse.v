(** Looking into snapshots: C35, C44 and C45. *)

From Verif Require Import Base OMap Formats FormatsFacts Hashing Pack Index IndexFacts Meta Forest FsTree FsSpec FsFacts BackupFacts
  Pipeline PipelineFacts PropsPipeline Repo RepoSpec RepoFacts RewriteFacts PublishFacts PlanFacts CommandFacts
  History PruneFacts ReadFacts HistoryFacts Exec Toy Witness
  Browse BrowseSpec BrowseFacts DiffFacts BrowseRepo ReadBack.

(** ** The example: a directory backed up twice, changed in between *)

Definition tx (s : String.string) : bytes := ascii_bytes s.
Definition bx_before : list (bytes * fsnode) :=
  [(tx "t", FsDir ex_dirmeta
     [(tx "d", FsDir ex_dirmeta [(tx "x", FsFile ex_filemeta (tx "in d"))]);
      (tx "f", FsFile ex_filemeta (tx "hello"));
      (tx "l", FsLink ex_linkmeta (tx "f"));
      (tx "o", FsFile ex_filemeta (tx "other"))])].
Definition bx_after : list (bytes * fsnode) :=
  [(tx "t", FsDir ex_dirmeta
     [(tx "d", FsFile ex_filemeta (tx "in d"));
      (tx "f", FsFile (ex_meta 33188 (Some 6%N)) (tx "hello!"));
      (tx "l", FsLink ex_linkmeta (tx "o"));
      (tx "o", FsFile (ex_meta 33152 (Some 5%N)) (tx "other"))])].
Definition bx_paths (es : list (bytes * fsnode)) : list fspath := map (fun e => (tx "/" ++ e.1, e.1, e.2)) es.
Definition bx_root (es : list (bytes * fsnode)) : oid := plan_root quick_hash toy_cuts (fun _ => true) ∅ None (bx_paths es).
Definition bx_blobs : list blob :=
  remove_dups (tree_blob quick_hash [] :: plan_blobs quick_hash toy_cuts (fun _ => true) ∅ None (bx_paths bx_before)
    ++ plan_blobs quick_hash toy_cuts (fun _ => true) ∅ None (bx_paths bx_after)).
Lemma bx_universe : universe quick_hash (in_list bx_blobs).
Proof. apply universe_ok. vm_compute. reflexivity. Qed.
Definition bx_snap (es : list (bytes * fsnode)) (now : Z) : snapshot := mkSnapshot now [] [] [] [] (bx_root es).
Definition bx_k : backend := single quick_hash bx_blobs [bx_snap bx_before 1; bx_snap bx_after 2].

Lemma bx_reads :
  back quick_hash (store_of bx_blobs) 9 (bx_root bx_before) = Some bx_before /\
  back quick_hash (store_of bx_blobs) 9 (bx_root bx_after) = Some bx_after.
Proof. split; vm_compute; reflexivity. Qed.
Lemma bx_restores : restores quick_hash bx_k (bx_snap bx_before 1) bx_before /\ restores quick_hash bx_k (bx_snap bx_after 2) bx_after.
Proof.
  destruct bx_reads as [H1 H2]. apply back_ok in H1. apply back_ok in H2. unfold restores, bx_k. rewrite single_store. done.
Qed.
Opaque bx_blobs bx_root.
Lemma bx_in_order : in_order quick_hash (in_list bx_blobs) bx_k.
Proof.
  unfold bx_k. apply single_in_order.
  - apply Forall_forall. intros b Hb. exact Hb.
  - assert (bool_decide (NoDup (map b_id bx_blobs)) = true) as Hx by (vm_compute; reflexivity). by apply bool_decide_eq_true in Hx.
  - destruct bx_restores as [H1 H2]. unfold restores, bx_k in H1, H2. rewrite single_store in H1, H2. cbn [bx_snap sn_tree] in H1, H2.
    intros sn [->|[->|Hin%elem_of_nil]%elem_of_cons]%elem_of_cons; [by eexists|by eexists|done].
Qed.
Definition bx_ix : index := single_index quick_hash bx_blobs.
Definition bx_map : gmap oid oid := match blob_to_pack_map bx_ix with Ok m => m | _ => ∅ end.
Lemma bx_maps : master bx_k = Ok bx_ix /\ blob_to_pack_map bx_ix = Ok bx_map.
Proof.
  split.
  - unfold bx_k, bx_ix. apply single_master.
  - assert (match blob_to_pack_map bx_ix with Ok _ => true | _ => false end = true) as Hx by (vm_compute; reflexivity).
    unfold bx_map. by destruct (blob_to_pack_map bx_ix).
Qed.
Opaque bx_map bx_k bx_ix.

Definition cleanb (x : bytes) : bool := negb (bool_decide (x = [])) && negb (bool_decide (slash ∈ x)).
Fixpoint node_cleanb (n : fsnode) : bool :=
  match n with FsDir _ es => forallb (fun e : bytes * fsnode => cleanb e.1 && node_cleanb e.2) es | _ => true end.
Lemma cleanb_ok es : forallb (fun e : bytes * fsnode => cleanb e.1 && node_cleanb e.2) es = true -> clean_names es.
Proof.
  assert (forall x (es : list (bytes * fsnode)) n, om_get x es = Some n -> forallb (fun e : bytes * fsnode => cleanb e.1 && node_cleanb e.2) es = true ->
    clean_name x /\ node_cleanb n = true) as Hget.
  { intros x l n E Hall. assert ((x, n) ∈ l) as Hin.
    { clear Hall. induction l as [|[y m] l IH]; [done|]. cbn in E. destruct (bytes_cmp x y) eqn:Ec; [|done|right; auto].
      apply bytes_cmp_eq in Ec as ->. injection E as ->. by left. }
    rewrite forallb_forall in Hall. apply elem_of_list_In, Hall, andb_true_iff in Hin as [Hc Hn]. split; [|done]. cbn [fst] in Hc.
    unfold cleanb in Hc. apply andb_true_iff in Hc as [H1%negb_true_iff%bool_decide_eq_false H2%negb_true_iff%bool_decide_eq_false]. done. }
  assert (forall p n n', node_cleanb n = true -> fs_sub n p = Some n' -> Forall clean_name p) as Hsub.
  { induction p as [|x p IH]; intros n n' Hn E; [done|]. cbn [fs_sub] in E. destruct n as [|m l| |]; try done.
    apply bind_Some in E as (n1 & E1 & E2). cbn [node_cleanb] in Hn. destruct (Hget _ _ _ E1 Hn) as [Hx Hn1]. constructor; [done|]. by eapply IH. }
  intros Hall [|x p] n E; [done|]. cbn [fs_at] in E. apply bind_Some in E as (n1 & E1 & E2). destruct (Hget _ _ _ E1 Hall) as [Hx Hn1]. constructor; [done|]. by eapply Hsub.
Qed.
Lemma bx_clean : clean_names bx_before /\ clean_names bx_after.
Proof. split; apply cleanb_ok; vm_compute; reflexivity. Qed.

(** * C44: listing visits each path exactly once *)

(** [ls] on a snapshot in a repository in order: one line for every path in it, no
    two for the same, a directory before what is in it.  [fuel] bounds the depth. *)
Theorem C44_ls_prints_every_path_once H U k ix bmap sn es :
  universe H U -> (forall x, length (H x) = 28) -> in_order H U k ->
  master k = Ok ix -> blob_to_pack_map ix = Ok bmap ->
  restores H k sn es -> clean_names es ->
  exists fuel l, lists_files es l /\ NoDup (map (fun x => path_text x.1) l) /\
    ls (read_tree k bmap) fuel (cache_new H) (sn_tree sn) = Some (Ok (concat (map file_line l))).
Proof.
  intros HU Hlen Hk Eix Ebm Hr Hcl. exists (S (depth es)). by apply (ls_prints H U HU Hlen k ix bmap Hk Eix Ebm).
Qed.

Example C44_witness :
  universe quick_hash (in_list bx_blobs) /\ in_order quick_hash (in_list bx_blobs) bx_k /\
  master bx_k = Ok bx_ix /\ blob_to_pack_map bx_ix = Ok bx_map /\
  restores quick_hash bx_k (bx_snap bx_before 1) bx_before /\ clean_names bx_before /\
  ls (read_tree bx_k bx_map) 9 (cache_new quick_hash) (bx_root bx_before) =
    Some (Ok (tx "t/" ++ [x0a] ++ tx "t/d/" ++ [x0a] ++ tx "t/d/x" ++ [x0a] ++ tx "t/f" ++ [x0a] ++ tx "t/l -> f" ++ [x0a] ++ tx "t/o" ++ [x0a])).
Proof.
  split; [apply bx_universe|]. split; [apply bx_in_order|]. split; [apply bx_maps|]. split; [apply bx_maps|]. split; [apply bx_restores|].
  split; [apply bx_clean|]. vm_compute. reflexivity.
Qed.

(** * C45: dump prints what is at the given path *)

(** As long as no directory on the way is a symbolic link: dumping succeeds iff
    the path is in the snapshot and goes down only, and then prints just what is
    there; it never panics.

    Partial: see the refutation for paths through a link.  And the empty path (or
    just [.]) prints nothing, successfully. *)
Theorem C45_dump_prints_that_path_partial H U k ix bmap sn es path :
  universe H U -> (forall x, length (H x) = 28) -> in_order H U k ->
  master k = Ok ix -> blob_to_pack_map ix = Ok bmap ->
  restores H k sn es -> clean_names es ->
  dump (read_tree k bmap) (read_chunk k bmap) (cache_new H) (sn_tree sn) path <> Panic /\
  (names_in path <> [] -> no_link_before es (names_in path) -> forall out,
    dump (read_tree k bmap) (read_chunk k bmap) (cache_new H) (sn_tree sn) path = Ok out <->
    goes_down path /\ exists n, fs_at es (names_in path) = Some n /\ out = [shown (names_in path) n]).
Proof. intros HU Hlen Hk Eix Ebm Hr Hcl. by apply (dump_prints H U HU Hlen k ix bmap Hk Eix Ebm). Qed.

Example C45_witness :
  names_in (tx "./t//d/x") = [tx "t"; tx "d"; tx "x"] /\ goes_down (tx "./t//d/x") /\
  no_link_before bx_before [tx "t"; tx "d"; tx "x"] /\
  dump (read_tree bx_k bx_map) (read_chunk bx_k bx_map) (cache_new quick_hash) (bx_root bx_before) (tx "./t//d/x") = Ok [tx "in d"] /\
  dump (read_tree bx_k bx_map) (read_chunk bx_k bx_map) (cache_new quick_hash) (bx_root bx_before) (tx "t/f/x") = Err.
Proof.
  split; [vm_compute; reflexivity|]. split.
  { apply components_down. assert (bool_decide (RootOrParent ∉ components (tx "./t//d/x")) = true) as Hx by (vm_compute; reflexivity). by apply bool_decide_eq_true in Hx. }
  split.
  { intros q r m tg E Hr. destruct q as [|x0 [|x1 [|x2 q]]]; [done| | |].
    - injection E as <- _. vm_compute. intros E. discriminate E.
    - injection E as <- <- _. vm_compute. intros E. discriminate E.
    - exfalso. injection E as _ _ _ E. destruct q, r; done. }
  split; vm_compute; reflexivity.
Qed.

(** Through a symbolic link the walk goes on in the directory the link is in: the
    path [t/l/f] is not in the snapshot, but dumping it prints the link and then
    the file [t/f]. *)
Theorem C45_refuted : exists H U k ix bmap sn es path out,
  universe H U /\ (forall x, length (H x) = 28) /\ in_order H U k /\
  master k = Ok ix /\ blob_to_pack_map ix = Ok bmap /\
  restores H k sn es /\ clean_names es /\ goes_down path /\
  fs_at es (names_in path) = None /\
  dump (read_tree k bmap) (read_chunk k bmap) (cache_new H) (sn_tree sn) path = Ok out /\
  concat out = tx "t/l -> f" ++ [x0a] ++ tx "hello".
Proof.
  assert (exists out, dump (read_tree bx_k bx_map) (read_chunk bx_k bx_map) (cache_new quick_hash) (bx_root bx_before) (tx "t/l/f") = Ok out /\
    concat out = tx "t/l -> f" ++ [x0a] ++ tx "hello") as (out & E & Eo).
  { eexists. split; vm_compute; reflexivity. }
  exists quick_hash, (in_list bx_blobs), bx_k, bx_ix, bx_map, (bx_snap bx_before 1), bx_before, (tx "t/l/f"), out.
  split; [apply bx_universe|]. split; [apply quick_hash_length|]. split; [apply bx_in_order|]. split; [apply bx_maps|]. split; [apply bx_maps|].
  split; [apply bx_restores|]. split; [apply bx_clean|]. split.
  { apply components_down. assert (bool_decide (RootOrParent ∉ components (tx "t/l/f")) = true) as Hx by (vm_compute; reflexivity). by apply bool_decide_eq_true in Hx. }
  split; [vm_compute; reflexivity|]. split; [exact E|exact Eo].
Qed.

(** * C35: diff reports exactly the differences *)

Lemma sane_shape fo : forest_sane fo ->
  map_Forall (fun _ (t : tree) => om_sorted t /\ Forall (fun e : bytes * node => meta_kind (n_meta e.2) = contents_kind (n_contents e.2)) t) fo.
Proof. intros Hs i t E. destruct (Hs i t E) as [Hw Hf]. split; [apply Hw|done]. Qed.

(** Any two forests in which equal ids mean equal trees: exactly the lines that
    belong are printed, each once. *)
Theorem C35_diff_reports_exactly fo1 fo2 fuel show_meta id1 id2 :
  forest_sane fo1 -> forest_sane fo2 -> same_ids fo1 fo2 -> loaded fo1 fuel id1 -> loaded fo2 fuel id2 ->
  exists ls, diff fo1 fo2 fuel show_meta id1 id2 = Some (Ok ls) /\ NoDup ls /\
    (forall prefix p n, (prefix, p, n) ∈ ls <-> belongs show_meta (node_at fo1 id1 p) (node_at fo2 id2 p) prefix n) /\
    (ls = [] <-> forall p, no_news show_meta (node_at fo1 id1 p) (node_at fo2 id2 p)).
Proof.
  intros H1 H2 Hsame L1 L2. destruct (diff_lines fo1 fo2 (sane_shape _ H1) (sane_shape _ H2) Hsame fuel show_meta id1 id2 L1 L2) as (l & E & Hnd & Hin).
  exists l. split; [done|]. split; [done|]. split; [done|]. split.
  - intros -> p. apply no_news_lines. intros pre n Hb%Hin. by apply elem_of_nil in Hb.
  - intros Hno. destruct l as [|[[pre p] n] l]; [done|]. exfalso. destruct (proj2 (no_news_lines _ _ _) (Hno p) pre n). apply Hin. by left.
Qed.

Lemma same_entries H k nd1 n1 nd2 n2 : reads H (repo_store k) nd1 n1 -> reads H (repo_store k) nd2 n2 ->
  ~ differs nd1 nd2 -> n_meta nd1 = n_meta nd2 ->
  match n1 with FsDir m _ => FsDir m [] | other => other end = match n2 with FsDir m _ => FsDir m [] | other => other end.
Proof.
  intros R1 R2 Hd Hm. destruct (kind_same_contents _ _ Hd) as [[K1 K2]|Ec].
  - destruct R1; try done. destruct R2; try done. cbn in Hm. by subst.
  - destruct nd1, nd2. cbn in *. subst. by rewrite (reads_fun _ _ _ _ _ R1 R2).
Qed.

(** Two snapshots of a repository.  With [--metadata] nothing is printed iff they
    are the same tree, and whatever differs between the files is mentioned. *)
Theorem C35_diff_of_two_snapshots H U k ix bmap sn1 es1 sn2 es2 :
  universe H U -> (forall x, length (H x) = 28) -> in_order H U k ->
  master k = Ok ix -> blob_to_pack_map ix = Ok bmap ->
  restores H k sn1 es1 -> restores H k sn2 es2 ->
  exists fuel1 fo1 fuel2 fo2 fuel,
    load_forest H k bmap fuel1 (sn_tree sn1) = Some (Ok fo1) /\ load_forest H k bmap fuel2 (sn_tree sn2) = Some (Ok fo2) /\
    (forall show_meta, exists ls, diff fo1 fo2 fuel show_meta (sn_tree sn1) (sn_tree sn2) = Some (Ok ls) /\ NoDup ls /\
      (forall prefix p n, (prefix, p, n) ∈ ls <-> belongs show_meta (node_at fo1 (sn_tree sn1) p) (node_at fo2 (sn_tree sn2) p) prefix n)) /\
    (exists ls, diff fo1 fo2 fuel true (sn_tree sn1) (sn_tree sn2) = Some (Ok ls) /\
      (ls = [] <-> sn_tree sn1 = sn_tree sn2) /\
      (forall p, entry_at es1 p <> entry_at es2 p -> exists prefix n, (prefix, p, n) ∈ ls)).
Proof.
  intros HU Hlen Hk Eix Ebm R1 R2.
  destruct (load_snapshot H U HU Hlen k ix bmap Hk Eix Ebm _ _ R1) as (fo1 & E1 & L1 & F1).
  destruct (load_snapshot H U HU Hlen k ix bmap Hk Eix Ebm _ _ R2) as (fo2 & E2 & L2 & F2).
  set (f := S (depth es1) + S (depth es2)). apply (loaded_mono _ _ f) in L1; [|lia]. apply (loaded_mono _ _ f) in L2; [|lia].
  pose proof (forest_of_tree H U HU Hlen k ix bmap Hk Eix Ebm fo1 F1) as S1. pose proof (forest_of_tree H U HU Hlen k ix bmap Hk Eix Ebm fo2 F2) as S2.
  pose proof (stored_same H U HU Hlen k ix bmap Hk Eix Ebm fo1 fo2 F1 F2) as Hsame.
  exists (S (depth es1)), fo1, (S (depth es2)), fo2, f. split; [done|]. split; [done|]. split.
  { intros sm. destruct (diff_lines fo1 fo2 S1 S2 Hsame f sm _ _ L1 L2) as (l & E & Hnd & Hin). by exists l. }
  destruct (diff_lines fo1 fo2 S1 S2 Hsame f true _ _ L1 L2) as (l & E & Hnd & Hin). exists l. split; [done|].
  pose proof (forest_agrees H U HU Hlen k ix bmap Hk Eix Ebm fo1 f _ _ F1 L1 R1) as A1.
  pose proof (forest_agrees H U HU Hlen k ix bmap Hk Eix Ebm fo2 f _ _ F2 L2 R2) as A2. split; [split|].
  - intros ->. apply (alike_same_id H fo1 fo2 f); [| |done|done|].
    + intros i t Et. split; [by eapply (stored_hash H U HU Hlen k ix bmap Hk Eix Ebm), F1|apply (S1 i t Et)].
    + intros i t Et. split; [by eapply (stored_hash H U HU Hlen k ix bmap Hk Eix Ebm), F2|apply (S2 i t Et)].
    + intros p. apply no_news_lines. intros pre n Hb%Hin. by apply elem_of_nil in Hb.
  - intros Hs. destruct l as [|[[pre p] n] l]; [done|]. exfalso.
    assert (belongs true (node_at fo1 (sn_tree sn1) p) (node_at fo2 (sn_tree sn2) p) pre n) as Hb by (apply Hin; by left).
    rewrite <- Hs in L2, Hb. rewrite (same_node_at fo1 fo2 S1 S2 Hsame f f _ p L1 L2) in Hb.
    assert (no_news true (node_at fo2 (sn_tree sn1) p) (node_at fo2 (sn_tree sn1) p)) as Hno.
    { destruct (node_at fo2 (sn_tree sn1) p); [|done]. split; [|done]. by intros [?|[_ ?]]. }
    by apply (proj2 (no_news_lines _ _ _) Hno pre n).
  - intros p Hp. specialize (A1 p). specialize (A2 p).
    destruct (decide (Exists (fun x : line => x.1.2 = p) l)) as [Hx|Hx].
    { apply Exists_exists in Hx as ([[pre q] n] & Hx & Eq). cbn in Eq. subst q. by exists pre, n. }
    exfalso. assert (no_news true (node_at fo1 (sn_tree sn1) p) (node_at fo2 (sn_tree sn2) p)) as Hno.
    { apply no_news_lines. intros pre n Hb%Hin. apply Hx, Exists_exists. by exists (pre, p, n). }
    apply Hp. unfold entry_at, agree in *. destruct (node_at fo1 _ p) as [nd1|], (fs_at es1 p) as [n1|]; try done;
      destruct (node_at fo2 _ p) as [nd2|], (fs_at es2 p) as [n2|]; try done.
    cbn [fmap option_fmap option_map no_news] in *. f_equal. destruct Hno as [Hd Hm]. apply (same_entries H k nd1 _ nd2); auto.
Qed.


(** Before and after: [d] went from directory to file, [f] got other contents, the
    link [l] another target and [o] another mode. *)
Example C35_witness :
  universe quick_hash (in_list bx_blobs) /\ in_order quick_hash (in_list bx_blobs) bx_k /\
  master bx_k = Ok bx_ix /\ blob_to_pack_map bx_ix = Ok bx_map /\
  restores quick_hash bx_k (bx_snap bx_before 1) bx_before /\ restores quick_hash bx_k (bx_snap bx_after 2) bx_after /\
  match load_forest quick_hash bx_k bx_map 9 (bx_root bx_before), load_forest quick_hash bx_k bx_map 9 (bx_root bx_after) with
  | Some (Ok fo1), Some (Ok fo2) =>
      match diff fo1 fo2 9 true (bx_root bx_before) (bx_root bx_after) with
      | Some (Ok ls) => concat (map line_text ls)
      | _ => []
      end
  | _, _ => []
  end = concat (map (fun x => tx x ++ [x0a]) ["- t/d/"; "- t/d/x"; "+ t/d"; "C t/f"; "- t/l -> f"; "+ t/l -> o"; "P t/o"]%string).
Proof.
  split; [apply bx_universe|]. split; [apply bx_in_order|]. split; [apply bx_maps|]. split; [apply bx_maps|]. split; [apply bx_restores|]. split; [apply bx_restores|].
  vm_compute. reflexivity.
Qed.

Print Assumptions C44_ls_prints_every_path_once.
Print Assumptions C45_dump_prints_that_path_partial.
Print Assumptions C45_refuted.
Print Assumptions C35_diff_reports_exactly.
Print Assumptions C35_diff_of_two_snapshots.
