(** C70: comparing a snapshot to the files it was made of. *)

From Verif Require Import Base OMap Formats FormatsFacts Hashing Pack Index IndexFacts Meta Forest ForestFacts FsTree FsSpec FsFacts BackupFacts
  Pipeline PipelineFacts PropsPipeline Repo RepoSpec RepoFacts RewriteFacts PublishFacts PlanFacts CommandFacts
  History PruneFacts ReadFacts HistoryFacts Exec Toy Witness Select Snapshots
  Browse BrowseSpec BrowseFacts DiffFacts BrowseRepo ReadBack
  Restore RestoreSpec RestoreFacts RestoreSteps RestoreForest RestoreRun RestoreWitness PropsBrowse PropsRestore PathFacts RepeatFacts PropsRepo PropsWhole BackupPaths PropsPaths PropsRoundTrip DiffFiles.

(** ** What the report should say

    [a] became [b]: another kind of thing, or a link that leads elsewhere. *)
Definition replaced (a b : thing) : Prop :=
  match a, b with
  | TFile _, TFile _ | TDir, TDir => False
  | TLink x, TLink y => x <> y
  | _, _ => True
  end.

(** The line about a place at which the snapshot has [saved] and there is now [now].
    Special files do not count as being there. *)
Inductive news (show_meta : bool) (saved now : option thing_meta) : bytes -> Prop :=
  | news_added t m : now = Some (t, m) -> t <> TOther -> (forall t0 m0, saved = Some (t0, m0) -> replaced t0 t) ->
      news show_meta saved now (ascii_bytes "+ ")
  | news_removed t0 m0 : saved = Some (t0, m0) -> (forall t m, now = Some (t, m) -> replaced t0 t) ->
      news show_meta saved now (ascii_bytes "- ")
  | news_changed c0 m0 c m : saved = Some (TFile c0, m0) -> now = Some (TFile c, m) -> c0 <> c ->
      news show_meta saved now (ascii_bytes "C ")
  | news_meta t m0 m mark : show_meta = true -> saved = Some (t, m0) -> now = Some (t, m) ->
      meta_diff_char m0 m = Some mark -> news show_meta saved now (mark_char mark ++ ascii_bytes " ").

(** What comparing takes. *)
Record can_compare (cuts : bytes -> list bytes) (sn : snapshot) (es files : list (bytes * fsnode)) : Prop := {
  (* the snapshot's paths have names, no two the same, and its entries are of these names *)
  cc_named : Forall (fun p => names_in p <> []) (sn_paths sn);
  cc_distinct : NoDup (map fst (targets sn None));
  cc_few : len_wf (sn_paths sn);
  cc_text : forall x l, (x, l) ∈ targets sn None -> text_wf x;
  cc_tops : forall x n, om_get x es = Some n -> x ∈ map fst (targets sn None);
  (* the paths exist; the files are of Unix, and as their types allow *)
  cc_there : forall x l, (x, l) ∈ targets sn None -> is_Some (ent files l);
  cc_sorted : sorted_fs files;
  cc_files : forall x l n, (x, l) ∈ targets sn None -> fs_at files l = Some n -> fs_ok cuts false n;
  cc_unix : forall x l q t m, (x, l) ∈ targets sn None -> ent files (l ++ q) = Some (t, m) -> is_Some (modes m);
  (* what has the size and modification time of the snapshot has its contents *)
  cc_honest : forall x l q m0 c0 m c, (x, l) ∈ targets sn None ->
    ent es (x :: q) = Some (TFile c0, m0) -> ent files (l ++ q) = Some (TFile c, m) ->
    meta_mtime m = meta_mtime m0 -> meta_size m = meta_size m0 -> c = c0 }.

(** A file with the contents of the snapshot but another size or time had been cut into
    chunks as it would be now. *)
Definition cut_alike (H : bytes -> oid) (cuts : bytes -> list bytes) (fo : forest) (sn : snapshot) (es files : list (bytes * fsnode)) : Prop :=
  forall x l q ids m0 c m, (x, l) ∈ targets sn None -> node_at fo (sn_tree sn) (x :: q) = Some (mkNode (CFile ids) m0) ->
  ent es (x :: q) = Some (TFile c, m0) -> ent files (l ++ q) = Some (TFile c, m) ->
  meta_mtime m <> meta_mtime m0 \/ meta_size m <> meta_size m0 -> ids = map H (cuts c).

Lemma can_restore_compare cuts resolves args sn es files : can_restore cuts resolves args None sn es files -> can_compare cuts sn es files.
Proof.
  intros C. split.
  - apply (cr_named _ _ _ _ _ _ _ C).
  - apply (cr_distinct _ _ _ _ _ _ _ C).
  - apply (cr_few _ _ _ _ _ _ _ C).
  - intros x l Hin. destruct (named_locs sn (cr_named _ _ _ _ _ _ _ C)) as (_ & _ & _ & N4). pose proof Hin as [_ Ex]%N4. by apply (cr_text _ _ _ _ _ _ _ C x l x).
  - apply (cr_tops _ _ _ _ _ _ _ C).
  - intros x l Hin. by apply (cr_place _ _ _ _ _ _ _ C x l).
  - apply (cr_sorted _ _ _ _ _ _ _ C).
  - apply (cr_files _ _ _ _ _ _ _ C).
  - apply (cr_unix _ _ _ _ _ _ _ C).
  - apply (cr_honest _ _ _ _ _ _ _ C).
Qed.

(** ** The chunks of the files there *)

Section plan.
Local Set Default Proof Using "All".
Variables (H : bytes -> oid) (cuts : bytes -> list bytes) (U : blob -> Prop) (read : oid -> result bytes) (pf : forest).
Hypothesis HU : universe H U.
Hypothesis Hcuts : forall x, concat (cuts x) = x.
Hypothesis Hread : forall i p, read i = Ok p -> exists b, U b /\ b_id b = i /\ b_bytes b = p.

Lemma plan_chunks fo n path prev : in_shape n ->
  match plan H cuts (fun _ => true) pf path prev n with
  | Some (nd, its) => has_trees H fo its -> forall q m c, fs_sub n q = Some (FsFile m c) ->
      node_sub fo nd q = Some (mkNode (match prev ≫= (fun p => node_sub pf p q) with
                                       | Some p => if looks_unchanged (Some p) m then n_contents p else CFile (map H (cuts c))
                                       | None => CFile (map H (cuts c))
                                       end) m)
  | None => forall q m c, fs_sub n q <> Some (FsFile m c)
  end.
Proof.
  revert path prev. induction n as [m c|m es IH|m tg|m] using fsnode_ind'; intros path prev Hsh; cbn [FsSpec.plan negb].
  - assert (forall q m' c', fs_sub (FsFile m c) q = Some (FsFile m' c') -> q = [] /\ m' = m /\ c' = c) as Hq by (intros [|x q] m' c'; [by intros [= -> ->]|done]).
    destruct prev as [p|]; [destruct (looks_unchanged (Some p) m) eqn:Hun|]; intros _ q m' c' (-> & -> & ->)%Hq; cbn [node_sub mbind option_bind]; rewrite ?Hun; done.
  - apply in_shape_dir in Hsh as [Hs Hsh]. rewrite Forall_forall in IH, Hsh.
    set (f := fun e : bytes * fsnode => plan H cuts (fun _ => true) pf (join path e.1) (ptree_of pf prev ≫= om_get e.1) e.2) in *.
    intros Htr [|y q] m' c' E; [done|].
    cbn [node_sub n_contents fs_sub] in E |- *. rewrite has_trees_root by exact Htr. cbn [mbind option_bind]. rewrite (plan_tree_lookup H cuts U read pf HU Hcuts Hread) by done.
    destruct (om_get y es) as [n'|] eqn:Ey; [|done]. cbn [mbind option_bind] in E |- *. pose proof Ey as Hel. apply om_get_elem in Hel; [|done].
    specialize (IH (y, n') Hel (join path y) (ptree_of pf prev ≫= om_get y)). cbn [snd] in IH.
    specialize (IH (Hsh _ Hel)). change (plan H cuts (fun _ => true) pf (join path y) (ptree_of pf prev ≫= om_get y) n') with (f (y, n')) in IH.
    destruct (f (y, n')) as [[nd' its']|] eqn:Ef; cbn [fmap option_fmap option_map mbind option_bind fst]; [|by destruct (IH q m' c')].
    assert (has_trees H fo its') as Htr'. { intros t Ht. apply Htr. by eapply (plan_items_sub fst f es (y, n')). }
    rewrite (IH Htr' q m' c' E).
    replace ((ptree_of pf prev ≫= om_get y) ≫= (fun p => node_sub pf p q)) with (prev ≫= (fun p => node_sub pf p (y :: q))); [done|].
    destruct prev as [nd|]; [|done]. cbn [mbind option_bind node_sub]. unfold ptree_of, previous_subtree. by destruct (n_contents nd).
  - intros _ [|x q]; done.
  - intros [|x q]; done.
Qed.
End plan.

(** ** C70 *)

Lemma same_reads (read : oid -> result bytes) cs ps1 ps2 : Forall2 (fun c p => read c = Ok p) cs ps1 -> Forall2 (fun c p => read c = Ok p) cs ps2 -> ps1 = ps2.
Proof.
  intros H1. revert ps2. induction H1 as [|c p cs ps Hc _ IH]; intros ps2 H2; [by apply Forall2_nil_inv_l in H2|].
  apply Forall2_cons_inv_l in H2 as (p' & ps' & Hc' & H2 & ->). f_equal; [congruence|by apply IH].
Qed.

(** Node by node what [news] says of the things. *)
Section lines.
Local Set Default Proof Using "All".
Variables (read : oid -> result bytes) (n1 n2 : node) (t0 t : thing) (m0 m : metadata).
Hypothesis S1 : node_thing read n1 (t0, m0).
Hypothesis S2 : shows read (Some n2) (Some (t, m)).

Lemma replaced_nodes : replaced t0 t <-> kind_of n1 <> kind_of n2 \/ (kind_of n1 = KSymlink /\ n_contents n1 <> n_contents n2).
Proof.
  destruct n1 as [[cs1|d1|l1] m1], n2 as [[cs2|d2|l2] m2], t0, t; destruct S1 as [E1 K1], S2 as (E2 & _ & K2); cbn in *; subst; try done; try naive_solver.
Qed.
Lemma changed_nodes : (forall ids cs c, n1 = mkNode (CFile ids) m0 -> n2 = mkNode (CFile cs) m -> t0 = TFile c -> t = TFile c -> ids = cs) ->
  (exists c0 c, t0 = TFile c0 /\ t = TFile c /\ c0 <> c) <-> (kind_of n1 = KFile /\ kind_of n2 = KFile /\ n_contents n1 <> n_contents n2).
Proof.
  intros Hcut. destruct n1 as [[cs1|d1|l1] m1], n2 as [[cs2|d2|l2] m2], t0, t; destruct S1 as [E1 K1], S2 as (E2 & _ & K2); cbn in *; subst; try done; try naive_solver.
Qed.
Lemma same_nodes : (forall ids cs c, n1 = mkNode (CFile ids) m0 -> n2 = mkNode (CFile cs) m -> t0 = TFile c -> t = TFile c -> ids = cs) ->
  t0 = t <-> ~ differs n1 n2.
Proof.
  intros Hcut. destruct n1 as [[cs1|d1|l1] m1], n2 as [[cs2|d2|l2] m2], t0, t; destruct S1 as [E1 K1], S2 as (E2 & _ & K2); unfold differs; cbn in *; subst; try done; try naive_solver.
  - destruct K1 as (ps & HF & ->). split.
    + intros [= <-] [?|[_ Hne]]; [done|]. apply Hne. f_equal. by eapply Hcut.
    + intros Hn. assert (CFile cs1 = CFile cs2) as [= ->]. { destruct (decide (CFile cs1 = CFile cs2)) as [->|]; [done|]. destruct Hn. by right. }
      by rewrite (K2 ps HF).
  - split; [intros [= ->] [?|[_ ?]]; done|]. intros Hn. destruct (decide (target = target0)) as [->|Hne]; [done|]. destruct Hn. right. split; [done|]. congruence.
Qed.
End lines.

Lemma news_lines (read : oid -> result bytes) show_meta o1 o2 saved now prefix :
  saves read o1 saved -> shows read o2 now ->
  (forall ids m0 cs m c, o1 = Some (mkNode (CFile ids) m0) -> o2 = Some (mkNode (CFile cs) m) -> saved = Some (TFile c, m0) -> now = Some (TFile c, m) -> ids = cs) ->
  (exists n, belongs show_meta o1 o2 prefix n) <-> news show_meta saved now prefix.
Proof.
  intros S1 S2 Hcut.
  assert (forall n1 n2 t0 m0 t m, o1 = Some n1 -> o2 = Some n2 -> saved = Some (t0, m0) -> now = Some (t, m) ->
    n_meta n1 = m0 /\ n_meta n2 = m /\ t <> TOther /\
    (replaced t0 t <-> kind_of n1 <> kind_of n2 \/ (kind_of n1 = KSymlink /\ n_contents n1 <> n_contents n2)) /\
    ((exists c0 c, t0 = TFile c0 /\ t = TFile c /\ c0 <> c) <-> (kind_of n1 = KFile /\ kind_of n2 = KFile /\ n_contents n1 <> n_contents n2)) /\
    (t0 = t <-> ~ differs n1 n2)) as Hboth.
  { intros n1 n2 t0 m0 t m -> -> -> ->. cbn in S1. pose proof S1 as [E1 _]. pose proof S2 as (E2 & _ & K2). cbn in E1, E2. split; [done|]. split; [done|].
    split; [intros ->; cbn in K2; by destruct (n_contents n2)|].
    assert (forall ids cs c, n1 = mkNode (CFile ids) m0 -> n2 = mkNode (CFile cs) m -> t0 = TFile c -> t = TFile c -> ids = cs) as Hcut' by (intros ids cs c -> -> -> ->; by eapply Hcut).
    split; [by eapply replaced_nodes|]. split; [by eapply changed_nodes|by eapply same_nodes]. }
  assert (forall n1, o1 = Some n1 -> exists t0 m0, saved = Some (t0, m0)) as G1 by (intros n1 ->; destruct saved as [[]|]; [eauto|done]).
  assert (forall n2, o2 = Some n2 -> exists t m, now = Some (t, m)) as G2 by (intros n2 ->; destruct now as [[]|]; [eauto|done]).
  assert (forall t0 m0, saved = Some (t0, m0) -> exists n1, o1 = Some n1) as G3 by (intros t0 m0 ->; destruct o1; [eauto|done]).
  assert (forall t m, now = Some (t, m) -> t <> TOther -> exists n2, o2 = Some n2) as G4 by (intros t m -> Ht; destruct o2; [eauto|done]).
  assert (forall t m, o2 = None -> now = Some (t, m) -> t = TOther) as G5 by (intros t m -> ->; done).
  assert (forall n2 t m, o2 = Some n2 -> now = Some (t, m) -> t <> TOther) as G7.
  { intros n2 t m -> -> ->. destruct S2 as (_ & _ & K2). cbn in K2. by destruct (n_contents n2). }
  assert (forall t0 m0, saved = Some (t0, m0) -> t0 <> TOther) as G6.
  { intros t0 m0 -> ->. destruct o1 as [[[] ?]|]; [destruct S1 as [_ []]..|done]. }
  clear S1 S2 Hcut. split.
  - intros (n & [(-> & E2 & Hp)|[(-> & E1 & Hp)|[(-> & n2 & E1 & E2 & K1 & K2 & Hne)|(Hsm & n1 & mk & E1 & E2 & Hd & Hmk & ->)]]]).
    + destruct (G2 n E2) as (t & m & En). econstructor 1; [exact En|by eapply G7|].
      intros t0 m0 Es. destruct (G3 t0 m0 Es) as [n1 E1]. rewrite E1 in Hp. by apply (Hboth n1 n t0 m0 t m E1 E2 Es En).
    + destruct (G1 n E1) as (t0 & m0 & Es). econstructor 2; [exact Es|].
      intros t m En. destruct o2 as [n2|] eqn:E2.
      * apply (Hboth n n2 t0 m0 t m E1 eq_refl Es En). destruct Hp as [?|[? ?]]; [by left; apply not_eq_sym|]. destruct (decide (kind_of n = kind_of n2)); [right; split; congruence|by left].
      * rewrite (G5 t m eq_refl En). pose proof (G6 _ _ Es). by destruct t0.
    + destruct (G1 n E1) as (t0 & m0 & Es), (G2 n2 E2) as (t & m & En). destruct (Hboth n n2 t0 m0 t m E1 E2 Es En) as (_ & _ & _ & _ & [_ Hc] & _).
      destruct (Hc (conj K1 (conj K2 Hne))) as (c0 & c & -> & -> & Hcc). by econstructor 3.
    + destruct (G1 n1 E1) as (t0 & m0 & Es), (G2 n E2) as (t & m & En). destruct (Hboth n1 n t0 m0 t m E1 E2 Es En) as (<- & <- & _ & _ & _ & [_ Ht]).
      specialize (Ht Hd) as ->. by econstructor 4.
  - intros [t m En Ht Hr|t0 m0 Es Hr|c0 m0 c m Es En Hne|t m0 m mk Hsm Es En Hmk].
    + destruct (G4 t m En Ht) as [n2 E2]. exists n2. left. split; [done|]. split; [done|]. destruct o1 as [n1|] eqn:E1; [|done].
      destruct (G1 n1 eq_refl) as (t0 & m0 & Es). apply (Hboth n1 n2 t0 m0 t m eq_refl E2 Es En). by eapply Hr.
    + destruct (G3 t0 m0 Es) as [n1 E1]. exists n1. right; left. split; [done|]. split; [done|]. destruct o2 as [n2|] eqn:E2; [|done].
      destruct (G2 n2 eq_refl) as (t & m & En). destruct (Hboth n1 n2 t0 m0 t m E1 eq_refl Es En) as (_ & _ & _ & [Hk _] & _).
      destruct (Hk (Hr t m En)) as [?|[? ?]]; [by left; apply not_eq_sym|]. destruct (decide (kind_of n2 = kind_of n1)); [right; split; congruence|by left].
    + destruct (G3 _ m0 Es) as [n1 E1], (G4 _ m En) as [n2 E2]; [done|]. exists n1. right; right; left. split; [done|]. exists n2. split; [done|]. split; [done|].
      apply (Hboth n1 n2 _ _ _ _ E1 E2 Es En). eauto.
    + destruct (G3 _ m0 Es) as [n1 E1], (G4 _ m En) as [n2 E2]; [by eapply G6|]. exists n2. right; right; right. split; [done|]. exists n1, mk.
      destruct (Hboth n1 n2 _ _ _ _ E1 E2 Es En) as (-> & -> & _ & _ & _ & [Ht _]). split; [done|]. split; [done|]. split; [by apply Ht|]. done.
Qed.

Section compare.
Local Set Default Proof Using "All".
Variables (H : bytes -> oid) (U : blob -> Prop) (cuts : bytes -> list bytes) (k : backend) (ix : index) (bmap : gmap oid oid).
Hypothesis HU : universe H U.
Hypothesis Hlen : forall x, length (H x) = 28.
Hypothesis Hcuts : forall x, concat (cuts x) = x.
Hypothesis Hk : in_order H U k.
Hypothesis Eix : master k = Ok ix.
Hypothesis Ebm : blob_to_pack_map ix = Ok bmap.
Variables (sn : snapshot) (es files : list (bytes * fsnode)).
Hypothesis Hr : restores H k sn es.
Hypothesis Hcc : can_compare cuts sn es files.

Let Hst : structured H U k.
Proof. by apply in_order_structured. Qed.

Notation T := (targets sn None).

Lemma stored_are_made (fo : forest) : (forall id t, fo !! id = Some t -> stored_as H (repo_store k) id t) -> made H U fo.
Proof.
  intros Hfo id t E. apply Hfo in E. pose proof (stored_hash H U HU Hlen k ix bmap Hk Eix Ebm id t E) as Eid. split; [done|].
  unfold stored_as in E. case_decide; [subst t; split; [by repeat split; try constructor|apply HU]|]. destruct E as (b & Hb & Ed).
  apply (repo_store_lookup H U HU) in Hb; [|apply Hst]. destruct (live_tree H U HU k Hst _ Hb eq_refl) as (u & Hs & Eb & Hd). destruct (Hd _ _ Ed) as [-> _]. split; [done|].
  pose proof (live_blobs_U H U HU k (st_packs _ _ _ Hst)) as HF. rewrite Forall_forall in HF. rewrite <-Eb. by apply HF.
Qed.

Lemma compared show_meta load_fuel fo1 : load_forest H k bmap load_fuel (sn_tree sn) = Some (Ok fo1) ->
  Forall U (plan_blobs H cuts (fun _ => true) fo1 (Some (sn_tree sn)) (found files (map snd T))) ->
  cut_alike H cuts fo1 sn es files ->
  exists id2 fo2 fuel ls, snapshot2_or_paths H cuts k bmap [] files load_fuel sn fo1 None = Some (Ok (id2, fo2)) /\
    diff fo1 fo2 fuel show_meta (sn_tree sn) id2 = Some (Ok ls) /\ NoDup ls /\
    (forall prefix p n, (prefix, p, n) ∈ ls -> exists x l q, (x, l) ∈ T /\ p = x :: q) /\
    (forall x l q prefix, (x, l) ∈ T -> (exists n, (prefix, x :: q, n) ∈ ls) <-> news show_meta (ent es (x :: q)) (ent files (l ++ q)) prefix).
Proof.
  intros Efo HUs Hcut. assert (loaded fo1 load_fuel (sn_tree sn)) as Hl1.
  { pose proof Efo as E. unfold load_forest in E. destruct (forest_from_root _ _ _ _) as [[[c f]| |]|] eqn:Ef; try done. injection E as ->.
    eapply forest_from_root_loaded; [|exact Ef]. apply (read_tree_mono H U HU k Hst ix bmap Eix Ebm). }
  assert (forall id t, fo1 !! id = Some t -> stored_as H (repo_store k) id t) as Hfo by apply (load_forest_ok H U HU k Hst ix bmap Eix Ebm _ _ _ Efo).
  pose proof (stored_are_made fo1 Hfo) as Hm1.
  assert (forall i p, read_chunk k bmap i = Ok p <-> repo_store k !! i = Some (Chunk, p)) as Hrc by (intros i p; apply (read_chunk_spec H U HU k Hst ix bmap Eix Ebm)).
  assert (forall q, saves (read_chunk k bmap) (node_at fo1 (sn_tree sn) q) (ent es q)) as Hagree.
  { intros q. pose proof (forest_agrees H U HU Hlen k ix bmap Hk Eix Ebm fo1 _ _ _ Hfo Hl1 Hr q) as Ha. unfold ent. destruct (node_at fo1 (sn_tree sn) q) as [nd|], (fs_at es q) as [n|]; try done.
    cbn in Ha |- *. destruct Ha as [m cs ps HF|m tg|m id u es' Hs' HF]; [|done|done]. split; [done|]. cbn. exists ps. split; [|done]. eapply Forall2_impl; [exact HF|]. intros c p Hc. by apply Hrc. }
  assert (forall i p, read_chunk k bmap i = Ok p -> exists b, U b /\ b_id b = i /\ b_bytes b = p) as Hread.
  { intros i p Hi. apply Hrc in Hi. apply (repo_store_lookup H U HU) in Hi; [|apply Hst]. exists (mkBlob Chunk i p). split; [|done].
    pose proof (live_blobs_U H U HU k (st_packs _ _ _ Hst)) as HF. rewrite Forall_forall in HF. by apply HF. }
  assert (forest_sane fo1) as Hsane1 by (intros i t Hi; apply (Hm1 _ _ Hi)).
  destruct (named_locs sn (cc_named _ _ _ _ Hcc)) as (N1 & N2 & N3 & N4). fold (targets sn None) in *. change (named_paths sn) with T in *.
  set (ls := map snd T) in *.
  assert (forall l, l ∈ ls -> exists x, (x, l) ∈ T /\ last l = Some x) as Hls.
  { intros l Hin. unfold ls in Hin. change (map ?f ?l) with (f <$> l) in Hin. apply elem_of_list_fmap in Hin as ([x l'] & -> & Hin). exists x. split; [done|]. by apply N4. }
  assert (forall x l, (x, l) ∈ T -> l ∈ ls /\ default [] (last l) = x) as HT.
  { intros x l Hin. split; [unfold ls; change (map ?f ?l) with (f <$> l); apply elem_of_list_fmap; by exists (x, l)|]. apply N4 in Hin as [_ ->]. done. }
  assert (NoDup (map (fun l => default [] (last l)) ls)) as Hnd by (rewrite N1, <-N2; apply (cc_distinct _ _ _ _ Hcc)).
  destruct (forest_there H cuts U (read_chunk k bmap) fo1 (sn_tree sn) HU Hlen Hcuts Hread Hsane1 files (cc_sorted _ _ _ _ Hcc) ls) as (fo2 & E2 & Htr & Hm2 & [d2 Hl2] & Hsh & Ho).
  - unfold len_wf, ls. rewrite map_length, N3. apply (cc_few _ _ _ _ Hcc).
  - done.
  - intros l Hin. destruct (Hls l Hin) as (x & _ & Ex). by intros ->.
  - intros l Hin. destruct (Hls l Hin) as (x & Hx & Ex). rewrite Ex. cbn. by eapply (cc_text _ _ _ _ Hcc).
  - intros l n Hin En. destruct (Hls l Hin) as (x & Hx & _). by eapply (cc_files _ _ _ _ Hcc).
  - intros l q t m Hin En. destruct (Hls l Hin) as (x & Hx & _). by eapply (cc_unix _ _ _ _ Hcc).
  - intros l n Hin En. destruct (Hls l Hin) as (x & Hx & Ex). rewrite Ex. change (default [] (Some x)) with x.
    intros q p m c Ep Ef Hun cs ps Ec HF. change ((fo1 !! sn_tree sn ≫= om_get x) ≫= (fun nd => node_sub fo1 nd q)) with (node_at fo1 (sn_tree sn) (x :: q)) in Ep.
    pose proof (Hagree (x :: q)) as Hs. rewrite Ep in Hs. destruct (ent es (x :: q)) as [[t m0]|] eqn:Ee; [|done]. cbn in Hs. destruct Hs as [Em Ht].
    rewrite Ec in Ht. cbn in Em, Ht. destruct t as [c0| | |]; try done. destruct Ht as (ps0 & HF0 & ->). rewrite (same_reads _ _ _ _ HF HF0).
    symmetry. cbn in Hun. apply andb_true_iff in Hun as [Hun Hsz]. apply andb_true_iff in Hun as [_ Hmt]. apply bool_decide_eq_true in Hsz, Hmt.
    refine (cc_honest _ _ _ _ Hcc x l q m0 (concat ps0) m c Hx Ee _ _ _); [|congruence|congruence].
    unfold ent. rewrite fs_at_app by (by intros ->). rewrite En. cbn. by rewrite Ef.
  - done.
  - set (id2 := tree_id H (plan_tree (plan_list H cuts (fun _ => true) fo1 (Some (sn_tree sn)) (found files ls)))) in *.
    assert (fo2 !! id2 = Some (plan_tree (plan_list H cuts (fun _ => true) fo1 (Some (sn_tree sn)) (found files ls)))) as Hroot by (apply has_trees_root; exact Htr).
    assert (forest_sane fo2) as Hsane2 by (intros i t Hi; apply (Hm2 _ _ Hi)).
    assert (same_ids fo1 fo2) as Hsame.
    { intros i t1 t2 G1 G2. destruct (Hm1 _ _ G1) as (-> & A1 & B1), (Hm2 _ _ G2) as (Eid & A2 & B2).
      eapply (tree_in_inj H cuts U (read_chunk k bmap) fo1 HU Hcuts Hread); [apply A1|apply A2|done|done|done]. }
    destruct (diff_lines fo1 fo2 (sane_shape _ Hsane1) (sane_shape _ Hsane2) Hsame (load_fuel + d2) show_meta (sn_tree sn) id2
      ltac:(eapply loaded_mono; [done|lia]) ltac:(eapply loaded_mono; [done|lia])) as (lines & El & Hndl & Hin).
    exists id2, fo2, (load_fuel + d2), lines. split; [|split; [exact El|split; [exact Hndl|split]]].
    + unfold snapshot2_or_paths. rewrite <-N1. fold ls. rewrite walk_all_ok; [cbn [rbind]; by rewrite E2|].
      intros l Hl. destruct (Hls l Hl) as (x & Hx & Ex). split; [by intros ->|]. destruct (cc_there _ _ _ _ Hcc x l Hx) as [e He]. unfold ent in He. destruct (fs_at files l); [by eexists|done].
    + intros prefix p n Hl%Hin. assert (is_Some (node_at fo1 (sn_tree sn) p) \/ is_Some (node_at fo2 id2 p)) as Hs.
      { destruct Hl as [(_ & E & _)|[(_ & E & _)|[(_ & n2 & E & _)|(_ & n1 & mk & E & _)]]]; rewrite E; eauto. }
      destruct Hs as [Hs|Hs].
      * pose proof (Hagree p) as Ha. destruct Hs as [nd Hs]. rewrite Hs in Ha. destruct (ent es p) as [e|] eqn:Ee; [|done]. unfold ent in Ee.
        destruct p as [|x q]; [done|]. rewrite fs_at_cons in Ee. destruct (om_get x es) as [n0|] eqn:Ex; [|done].
        pose proof (cc_tops _ _ _ _ Hcc x n0 Ex) as Ht. change (map ?f ?l) with (f <$> l) in Ht. apply elem_of_list_fmap in Ht as ([x' l] & -> & Ht). by exists x', l, q.
      * destruct Hs as [nd Hs]. destruct p as [|x q]; [done|]. cbn [node_at] in Hs. rewrite Hroot in Hs. cbn [mbind option_bind] in Hs. apply bind_Some in Hs as (nd0 & Ex & _).
        destruct (Ho x nd0 Ex) as (l & n0 & its & Hl' & _ & -> & _). destruct (Hls l Hl') as (x & Hx & ->). by exists x, l, q.
    + intros x l q prefix Hx. setoid_rewrite Hin. destruct (HT x l Hx) as [Hl Ex]. specialize (Hsh l q Hl). rewrite Ex in Hsh.
      apply (news_lines (read_chunk k bmap)); [apply Hagree|exact Hsh|]. intros ids m0 cs m c E1 Enow Es En.
      (* the file was cut as before, or need not be *)
      assert (exists nd its n, om_get x (plan_tree (plan_list H cuts (fun _ => true) fo1 (Some (sn_tree sn)) (found files ls))) = Some nd /\ fs_at files l = Some n /\
        plan H cuts (fun _ => true) fo1 (render l) (fo1 !! sn_tree sn ≫= om_get x) n = Some (nd, its) /\ has_trees H fo2 its) as (nd & its & n & Ex' & Enl & Ep & Hits).
      { pose proof Enow as E. cbn [node_at] in E. rewrite Hroot in E. cbn [mbind option_bind] in E. apply bind_Some in E as (nd & Ex' & _). pose proof Ex' as Ex2.
        apply Ho in Ex2 as (l' & n & its & Hl' & Enl & Exl & Ep & Hits). assert (l' = l) as ->.
        { eapply (NoDup_map_inj _ _ _ _ Hnd); [done|done|]. cbn. by rewrite Ex. }
        rewrite Ex in Ep. exists nd, its, n. split; [done|]. split; [done|]. split; [exact Ep|]. intros t Ht. by apply Htr, Hits. }
      assert (fs_sub n q = Some (FsFile m c)) as Eq.
      { unfold ent in En. rewrite fs_at_app, Enl in En by (intros ->; by apply N4 in Hx as [_ ?]). cbn in En. destruct (fs_sub n q) as [[]|]; cbn in En; try done. by injection En as -> ->. }
      pose proof (plan_chunks H cuts U (read_chunk k bmap) fo1 HU Hcuts Hread fo2 n (render l) (fo1 !! sn_tree sn ≫= om_get x)) as Hpc.
      specialize (Hpc (fs_at_shape files l n (cc_sorted _ _ _ _ Hcc) Enl)). rewrite Ep in Hpc. specialize (Hpc Hits q m c Eq).
      assert (node_at fo2 id2 (x :: q) = node_sub fo2 nd q) as Ena by (cbn [node_at]; rewrite Hroot; cbn [mbind option_bind]; rewrite Ex'; done).
      rewrite Ena, Hpc in Enow. change ((fo1 !! sn_tree sn ≫= om_get x) ≫= (fun p => node_sub fo1 p q)) with (node_at fo1 (sn_tree sn) (x :: q)) in Enow.
      rewrite E1 in Enow. destruct (looks_unchanged _ m) eqn:Hun; [cbn in Enow; by injection Enow as ->|]. injection Enow as <-.
      refine (Hcut x l q ids m0 c m Hx E1 Es En _). cbn in Hun. rewrite bool_decide_eq_true_2 in Hun by done. cbn in Hun.
      apply andb_false_iff in Hun as [Hun|Hun]; apply bool_decide_eq_false in Hun; auto.
Qed.
End compare.

(** * C70: diff without a second snapshot says how the files differ from the snapshot *)

(** For the snapshot [first] names and files that [can_compare] describes: the command
    succeeds, and about each place at or below the snapshot's paths it prints the lines
    that [news] has, each once, and nothing else. *)
Theorem C70_diff_against_the_files_partial H U cuts k ix bmap snaps first sn i es files show_meta :
  universe H U -> (forall x, length (H x) = 28) -> (forall x, concat (cuts x) = x) ->
  in_order H U k -> master k = Ok ix -> blob_to_pack_map ix = Ok bmap ->
  find_snapshot snaps first = Ok (sn, i) -> restores H k sn es -> can_compare cuts sn es files ->
  (exists load_fuel fo, load_forest H k bmap load_fuel (sn_tree sn) = Some (Ok fo)) /\
  forall load_fuel fo, load_forest H k bmap load_fuel (sn_tree sn) = Some (Ok fo) ->
  Forall U (plan_blobs H cuts (fun _ => true) fo (Some (sn_tree sn)) (found files (map snd (targets sn None)))) ->
  cut_alike H cuts fo sn es files ->
  exists fuel ls, diff_command H cuts k bmap snaps files load_fuel fuel show_meta first None = Some (Ok ls) /\ NoDup ls /\
    (forall prefix p n, (prefix, p, n) ∈ ls -> exists x l q, (x, l) ∈ targets sn None /\ p = x :: q) /\
    (forall x l q prefix, (x, l) ∈ targets sn None ->
       (exists n, (prefix, x :: q, n) ∈ ls) <-> news show_meta (ent es (x :: q)) (ent files (l ++ q)) prefix).
Proof.
  intros HU Hlen Hcuts Hk Eix Ebm Ef Hr Hcc. split.
  { destruct (load_snapshot H U HU Hlen k ix bmap Hk Eix Ebm _ _ Hr) as (fo & E & _). eauto. }
  intros load_fuel fo E HUs Hcut.
  destruct (compared H U cuts k ix bmap HU Hlen Hcuts Hk Eix Ebm sn es files Hr Hcc show_meta load_fuel fo E HUs Hcut) as (id2 & fo2 & fuel & ls & E2 & El & Hls).
  exists fuel, ls. split; [|exact Hls]. unfold diff_command. rewrite Ef. cbn [obind fst]. rewrite E. cbn [obind].
  change (snapshot2_or_paths H cuts k bmap snaps files load_fuel sn fo None) with (snapshot2_or_paths H cuts k bmap [] files load_fuel sn fo None). rewrite E2. exact El.
Qed.

Lemma no_news_none show_meta saved now : saved = now \/ (saved = None /\ exists m, now = Some (TOther, m)) ->
  (forall t0 m0, saved = Some (t0, m0) -> t0 <> TOther) -> forall prefix, ~ news show_meta saved now prefix.
Proof.
  intros Hs Hot prefix [t m En Ht Hr|t0 m0 Es Hr|c0 m0 c m Es En Hne|t m0 m mk Hsm Es En Hmk].
  - destruct Hs as [->|(_ & m' & E)]; [|congruence]. specialize (Hr t m En). by destruct t.
  - destruct Hs as [->|(E & _)]; [|congruence]. specialize (Hr t0 m0 Es). pose proof (Hot _ _ Es). by destruct t0.
  - destruct Hs as [->|(E & _)]; [|congruence]. congruence.
  - destruct Hs as [->|(E & _)]; [|congruence]. assert (m0 = m) as -> by congruence. unfold meta_diff_char in Hmk. by case_decide.
Qed.

(** If nothing was changed, nothing is printed, however the snapshot's files were cut. *)
Theorem C70_nothing_changed H U cuts k ix bmap snaps first sn i es files show_meta :
  universe H U -> (forall x, length (H x) = 28) -> (forall x, concat (cuts x) = x) ->
  in_order H U k -> master k = Ok ix -> blob_to_pack_map ix = Ok bmap ->
  find_snapshot snaps first = Ok (sn, i) -> restores H k sn es ->
  Forall (fun p => names_in p <> []) (sn_paths sn) -> NoDup (map fst (targets sn None)) -> len_wf (sn_paths sn) ->
  (forall x l, (x, l) ∈ targets sn None -> text_wf x /\ is_Some (ent files l)) ->
  (forall x n, om_get x es = Some n -> x ∈ map fst (targets sn None)) ->
  sorted_fs files -> (forall x l n, (x, l) ∈ targets sn None -> fs_at files l = Some n -> fs_ok cuts false n) ->
  (forall x l q t m, (x, l) ∈ targets sn None -> ent files (l ++ q) = Some (t, m) -> is_Some (modes m)) ->
  (* what is there is what is in the snapshot, but for special files *)
  (forall x l q, (x, l) ∈ targets sn None ->
     ent files (l ++ q) = ent es (x :: q) \/ (ent es (x :: q) = None /\ exists m, ent files (l ++ q) = Some (TOther, m))) ->
  (exists load_fuel fo, load_forest H k bmap load_fuel (sn_tree sn) = Some (Ok fo)) /\
  forall load_fuel fo, load_forest H k bmap load_fuel (sn_tree sn) = Some (Ok fo) ->
  Forall U (plan_blobs H cuts (fun _ => true) fo (Some (sn_tree sn)) (found files (map snd (targets sn None)))) ->
  exists fuel, diff_command H cuts k bmap snaps files load_fuel fuel show_meta first None = Some (Ok []).
Proof.
  intros HU Hlen Hcuts Hk Eix Ebm Ef Hr C1 C2 C3 C4 C5 C6 C7 C8 Hsame.
  assert (can_compare cuts sn es files) as Hcc.
  { split; try done; [intros x l Hin; by apply (C4 x l)|intros x l Hin; by apply (C4 x l)|].
    intros x l q m0 c0 m c Hin Es En _ _. destruct (Hsame x l q Hin) as [E|[E _]]; [|congruence]. congruence. }
  destruct (C70_diff_against_the_files_partial H U cuts k ix bmap snaps first sn i es files show_meta HU Hlen Hcuts Hk Eix Ebm Ef Hr Hcc) as [Hload Hd].
  split; [done|]. intros load_fuel fo E HUs. destruct (Hd load_fuel fo E HUs) as (fuel & ls & El & _ & Hp & Hn).
  { intros x l q ids m0 c m Hin _ Es En Hne. destruct (Hsame x l q Hin) as [E'|[E' _]]; [|congruence]. rewrite Es, En in E'. injection E' as ->. by destruct Hne. }
  exists fuel. rewrite El. destruct ls as [|[[pre p] n] ls]; [done|]. exfalso. destruct (Hp pre p n (elem_of_list_here _ _)) as (x & l & q & Hin & ->).
  assert (news show_meta (ent es (x :: q)) (ent files (l ++ q)) pre) as Hx by (apply (Hn x l q pre Hin); exists n; by left).
  revert Hx. apply no_news_none.
  - destruct (Hsame x l q Hin) as [->|?]; auto.
  - intros t0 m0 Es ->. pose proof (Hsame x l q Hin) as [E'|[E' _]]; [|congruence].
    assert (forall id t, fo !! id = Some t -> stored_as H (repo_store k) id t) as Hfo.
    { apply (load_forest_ok H U HU k (in_order_structured _ _ _ Hk) ix bmap Eix Ebm _ _ _ E). }
    assert (loaded fo load_fuel (sn_tree sn)) as Hl.
    { pose proof E as E0. unfold load_forest in E0. destruct (forest_from_root _ _ _ _) as [[[c f]| |]|] eqn:Eff; try done. injection E0 as ->.
      eapply forest_from_root_loaded; [|exact Eff]. apply (read_tree_mono H U HU k (in_order_structured _ _ _ Hk) ix bmap Eix Ebm). }
    pose proof (forest_agrees H U HU Hlen k ix bmap Hk Eix Ebm fo _ _ _ Hfo Hl Hr (x :: q)) as Ha. unfold ent in Es.
    destruct (fs_at es (x :: q)) as [n0|]; [|done]. destruct (node_at fo (sn_tree sn) (x :: q)) as [nd|]; [|done]. cbn in Ha, Es. destruct Ha; done.
Qed.

(** If one of the snapshot's paths no longer exists, the command fails and prints nothing. *)
Theorem C70_a_path_is_gone H cuts k bmap snaps first sn i files load_fuel fo fuel show_meta p :
  find_snapshot snaps first = Ok (sn, i) -> load_forest H k bmap load_fuel (sn_tree sn) = Some (Ok fo) ->
  Forall (fun p => names_in p <> []) (sn_paths sn) -> p ∈ sn_paths sn -> ent files (names_in p) = None ->
  diff_command H cuts k bmap snaps files load_fuel fuel show_meta first None = Some Err.
Proof.
  intros Ef E Hn Hp Hgone. unfold diff_command. rewrite Ef. cbn [obind fst]. rewrite E. cbn [obind snapshot2_or_paths].
  assert (walk_all files (map path_location (sn_paths sn)) = Err) as ->; [|done].
  induction Hn as [|p' ps Hp' Hn IH]; [by apply elem_of_nil in Hp|]. cbn [map walk_all]. unfold walked. rewrite path_location_names.
  destruct (last_some _ Hp') as [x ->]. destruct (fs_at files (names_in p')) as [n|] eqn:En; [|done]. cbn [of_option rbind]. fold (walk_all files).
  apply elem_of_cons in Hp as [->|Hp]; [unfold ent in Hgone; by rewrite En in Hgone|]. by rewrite (IH Hp).
Qed.

(** ** After a backup *)

(** What a backup of [files] saved of the place [q] below the path [p]: what was there, unless it or what it is in was skipped;
    special files are not saved. *)
Definition backed_up (filter : bytes -> bool) (files : list (bytes * fsnode)) (p q : list bytes) (saved : option thing_meta) : Prop :=
  match saved with
  | Some (t, m) => ent files (p ++ q) = Some (t, m) /\ t <> TOther /\ forall r, r `prefix_of` q -> filter (path_text (p ++ r)) = true
  | None => ent files (p ++ q) = None \/ (exists m, ent files (p ++ q) = Some (TOther, m)) \/ exists r, r `prefix_of` q /\ filter (path_text (p ++ r)) = false
  end.

(** Back up what is at the paths given; later, while the snapshot can still be read ([k2] is the repository then), compare it to the
    files then there ([now]): the report says what is new, gone and changed since, against what was backed up. *)
Theorem C70_diff_after_backup_partial H U cuts allow_empty filter author tz tags time canon args ps files paths parent pf k w c target cpus k' w' :
  universe H U -> (forall x, length (H x) = 28) -> (forall x, concat (cuts x) = x) ->
  in_order H U k -> own_leftovers H U k w ->
  (* the arguments, and what was there *)
  backup_paths canon args = Ok ps -> sorted_fs files -> (forall l, is_Some (ent files l) -> Forall is_name l) ->
  Forall2 (fun p (e : fspath) => e.1 = (path_text p, default [] (last p)) /\ fs_at files p = Some e.2) ps paths ->
  (* the backup, to the end *)
  backup_command H cuts false false allow_empty filter author tz tags time paths parent pf k w c ->
  paths_ok cuts false paths -> Forall U (plan_blobs H cuts filter pf (sn_tree <$> parent) paths) ->
  (forall p before, parent = Some p -> program_reads H k p before -> stamps_honest before (kept_paths filter paths)) ->
  no_clash H k w c -> command_done H target true cpus k w c k' w' ->
  (exists p t m, p ∈ ps /\ ent files p = Some (t, m) /\ t <> TOther /\ filter (path_text p) = true) ->
  exists i sn, k_snaps k' !! i = Some sn /\
  forall k2, in_order H U k2 -> (forall es, program_reads H k' sn es -> program_reads H k2 sn es) ->
  exists ix bmap, master k2 = Ok ix /\ blob_to_pack_map ix = Ok bmap /\
  forall snaps first show_meta now, find_snapshot snaps first = Ok (sn, i) ->
  (* the paths still exist; what has the size and time it had has the contents it had *)
  sorted_fs now -> (forall p, p ∈ ps -> exists n, fs_at now p = Some n /\ fs_ok cuts false n) ->
  (forall p q t m, p ∈ ps -> ent now (p ++ q) = Some (t, m) -> is_Some (modes m)) ->
  (forall p q c0 m0 c m, p ∈ ps -> ent files (p ++ q) = Some (TFile c0, m0) -> ent now (p ++ q) = Some (TFile c, m) ->
     meta_mtime m = meta_mtime m0 -> meta_size m = meta_size m0 -> c = c0) ->
  (exists load_fuel fo, load_forest H k2 bmap load_fuel (sn_tree sn) = Some (Ok fo)) /\
  forall load_fuel fo, load_forest H k2 bmap load_fuel (sn_tree sn) = Some (Ok fo) ->
  Forall U (plan_blobs H cuts (fun _ => true) fo (Some (sn_tree sn)) (found now ps)) ->
  (* a file rewritten with what was in it had been cut as it would be now *)
  (forall p x q ids m0 c0 m, p ∈ ps -> last p = Some x -> node_at fo (sn_tree sn) (x :: q) = Some (mkNode (CFile ids) m0) ->
     ent files (p ++ q) = Some (TFile c0, m0) -> ent now (p ++ q) = Some (TFile c0, m) ->
     meta_mtime m <> meta_mtime m0 \/ meta_size m <> meta_size m0 -> ids = map H (cuts c0)) ->
  exists fuel ls, diff_command H cuts k2 bmap snaps now load_fuel fuel show_meta first None = Some (Ok ls) /\ NoDup ls /\
    (forall prefix l n, (prefix, l, n) ∈ ls -> exists p x q, p ∈ ps /\ last p = Some x /\ l = x :: q) /\
    (forall p x q saved prefix, p ∈ ps -> last p = Some x -> backed_up filter files p q saved ->
       (exists n, (prefix, x :: q, n) ∈ ls) <-> news show_meta saved (ent now (p ++ q)) prefix).
Proof.
  intros HU Hlen Hcuts Hk Hw Eps Hsf Hnames HF Hc Hp HpU Hhon Hcl Hd Hsome.
  destruct (C16_finished_backup_gives_the_files_back H U cuts false allow_empty filter author tz tags time paths parent pf k w c target cpus k' w' HU Hlen Hcuts Hk Hw Hc Hp HpU Hhon Hcl Hd) as (_ & _ & Hres).
  destruct (what_is_kept cuts canon args ps files paths filter Eps Hsf Hnames HF Hp) as (Hps & Hes & Hent). destruct Hp as (Hfew & Hnd & Hok).
  set (es := kept_paths filter paths) in *.
  destruct Hres as [(E0 & _)|(i & sn & Hi & _ & _ & _ & Esn & Hreads)].
  { exfalso. fold es in E0. destruct Hsome as (p & t & m & Hin & Et & Hne & Hf). destruct (Hps p Hin) as (x & n & Ex & _). destruct (Hent p x [] Hin Ex) as [_ H2]. rewrite app_nil_r in H2.
    assert (ent es [x] = Some (t, m)) as E. { apply H2; [done|done|]. intros r Hr. apply prefix_nil_inv in Hr as ->. by rewrite app_nil_r. } by rewrite E0 in E. }
  exists i, sn. split; [done|]. intros k2 Hk2 Hstill. apply Hstill in Hreads. rewrite (program_reads_iff H U HU Hlen) in Hreads by done.
  destruct (in_order_maps H U HU Hlen k2 Hk2) as (ix & bmap & packed & Eix & Ebm & _).
  exists ix, bmap. split; [done|]. split; [done|].
  assert (sn_paths sn = map path_text ps) as Esn'.
  { rewrite Esn. clear -HF. induction HF as [|p e ps paths [He _] _ IH]; [done|]. cbn [map]. f_equal; [by rewrite He|done]. }
  assert (map fst paths = map (fun p => (path_text p, default [] (last p))) ps) as Efst.
  { clear -HF. induction HF as [|p e ps paths [He _] _ IH]; [done|]. cbn [map]. f_equal; done. }
  pose proof (C69_what_paths_are_taken_partial canon args) as Htk. rewrite Eps in Htk. destruct Htk as (_ & Hinps & _ & _).
  assert (forall a p, a ∈ args -> canon a = Some p -> Forall is_name p) as Hcanon.
  { intros a p Ha' Ea. destruct (Hps p) as (_ & _ & _ & _ & _ & ? & _); [apply Hinps; eauto|done]. }
  destruct (C69_where_things_came_from canon args ps sn None paths Hcanon Eps Esn' Efst) as (HT & Hnamed & Hdist & _).
  assert (forall x l, (x, l) ∈ targets sn None <-> l ∈ ps /\ last l = Some x) as HT'.
  { intros x l. rewrite HT. change (map ?f ?l) with (f <$> l). rewrite elem_of_list_fmap. split.
    - intros (p & [= -> ->] & Hin). split; [done|]. destruct (Hps p Hin) as (x & _ & Ex & _). by rewrite Ex.
    - intros [Hin Ex]. exists l. by rewrite Ex. }
  assert (map snd (targets sn None) = ps) as Eps'. { rewrite HT, map_map. cbn [snd]. apply map_id. }
  intros snaps first show_meta now Ef Hsn Hthere Hunix Hhonest.
  assert (can_compare cuts sn es now) as Hcc.
  { split.
    - done.
    - done.
    - rewrite Esn. unfold len_wf in *. by rewrite map_length.
    - intros x l [Hin Ex]%HT'. rewrite Forall_forall in Hok. destruct (Hps l Hin) as (x' & n & Ex' & He & _). assert (x' = x) as -> by congruence. by destruct (Hok _ He).
    - intros x n (p & Hin & Ex)%Hes. change (map ?f ?l) with (f <$> l). apply elem_of_list_fmap. exists (x, p). split; [done|]. by apply HT'.
    - intros x l [Hin Ex]%HT'. destruct (Hthere l Hin) as (n & En & _). unfold ent. rewrite En. by eexists.
    - done.
    - intros x l n [Hin Ex]%HT' En. destruct (Hthere l Hin) as (n' & En' & Hn'). congruence.
    - intros x l q t m [Hin Ex]%HT'. by apply Hunix.
    - intros x l q m0 c0 m c1 [Hin Ex]%HT' Es En. destruct (Hent l x q Hin Ex) as [H1 _]. destruct (H1 _ _ Es) as (Ef' & _). by apply (Hhonest l q c0 m0 c1 m). }
  destruct (C70_diff_against_the_files_partial H U cuts k2 ix bmap snaps first sn i es now show_meta HU Hlen Hcuts Hk2 Eix Ebm Ef Hreads Hcc) as [Hload Hdiff].
  split; [done|]. intros load_fuel fo E HUs Hcut. rewrite Eps' in Hdiff. destruct (Hdiff load_fuel fo E HUs) as (fuel & ls & El & Hndl & Hpl & Hn).
  { intros x l q ids m0 c0 m [Hin Ex]%HT' Hna Es En Hne. destruct (Hent l x q Hin Ex) as [H1 _]. destruct (H1 _ _ Es) as (Ef' & _). by apply (Hcut l x q ids m0 c0 m). }
  exists fuel, ls. split; [done|]. split; [done|]. split.
  - intros prefix l n Hl. destruct (Hpl prefix l n Hl) as (x & p & q & [Hin Ex]%HT' & ->). eauto 10.
  - intros p x q saved prefix Hin Ex Hb. rewrite (Hn x p q prefix) by (by apply HT'). assert (ent es (x :: q) = saved) as ->; [|done].
    destruct (Hent p x q Hin Ex) as [H1 H2]. destruct saved as [[t m]|].
    + destruct Hb as (? & ? & ?). by apply H2.
    + destruct (ent es (x :: q)) as [[t m]|]; [|done]. exfalso. destruct (H1 t m eq_refl) as (E' & Hne & Hf). destruct Hb as [?|[(m' & ?)|(r & Hr & Er)]]; [congruence|congruence|]. by rewrite (Hf r Hr) in Er.
Qed.

(** ** With a second snapshot *)

(** More fuel makes no difference. *)
Lemma append_tree_more read fuel fuel' stack id st r : fuel <= fuel' -> append_tree read fuel stack id st = Some r -> append_tree read fuel' stack id st = Some r.
Proof.
  revert fuel' stack id st r. induction fuel as [|fuel IH]; intros fuel' stack id st r Hle E; [done|]. destruct fuel' as [|fuel']; [lia|].
  cbn [append_tree] in *. case_decide; [done|]. destruct (read st.1 id) as [[t c]| |]; [|done|done].
  revert E. generalize (c, <[id:=t]> st.2) as a. generalize ({[id]} ∪ stack) as s'. clear -IH Hle. induction (subtrees t) as [|i is IHi]; intros s' a E; [done|].
  cbn [fold_ids] in *. destruct (append_tree read fuel s' i a) as [r0|] eqn:Ea; [|done]. rewrite (IH fuel' s' i a r0 ltac:(lia) Ea). destruct r0; [by apply IHi|done|done].
Qed.

(** The report is that of the two snapshots' files. *)
Theorem C70_diff_two_snapshots H U cuts k ix bmap snaps first sn1 i1 es1 second sn2 i2 es2 files :
  universe H U -> (forall x, length (H x) = 28) -> in_order H U k ->
  master k = Ok ix -> blob_to_pack_map ix = Ok bmap ->
  find_snapshot snaps first = Ok (sn1, i1) -> find_snapshot snaps second = Ok (sn2, i2) ->
  restores H k sn1 es1 -> restores H k sn2 es2 ->
  exists load_fuel fuel ls, diff_command H cuts k bmap snaps files load_fuel fuel true first (Some second) = Some (Ok ls) /\
    (ls = [] <-> sn_tree sn1 = sn_tree sn2) /\
    (forall p, entry_at es1 p <> entry_at es2 p -> exists prefix n, (prefix, p, n) ∈ ls).
Proof.
  intros HU Hlen Hk Eix Ebm F1 F2 R1 R2. pose proof (in_order_structured _ _ _ Hk) as Hst.
  destruct (C35_diff_of_two_snapshots H U k ix bmap sn1 es1 sn2 es2 HU Hlen Hk Eix Ebm R1 R2) as (f1 & fo1 & f2 & fo2 & fuel & E1 & E2 & _ & ls & El & Hls).
  assert (forall f f' root fo, load_forest H k bmap f root = Some (Ok fo) -> f <= f' -> load_forest H k bmap f' root = Some (Ok fo)) as Hmono.
  { intros f f' root fo E Hf. unfold load_forest in *. destruct (forest_from_root _ f _ _) as [[[c g]| |]|] eqn:Ef; try done. injection E as ->.
    unfold forest_from_root in *. by rewrite (append_tree_more _ f f' _ _ _ _ Hf Ef). }
  exists (f1 + f2), fuel, ls. split; [|exact Hls]. unfold diff_command. rewrite F1. cbn [obind fst]. rewrite (Hmono f1 (f1 + f2) _ fo1 E1) by lia. cbn [obind].
  unfold snapshot2_or_paths. rewrite F2. cbn [obind fst]. rewrite (Hmono f2 (f1 + f2) _ fo2 E2) by lia. exact El.
Qed.

(** ** It applies, and what it prints *)

Definition dx_id (b : bytes) : oid := quick_hash b.
Definition dx_snaps : list (snapshot * oid) := [(rx_one, dx_id (tx "one")); (rx_both, dx_id (tx "both"))].
Definition dx_show (r : option (result (list line))) : list (bytes * list bytes) :=
  match r with Some (Ok ls) => map (fun l : line => l.1) ls | _ => [] end.
Definition dx_fo : forest := match load_forest quick_hash rx_k rx_map 9 (sn_tree rx_one) with Some (Ok fo) => fo | _ => ∅ end.

Example C70_witness : find_snapshot dx_snaps (tx "LAST~") = Ok (rx_one, dx_id (tx "one")) /\
  universe quick_hash (in_list rx_universe) /\ in_order quick_hash (in_list rx_universe) rx_k /\
  master rx_k = Ok rx_ix /\ blob_to_pack_map rx_ix = Ok rx_map /\ restores quick_hash rx_k rx_one rx_saved /\
  can_compare toy_cuts rx_one rx_saved rx_here /\
  load_forest quick_hash rx_k rx_map 9 (sn_tree rx_one) = Some (Ok dx_fo) /\
  Forall (in_list rx_universe) (plan_blobs quick_hash toy_cuts (fun _ => true) dx_fo (Some (sn_tree rx_one)) (found rx_here (map snd (targets rx_one None)))) /\
  cut_alike quick_hash toy_cuts dx_fo rx_one rx_saved rx_here.
Proof.
  destruct C36_witness as (W1 & W2 & W3 & W4 & W5 & _ & W7 & _ & _ & W10 & _).
  split; [vm_compute; reflexivity|]. split; [exact W1|]. split; [exact W2|]. split; [exact W3|]. split; [exact W4|]. split; [exact W5|]. split; [eapply can_restore_compare, W7|].
  assert (match load_forest quick_hash rx_k rx_map 9 (sn_tree rx_one) with Some (Ok _) => true | _ => false end = true) as Hx by (vm_compute; reflexivity).
  assert (load_forest quick_hash rx_k rx_map 9 (sn_tree rx_one) = Some (Ok dx_fo)) as Efo.
  { unfold dx_fo. destruct (load_forest _ _ _ _ _) as [[fo| |]|]; (discriminate Hx || reflexivity). }
  split; [exact Efo|]. split.
  { unfold rx_made in W10. rewrite Efo in W10. unfold made_there in W10. apply Forall_app in W10 as [W _]. exact W. }
  intros x l q ids m0 c m _ Hna Es _ _.
  assert (forallb (fun e : list bytes * fsnode => match e.2 with FsFile _ c => bool_decide (n_contents <$> node_at dx_fo (sn_tree rx_one) e.1 = Some (CFile (map quick_hash (toy_cuts c)))) | _ => true end)
    (all_of rx_saved) = true) as Hall by (vm_compute; reflexivity).
  apply ent_in in Es as (n & _ & Hin & Et & _). pose proof (forallb_in _ _ _ Hall Hin) as Hn. cbn [fst snd] in Hn. destruct n as [m' c'| | |]; try discriminate Et. injection Et as ->.
  apply bool_decide_eq_true in Hn. rewrite Hna in Hn. by injection Hn as ->.
Qed.

Example C70_shown : dx_show (diff_command quick_hash toy_cuts rx_k rx_map dx_snaps rx_here 9 9 true (tx "LAST~") None) =
  [(tx "- ", [tx "t"; tx "d"]); (tx "- ", [tx "t"; tx "d"; tx "x"]); (tx "+ ", [tx "t"; tx "d"]); (tx "C ", [tx "t"; tx "f"]);
   (tx "- ", [tx "t"; tx "l"]); (tx "+ ", [tx "t"; tx "l"]); (tx "+ ", [tx "t"; tx "n"]); (tx "+ ", [tx "t"; tx "n"; tx "new"]);
   (tx "P ", [tx "t"; tx "o"])].
Proof. vm_compute. reflexivity. Qed.
(** Nothing changed, but for a new special file. *)
Definition dx_same : list (bytes * fsnode) :=
  [(tx "t", FsDir ex_dirmeta [(tx "d", FsDir ex_dirmeta [(tx "x", FsFile ex_filemeta (tx "in d"))]); (tx "f", FsFile ex_filemeta (tx "hello"));
      (tx "l", FsLink ex_linkmeta (tx "f")); (tx "o", FsFile ex_filemeta (tx "other")); (tx "s", FsOther ex_fifometa)])].
Example C70_same : diff_command quick_hash toy_cuts rx_k rx_map dx_snaps dx_same 9 9 true (tx "LAST~") None = Some (Ok []).
Proof. vm_compute. reflexivity. Qed.
Example C70_gone : diff_command quick_hash toy_cuts rx_k rx_map dx_snaps [] 9 9 true (tx "LAST~") None = Some Err.
Proof. vm_compute. reflexivity. Qed.
Example C70_two : dx_show (diff_command quick_hash toy_cuts rx_k rx_map dx_snaps [] 9 9 true (tx "LAST~") (Some (tx "LAST"))) = [(tx "+ ", [tx "u"])].
Proof. vm_compute. reflexivity. Qed.
(** The premises of C70_nothing_changed about these files. *)
Example C70_same_witness : can_compare toy_cuts rx_one rx_saved dx_same /\
  Forall (in_list rx_universe) (plan_blobs quick_hash toy_cuts (fun _ => true) dx_fo (Some (sn_tree rx_one)) (found dx_same (map snd (targets rx_one None)))) /\
  (forall x l q, (x, l) ∈ targets rx_one None ->
     ent dx_same (l ++ q) = ent rx_saved (x :: q) \/ (ent rx_saved (x :: q) = None /\ exists m, ent dx_same (l ++ q) = Some (TOther, m))).
Proof.
  split; [apply (can_restore_compare _ (fun _ => true) rx_plain), can_restoreb_ok; vm_compute; reflexivity|]. split.
  - assert (forallb (fun b => bool_decide (b ∈ rx_universe)) (plan_blobs quick_hash toy_cuts (fun _ => true) dx_fo (Some (sn_tree rx_one)) (found dx_same (map snd (targets rx_one None)))) = true) as Hx by (vm_compute; reflexivity).
    apply Forall_forall. intros b Hb. pose proof (forallb_in _ _ b Hx Hb) as Hy. by apply (bool_decide_eq_true (b ∈ rx_universe)).
  - intros x l q Hin. change (targets rx_one None) with [(tx "t", [tx "t"])] in Hin. apply elem_of_list_singleton in Hin as [= -> ->].
    change ([tx "t"] ++ q) with (tx "t" :: q). unfold ent. rewrite !fs_at_cons. unfold rx_saved, bx_before, dx_same.
    destruct q as [|y q]; [left; reflexivity|]. rewrite !om_get_one. cbn [mbind option_bind fs_sub om_get].
    destruct (bytes_cmp y (tx "d")); [left; reflexivity..|]. destruct (bytes_cmp y (tx "f")); [left; reflexivity..|]. destruct (bytes_cmp y (tx "l")); [left; reflexivity..|].
    destruct (bytes_cmp y (tx "o")); [left; reflexivity..|]. destruct (bytes_cmp y (tx "s")); [|left; reflexivity..].
    destruct q; [right; split; [reflexivity|by eexists]|left; reflexivity].
Qed.

(** ** What it does not see *)

(** Every file with other contents than in the snapshot is mentioned, whatever its time. *)
Definition diff_sees_contents : Prop := forall H U cuts k ix bmap snaps first sn i es files load_fuel fuel ls,
  universe H U -> (forall x, length (H x) = 28) -> (forall x, concat (cuts x) = x) ->
  in_order H U k -> master k = Ok ix -> blob_to_pack_map ix = Ok bmap -> restores H k sn es ->
  find_snapshot snaps first = Ok (sn, i) -> diff_command H cuts k bmap snaps files load_fuel fuel true first None = Some (Ok ls) ->
  forall x l q c0 m0 c m, (x, l) ∈ targets sn None -> ent es (x :: q) = Some (TFile c0, m0) -> ent files (l ++ q) = Some (TFile c, m) -> c0 <> c ->
  exists prefix n, (prefix, x :: q, n) ∈ ls.
Definition dx_forged : list (bytes * fsnode) :=
  [(tx "t", FsDir ex_dirmeta [(tx "d", FsDir ex_dirmeta [(tx "x", FsFile ex_filemeta (tx "in d"))]); (tx "f", FsFile ex_filemeta (tx "jello"));
      (tx "l", FsLink ex_linkmeta (tx "f")); (tx "o", FsFile ex_filemeta (tx "other"))])].
(** It is not, if the size and time are as before. *)
Theorem C70_refuted_contents_with_the_old_time : ~ diff_sees_contents.
Proof.
  intros Hall. destruct C70_witness as (Ef & W1 & W2 & W3 & W4 & W5 & _).
  assert (diff_command quick_hash toy_cuts rx_k rx_map dx_snaps dx_forged 9 9 true (tx "LAST~") None = Some (Ok [])) as E by (vm_compute; reflexivity).
  destruct (Hall quick_hash (in_list rx_universe) toy_cuts rx_k rx_ix rx_map dx_snaps (tx "LAST~") rx_one _ rx_saved dx_forged 9 9 [] W1 quick_hash_length toy_cuts_concat W2 W3 W4 W5 Ef E
    (tx "t") [tx "t"] [tx "f"] (tx "hello") ex_filemeta (tx "jello") ex_filemeta) as (prefix & n & Hn).
  - vm_compute. by left.
  - reflexivity.
  - reflexivity.
  - done.
  - by apply elem_of_nil in Hn.
Qed.

(** The premises of C70_diff_after_backup_partial, after those of C16_round_trip_witness: both files are special files now. *)
Definition dx_fifos : list (bytes * fsnode) := [(tx "aa", FsOther ex_fifometa); (tx "bb", FsOther ex_fifometa)].
Example C70_after_backup_witness : sorted_fs dx_fifos /\
  (forall p, p ∈ [[tx "aa"]; [tx "bb"]] -> exists n, fs_at dx_fifos p = Some n /\ fs_ok toy_cuts false n) /\
  (forall p q t m, p ∈ [[tx "aa"]; [tx "bb"]] -> ent dx_fifos (p ++ q) = Some (t, m) -> is_Some (modes m) /\ t = TOther) /\
  (forall fo root, Forall (in_list ex_blobs) (plan_blobs quick_hash toy_cuts (fun _ => true) fo (Some root) (found dx_fifos [[tx "aa"]; [tx "bb"]]))) /\
  news true (ent rt_files [tx "aa"]) (ent dx_fifos [tx "aa"]) (ascii_bytes "- ").
Proof.
  assert (forall es, sortedb es = true -> forallb (fun e : bytes * fsnode => shapeb e.2) es = true -> sorted_fs es) as Hsorted.
  { intros es H1 H2. split; [by apply sortedb_ok|]. apply Forall_forall. intros e He. apply shapeb_ok. by apply (forallb_in _ _ _ H2). }
  split; [apply Hsorted; vm_compute; reflexivity|].
  assert (forall q t m x, ent dx_fifos (x :: q) = Some (t, m) -> is_Some (modes m) /\ t = TOther) as Hf.
  { intros q t m x E. apply ent_in in E as (n & _ & Hin & <- & <-). change (all_of dx_fifos) with [([tx "aa"], FsOther ex_fifometa); ([tx "bb"], FsOther ex_fifometa)] in Hin.
    apply elem_of_cons in Hin as [[= _ _ ->]|[[= _ _ ->]|Hin%elem_of_nil]%elem_of_cons]; [..|done]; (split; [by eexists|done]). }
  split; [|split; [|split]].
  - intros p [->|[->|Hin%elem_of_nil]%elem_of_cons]%elem_of_cons; [..|done]; (eexists; split; [reflexivity|apply fs_okb_ok; vm_compute; reflexivity]).
  - intros p q t m [->|[->|Hin%elem_of_nil]%elem_of_cons]%elem_of_cons E; [..|done]; by eapply Hf.
  - intros fo root. assert (plan_blobs quick_hash toy_cuts (fun _ => true) fo (Some root) (found dx_fifos [[tx "aa"]; [tx "bb"]]) = []) as ->; [reflexivity|constructor].
  - destruct (ent rt_files [tx "aa"]) as [[t m]|] eqn:E; [|vm_compute in E; discriminate E]. econstructor 2; [reflexivity|]. intros t' m' [= <- <-]. destruct t; try done.
Qed.

Print Assumptions C70_diff_against_the_files_partial.
Print Assumptions C70_nothing_changed.
Print Assumptions C70_a_path_is_gone.
Print Assumptions C70_diff_after_backup_partial.
Print Assumptions C70_diff_two_snapshots.
Print Assumptions C70_refuted_contents_with_the_old_time.
