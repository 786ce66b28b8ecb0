(** Restoring, from start to end. *)

From Verif Require Import Base OMap Formats FormatsFacts Hashing Pack Index IndexFacts Meta Forest ForestFacts FsTree FsSpec FsFacts BackupFacts
  Pipeline PipelineFacts Repo RepoSpec RepoFacts RewriteFacts PropsPipeline PublishFacts CommandFacts PruneFacts ReadFacts History HistoryFacts
  Browse BrowseSpec BrowseFacts DiffFacts BrowseRepo Restore RestoreSpec RestoreFacts RestoreSteps RestoreForest.

Lemma plan_tree_iff {A} (key : A -> bytes) (f : A -> option (node * list item)) l y nd : NoDup (map key l) ->
  om_get y (plan_tree (collect key f l)) = Some nd <-> exists a its, a ∈ l /\ key a = y /\ f a = Some (nd, its).
Proof.
  intros Hnd. unfold plan_tree. rewrite om_get_of_list.
  2: { rewrite <-list_fmap_compose. by apply (collect_nodup key f l). }
  change (map ?g ?l) with (g <$> l). rewrite elem_of_list_fmap. split.
  - intros ([x [nd' its]] & E & Hin). injection E as -> ->. apply collect_elem in Hin as (a & Hin & Ex & Hf). by exists a, its.
  - intros (a & its & Ha & Ek & Hf). exists (y, (nd, its)). split; [done|]. apply collect_elem. by exists a.
Qed.

Lemma found_in files ls e : e ∈ found files ls <-> exists l n, l ∈ ls /\ fs_at files l = Some n /\ e = (render l, default [] (last l), n).
Proof.
  unfold found. rewrite elem_of_list_omap. split.
  - intros (l & Hl & (n & En & ->)%fmap_Some). by exists l, n.
  - intros (l & n & Hl & En & ->). exists l. split; [done|]. by rewrite En.
Qed.
Lemma found_names files ls : NoDup (map (fun l => default [] (last l)) ls) -> NoDup (map (fun e : fspath => e.1.2) (found files ls)).
Proof.
  induction ls as [|l ls IH]; intros Hnd; [constructor|]. cbn [map] in Hnd. apply NoDup_cons in Hnd as [Hl Hnd]. unfold found. cbn [omap list_omap].
  destruct (fs_at files l) as [n|]; cbn [fmap option_fmap option_map]; [|by apply IH]. cbn [map]. apply NoDup_cons. split; [|by apply IH].
  cbn [fst snd]. intros Hin. apply Hl. change (map ?f ?l) with (f <$> l) in *. apply elem_of_list_fmap in Hin as (e & Ee & Hin).
  apply found_in in Hin as (l' & n' & Hl' & _ & ->). apply elem_of_list_fmap. exists l'. done.
Qed.
Lemma found_length files ls : length (found files ls) <= length ls.
Proof. unfold found. induction ls as [|l ls IH]; [done|]. cbn. destruct (fs_at files l); cbn; lia. Qed.

Lemma sorted_fs_at files l n : sorted_fs files -> fs_at files l = Some n -> in_shape n.
Proof.
  intros [Hs Hf]. destruct l as [|x l]; [done|]. cbn [fs_at]. intros (n0 & E0 & E)%bind_Some. rewrite Forall_forall in Hf. apply om_get_elem in E0; [|done].
  specialize (Hf _ E0). cbn in Hf. clear E0. revert n0 E Hf. induction l as [|y l IH]; intros n0 E Hsh; [cbn in E; by injection E as ->|].
  cbn [fs_sub] in E. destruct n0 as [|m es'| |]; try done. apply bind_Some in E as (n1 & E1 & E). apply in_shape_dir in Hsh as [Hs' Hsh].
  apply om_get_elem in E1; [|done]. rewrite Forall_forall in Hsh. by apply (IH n1 E), (Hsh _ E1).
Qed.

Section load.
Local Set Default Proof Using "All".
Variables (H : bytes -> oid) (cuts : bytes -> list bytes) (U : blob -> Prop) (read : oid -> result bytes) (fo2 : forest) (root : oid).
Hypothesis HU : universe H U.
Hypothesis Hlen : forall x, length (H x) = 28.
Hypothesis Hcuts : forall x, concat (cuts x) = x.
Hypothesis Hread : forall i p, read i = Ok p -> exists b, U b /\ b_id b = i /\ b_bytes b = p.
Hypothesis Hfo2 : forest_sane fo2.
Variable files : list (bytes * fsnode).
Hypothesis Hsorted : sorted_fs files.

Notation name l := (default [] (last l)).
Notation plans := (plan_list H cuts (fun _ => true) fo2 (Some root)).

Definition made (fo : forest) : Prop := forall i t, fo !! i = Some t -> i = tree_id H t /\ tree_sane t /\ U (tree_blob H t).

(** The forest of what is at some locations, each known by its last name. *)
Lemma forest_there ls : len_wf ls -> NoDup (map (fun l => name l) ls) ->
  (forall l, l ∈ ls -> l <> []) ->
  (forall l, l ∈ ls -> text_wf (name l)) ->
  (forall l n, l ∈ ls -> fs_at files l = Some n -> fs_ok cuts false n) ->
  (forall l q t m, l ∈ ls -> ent files (l ++ q) = Some (t, m) -> is_Some (modes m)) ->
  (forall l n, l ∈ ls -> fs_at files l = Some n -> honest_since read fo2 (fo2 !! root ≫= om_get (name l)) n) ->
  Forall U (plan_blobs H cuts (fun _ => true) fo2 (Some root) (found files ls)) ->
  exists fo, forest_from_fs H cuts fo2 (Some root) (found files ls) = Ok (tree_id H (plan_tree (plans (found files ls))), fo) /\
    has_trees H fo (plan_all H cuts (fun _ => true) fo2 (Some root) (found files ls)) /\ made fo /\
    (exists d, loaded fo d (tree_id H (plan_tree (plans (found files ls))))) /\
    (forall l q, l ∈ ls -> shows read (node_at fo (tree_id H (plan_tree (plans (found files ls)))) (name l :: q)) (ent files (l ++ q))) /\
    (forall y nd, om_get y (plan_tree (plans (found files ls))) = Some nd -> exists l n its, l ∈ ls /\ fs_at files l = Some n /\ y = name l /\
       plan H cuts (fun _ => true) fo2 (render l) (fo2 !! root ≫= om_get (name l)) n = Some (nd, its) /\
       forall i, i ∈ its -> i ∈ plan_all H cuts (fun _ => true) fo2 (Some root) (found files ls)).
Proof.
  intros Hl Hnd Hne Htx Hok Hpo Hh HUs. set (ps := found files ls) in *.
  assert (NoDup (map (fun e : fspath => e.1.2) ps)) as Hnames by by apply found_names.
  assert (paths_ok cuts false ps) as Hps.
  { split; [unfold len_wf in *; pose proof (found_length files ls); fold ps in H0; lia|]. split; [done|].
    apply Forall_forall. intros e He. apply found_in in He as (l & n & Hin & En & ->). cbn. split; [by apply Htx|by eapply Hok]. }
  destruct (forest_from_fs_plan H cuts fo2 Hlen Hfo2 (Some root) ps Hps) as (fo & E & G).
  pose proof (plan_all_sane H cuts fo2 Hlen Hfo2 (Some root) ps Hps) as Hsane. pose proof (items_in H U _ HU HUs) as Hin.
  destruct (grows_has_trees H cuts U read fo2 HU Hcuts Hread _ fo Hsane Hin G) as [Htr Hmade].
  exists fo. split; [exact E|]. split; [done|]. split; [done|].
  set (f := fun e : fspath => plan H cuts (fun _ => true) fo2 e.1.1 ((Some root ≫= (fun id => fo2 !! id)) ≫= om_get e.1.2) e.2).
  assert (plans ps = collect (fun e : fspath => e.1.2) f ps) as Eps by done.
  assert (forall e nd its, e ∈ ps -> f e = Some (nd, its) -> forall i, i ∈ its -> i ∈ plan_all H cuts (fun _ => true) fo2 (Some root) ps) as Hitems.
  { intros e nd its He Hf i Hi. unfold plan_all. rewrite Eps. by eapply plan_items_sub. }
  assert (fo !! tree_id H (plan_tree (plans ps)) = Some (plan_tree (plans ps))) as Hroot by (by apply has_trees_root).
  split; [|split].
  - rewrite Eps in *. apply (plan_list_loaded H cuts U read fo2 HU Hcuts Hread); [done| |done].
    intros e nd its He Hf. eapply (plan_loaded H cuts U read fo2 HU Hcuts Hread); [|exact Hf|].
    + destruct Hps as (_ & _ & Hps). rewrite Forall_forall in Hps. by apply Hps.
    + intros t Ht. apply Htr. by eapply Hitems.
  - intros l q Hl'. cbn [node_at]. rewrite Hroot. cbn [mbind option_bind].
    unfold ent. rewrite fs_at_app by by apply Hne. change (fun n => (thing_of n, fs_meta n)) with entry_of.
    destruct (fs_at files l) as [n|] eqn:En.
    + assert ((render l, name l, n) ∈ ps) as He by (apply found_in; by exists l, n).
      pose proof (plan_shows H cuts U read fo2 HU Hcuts Hread fo n (render l) (fo2 !! root ≫= om_get (name l)) (Hok l n Hl' En) (sorted_fs_at _ _ _ Hsorted En)) as Hsh.
      assert (forall q n', fs_sub n q = Some n' -> is_Some (modes (fs_meta n'))) as Hpo'.
      { intros q' n' Eq. apply (Hpo l q' (thing_of n') (fs_meta n') Hl'). unfold ent. rewrite fs_at_app by by apply Hne. rewrite En. cbn. by rewrite Eq. }
      specialize (Hsh Hpo' (Hh l n Hl' En)). change (plan H cuts (fun _ => true) fo2 (render l) (fo2 !! root ≫= om_get (name l)) n) with (f (render l, name l, n)) in Hsh.
      cbn [mbind option_bind]. destruct (f (render l, name l, n)) as [[nd its]|] eqn:Ef.
      * assert (om_get (name l) (plan_tree (plans ps)) = Some nd) as ->.
        { rewrite Eps. apply plan_tree_iff; [done|]. by exists (render l, name l, n), its. }
        cbn [mbind option_bind]. apply Hsh.
        -- apply Forall_forall. intros i Hi. rewrite Forall_forall in Hin. apply Hin. by eapply Hitems.
        -- intros t Ht. apply Htr. by eapply Hitems.
      * assert (om_get (name l) (plan_tree (plans ps)) = None) as ->; [|apply Hsh].
        apply eq_None_not_Some. intros [nd Hx]. rewrite Eps in Hx. apply plan_tree_iff in Hx as (e & its & He' & Ek & Hf); [|done].
        assert (e = (render l, name l, n)) as ->; [|congruence]. by eapply (NoDup_map_inj _ _ _ _ Hnames).
    + assert (om_get (name l) (plan_tree (plans ps)) = None) as ->; [|done].
      apply eq_None_not_Some. intros [nd Hx]. rewrite Eps in Hx. apply plan_tree_iff in Hx as (e & its & He' & Ek & Hf); [|done].
      apply found_in in He' as (l' & n' & Hl'' & En' & ->). cbn in Ek. assert (l' = l) as ->; [|congruence].
      by eapply (NoDup_map_inj _ _ _ _ Hnd).
  - intros y nd Hy. rewrite Eps in Hy. apply plan_tree_iff in Hy as (e & its & He' & Ek & Hf); [|done].
    pose proof He' as He. apply found_in in He' as (l & n & Hl' & En & ->). exists l, n, its. split; [done|]. split; [done|]. split; [done|]. split; [exact Hf|]. by eapply Hitems.
Qed.
End load.

(** ** The targets *)

Lemma last_some {A} (l : list A) : l <> [] -> exists x, last l = Some x.
Proof. intros Hl. destruct (last l) as [x|] eqn:E; [eauto|]. by apply last_None in E. Qed.

Lemma map_paths_ok (to : loc -> bytes -> loc) (locs : list loc) (pm0 : gmap bytes loc) : (forall l, l ∈ locs -> l <> []) ->
  NoDup (map (fun l => default [] (last l)) locs) -> (forall l, l ∈ locs -> pm0 !! default [] (last l) = None) ->
  exists pm, map_paths to locs pm0 = Ok pm /\ (forall x, is_Some (pm0 !! x) -> pm !! x = pm0 !! x) /\
    forall l x, l ∈ locs -> last l = Some x -> pm !! x = Some (to l x).
Proof.
  revert pm0. induction locs as [|l locs IH]; intros pm0 Hne Hnd Hnew; [exists pm0; split; [done|]; split; [done|]; intros l x Hl; by apply elem_of_nil in Hl|].
  cbn [map] in Hnd. apply NoDup_cons in Hnd as [Hl Hnd]. cbn [map_paths]. destruct (last_some l) as [x Ex]; [apply Hne; by left|].
  pose proof (Hnew l (elem_of_list_here _ _)) as Hx. rewrite Ex in *. cbn in Hx. rewrite bool_decide_eq_true_2 by done. cbn [rassert rbind].
  destruct (IH (<[x:=to l x]> pm0)) as (pm & E & H1 & H2).
  - intros l' Hl'. apply Hne. by right.
  - done.
  - intros l' Hl'. rewrite lookup_insert_ne; [apply Hnew; by right|]. intros ->. apply Hl. cbn. change (map ?f ?l) with (f <$> l). apply elem_of_list_fmap. by exists l'.
  - exists pm. split; [done|]. split.
    + intros y [v Hy]. assert (x <> y) as Hxy by congruence. rewrite H1; rewrite lookup_insert_ne by done; (done || by eexists).
    + intros l' y [->|Hl']%elem_of_cons Ey; [|by apply H2]. rewrite Ex in Ey. injection Ey as <-. rewrite H1; rewrite lookup_insert; (done || by eexists).
Qed.

Lemma walk_all_ok files (ls : list loc) : (forall l, l ∈ ls -> l <> [] /\ is_Some (fs_at files l)) -> walk_all files ls = Ok (found files ls).
Proof.
  induction ls as [|l ls IH]; intros Hls; [done|]. destruct (Hls l (elem_of_list_here _ _)) as [Hne [n En]]. destruct (last_some l Hne) as [x Ex].
  cbn [walk_all]. unfold walked. rewrite Ex, En. cbn [of_option rbind]. fold (walk_all files ls). rewrite IH by (intros l' Hl'; apply Hls; by right).
  cbn [rbind]. unfold found. cbn [omap list_omap]. rewrite En, Ex. done.
Qed.

Lemma found_filter files (P : loc -> Prop) `{!forall l, Decision (P l)} (ls : list loc) : (forall l, l ∈ ls -> is_Some (fs_at files l) -> P l) ->
  found files (filter P ls) = found files ls.
Proof.
  intros HP. induction ls as [|l ls IH]; [done|]. rewrite filter_cons. specialize (IH (fun l' Hl' => HP l' (elem_of_list_further _ _ _ Hl'))).
  unfold found in *. cbn [omap list_omap]. case_decide as Hl; cbn [omap list_omap]; rewrite IH; [done|].
  destruct (fs_at files l) as [n|] eqn:En; [|done]. destruct Hl. apply HP; [by left|]. rewrite En. by eexists.
Qed.

Lemma path_location_names p : path_location p = names_in p.
Proof. exact (components_names p). Qed.

(** The names and locations before [--output] is looked at. *)
Definition named_paths (sn : snapshot) : list (bytes * loc) :=
  omap (fun p => (fun x => (x, names_in p)) <$> last (names_in p)) (sn_paths sn).

Lemma named_locs sn : Forall (fun p => names_in p <> []) (sn_paths sn) ->
  map snd (named_paths sn) = map path_location (sn_paths sn) /\ map fst (named_paths sn) = map (fun l => default [] (last l)) (map path_location (sn_paths sn)) /\
  length (named_paths sn) = length (sn_paths sn) /\ (forall x l, (x, l) ∈ named_paths sn <-> l ∈ map path_location (sn_paths sn) /\ last l = Some x).
Proof.
  unfold named_paths. induction 1 as [|p ps Hp Hps IH]; [split; [done|]; split; [done|]; split; [done|]; intros x l; split; [intros Hx|intros [Hx _]]; by apply elem_of_nil in Hx|].
  destruct IH as (I1 & I2 & I3 & I4). destruct (last_some _ Hp) as [x Ex]. cbn [omap list_omap map]. rewrite Ex. cbn [fmap option_fmap option_map map fst snd length].
  rewrite (path_location_names p). rewrite Ex. cbn [default]. split; [by rewrite I1|]. split; [by rewrite I2|]. split; [by rewrite I3|].
  intros y l. rewrite !elem_of_cons, I4. split.
  - intros [E|[? ?]]; [injection E as -> ->; auto|auto].
  - intros [[->|?] E]; [|auto]. left. congruence.
Qed.

(** ** The forest of the files there *)

Lemma node_sub_same (fo fo1 : forest) nd q :
  (forall q1 nd1 s, node_sub fo nd q1 = Some nd1 -> n_contents nd1 = CDir s -> fo1 !! s = fo !! s) -> node_sub fo1 nd q = node_sub fo nd q.
Proof.
  revert nd. induction q as [|x q IH]; intros nd Hs; [done|]. cbn [node_sub]. destruct (n_contents nd) as [|s|] eqn:Ec; [done| |done].
  rewrite (Hs [] nd s eq_refl Ec). destruct (fo !! s) as [t|] eqn:Et; [|done]. cbn [mbind option_bind]. destruct (om_get x t) as [nd'|] eqn:Ex; [|done]. cbn [mbind option_bind].
  apply IH. intros q1 nd1 s1 E1 E2. apply (Hs (x :: q1) nd1 s1); [|done]. cbn [node_sub]. by rewrite Ec, Et; cbn; rewrite Ex.
Qed.

Lemma loaded_same (fo fo1 : forest) id d s : (forall i t, fo !! i = Some t -> om_sorted t) -> (forall i t, fo !! i = Some t -> i <> id -> fo1 !! i = Some t) ->
  loaded fo d s -> s <> id -> (forall q nd, node_at fo s q = Some nd -> n_contents nd <> CDir id) -> loaded fo1 d s.
Proof.
  intros Hst Hsame. revert s. induction d as [|d IH]; intros s Hl Hs Hn; [done|]. destruct Hl as (t & Ht & Hl). exists t. split; [by apply Hsame|].
  intros s' Hs'. pose proof Hs' as Hin. apply subtrees_in in Hs' as (x & nd & Hx & Ec). apply om_get_elem in Hx; [|by eapply Hst].
  assert (forall q, node_at fo s (x :: q) = node_sub fo nd q) as Eq by (intros q; cbn [node_at]; rewrite Ht; cbn; by rewrite Hx).
  apply IH; [by apply Hl| |].
  - intros ->. apply (Hn [x] nd); [by rewrite Eq|done].
  - intros [|y q] nd' E; [done|]. apply (Hn (x :: y :: q)). rewrite Eq. cbn [node_sub node_at] in *. by rewrite Ec.
Qed.

Lemma om_get_one {A} x (v : A) : om_get x [(x, v)] = Some v.
Proof. exact (om_get_insert_eq x v []). Qed.

Section inputs.
Local Set Default Proof Using "All".
Variables (H : bytes -> oid) (cuts : bytes -> list bytes) (U : blob -> Prop) (read : oid -> result bytes) (fo2 : forest) (sn : snapshot).
Hypothesis HU : universe H U.
Hypothesis Hlen : forall x, length (H x) = 28.
Hypothesis Hcuts : forall x, concat (cuts x) = x.
Hypothesis Hread : forall i p, read i = Ok p -> exists b, U b /\ b_id b = i /\ b_bytes b = p.
Hypothesis Hfo2 : forest_sane fo2.
Variables (resolves : list bytes -> bool) (args : restore_args) (output : option (list bytes)) (es files : list (bytes * fsnode)).
Hypothesis Hcr : can_restore cuts resolves args output sn es files.
Hypothesis Hagree : forall q, saves read (node_at fo2 (sn_tree sn) q) (ent es q).
Hypothesis HUs : Forall U (made_there H cuts fo2 sn output files).

Notation name l := (default [] (last l)).
Notation T := (targets sn output).

Lemma same_pieces cs ps1 ps2 : Forall2 (fun c p => read c = Ok p) cs ps1 -> Forall2 (fun c p => read c = Ok p) cs ps2 -> ps1 = ps2.
Proof.
  intros H1. revert ps2. induction H1 as [|c p cs ps Hc _ IH]; intros ps2 H2; [by apply Forall2_nil_inv_l in H2|].
  apply Forall2_cons_inv_l in H2 as (p' & ps' & Hc' & H2 & ->). f_equal; [congruence|by apply IH].
Qed.

Lemma honest_target x l n : (x, l) ∈ T -> l <> [] -> name l = x \/ T = [(x, l)] -> fs_at files l = Some n ->
  honest_since read fo2 (fo2 !! sn_tree sn ≫= om_get (name l)) n.
Proof.
  intros Hin Hne Hname En q p m c Ep Ef Hun cs ps Ec HF. change ((fo2 !! sn_tree sn ≫= om_get (name l)) ≫= (fun nd => node_sub fo2 nd q)) with (node_at fo2 (sn_tree sn) (name l :: q)) in Ep.
  pose proof (Hagree (name l :: q)) as Hs. rewrite Ep in Hs. destruct (ent es (name l :: q)) as [[t m0]|] eqn:Ee; [|done]. cbn in Hs. destruct Hs as [Em Ht].
  rewrite Ec in Ht. cbn in Em, Ht. destruct t as [c0| | |]; try done. destruct Ht as (ps0 & HF0 & ->). rewrite (same_pieces _ _ _ HF HF0).
  assert (name l = x) as Ex.
  { destruct Hname as [?|Hone]; [done|]. pose proof (cr_tops _ _ _ _ _ _ _ Hcr (name l)) as Ht. unfold ent in Ee. cbn [fs_at] in Ee.
    destruct (om_get (name l) es) as [n0|]; [|done]. specialize (Ht n0 eq_refl). rewrite Hone in Ht. by apply elem_of_list_singleton in Ht. }
  rewrite Ex in *. symmetry. cbn in Hun. apply andb_true_iff in Hun as [Hun Hsz]. apply andb_true_iff in Hun as [_ Hmt].
  apply bool_decide_eq_true in Hsz, Hmt. 
  refine (cr_honest _ _ _ _ _ _ _ Hcr x l q m0 (concat ps0) m c Hin Ee _ _ _); [|congruence|congruence].
  unfold ent. rewrite fs_at_app by done. rewrite En. cbn. by rewrite Ef.
Qed.

Definition loads_ok : Prop :=
  exists id1 fo1 pm t1, load_fs_tree H cuts resolves files sn fo2 output = Ok (id1, fo1, pm) /\ fo1 !! id1 = Some t1 /\
    (exists d, loaded fo1 d id1) /\ made H U fo1 /\ (forall x l, (x, l) ∈ T -> pm !! x = Some l) /\
    (forall x, x ∈ map fst t1 -> x ∈ map fst T) /\
    (forall x l q, (x, l) ∈ T -> shows read (node_at fo1 id1 (x :: q)) (ent files (l ++ q))).

Let ls := map snd T.
Let ps := found files ls.

Lemma target_of l : l ∈ ls -> exists x, (x, l) ∈ T.
Proof. unfold ls. change (map ?f ?l) with (f <$> l). intros ([x l'] & -> & Hin)%elem_of_list_fmap. by exists x. Qed.

Lemma there : (forall l, l ∈ ls -> l <> []) -> NoDup (map (fun l => name l) ls) -> length ls = length (sn_paths sn) ->
  (forall x l, (x, l) ∈ T -> name l = x \/ T = [(x, l)]) ->
  exists fo, forest_from_fs H cuts fo2 (Some (sn_tree sn)) ps = Ok (tree_id H (plan_tree (plan_list H cuts (fun _ => true) fo2 (Some (sn_tree sn)) ps)), fo) /\
    fo !! tree_id H (plan_tree (plan_list H cuts (fun _ => true) fo2 (Some (sn_tree sn)) ps)) = Some (plan_tree (plan_list H cuts (fun _ => true) fo2 (Some (sn_tree sn)) ps)) /\ made H U fo /\
    (exists d, loaded fo d (tree_id H (plan_tree (plan_list H cuts (fun _ => true) fo2 (Some (sn_tree sn)) ps)))) /\
    (forall l q, l ∈ ls -> shows read (node_at fo (tree_id H (plan_tree (plan_list H cuts (fun _ => true) fo2 (Some (sn_tree sn)) ps))) (name l :: q)) (ent files (l ++ q))) /\
    (forall y nd, om_get y (plan_tree (plan_list H cuts (fun _ => true) fo2 (Some (sn_tree sn)) ps)) = Some nd -> exists l, l ∈ ls /\ y = name l).
Proof.
  intros Hne Hnd Hl Hnames.
  destruct (forest_there H cuts U read fo2 (sn_tree sn) HU Hlen Hcuts Hread Hfo2 files (cr_sorted _ _ _ _ _ _ _ Hcr) ls) as (fo & E & Htr & Hm & Hld & Hsh & Ho).
  - unfold len_wf. rewrite Hl. apply (cr_few _ _ _ _ _ _ _ Hcr).
  - done.
  - done.
  - intros l Hin. destruct (target_of l Hin) as [x Hx]. destruct (last_some l (Hne l Hin)) as [y Ey]. rewrite Ey. cbn. by eapply (cr_text _ _ _ _ _ _ _ Hcr).
  - intros l n Hin En. destruct (target_of l Hin) as [x Hx]. by eapply (cr_files _ _ _ _ _ _ _ Hcr).
  - intros l q t m Hin En. destruct (target_of l Hin) as [x Hx]. by eapply (cr_unix _ _ _ _ _ _ _ Hcr).
  - intros l n Hin En. destruct (target_of l Hin) as [x Hx]. by eapply honest_target; [|apply Hne|apply Hnames|].
  - pose proof HUs as HUs'. unfold made_there in HUs'. apply Forall_app in HUs' as [? _]. done.
  - exists fo. split; [exact E|]. split; [apply has_trees_root; exact Htr|]. split; [done|]. split; [done|]. split; [done|].
    intros y nd Hy. destruct (Ho y nd Hy) as (l & n & its & Hin & _ & -> & _). by exists l.
Qed.

Lemma named_first : NoDup (map (fun l => name l) (map path_location (sn_paths sn))) /\ length T = length (sn_paths sn) /\ (forall l, l ∈ map path_location (sn_paths sn) -> l <> []).
Proof.
  pose proof (cr_named _ _ _ _ _ _ _ Hcr) as Hn. destruct (named_locs sn Hn) as (N1 & N2 & N3 & N4). rewrite <-N2, <-N3. split; [|split].
  - pose proof (cr_distinct _ _ _ _ _ _ _ Hcr) as Hd. revert Hd. clear. unfold targets. fold (named_paths sn). destruct output as [to|]; [|done].
    destruct (named_paths sn) as [|[x l] [|b r]] eqn:E; [done|done|]. rewrite map_map. done.
  - clear. unfold targets. fold (named_paths sn). destruct output as [to|]; [|done]. destruct (named_paths sn) as [|[x l] [|b r]] eqn:E; [done|done|]. by rewrite map_length.
  - intros l Hl. change (map ?f ?l) with (f <$> l) in Hl. apply elem_of_list_fmap in Hl as (p & -> & Hp). rewrite Forall_forall in Hn. rewrite path_location_names. by apply (Hn p).
Qed.

(** Every target is called what the snapshot calls it. *)
Lemma load_same pm : (forall x l, (x, l) ∈ T -> last l = Some x) -> (forall x l, (x, l) ∈ T -> pm !! x = Some l) ->
  (forall id1 fo1, forest_from_fs H cuts fo2 (Some (sn_tree sn)) ps = Ok (id1, fo1) -> load_fs_tree H cuts resolves files sn fo2 output = Ok (id1, fo1, pm)) ->
  loads_ok.
Proof.
  intros Hlast Hpm Hrun. assert (map (fun l => name l) ls = map fst T) as En.
  { unfold ls. rewrite map_map. apply map_ext_in. intros [x l] Hin%elem_of_list_In. cbn. by rewrite (Hlast _ _ Hin). }
  destruct named_first as (_ & Hl & _). destruct there as (fo & E & Hroot & Hm & Hld & Hsh & Ho).
  - intros l Hin. destruct (target_of l Hin) as [x Hx]. apply Hlast in Hx. by intros ->.
  - rewrite En. apply (cr_distinct _ _ _ _ _ _ _ Hcr).
  - unfold ls. by rewrite map_length.
  - intros x l Hin. left. by rewrite (Hlast _ _ Hin).
  - eexists _, fo, pm, _. split; [by apply Hrun|]. split; [exact Hroot|]. split; [done|]. split; [done|]. split; [done|]. split.
    + intros x Hx. change (map ?f ?l) with (f <$> l) in Hx. apply elem_of_list_fmap in Hx as ([y nd] & -> & Hy). cbn. apply om_get_elem in Hy; [|apply (Hm _ _ Hroot)].
      destruct (Ho y nd Hy) as (l & Hin & ->). rewrite <-En. change (map ?f ?l) with (f <$> l). apply elem_of_list_fmap. by exists l.
    + intros x l q Hin. specialize (Hsh l q). rewrite (Hlast _ _ Hin) in Hsh. apply Hsh. unfold ls. change (map ?f ?l) with (f <$> l). apply elem_of_list_fmap. by exists (x, l).
Qed.

Lemma load_in_place : output = None -> loads_ok.
Proof.
  intros Eo. destruct (named_locs sn (cr_named _ _ _ _ _ _ _ Hcr)) as (N1 & N2 & N3 & N4). destruct named_first as (Hnd & _ & Hne).
  assert (T = named_paths sn) as ET by by rewrite Eo.
  destruct (map_paths_ok (fun l _ => l) (map path_location (sn_paths sn)) ∅ Hne Hnd) as (pm & Epm & _ & Hpm); [intros; apply lookup_empty|].
  apply (load_same pm).
  - intros x l Hin. rewrite ET in Hin. by apply N4.
  - intros x l Hin. rewrite ET in Hin. apply N4 in Hin as [Hin Ex]. by apply Hpm.
  - intros id1 fo1 E. unfold load_fs_tree. rewrite Eo. assert (map path_location (sn_paths sn) = ls) as El by (unfold ls; by rewrite ET, N1).
    rewrite Epm, El, walk_all_ok.
    + cbn [rbind]. fold ps. rewrite E. done.
    + intros l Hin. destruct (target_of l Hin) as [x Hx]. rewrite <-El in Hin. split; [by apply Hne|].
      pose proof (cr_place _ _ _ _ _ _ _ Hcr) as Hp. rewrite Eo in Hp. destruct (Hp x l) as [[e He] _]; [by rewrite <-Eo|].
      unfold ent in He. destruct (fs_at files l); [by eexists|done].
Qed.

Lemma load_into to : output = Some to -> (forall e, T <> [e]) -> loads_ok.
Proof.
  intros Eo Hmany. destruct (named_locs sn (cr_named _ _ _ _ _ _ _ Hcr)) as (N1 & N2 & N3 & N4). destruct named_first as (Hnd & Hlt & Hne).
  assert (T = map (fun e => (e.1, to ++ [e.1])) (named_paths sn)) as ET.
  { clear -Eo Hmany. revert Hmany. unfold targets. fold (named_paths sn). rewrite Eo. destruct (named_paths sn) as [|[x l] [|b r]]; [done| |done].
    intros Hmany. by destruct (Hmany (x, to)). }
  destruct (map_paths_ok (fun _ x => to ++ [x]) (map path_location (sn_paths sn)) ∅ Hne Hnd) as (pm & Epm & _ & Hpm); [intros; apply lookup_empty|].
  assert (forall x l, (x, l) ∈ T -> l = to ++ [x] /\ exists l0, l0 ∈ map path_location (sn_paths sn) /\ last l0 = Some x) as HT.
  { intros x l Hin. rewrite ET in Hin. change (map ?f ?l) with (f <$> l) in Hin. apply elem_of_list_fmap in Hin as ([x' l'] & [= -> ->] & Hin). split; [done|].
    apply N4 in Hin as []. by exists l'. }
  apply (load_same pm).
  - intros x l Hin. destruct (HT x l Hin) as [-> _]. by rewrite last_snoc.
  - intros x l Hin. destruct (HT x l Hin) as (-> & l0 & Hl0 & Ex). by apply (Hpm l0).
  - intros id1 fo1 E. unfold load_fs_tree. rewrite Eo.
    assert (omap (fun l => (fun x => to ++ [x]) <$> last l) (map path_location (sn_paths sn)) = ls) as El.
    { unfold ls. rewrite ET, map_map. unfold named_paths. clear. induction (sn_paths sn) as [|p l IH]; [done|]. cbn [map omap list_omap].
      rewrite (path_location_names p). destruct (last (names_in p)) as [x|]; cbn [fmap option_fmap option_map map fst snd]; rewrite IH; done. }
    assert (forall l, l ∈ ls -> path_exists resolves files l = true <-> is_Some (fs_at files l)) as Hex.
    { intros l Hin. destruct (target_of l Hin) as [x Hx]. pose proof (cr_place _ _ _ _ _ _ _ Hcr) as Hp. rewrite Eo in Hp. rewrite <-Eo in Hp.
      assert (forall t m, ent files l = Some (TLink t, m) -> resolves l = true) as Hres.
      { intros t m. destruct T as [|e1 [|e2 r]]; [|by destruct (Hmany e1)|]; by apply (proj2 Hp x l t m). }
      unfold path_exists. destruct (fs_at files l) as [n|] eqn:En; [|split; [done|by intros [? ?]]]. split; [by eexists|]. intros _.
      destruct n as [| |m t|]; try done. apply (Hres t m). unfold ent. by rewrite En. }
    cbv zeta. rewrite Epm, El. cbn [rbind]. rewrite walk_all_ok.
    + cbn [rbind]. rewrite found_filter; [fold ps; rewrite E|intros l Hin Hs; by apply Hex].
      destruct (map path_location (sn_paths sn)) as [|a [|b r]] eqn:Em; [done| |done]. exfalso. apply (f_equal length) in Em. rewrite map_length, <-Hlt in Em.
      destruct T as [|e [|]] eqn:E'; try done. by apply (Hmany e).
    + intros l [Hin1 Hin]%elem_of_list_filter. split; [|by apply Hex]. destruct (target_of l Hin) as [x Hx]. destruct (HT x l Hx) as [-> _]. by destruct to.
Qed.

Lemma load_as x to : output = Some to -> T = [(x, to)] -> loads_ok.
Proof.
  intros Eo ET. destruct (named_locs sn (cr_named _ _ _ _ _ _ _ Hcr)) as (N1 & N2 & N3 & N4). destruct named_first as (Hnd & Hlt & Hne).
  pose proof (cr_place _ _ _ _ _ _ _ Hcr) as Hp. rewrite Eo in Hp. rewrite <-Eo, ET in Hp. destruct Hp as (t & m & Ht & Hot).
  destruct (ent_parent _ _ _ Ht) as [Hto _]. destruct (last_some to Hto) as [y Ey].
  assert (exists n, fs_at files to = Some n /\ thing_of n = t) as (n & En & Etn).
  { unfold ent in Ht. destruct (fs_at files to) as [n|]; [|done]. injection Ht as ? ?. by exists n. }
  assert (ls = [to]) as El by (unfold ls; by rewrite ET). assert (ps = [(render to, y, n)]) as Eps by (unfold ps; rewrite El; unfold found; cbn; by rewrite En, Ey).
  assert (exists l0, map path_location (sn_paths sn) = [l0] /\ last l0 = Some x) as (l0 & El0 & Ex).
  { assert (exists l0, named_paths sn = [(x, l0)]) as [l0 E0].
    { revert ET. unfold targets. fold (named_paths sn). rewrite Eo. destruct (named_paths sn) as [|[x' l'] [|b r]]; [done| |done]. intros [= ->]. by exists l'. }
    exists l0. rewrite <-N1, E0. split; [done|]. apply (proj1 (N4 x l0)). rewrite E0. by left. }
  destruct there as (fo & E & Hroot & Hm & [d Hld] & Hsh & _).
  - intros l. rewrite El. by intros ->%elem_of_list_singleton.
  - rewrite El. apply NoDup_singleton.
  - unfold ls. by rewrite map_length.
  - intros x' l' Hin. right. rewrite ET in Hin |- *. apply elem_of_list_singleton in Hin as [= -> ->]. done.
  - assert (exists nd its, plan_list H cuts (fun _ => true) fo2 (Some (sn_tree sn)) ps = [(y, (nd, its))]) as (nd & its & Epl).
    { rewrite Eps. unfold plan_list. cbn [collect fst snd]. destruct (plan H cuts (fun _ => true) fo2 (render to) _ n) as [[nd its]|] eqn:Epn; [by exists nd, its|].
      exfalso. destruct n as [mm c|mm es'|mm tg|mm]; cbn in Epn; try done. }
    assert (plan_tree (plan_list H cuts (fun _ => true) fo2 (Some (sn_tree sn)) ps) = [(y, nd)]) as Etop by (rewrite Epl; done).
    assert (U (tree_blob H [(x, nd)])) as Ufix.
    { pose proof HUs as HUs'. unfold made_there in HUs'. fold ls ps in HUs'. rewrite Epl, ET in HUs'. apply Forall_app in HUs' as [_ HU']. by apply Forall_cons in HU' as [? _]. }
    rewrite Etop in *. set (id := tree_id H [(y, nd)]) in *. set (fixed := [(x, nd)]) in *.
    assert (tree_sane fixed) as Sfix.
    { destruct (Hm _ _ Hroot) as (_ & ((L1 & L2 & L3) & L4) & _). split; [split; [done|split]|].
      - apply Forall_cons in L2 as [[_ L2] _]. constructor; [|constructor]. split; [|done]. cbn. eapply (cr_text _ _ _ _ _ _ _ Hcr x to y); [|done]. rewrite ET. by left.
      - unfold om_sorted, fixed. cbn. repeat constructor.
      - apply Forall_cons in L4 as [L4 _]. by constructor. }
    set (fo1 := <[tree_id H fixed := fixed]> (delete id fo)).
    assert (forall i t0, fo !! i = Some t0 -> i <> id -> fo1 !! i = Some t0) as Hsame.
    { intros i t0 Hi Hid. unfold fo1. destruct (decide (i = tree_id H fixed)) as [->|Hn]; [|by rewrite lookup_insert_ne, lookup_delete_ne].
      rewrite lookup_insert. f_equal. destruct (Hm _ _ Hi) as (Ei & [W _] & Ui). apply (tree_in_inj H cuts U read fo2 HU Hcuts Hread); [apply Sfix|done|done|done|done]. }
    assert (forall q, node_at fo id (y :: q) = node_sub fo nd q) as Enode.
    { intros q. cbn [node_at]. rewrite Hroot. cbn [mbind option_bind]. by rewrite om_get_one. }
    assert (forall q nd', node_sub fo nd q = Some nd' -> n_contents nd' <> CDir id) as Hcyc.
    { intros q nd' E1 E2. eapply (no_cycle fo id [(y, nd)] y nd q nd' d); try done. by left. }
    assert (forall q, node_sub fo1 nd q = node_sub fo nd q) as Esub.
    { intros q. apply node_sub_same. intros q1 nd1 s E1 E2. destruct (loaded_sub fo d id (y :: q1) nd1 s Hld) as (d' & _ & Hl'); [done|by rewrite Enode|done|].
      destruct d' as [|d']; [done|]. destruct Hl' as (t0 & Ht0 & _). rewrite Ht0. apply Hsame; [done|]. intros ->. by apply (Hcyc q1 nd1). }
    exists (tree_id H fixed), fo1, {[x := to]}, fixed. split; [|split; [|split; [|split; [|split; [|split]]]]].
    + unfold load_fs_tree. rewrite Eo, El0. cbv zeta. cbn [map_paths]. rewrite Ex, bool_decide_eq_true_2 by apply lookup_empty. cbn [rassert rbind].
      unfold walked. rewrite Ey, En. cbn [of_option rbind]. rewrite <-Eps, E. cbn [rbind]. rewrite Hroot. cbn [fst snd]. rewrite om_get_one. cbv zeta.
      assert (om_put y None [(y, nd)] = []) as -> by (cbn; by rewrite decide_False by (intros Hyy; by apply Hyy)). done.
    + unfold fo1. by rewrite lookup_insert.
    + destruct d as [|d]; [done|]. destruct Hld as (t0 & Ht0 & Hl0). rewrite Hroot in Ht0. injection Ht0 as <-.
      exists (S d), fixed. split; [unfold fo1; by rewrite lookup_insert|]. intros s Hs. apply subtrees_in in Hs as (z & nd' & Hz & Ec). apply elem_of_list_singleton in Hz as [= -> ->].
      apply (loaded_same fo fo1 id); [|done| | |].
      * intros i t0 Hi. by apply (Hm _ _ Hi).
      * apply Hl0. eapply (node_subtree_in _ y nd); [by left|done].
      * intros ->. by apply (Hcyc [] nd).
      * intros [|z q] nd' Eq; [done|]. apply (Hcyc (z :: q)). cbn [node_sub node_at] in *. by rewrite Ec.
    + intros i t0 Hi. unfold fo1 in Hi. apply lookup_insert_Some in Hi as [[<- <-]|[_ Hi]]; [done|]. apply lookup_delete_Some in Hi as [_ Hi]. by apply Hm.
    + intros x' l' Hin. rewrite ET in Hin. apply elem_of_list_singleton in Hin as [= -> ->]. apply lookup_singleton.
    + intros x' Hin. rewrite ET. done.
    + intros x' l' q Hin. rewrite ET in Hin. apply elem_of_list_singleton in Hin as [= -> ->]. specialize (Hsh to q). rewrite Ey in Hsh. cbn [default] in Hsh.
      rewrite Enode in Hsh. cbn [node_at]. assert (fo1 !! tree_id H fixed = Some fixed) as -> by (unfold fo1; by rewrite lookup_insert). cbn [mbind option_bind]. unfold fixed. rewrite om_get_one. cbn [mbind option_bind].
      rewrite Esub. apply Hsh. rewrite El. by left.
Qed.

Theorem load_fs_tree_ok : loads_ok.
Proof.
  assert (output = None \/ exists to, output = Some to) as [Eo|[to Eo]] by (clear; destruct output; eauto); [by apply load_in_place|].
  assert ((exists x l, T = [(x, l)]) \/ forall e, T <> [e]) as [(x & l & ET)|Hm]; [|
    |by apply (load_into to)].
  { clear. destruct T as [|[x l] [|b r]]; [by right|left; eauto|by right]. }
  assert (l = to) as ->; [|by apply (load_as x to)]. revert ET. unfold targets. rewrite Eo. clear. destruct (omap _ _) as [|[x' l'] [|]]; try done. by intros [= -> ->].
Qed.
End inputs.

(** ** Restoring *)

Lemma reach_node (fo : forest) root id t x nd : (forall i t, fo !! i = Some t -> om_sorted t) -> reach fo root id -> fo !! id = Some t -> (x, nd) ∈ t ->
  exists q, node_at fo root (q ++ [x]) = Some nd.
Proof.
  intros Hst Hr. revert t x nd. induction Hr as [a|a b c Hab Hr IH]; intros t x nd Ht Hin.
  - exists []. cbn. rewrite Ht. cbn. apply om_get_elem in Hin; [|by eapply Hst]. by rewrite Hin.
  - destruct Hab as (u & Hu & Hb). apply subtrees_in in Hb as (y & nd1 & Hy & Ec). apply om_get_elem in Hy; [|by eapply Hst].
    destruct (IH t x nd Ht Hin) as [q Eq]. exists (y :: q). cbn [node_at app]. rewrite Hu. cbn [mbind option_bind]. rewrite Hy. cbn [mbind option_bind].
    destruct q as [|z q]; cbn [node_sub node_at app] in *; by rewrite Ec.
Qed.

Section repo.
Local Set Default Proof Using "All".
Variables (H : bytes -> oid) (cuts : bytes -> list bytes) (U : blob -> Prop).
Hypothesis HU : universe H U.
Hypothesis Hlen : forall x, length (H x) = 28.
Hypothesis Hcuts : forall x, concat (cuts x) = x.
Variables (k : backend) (ix : index) (bmap : gmap oid oid).
Hypothesis Hk : in_order H U k.
Hypothesis Eix : master k = Ok ix.
Hypothesis Ebm : blob_to_pack_map ix = Ok bmap.
Variables (resolves : list bytes -> bool) (clock : nat -> Z) (fresh : nat -> kind -> posix).
Variables (args : restore_args) (output : option (list bytes)) (sn : snapshot) (es : list (bytes * fsnode)) (w : fsworld).
Hypothesis Hr : restores H k sn es.
Hypothesis Hdry : r_dry_run args = false.
Hypothesis Hcr : can_restore cuts resolves args output sn es w.2.

Notation T := (targets sn output).

Let Hst : structured H U k.
Proof. by apply in_order_structured. Qed.

Lemma stored_made (fo : forest) : (forall id t, fo !! id = Some t -> stored_as H (repo_store k) id t) -> made H U fo.
Proof.
  intros Hfo id t E. apply Hfo in E. pose proof (stored_hash H U HU Hlen k ix bmap Hk Eix Ebm id t E) as Eid. split; [done|].
  unfold stored_as in E. case_decide; [subst t; split; [by repeat split; try constructor|apply HU]|]. destruct E as (b & Hb & Ed).
  apply (repo_store_lookup H U HU) in Hb; [|apply Hst]. destruct (live_tree H U HU k Hst _ Hb eq_refl) as (u & Hs & Eb & Hd). destruct (Hd _ _ Ed) as [-> _]. split; [done|].
  pose proof (live_blobs_U H U HU k (st_packs _ _ _ Hst)) as HF. rewrite Forall_forall in HF. rewrite <-Eb. by apply HF.
Qed.

Lemma targets_place : (forall x l, (x, l) ∈ T -> l <> [] /\ dir_at w.2 (removelast l)) /\
  forall x l y l', (x, l) ∈ T -> (y, l') ∈ T -> x <> y -> ~ l `prefix_of` l'.
Proof.
  pose proof (cr_place _ _ _ _ _ _ _ Hcr) as Hp. assert (output = None \/ exists to, output = Some to) as [Eo|[to Eo]] by (clear; destruct output; eauto).
  - rewrite Eo in Hp. rewrite <-Eo in Hp. split.
    + intros x l Hin. destruct (Hp x l Hin) as [[e He] _]. by eapply ent_parent.
    + intros x l y l' H1 H2 Hne. by apply (proj2 (Hp x l H1) y l').
  - rewrite Eo in Hp. rewrite <-Eo in Hp. assert ((exists x l, T = [(x, l)]) \/ forall e, T <> [e]) as [(x & l & ET)|Hm].
    { clear. destruct T as [|[x l] [|b r]]; [by right|left; eauto|by right]. }
    + rewrite ET in *. assert (l = to) as ->.
      { revert ET. unfold targets. rewrite Eo. clear. destruct (omap _ _) as [|[x' l'] [|]]; try done. by intros [= -> ->]. }
      destruct Hp as (t & m & Ht & _). split.
      * intros x' l' Hin. apply elem_of_list_singleton in Hin as [= -> ->]. by eapply ent_parent.
      * intros x' l' y l'' H1 H2 Hne. apply elem_of_list_singleton in H1 as [= -> ->]. apply elem_of_list_singleton in H2 as [= -> ->]. done.
    + assert (T = map (fun e => (e.1, to ++ [e.1])) (named_paths sn)) as ET.
      { clear -Eo Hm. revert Hm. unfold targets. fold (named_paths sn). rewrite Eo. destruct (named_paths sn) as [|[x l] [|b r]]; [done| |done].
        intros Hmany. by destruct (Hmany (x, to)). }
      assert (dir_at w.2 to) as Hdir by (destruct T as [|e1 [|e2 r]]; [apply Hp|by destruct (Hm e1)|apply Hp]).
      assert (forall x l, (x, l) ∈ T -> l = to ++ [x]) as HT.
      { intros x l Hin. rewrite ET in Hin. change (map ?f ?l) with (f <$> l) in Hin. by apply elem_of_list_fmap in Hin as ([x' l'] & [= -> ->] & Hin). }
      split.
      * intros x l Hin. rewrite (HT x l Hin). rewrite removelast_last. split; [by destruct to|done].
      * intros x l y l' H1 H2 Hne. rewrite (HT x l H1), (HT y l' H2). intros Hpre. apply prefix_app_inv in Hpre. destruct Hpre as [r Er]. by injection Er.
Qed.

Definition comes_out_all (w' : fsworld) : Prop :=
  (forall x l q, (x, l) ∈ T -> comes_out args (fun q => ent w.2 (l ++ q)) (fun q => ent es (x :: q)) q (ent w'.2 (l ++ q))) /\
  frame (map snd T) w.2 w'.2.

Theorem restore_ok load_fuel fo2 : load_forest H k bmap load_fuel (sn_tree sn) = Some (Ok fo2) -> Forall U (made_there H cuts fo2 sn output w.2) ->
  exists fuel w', restore H cuts resolves clock fresh k bmap load_fuel fuel args output sn w = Some (Ok w') /\ comes_out_all w'.
Proof.
  intros Efo HUs. assert (loaded fo2 load_fuel (sn_tree sn)) as Hl2.
  { pose proof Efo as E. unfold load_forest in E. destruct (forest_from_root _ _ _ _) as [[[c f]| |]|] eqn:Ef; try done. injection E as ->.
    eapply forest_from_root_loaded; [|exact Ef]. apply (read_tree_mono H U HU k Hst ix bmap Eix Ebm). }
  assert (forall id t, fo2 !! id = Some t -> stored_as H (repo_store k) id t) as Hfo by apply (load_forest_ok H U HU k Hst ix bmap Eix Ebm _ _ _ Efo).
  destruct (load_forest_ok H U HU k Hst ix bmap Eix Ebm _ _ _ Efo) as (_ & _ & _ & Hreach).
  pose proof (stored_made fo2 Hfo) as Hm2. pose proof (forest_of_tree H U HU Hlen k ix bmap Hk Eix Ebm fo2 Hfo) as Hs2.
  assert (forall i p, read_chunk k bmap i = Ok p <-> repo_store k !! i = Some (Chunk, p)) as Hrc by (intros i p; apply (read_chunk_spec H U HU k Hst ix bmap Eix Ebm)).
  assert (forall q, saves (read_chunk k bmap) (node_at fo2 (sn_tree sn) q) (ent es q)) as Hagree.
  { intros q. pose proof (forest_agrees H U HU Hlen k ix bmap Hk Eix Ebm fo2 _ _ _ Hfo Hl2 Hr q) as Ha. unfold ent. destruct (node_at fo2 (sn_tree sn) q) as [nd|], (fs_at es q) as [n|]; try done.
    cbn in Ha |- *. destruct Ha as [m cs ps HF|m tg|m id u es' Hs' HF]; [|done|done]. split; [done|]. cbn. exists ps. split; [|done]. eapply Forall2_impl; [exact HF|]. intros c p Hc. by apply Hrc. }
  assert (forall i p, read_chunk k bmap i = Ok p -> exists b, U b /\ b_id b = i /\ b_bytes b = p) as Hread.
  { intros i p Hi. apply Hrc in Hi. apply (repo_store_lookup H U HU) in Hi; [|apply Hst]. exists (mkBlob Chunk i p). split; [|done].
    pose proof (live_blobs_U H U HU k (st_packs _ _ _ Hst)) as HF. rewrite Forall_forall in HF. by apply HF. }
  assert (forest_sane fo2) as Hsane2 by (intros i t Hi; apply (Hm2 _ _ Hi)).
  destruct (load_fs_tree_ok H cuts U (read_chunk k bmap) fo2 sn HU Hlen Hcuts Hread Hsane2 resolves args output es w.2 Hcr Hagree HUs) as (id1 & fo1 & pm & t1 & E1 & Ht1 & [d1 Hl1] & Hm1 & Hpm & Hn1 & Hsh).
  assert (exists t2, fo2 !! sn_tree sn = Some t2) as [t2 Ht2].
  { clear -Hl2. destruct load_fuel; [done|]. destruct Hl2 as (t & ? & _). by exists t. }
  set (L := fun x : bytes => default [] ((list_to_map T : gmap bytes loc) !! x)).
  assert (forall x l, (x, l) ∈ T -> L x = l) as HL.
  { intros x l Hin. unfold L. by rewrite (proj1 (elem_of_list_to_map _ _ _ (cr_distinct _ _ _ _ _ _ _ Hcr)) Hin). }
  set (names := os_of_list (map fst t1 ++ map fst t2)).
  assert (forall x, x ∈ names -> exists l, (x, l) ∈ T) as Hnames.
  { intros x Hx. assert (x ∈ map fst T) as Hx'.
    { unfold names in Hx. apply (proj1 (elem_of_names _ _)) in Hx. apply elem_of_app in Hx as [Hx|Hx]; [by apply Hn1|].
      change (map ?f ?l) with (f <$> l) in Hx. apply elem_of_list_fmap in Hx as ([y nd] & -> & Hy). apply om_get_elem in Hy; [|apply (Hs2 _ _ Ht2)].
      pose proof (Hagree [y]) as Hy'. cbn [node_at] in Hy'. rewrite Ht2 in Hy'. cbn [mbind option_bind] in Hy'. rewrite Hy in Hy'. cbn [mbind option_bind node_sub] in Hy'.
      unfold ent in Hy'. cbn [fs_at] in Hy'. destruct (om_get y es) as [n|] eqn:Ey; [|done]. by apply (cr_tops _ _ _ _ _ _ _ Hcr y n). }
    change (map ?f ?l) with (f <$> l) in Hx'. apply elem_of_list_fmap in Hx' as ([y l] & -> & Hy). by exists l. }
  destruct targets_place as [Hplace Hapart].
  assert (map_Forall (fun _ (t : tree) => om_sorted t /\ Forall (fun e : bytes * node => node_fit args e.2) t) fo2) as Hfit2.
  { intros i t Hi. destruct (Hs2 _ _ Hi) as [Ho Hf]. split; [done|]. rewrite Forall_forall in Hf |- *. intros [x nd] Hin. split; [by apply (Hf (x, nd))|].
    destruct (reach_node fo2 (sn_tree sn) i t x nd) as [q Eq]; [intros j u Hj; apply (Hs2 _ _ Hj)|by eapply Hreach|done|done|].
    pose proof (Hagree (q ++ [x])) as Ha. rewrite Eq in Ha. destruct (ent es (q ++ [x])) as [[tt m]|] eqn:Ee; [|done]. destruct Ha as [Em _]. cbn in Em |- *. rewrite Em. split.
    - intros Hp Hks. by eapply (cr_saved_unix _ _ _ _ _ _ _ Hcr).
    - intros Hti. assert (forall o, (forall s, o = Some s -> meta_mtime m = Some s \/ meta_atime m = Some s) -> time_taken o = true) as Htk.
      { intros [s|] Hos; [|done]. apply time_taken_spec. eapply (cr_times _ _ _ _ _ _ _ Hcr); [done|done|by apply Hos]. }
      split; apply Htk; intros s ->; auto. }
  assert (same_ids fo1 fo2) as Hsame.
  { intros i u1 u2 H1 H2. destruct (Hm1 _ _ H1) as (-> & S1 & U1). destruct (Hm2 _ _ H2) as (Ei & S2 & U2).
    apply (tree_in_inj H cuts U (read_chunk k bmap) fo2 HU Hcuts Hread); [apply S1|apply S2|done|done|done]. }
  set (fuel := load_fuel + d1). exists fuel.
  destruct (compare_trees_ok clock fresh args pm (read_chunk k bmap) fo1 fo2 Hfit2) with (k := fuel) (fuel := fuel) (d1 := id1) (d2 := sn_tree sn) (p := @nil bytes) (L := L) (saved := ent es) (w := w) (t1 := t1) (t2 := t2)
    as (w' & Ew & Hsw & Hfr & Hco).
  - intros i t Hi. destruct (Hm1 _ _ Hi) as (_ & S1 & _). split; [apply S1|apply S1].
  - done.
  - done.
  - done.
  - done.
  - eapply loaded_mono; [exact Hl1|unfold fuel; lia].
  - eapply loaded_mono; [exact Hl2|unfold fuel; lia].
  - done.
  - apply (cr_sorted _ _ _ _ _ _ _ Hcr).
  - intros x q Hx. destruct (Hnames x Hx) as [l Hin]. cbn [app translate]. by rewrite (Hpm x l Hin), (HL x l Hin).
  - intros x Hx. destruct (Hnames x Hx) as [l Hin]. rewrite (HL x l Hin). by apply (Hplace x).
  - intros x y Hx Hy Hne. destruct (Hnames x Hx) as [l Hin]. destruct (Hnames y Hy) as [l' Hin']. rewrite (HL x l Hin), (HL y l' Hin'). by eapply Hapart.
  - intros x q Hx. destruct (Hnames x Hx) as [l Hin]. rewrite (HL x l Hin). by apply Hsh.
  - intros x q Hx. apply Hagree.
  - intros x q m Hx. destruct (Hnames x Hx) as [l Hin]. rewrite (HL x l Hin). by apply (cr_special _ _ _ _ _ _ _ Hcr).
  - fold names in Hfr, Hco. exists w'. split; [unfold restore; by rewrite Efo, E1|]. split.
    + intros x l q Hin. destruct (decide (x ∈ names)) as [Hx|Hx]; [rewrite <-(HL x l Hin); by apply Hco|].
      assert (node_at fo1 id1 (x :: q) = None) as N1.
      { cbn [node_at]. rewrite Ht1. cbn [mbind option_bind]. destruct (om_get x t1) as [nd|] eqn:Ex; [|done]. destruct Hx. unfold names. apply (proj2 (elem_of_names _ _)), elem_of_app. left.
        apply om_get_in in Ex. change (map ?f ?l) with (f <$> l). apply elem_of_list_fmap. by exists (x, nd). }
      assert (node_at fo2 (sn_tree sn) (x :: q) = None) as N2.
      { cbn [node_at]. rewrite Ht2. cbn [mbind option_bind]. destruct (om_get x t2) as [nd|] eqn:Ex; [|done]. destruct Hx. unfold names. apply (proj2 (elem_of_names _ _)), elem_of_app. right.
        apply om_get_in in Ex. change (map ?f ?l) with (f <$> l). apply elem_of_list_fmap. by exists (x, nd). }
      assert (ent w'.2 (l ++ q) = ent w.2 (l ++ q)) as ->.
      { apply Hfr.
        - intros L0 HL0 Hpre. change (map ?f ?l) with (f <$> l) in HL0. apply elem_of_list_fmap in HL0 as (y & -> & Hy). destruct (Hnames y Hy) as [l' Hin']. rewrite (HL y l' Hin') in Hpre.
          assert (x <> y) as Hne by (intros ->; done). destruct (prefix_weak_total l' l (l ++ q)) as [Hp|Hp]; [done|by apply prefix_app_r|by eapply (Hapart y l' x l)|by eapply (Hapart x l y l')].
        - intros L0 HL0 Heq. change (map ?f ?l) with (f <$> l) in HL0. apply elem_of_list_fmap in HL0 as (y & -> & Hy). destruct (Hnames y Hy) as [l' Hin']. rewrite (HL y l' Hin') in Heq.
          assert (x <> y) as Hne by (intros ->; done). eapply (Hapart x l y l'); [done|done|done|]. destruct (removelast_prefix l') as [Hp _]; [by apply (Hplace y)|].
          etrans; [|exact Hp]. rewrite <-Heq. by apply prefix_app_r. }
      apply (comes_out_untouched args (fun q => ent w.2 (l ++ q)) (fun q => ent es (x :: q))). pose proof (Hagree (x :: q)) as Ha. rewrite N2 in Ha. destruct (ent es (x :: q)) as [s|]; [done|].
      intros Hd. pose proof (Hsh x l q Hin) as Hs. rewrite N1 in Hs. destruct (ent w.2 (l ++ q)) as [[tt m]|] eqn:Ee; [|done]. cbn in Hs. subst tt.
      destruct (cr_special _ _ _ _ _ _ _ Hcr x l q m Hin Ee) as [? _]. congruence.
    + eapply frame_mono; [|exact Hfr]. intros L0 HL0. change (map ?f ?l) with (f <$> l) in HL0 |- *. apply elem_of_list_fmap in HL0 as (y & -> & Hy). destruct (Hnames y Hy) as [l' Hin'].
      rewrite (HL y l' Hin'). apply elem_of_list_fmap. by exists (y, l').
Qed.
End repo.
