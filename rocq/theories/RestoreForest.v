(** The forest made of the files there are. *)

From Verif Require Import Base OMap Formats FormatsFacts Hashing Meta Forest ForestFacts FsTree FsSpec FsFacts BackupFacts Pack Pipeline Repo RepoSpec RepoFacts
  Browse BrowseSpec BrowseFacts Restore RestoreSpec RestoreFacts RestoreSteps.

(** [fo'] is [fo] and the trees of a plan. *)
Definition grows (H : bytes -> oid) (fo : forest) (its : list item) (fo' : forest) : Prop :=
  (forall i t, fo' !! i = Some t -> fo !! i = Some t \/ (ITree t ∈ its /\ i = tree_id H t)) /\
  (forall i, is_Some (fo !! i) -> is_Some (fo' !! i)) /\
  (forall t, ITree t ∈ its -> is_Some (fo' !! tree_id H t)).

Section walk.
Local Set Default Proof Using "All".
Variables (H : bytes -> oid) (cuts : bytes -> list bytes) (pf : forest).
Hypothesis Hlen : forall x, length (H x) = 28.
Hypothesis Hpf : forest_sane pf.

Notation plan := (plan H cuts (fun _ => true) pf).
Notation fwalk := (walk_entry pf (fun _ => true) ([], ∅) (forest_visit H cuts) (forest_finalize H)).

Lemma grows_nil fo : grows H fo [] fo.
Proof. split; [by left|]. split; [done|]. intros t Ht. by apply elem_of_nil in Ht. Qed.
Lemma grows_app fo is1 fo1 is2 fo2 : grows H fo is1 fo1 -> grows H fo1 is2 fo2 -> grows H fo (is1 ++ is2) fo2.
Proof.
  intros (A1 & B1 & C1) (A2 & B2 & C2). split; [|split].
  - intros i t Ht. destruct (A2 i t Ht) as [Ht'|[Hin ->]]; [|right; split; [apply elem_of_app; by right|done]].
    destruct (A1 i t Ht') as [?|[Hin ->]]; [by left|right]. split; [apply elem_of_app; by left|done].
  - auto.
  - intros t [Ht|Ht]%elem_of_app; auto.
Qed.
Lemma grows_chunks fo l : grows H fo (map IChunk l) fo.
Proof.
  assert (forall t, ITree t ∉ map IChunk l) as Hn. { intros t Ht. change (map IChunk l) with (IChunk <$> l) in Ht. by apply elem_of_list_fmap in Ht as (? & ? & _). }
  split; [by left|]. split; [done|]. intros t Ht. by apply Hn in Ht.
Qed.
Lemma grows_union fo its sub : grows H ∅ its sub -> grows H fo its (sub ∪ fo).
Proof.
  intros (A & B & C). split; [|split].
  - intros i t [Ht|[_ Ht]]%lookup_union_Some_raw; [|by left]. destruct (A i t Ht) as [Hx|?]; [by rewrite lookup_empty in Hx|by right].
  - intros i [t Ht]. destruct (sub !! i) as [u|] eqn:Eu; [exists u; by apply lookup_union_Some_l|]. exists t. rewrite lookup_union_r; done.
  - intros t Ht. destruct (C t Ht) as [u Hu]. exists u. by apply lookup_union_Some_l.
Qed.
Lemma grows_root fo t : grows H fo [ITree t] (<[tree_id H t := t]> fo).
Proof.
  split; [|split].
  - intros i u [[<- <-]|[_ Ht]]%lookup_insert_Some; [right|by left]. split; [by left|done].
  - intros i Hi. apply lookup_insert_is_Some'. by right.
  - intros u Hu. apply elem_of_list_singleton in Hu as [= <-]. rewrite lookup_insert. by eexists.
Qed.

Lemma forest_loop {A} (key : A -> bytes) (step : A -> unit * (tree * forest) -> result (unit * (tree * forest)))
    (f : A -> option (node * list item)) (l : list A) t fo :
  (forall a t fo, a ∈ l -> om_get (key a) t = None ->
     match f a with
     | Some (nd, its) => exists fo', step a (tt, (t, fo)) = Ok (tt, (om_insert (key a) nd t, fo')) /\ grows H fo its fo'
     | None => step a (tt, (t, fo)) = Ok (tt, (t, fo))
     end) ->
  NoDup (map key l) -> om_sorted t -> (forall a, a ∈ l -> om_get (key a) t = None) ->
  exists fo', rfold step l (tt, (t, fo))
    = Ok (tt, (foldl (fun m kv => om_insert kv.1 kv.2 m) t (map (fun x => (x.1, x.2.1)) (collect key f l)), fo')) /\
    grows H fo (concat (map (fun x => x.2.2) (collect key f l))) fo'.
Proof.
  revert t fo. induction l as [|a l IH]; intros t fo Hstep Hnd Hs Ht; [exists fo; split; [done|apply grows_nil]|].
  cbn [map] in Hnd. apply NoDup_cons in Hnd as [Hk Hnd].
  assert (forall a', a' ∈ l -> key a' <> key a) as Hne.
  { intros a' Ha' Heq. apply Hk. rewrite <-Heq. change (map key l) with (key <$> l). apply elem_of_list_fmap. eauto. }
  pose proof (Hstep a t fo (elem_of_list_here _ _) (Ht a (elem_of_list_here _ _))) as Ha. cbn [rfold collect].
  destruct (f a) as [[nd its]|] eqn:E.
  - destruct Ha as (fo1 & -> & G1). cbn [rbind]. destruct (IH (om_insert (key a) nd t) fo1) as (fo2 & E2 & G2).
    + intros. apply Hstep; [by right|done].
    + done.
    + by apply om_insert_sorted.
    + intros a' Ha'. rewrite om_get_insert_ne; [apply Ht; by right|done|]. intros Heq. by apply (Hne a').
    + exists fo2. rewrite E2. split; [done|]. cbn [map concat fst snd]. by eapply grows_app.
  - rewrite Ha. cbn [rbind]. apply IH; [|done|done|].
    + intros. apply Hstep; [by right|done].
    + intros a' Ha'. apply Ht. by right.
Qed.

Lemma forest_walk_plan n path name prev t fo :
  fs_ok cuts false n -> prev_sane prev -> om_get name t = None ->
  match plan path prev n with
  | Some (nd, its) => exists fo', fwalk path name prev n (tt, (t, fo)) = Ok (tt, (om_insert name nd t, fo')) /\ grows H fo its fo'
  | None => fwalk path name prev n (tt, (t, fo)) = Ok (tt, (t, fo))
  end.
Proof.
  revert path name prev t fo.
  induction n as [m c|m es IH|m tg|m] using fsnode_ind'; intros path name prev t fo Hok Hprev Hnew; cbn [walk_entry FsSpec.plan negb].
  - rewrite file_changed_spec by (intros p ->; by apply Hprev). cbn [rbind].
    assert (exists fo', forest_visit H cuts (tt, (t, fo)) path name m prev (DChanged c) = Ok (tt, (om_insert name (mkNode (CFile (map H (cuts c))) m) t, fo')) /\
      grows H fo (map IChunk (cuts c)) fo') as Hchg.
    { exists fo. cbn [forest_visit rbind]. rewrite tree_insert_new by done. rewrite map_b_id_chunks. split; [done|apply grows_chunks]. }
    destruct prev as [p|]; [|exact Hchg]. destruct (looks_unchanged (Some p) m); [|exact Hchg].
    exists fo. cbn [negb forest_visit rbind]. rewrite tree_insert_new by done. split; [done|apply grows_nil].
  - apply fs_ok_dir in Hok as (Hk & Hm & Hl & Hnd & Hall).
    destruct (forest_loop fst (fun (e : bytes * fsnode) st' => fwalk (join path e.1) e.1 (ptree_of pf prev ≫= om_get e.1) e.2 st')
      (fun e => plan (join path e.1) (ptree_of pf prev ≫= om_get e.1) e.2) es [] ∅) as (fo1 & E & G); [|done|done|done|].
    + intros e t' fo' He Hnew'. rewrite Forall_forall in IH, Hall. destruct (Hall _ He) as [_ Hok].
      apply IH; [done|done| |done]. by apply ptree_sane.
    + unfold ptree_of in *. cbv zeta. cbn [fst snd]. rewrite E. cbn [rbind forest_finalize forest_visit]. eexists. rewrite tree_insert_new by done. split; [done|].
      apply grows_union. unfold plan_items, plan_tree, om_of_list. eapply grows_app; [exact G|]. apply grows_root.
  - exists fo. cbn [forest_visit rbind]. rewrite tree_insert_new by done. split; [done|apply grows_nil].
  - done.
Qed.

Theorem forest_from_fs_plan ptree paths : paths_ok cuts false paths ->
  exists fo, forest_from_fs H cuts pf ptree paths = Ok (plan_root H cuts (fun _ => true) pf ptree paths, fo) /\
    grows H ∅ (plan_all H cuts (fun _ => true) pf ptree paths) fo.
Proof.
  intros (Hl & Hnd & Hall). unfold forest_from_fs, walk_fs.
  destruct (forest_loop (fun e : fspath => e.1.2) (fun (e : fspath) st => fwalk e.1.1 e.1.2 ((ptree ≫= (fun id => pf !! id)) ≫= om_get e.1.2) e.2 st)
    (fun e : fspath => plan e.1.1 ((ptree ≫= (fun id => pf !! id)) ≫= om_get e.1.2) e.2) paths [] ∅) as (fo & E & G); [|done|done|done|].
  - intros e t fo He Hnew. rewrite Forall_forall in Hall. destruct (Hall _ He) as [_ Hok]. apply forest_walk_plan; [done| |done]. by apply ptree_sane.
  - rewrite E. cbn [rbind forest_finalize]. eexists. split; [done|]. unfold plan_all, plan_items. eapply grows_app; [exact G|]. apply grows_root.
Qed.

(** The nodes and trees of a plan can be encoded. *)
Lemma plan_list_sane {A} (key : A -> bytes) (f : A -> option (node * list item)) (l : list A) :
  len_wf l -> Forall (fun a => text_wf (key a)) l ->
  Forall (fun a => forall nd its, f a = Some (nd, its) -> node_wf nd /\ kind_ok nd /\ Forall item_sane its) l ->
  Forall item_sane (plan_items (collect key f l)).
Proof.
  intros Hl Htx Hall. rewrite Forall_forall in Htx, Hall.
  assert (Forall (fun kv : bytes * node => text_wf kv.1 /\ node_wf kv.2 /\ kind_ok kv.2) (plan_tree (collect key f l))) as HT.
  { apply Forall_forall. intros kv Hin%om_of_list_subset. change (map ?g ?l) with (g <$> l) in Hin.
    apply elem_of_list_fmap in Hin as ([x [nd its]] & -> & Hin). cbn [fst snd]. apply collect_elem in Hin as (a & Ha & <- & Hf).
    destruct (Hall a Ha nd its Hf) as (H1 & H2 & _). auto. }
  unfold plan_items. apply Forall_app. split.
  - apply Forall_forall. intros i Hi. apply elem_of_concat in Hi as (its & Hi & Hin). change (map ?g ?l) with (g <$> l) in Hin.
    apply elem_of_list_fmap in Hin as ([x [nd its']] & -> & Hin). apply collect_elem in Hin as (a & Ha & <- & Hf).
    destruct (Hall a Ha nd its' Hf) as (_ & _ & H3). rewrite Forall_forall in H3. by apply H3.
  - constructor; [|constructor]. split.
    + split; [|split].
      * unfold len_wf, plan_tree in *. pose proof (om_of_list_length (map (fun x => (x.1, x.2.1)) (collect key f l))) as H1.
        rewrite map_length in H1. pose proof (collect_length key f l). lia.
      * eapply Forall_impl; [exact HT|]. naive_solver.
      * apply om_of_list_is_sorted.
    + eapply Forall_impl; [exact HT|]. intros kv (_ & _ & Hk). exact Hk.
Qed.

Lemma plan_sane n path prev nd its : fs_ok cuts false n -> prev_sane prev -> plan path prev n = Some (nd, its) ->
  node_wf nd /\ kind_ok nd /\ Forall item_sane its.
Proof.
  revert path prev nd its. induction n as [m c|m es IH|m tg|m] using fsnode_ind'; intros path prev nd its Hok Hprev E; cbn [FsSpec.plan negb] in E.
  - destruct Hok as (Hk & Hm & Hsz & Hl).
    assert (node_wf (mkNode (CFile (map H (cuts c))) m) /\ kind_ok (mkNode (CFile (map H (cuts c))) m) /\ Forall item_sane (map IChunk (cuts c))) as Hchg.
    { split; [split; [|done]|split; [done|]].
      - cbn. split; [unfold len_wf in *; by rewrite map_length|].
        apply Forall_forall. intros i Hi. change (map H (cuts c)) with (H <$> cuts c) in Hi. apply elem_of_list_fmap in Hi as (x & -> & _). apply Hlen.
      - clear. induction (cuts c); constructor; done. }
    destruct prev as [p|]; [|by injection E as <- <-].
    destruct (looks_unchanged (Some p) m) eqn:Hun; [|by injection E as <- <-]. injection E as <- <-.
    cbn in Hun. apply andb_true_iff in Hun as [Hun _]. apply andb_true_iff in Hun as [Hun _]. apply bool_decide_eq_true in Hun.
    destruct (Hprev p eq_refl) as [_ [Hwf _]]. split; [by split|]. split; [|constructor]. unfold kind_ok. cbn. by rewrite Hun.
  - injection E as <- <-. apply fs_ok_dir in Hok as (Hk & Hm & Hl & Hnd & Hall). rewrite Forall_forall in IH, Hall.
    split; [split; [apply Hlen|done]|]. split; [done|]. apply plan_list_sane; [done| |].
    + apply Forall_forall. intros e He. by destruct (Hall e He).
    + apply Forall_forall. intros e He nd' its' Hf. eapply (IH e He); [by apply Hall| |exact Hf]. by apply ptree_sane.
  - injection E as <- <-. destruct Hok as (_ & Hk & Hm & Ht). split; [by split|]. split; [done|]. constructor.
  - done.
Qed.

Lemma plan_all_sane ptree paths : paths_ok cuts false paths -> Forall item_sane (plan_all H cuts (fun _ => true) pf ptree paths).
Proof.
  intros (Hl & Hnd & Hall). rewrite Forall_forall in Hall. apply plan_list_sane; [done| |].
  - apply Forall_forall. intros e He. by apply Hall.
  - apply Forall_forall. intros e He nd its Hf. eapply plan_sane; [by apply (Hall e He)| |exact Hf]. by apply ptree_sane.
Qed.
End walk.

(** ** What the forest says *)

Definition item_in (H : bytes -> oid) (U : blob -> Prop) (i : item) : Prop :=
  match i with IChunk b => U (chunk_blob H b) | ITree t => U (tree_blob H t) end.

Lemma items_in (H : bytes -> oid) (U : blob -> Prop) its : universe H U -> Forall U (concat (map (item_blobs H) its)) -> Forall (item_in H U) its.
Proof.
  intros HU Hall. apply Forall_forall. intros i Hi. rewrite Forall_forall in Hall.
  assert (forall b, b ∈ item_blobs H i -> U b) as Hb.
  { intros b Hb. apply Hall, elem_of_concat. exists (item_blobs H i). split; [done|]. change (map ?f ?l) with (f <$> l). apply elem_of_list_fmap. by exists i. }
  destruct i as [b|[|e t]]; cbn in *; [apply Hb; by left|apply HU|apply Hb; by left].
Qed.

(** Unchanged-looking files have the contents recorded before. *)
Definition honest_since (read : oid -> result bytes) (pf : forest) (prev : option node) (n : fsnode) : Prop :=
  forall q p m c, (prev ≫= (fun nd => node_sub pf nd q)) = Some p -> fs_sub n q = Some (FsFile m c) -> looks_unchanged (Some p) m = true ->
  forall cs ps, n_contents p = CFile cs -> Forall2 (fun c p => read c = Ok p) cs ps -> concat ps = c.

Definition entry_of (n : fsnode) : thing_meta := (thing_of n, fs_meta n).

Lemma in_shape_dir m es : in_shape (FsDir m es) <-> om_sorted es /\ Forall (fun e : bytes * fsnode => in_shape e.2) es.
Proof.
  cbn [in_shape]. apply and_iff_compat_l. induction es as [|e es IH]; cbn; [split; constructor|]. rewrite IH, Forall_cons. done.
Qed.

Lemma NoDup_map_inj {A B} (f : A -> B) (l : list A) a b : NoDup (map f l) -> a ∈ l -> b ∈ l -> f a = f b -> a = b.
Proof.
  intros Hnd [i Hi]%elem_of_list_lookup [j Hj]%elem_of_list_lookup E. assert (i = j) as ->; [|congruence]. rewrite NoDup_alt in Hnd.
  change (map f l) with (f <$> l) in Hnd. apply (Hnd i j (f a)); rewrite list_lookup_fmap; [by rewrite Hi|by rewrite Hj, E].
Qed.

Section there.
Local Set Default Proof Using "All".
Variables (H : bytes -> oid) (cuts : bytes -> list bytes) (U : blob -> Prop) (read : oid -> result bytes) (pf : forest).
Hypothesis HU : universe H U.
Hypothesis Hcuts : forall x, concat (cuts x) = x.
Hypothesis Hread : forall i p, read i = Ok p -> exists b, U b /\ b_id b = i /\ b_bytes b = p.

Notation plan := (plan H cuts (fun _ => true) pf).

Lemma tree_in_inj t1 t2 : tree_wf t1 -> tree_wf t2 -> U (tree_blob H t1) -> U (tree_blob H t2) -> tree_id H t1 = tree_id H t2 -> t1 = t2.
Proof.
  intros W1 W2 U1 U2 E. pose proof (un_inj H U HU _ _ U1 U2 E) as Eb. apply enc_tree_inj; [done|done|]. by injection Eb.
Qed.

Lemma grows_has_trees its fo : Forall item_sane its -> Forall (item_in H U) its -> grows H ∅ its fo ->
  has_trees H fo its /\ forall i t, fo !! i = Some t -> i = tree_id H t /\ tree_sane t /\ U (tree_blob H t).
Proof.
  intros Hs Hi (A & _ & C). rewrite Forall_forall in Hs, Hi. assert (forall i t, fo !! i = Some t -> ITree t ∈ its /\ i = tree_id H t) as A'.
  { intros i t E. destruct (A i t E) as [Hx|?]; [by rewrite lookup_empty in Hx|done]. }
  split.
  - intros t Ht. destruct (C t Ht) as [u Hu]. rewrite Hu. f_equal. destruct (A' _ _ Hu) as [Hin E].
    apply tree_in_inj; [apply (Hs _ Hin)|apply (Hs _ Ht)|apply (Hi _ Hin)|apply (Hi _ Ht)|done].
  - intros i t E. destruct (A' i t E) as [Hin ->]. split; [done|]. split; [apply (Hs _ Hin)|apply (Hi _ Hin)].
Qed.

Lemma chunks_read c ps : Forall (item_in H U) (map IChunk (cuts c)) -> Forall2 (fun c p => read c = Ok p) (map H (cuts c)) ps -> concat ps = c.
Proof.
  intros Hin HF. rewrite <- (Hcuts c) at 1. f_equal. revert ps HF. induction (cuts c) as [|x l IH]; intros ps HF.
  - by apply Forall2_nil_inv_l in HF.
  - cbn [map] in *. apply Forall_cons in Hin as [Hx Hin]. apply Forall2_cons_inv_l in HF as (p & ps' & Hp & HF & ->). f_equal; [|by apply IH].
    apply Hread in Hp as (b & Ub & Ei & <-). cbn in Hx. by rewrite (un_inj H U HU _ _ Ub Hx Ei).
Qed.

Lemma plan_tree_lookup (f : bytes * fsnode -> option (node * list item)) es y : om_sorted es ->
  om_get y (plan_tree (collect fst f es)) = om_get y es ≫= (fun n => fst <$> f (y, n)).
Proof.
  intros Hs. pose proof (om_sorted_nodup _ Hs) as Hnd. apply option_eq. intros nd. unfold plan_tree. rewrite om_get_of_list.
  2: { rewrite <-list_fmap_compose. by apply (collect_nodup fst f es). }
  change (map ?g ?l) with (g <$> l). rewrite elem_of_list_fmap. split.
  - intros ([x [nd' its]] & E & Hin). injection E as -> ->. apply collect_elem in Hin as ([x' n] & Hin & Ex & Hf). cbn in Ex. subst x'.
    apply om_get_elem in Hin; [|done]. rewrite Hin. cbn. by rewrite Hf.
  - intros (n & Hin & E)%bind_Some. apply fmap_Some in E as ([nd' its] & Hf & ->). exists (y, (nd', its)). split; [done|].
    apply collect_elem. exists (y, n). split; [by apply om_get_elem|done].
Qed.

Lemma honest_below prev m es y n : honest_since read pf prev (FsDir m es) -> om_get y es = Some n ->
  honest_since read pf (ptree_of pf prev ≫= om_get y) n.
Proof.
  intros Hh Ey q p m' c Ep En Hl cs ps Ec HF. refine (Hh (y :: q) p m' c _ _ Hl cs ps Ec HF); [|cbn [fs_sub]; by rewrite Ey].
  destruct prev as [nd|]; [|done]. cbn [mbind option_bind node_sub]. unfold ptree_of, previous_subtree in Ep. by destruct (n_contents nd).
Qed.

Lemma plan_shows fo n path prev : fs_ok cuts false n -> in_shape n ->
  (forall q n', fs_sub n q = Some n' -> is_Some (modes (fs_meta n'))) -> honest_since read pf prev n ->
  match plan path prev n with
  | Some (nd, its) => Forall (item_in H U) its -> has_trees H fo its -> forall q, shows read (node_sub fo nd q) (entry_of <$> fs_sub n q)
  | None => forall q, shows read None (entry_of <$> fs_sub n q)
  end.
Proof.
  revert path prev. induction n as [m c|m es IH|m tg|m] using fsnode_ind'; intros path prev Hok Hsh Hpo Hh; cbn [FsSpec.plan negb].
  - pose proof (Hpo [] _ eq_refl) as Hm. cbn in Hm.
    assert (Forall (item_in H U) (map IChunk (cuts c)) -> forall q, shows read (node_sub fo (mkNode (CFile (map H (cuts c))) m) q) (entry_of <$> fs_sub (FsFile m c) q)) as Hchg.
    { intros Hin [|x q]; [|done]. cbn. split; [done|]. split; [done|]. intros ps HF. by apply chunks_read. }
    destruct prev as [p|]; [|auto]. destruct (looks_unchanged (Some p) m) eqn:Hun; [|auto]. intros _ _.
    pose proof Hun as Hun'. cbn in Hun'. apply andb_true_iff in Hun' as [Hun' _]. apply andb_true_iff in Hun' as [Hun' _]. apply bool_decide_eq_true in Hun'.
    destruct (n_contents p) as [cs| |] eqn:Ec; [|done|done].
    intros [|x q]; [|done]. cbn. split; [done|]. split; [done|]. intros ps HF. by apply (Hh [] p m c eq_refl eq_refl Hun cs ps).
  - apply in_shape_dir in Hsh as [Hs Hsh]. apply fs_ok_dir in Hok as (_ & _ & _ & Hnd & Hall). rewrite Forall_forall in IH, Hall, Hsh.
    set (f := fun e : bytes * fsnode => plan (join path e.1) (ptree_of pf prev ≫= om_get e.1) e.2) in *.
    intros Hin Htr [|y q]; [cbn; split; [done|]; split; [apply (Hpo [] _ eq_refl)|done]|].
    cbn [node_sub n_contents fs_sub]. rewrite has_trees_root by exact Htr. cbn [mbind option_bind]. rewrite plan_tree_lookup by done.
    destruct (om_get y es) as [n'|] eqn:Ey; [|done]. cbn [mbind option_bind]. pose proof Ey as Hel. apply om_get_elem in Hel; [|done].
    specialize (IH (y, n') Hel (join path y) (ptree_of pf prev ≫= om_get y)). cbn [snd] in IH. destruct (Hall _ Hel) as [_ Hok'].
    assert (forall q n'', fs_sub n' q = Some n'' -> is_Some (modes (fs_meta n''))) as Hpo'.
    { intros q' n'' E. apply (Hpo (y :: q')). cbn [fs_sub]. by rewrite Ey. }
    specialize (IH Hok' (Hsh _ Hel) Hpo' (honest_below _ _ _ _ _ Hh Ey)). change (plan (join path y) (ptree_of pf prev ≫= om_get y) n') with (f (y, n')) in IH.
    destruct (f (y, n')) as [[nd' its']|] eqn:Ef; cbn [fmap option_fmap option_map mbind option_bind fst]; [|apply IH].
    apply IH.
    + apply Forall_forall. intros i Hi. rewrite Forall_forall in Hin. apply Hin. by eapply (plan_items_sub fst f es (y, n')).
    + intros t Ht. apply Htr. by eapply (plan_items_sub fst f es (y, n')).
  - intros _ _ [|x q]; [|done]. cbn. split; [done|]. split; [apply (Hpo [] _ eq_refl)|done].
  - by intros [|x q].
Qed.

(** The forest has everything, to some depth. *)
Lemma plan_list_loaded {A} fo (key : A -> bytes) (f : A -> option (node * list item)) (l : list A) : NoDup (map key l) ->
  (forall a nd its, a ∈ l -> f a = Some (nd, its) -> exists d, forall s, s ∈ node_subtree nd -> loaded fo d s) ->
  fo !! tree_id H (plan_tree (collect key f l)) = Some (plan_tree (collect key f l)) ->
  exists d, loaded fo d (tree_id H (plan_tree (collect key f l))).
Proof.
  intros Hnd Hall Hroot. assert (exists d, forall a nd its, a ∈ l -> f a = Some (nd, its) -> forall s, s ∈ node_subtree nd -> loaded fo d s) as [d Hd].
  { clear Hroot Hnd. induction l as [|a l IH]; [exists 0; intros a nd its Ha; by apply elem_of_nil in Ha|].
    destruct IH as [d Hd]; [intros; eapply Hall; [by right|done]|].
    destruct (f a) as [[nd its]|] eqn:Ef.
    - destruct (Hall a nd its (elem_of_list_here _ _) Ef) as [d' Hd']. exists (d + d'). intros b nd' its' [->|Hb]%elem_of_cons Eb s Hs.
      + rewrite Ef in Eb. injection Eb as <- <-. eapply loaded_mono; [by apply Hd'|lia].
      + eapply loaded_mono; [by eapply Hd|lia].
    - exists d. intros b nd' its' [->|Hb]%elem_of_cons Eb; [congruence|by eapply Hd]. }
  exists (S d). eexists. split; [exact Hroot|]. intros s (x & nd & Hin & Ec)%subtrees_in. unfold plan_tree in Hin. apply om_of_list_subset in Hin.
  change (map ?g ?l) with (g <$> l) in Hin. apply elem_of_list_fmap in Hin as ([x' [nd' its]] & E & Hin). injection E as -> ->.
  apply collect_elem in Hin as (a & Ha & _ & Hf). eapply Hd; [exact Ha|exact Hf|]. unfold node_subtree. rewrite Ec. by left.
Qed.

Lemma plan_loaded fo n path prev nd its : fs_ok cuts false n -> plan path prev n = Some (nd, its) -> has_trees H fo its ->
  exists d, forall s, s ∈ node_subtree nd -> loaded fo d s.
Proof.
  revert path prev nd its. induction n as [m c|m es IH|m tg|m] using fsnode_ind'; intros path prev nd its Hok E Htr; cbn [FsSpec.plan negb] in E.
  - exists 0. assert (forall s, s ∉ node_subtree nd) as Hn; [|intros s Hs; by apply Hn in Hs].
    intros s Hs. destruct prev as [p|]; [destruct (looks_unchanged (Some p) m) eqn:Hun|]; injection E as <- <-; try (by apply elem_of_nil in Hs).
    cbn in Hun. apply andb_true_iff in Hun as [Hun _]. apply andb_true_iff in Hun as [Hun _]. apply bool_decide_eq_true in Hun.
    unfold node_subtree in Hs. cbn in Hs. destruct (n_contents p); try done; by apply elem_of_nil in Hs.
  - injection E as <- <-. apply fs_ok_dir in Hok as (_ & _ & _ & Hnd & Hall). rewrite Forall_forall in IH, Hall.
    set (f := fun e : bytes * fsnode => plan (join path e.1) (ptree_of pf prev ≫= om_get e.1) e.2) in *.
    destruct (plan_list_loaded fo fst f es Hnd) as [d Hd].
    + intros e nd its He Hf. eapply (IH e He); [by apply Hall|exact Hf|]. intros t Ht. apply Htr. by eapply (plan_items_sub fst f es e).
    + by apply has_trees_root.
    + exists d. intros s Hs. apply elem_of_list_singleton in Hs as ->. done.
  - injection E as <- <-. exists 0. intros s Hs. by apply elem_of_nil in Hs.
  - done.
Qed.

(** Every tree of a plan is below its node. *)
Lemma plan_reach fo n path prev nd its t : fs_ok cuts false n -> in_shape n -> plan path prev n = Some (nd, its) -> has_trees H fo its -> ITree t ∈ its ->
  exists q nd', node_sub fo nd q = Some nd' /\ n_contents nd' = CDir (tree_id H t).
Proof.
  revert path prev nd its. induction n as [m c|m es IH|m tg|m] using fsnode_ind'; intros path prev nd its Hok Hsh E Htr Ht; cbn [FsSpec.plan negb] in E.
  - exfalso. destruct prev as [p|]; [destruct (looks_unchanged _ _)|]; injection E as <- <-;
      try (by apply elem_of_nil in Ht); change (map ?f ?l) with (f <$> l) in Ht; by apply elem_of_list_fmap in Ht as (? & ? & _).
  - injection E as <- <-. apply in_shape_dir in Hsh as [Hs Hsh]. apply fs_ok_dir in Hok as (_ & _ & _ & Hnd & Hall). rewrite Forall_forall in IH, Hall, Hsh.
    set (f := fun e : bytes * fsnode => plan (join path e.1) (ptree_of pf prev ≫= om_get e.1) e.2) in *.
    pose proof Ht as Ht'. unfold plan_items in Ht'. apply elem_of_app in Ht' as [Ht'|Ht'].
    + apply elem_of_concat in Ht' as (its & Hi & Hin). change (map ?g ?l) with (g <$> l) in Hin. apply elem_of_list_fmap in Hin as ([x [nd' its']] & -> & Hin). cbn in Hi.
      apply collect_elem in Hin as ([x' n'] & He & Ex & Hf). cbn in Ex. subst x'.
      destruct (IH (x, n') He (join path x) (ptree_of pf prev ≫= om_get x) nd' its') as (q & nd2 & E2 & Ec2); [by apply (Hall (x, n'))|by apply (Hsh (x, n'))|exact Hf| |done|].
      { intros u Hu. apply Htr. by eapply (plan_items_sub fst f es (x, n')). }
      exists (x :: q), nd2. split; [|done]. cbn [node_sub n_contents]. rewrite has_trees_root by exact Htr. cbn [mbind option_bind]. rewrite plan_tree_lookup by done.
      apply om_get_elem in He; [|done]. rewrite He. cbn [mbind option_bind]. rewrite Hf. done.
    + apply elem_of_list_singleton in Ht' as [= ->]. exists [], (mkNode (CDir (tree_id H (plan_tree (collect fst f es)))) m). done.
  - injection E as <- <-. by apply elem_of_nil in Ht.
  - done.
Qed.
End there.

Lemma loaded_sub (fo : forest) k s q nd s' : loaded fo k s -> q <> [] -> node_at fo s q = Some nd -> n_contents nd = CDir s' -> exists k', k' < k /\ loaded fo k' s'.
Proof.
  revert k s. induction q as [|x q IH]; intros k s Hl Hq E Ec; [done|]. destruct k as [|k]; [done|]. destruct Hl as (t & Ht & Hl).
  cbn [node_at] in E. rewrite Ht in E. cbn [mbind option_bind] in E. apply bind_Some in E as (nd1 & E1 & E2). apply om_get_in in E1.
  destruct q as [|y q].
  - cbn in E2. injection E2 as ->. exists k. split; [lia|]. apply Hl. by eapply node_subtree_in.
  - cbn [node_sub] in E2. destruct (n_contents nd1) as [|d1|] eqn:E3; try done.
    destruct (IH k d1) as (k' & Hk' & Hl'); [apply Hl; by eapply node_subtree_in|done|done|done|]. exists k'. split; [lia|done].
Qed.

(** A tree is not within itself. *)
Lemma no_cycle (fo : forest) id (top : tree) x nd q nd' k : fo !! id = Some top -> (x, nd) ∈ top -> loaded fo k id ->
  node_sub fo nd q = Some nd' -> n_contents nd' = CDir id -> False.
Proof.
  intros Ht Hin Hl E Ec. revert Hl. induction k as [k IH] using lt_wf_ind. intros Hl. destruct k as [|k]; [done|].
  destruct Hl as (t & Ht' & Hl). rewrite Ht in Ht'. injection Ht' as <-. destruct q as [|y q].
  - cbn in E. injection E as ->. apply (IH k); [lia|]. apply Hl. by eapply node_subtree_in.
  - cbn [node_sub] in E. destruct (n_contents nd) as [|d|] eqn:E3; try done.
    destruct (loaded_sub fo k d (y :: q) nd' id) as (k' & Hk' & Hl'); [apply Hl; by eapply node_subtree_in|done|done|done|]. apply (IH k'); [lia|done].
Qed.
