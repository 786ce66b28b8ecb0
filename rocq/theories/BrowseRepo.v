(** Browsing a repository in order. *)

From Verif Require Import Base OMap Formats Hashing Pack Index IndexFacts Meta Forest ForestFacts FsTree FsSpec FsFacts BackupFacts
  Pipeline PipelineFacts Repo RepoSpec RepoFacts RewriteFacts PropsPipeline PublishFacts CommandFacts PruneFacts ReadFacts History HistoryFacts
  Browse BrowseSpec BrowseFacts DiffFacts.

Global Instance component_eq_dec : EqDecision component.
Proof. solve_decision. Defined.

(** ** Paths as text *)

Lemma path_text_snoc p x : p <> [] -> path_text (p ++ [x]) = path_text p ++ slash :: x.
Proof.
  induction p as [|y p IH]; [done|]. intros _. destruct p as [|z p]; [done|]. change (y ++ slash :: path_text ((z :: p) ++ [x]) = (y ++ slash :: path_text (z :: p)) ++ slash :: x).
  rewrite IH by done. by rewrite <-app_assoc.
Qed.
Lemma clean_last x : clean_name x -> last x <> Some slash.
Proof. intros [_ Hx] E. apply Hx. by apply last_Some_elem_of. Qed.
Lemma path_text_end p : Forall clean_name p -> p <> [] -> path_text p <> [] /\ last (path_text p) <> Some slash.
Proof.
  intros Hp Hne. destruct p as [|x p _] using rev_ind; [done|]. apply Forall_app in Hp as [Hp Hx]. apply Forall_cons in Hx as [Hx _].
  destruct p as [|y p]; [split; [apply Hx|by apply clean_last]|]. rewrite path_text_snoc by done. split; [by destruct (path_text (y :: p))|].
  rewrite last_app, last_cons. destruct (last x) as [c|] eqn:E; [by rewrite <-E; apply clean_last|]. apply last_None in E. by destruct Hx.
Qed.
Lemma render_text p : Forall clean_name p -> render p = path_text p.
Proof.
  induction p as [|x p IH] using rev_ind; [done|]. intros [Hp Hx]%Forall_app. unfold render in *. rewrite foldl_app. cbn [foldl]. rewrite IH by done.
  unfold join. destruct p as [|y p]; [done|]. destruct (path_text_end (y :: p)) as [H1 H2]; [done|done|].
  rewrite bool_decide_eq_false_2, bool_decide_eq_false_2 by done. by rewrite path_text_snoc.
Qed.
Lemma path_text_inj p q : Forall clean_name p -> Forall clean_name q -> path_text p = path_text q -> p = q.
Proof.
  assert (forall (a b u v : bytes), slash ∉ a -> slash ∉ b -> a ++ slash :: u = b ++ slash :: v -> a = b /\ u = v) as Hsplit.
  { clear. induction a as [|x a IH]; intros [|y b] u v Ha Hb E; cbn in E; injection E.
    - by intros ->.
    - intros _ <-. destruct Hb. by left.
    - intros _ ->. destruct Ha. by left.
    - intros E' ->. apply IH in E' as [-> ->]; [done|set_solver|set_solver]. }
  revert q. induction p as [|x p IH]; intros q Hp Hq E.
  { destruct q as [|y q]; [done|]. exfalso. destruct (path_text_end (y :: q)) as [Hne _]; [done|done|]. apply Hne. by rewrite <-E. }
  destruct q as [|y q].
  { exfalso. destruct (path_text_end (x :: p)) as [Hne _]; [done|done|]. by apply Hne. }
  apply Forall_cons in Hp as [Hx Hp]. apply Forall_cons in Hq as [Hy Hq]. cbn [path_text] in E.
  destruct p as [|x' p], q as [|y' q].
  - by subst.
  - exfalso. subst x. destruct Hx as [_ Hx]. apply Hx. apply elem_of_app. right. by left.
  - exfalso. subst y. destruct Hy as [_ Hy]. apply Hy. apply elem_of_app. right. by left.
  - apply Hsplit in E as [-> E]; [|apply Hx|apply Hy]. f_equal. by apply IH.
Qed.

Lemma Forall2_get {A B} (R : A -> B -> Prop) (t : list (bytes * A)) (es : list (bytes * B)) x :
  Forall2 (fun a b => a.1 = b.1 /\ R a.2 b.2) t es ->
  match om_get x t, om_get x es with Some a, Some b => R a b | None, None => True | _, _ => False end.
Proof.
  induction 1 as [|[y a] [y' b] t es [E Hr] HF IH]; [done|]. cbn in E, Hr. subst y'. cbn [om_get]. by destruct (bytes_cmp x y).
Qed.

Lemma split_between cur s : split_slash cur s = match between_slashes s with x :: xs => (rev cur ++ x) :: xs | [] => [] end.
Proof.
  assert (forall s, between_slashes s <> []) as Hne.
  { induction s0 as [|b s0 IH]; [done|]. cbn. destruct (between_slashes s0); [done|]. by case_bool_decide. }
  revert cur. induction s as [|b s IH]; intros cur; cbn; [by rewrite app_nil_r|]. rewrite !IH. pose proof (Hne s) as Hs.
  destruct (between_slashes s) as [|x xs]; [done|]. case_bool_decide; [by rewrite app_nil_r|]. cbn. by rewrite <-app_assoc.
Qed.
Definition as_name (c : component) : option bytes := match c with Normal x => Some x | CurDir | RootOrParent => None end.
Lemma part_names x : omap as_name (part_components x) = filter (fun x => x <> [] /\ x <> ascii_bytes "." /\ x <> ascii_bytes "..") [x].
Proof.
  unfold part_components. fold dot. fold dotdot. rewrite filter_cons, filter_nil.
  case_bool_decide; cbn [orb]; [by rewrite decide_False by naive_solver|]. case_bool_decide; [by rewrite decide_False by naive_solver|].
  case_bool_decide; [by rewrite decide_False by naive_solver|]. by rewrite decide_True by naive_solver.
Qed.
Lemma parts_names xs : omap as_name (concat (map part_components xs)) = filter (fun x => x <> [] /\ x <> ascii_bytes "." /\ x <> ascii_bytes "..") xs.
Proof. induction xs as [|x xs IH]; [done|]. cbn [map concat]. rewrite omap_app, IH, part_names, <-filter_app. done. Qed.
Lemma components_names path : omap as_name (components path) = names_in path.
Proof.
  unfold components, names_in. rewrite split_between. cbn [rev app]. destruct (between_slashes path) as [|x xs]; [done|].
  rewrite omap_app, parts_names. change (x :: xs) with ([x] ++ xs). rewrite filter_app. f_equal.
  rewrite <-part_names. unfold part_components. case_bool_decide as E1; [subst x; by destruct xs|]. case_bool_decide as E2; [by subst x|done].
Qed.
Lemma parts_parent xs : RootOrParent ∈ concat (map part_components xs) <-> dotdot ∈ xs.
Proof.
  induction xs as [|x xs IH]; [by rewrite !elem_of_nil|]. cbn [map concat]. rewrite elem_of_app, elem_of_cons, IH. apply or_iff_compat_r.
  unfold part_components. case_bool_decide; cbn [orb]; [subst; by rewrite elem_of_nil|]. case_bool_decide; [subst; by rewrite elem_of_nil|].
  case_bool_decide as E; rewrite elem_of_list_singleton; naive_solver.
Qed.
Lemma components_down path : RootOrParent ∉ components path <-> goes_down path.
Proof.
  assert (match between_slashes path with [] => True | x :: xs => x = [] /\ xs <> [] <-> head path = Some slash end) as Hh.
  { assert (forall s, between_slashes s <> []) as Hne.
    { induction s as [|b s IH]; [done|]. cbn. destruct (between_slashes s); [done|]. by case_bool_decide. }
    destruct path as [|b s]; [cbn; naive_solver|]. cbn. pose proof (Hne s). destruct (between_slashes s); [done|]. case_bool_decide as E; [subst; naive_solver|]. naive_solver. }
  unfold goes_down. fold dotdot. unfold components. rewrite split_between. cbn [rev app].
  destruct (between_slashes path) as [|x xs] eqn:Eb.
  { destruct path as [|b s]; [done|]. exfalso. cbn in Eb. destruct (between_slashes s) eqn:Es; [|by case_bool_decide]. clear -Es.
    induction s as [|c s IH]; [done|]. cbn in Es. destruct (between_slashes s); [by apply IH|by case_bool_decide]. }
  rewrite not_elem_of_app, parts_parent, not_elem_of_cons, <-Hh. pose proof (parts_parent [x]) as Hx. cbn [map concat] in Hx. rewrite app_nil_r, elem_of_list_singleton in Hx.
  case_bool_decide as E1.
  { subst x. destruct xs as [|y ys]; [pose proof (not_elem_of_nil RootOrParent); pose proof (not_elem_of_nil dotdot); assert (dotdot <> []) by done; naive_solver|]. rewrite not_elem_of_cons. naive_solver. }
  case_bool_decide as E2.
  { subst x. rewrite not_elem_of_cons. pose proof (not_elem_of_nil RootOrParent). assert (dotdot <> dot) by done. naive_solver. }
  rewrite Hx. naive_solver.
Qed.

Section facts.
Variables (H : bytes -> oid) (U : blob -> Prop).
Hypothesis HU : universe H U.
Hypothesis Hlen : forall x, length (H x) = 28.
Variables (k : backend) (ix : index) (bmap : gmap oid oid).
Hypothesis Hk : in_order H U k.
Hypothesis Eix : master k = Ok ix.
Hypothesis Ebm : blob_to_pack_map ix = Ok bmap.
Local Set Default Proof Using "All".

Let Hst : structured H U k.
Proof. by apply in_order_structured. Qed.

Lemma forest_of_tree (fo : forest) : (forall id t, fo !! id = Some t -> stored_as H (repo_store k) id t) ->
  map_Forall (fun _ (t : tree) => om_sorted t /\ Forall (fun e : bytes * node => meta_kind (n_meta e.2) = contents_kind (n_contents e.2)) t) fo.
Proof.
  intros Hfo id t E. apply Hfo in E. unfold stored_as in E. case_decide; [subst t; by split|]. destruct E as (b & Hb & Ed).
  apply (repo_store_lookup H U HU) in Hb; [|apply Hst].
  destruct (live_tree H U HU k Hst _ Hb eq_refl) as (u & Hs & _ & Hd). destruct (Hd _ _ Ed) as [-> _]. destruct Hs as [Hw Hf]. split; [apply Hw|done].
Qed.

(** Forests and file trees agree path by path. *)
Definition agree (o1 : option node) (o2 : option fsnode) : Prop :=
  match o1, o2 with Some nd, Some n => reads H (repo_store k) nd n | None, None => True | _, _ => False end.

Lemma forest_agrees fo d root es : (forall id t, fo !! id = Some t -> stored_as H (repo_store k) id t) ->
  loaded fo d root -> reads_root H (repo_store k) root es -> forall p, agree (node_at fo root p) (fs_at es p).
Proof.
  intros Hfo Hl Hr p. revert d root es Hl Hr. induction p as [|x p IH]; intros d root es Hl Hr; [done|].
  destruct d as [|d]; [done|]. destruct Hl as (t & Ht & Hl). destruct Hr as (t' & Ht' & HF).
  assert (t' = t) as -> by (eapply stored_as_fun; [done|by apply Hfo]). cbn [node_at fs_at]. rewrite Ht. cbn [mbind option_bind].
  pose proof (Forall2_get _ _ _ x HF) as Hx. destruct (om_get x t) as [nd|] eqn:Gx, (om_get x es) as [n|] eqn:Ge; try done.
  cbn [mbind option_bind]. destruct p as [|y p]; [done|]. destruct Hx as [m cs ps HF2|m tg|m id u es' Hs HF2]; [done|done|].
  assert ((x, mkNode (CDir id) m) ∈ t) as Hin.
  { apply om_get_elem; [|done]. destruct (forest_of_tree fo Hfo _ _ Ht) as [? _]. done. }
  specialize (IH d id es'). apply IH; [apply Hl; by eapply node_subtree_in|by exists u].
Qed.

Lemma load_snapshot root es : reads_root H (repo_store k) root es ->
  exists fo, load_forest H k bmap (S (depth es)) root = Some (Ok fo) /\ loaded fo (S (depth es)) root /\
    (forall id t, fo !! id = Some t -> stored_as H (repo_store k) id t).
Proof.
  intros Hr. destruct (load_forest_total H U HU Hlen k ix bmap Hst Eix Ebm root es Hr) as [fo E]. exists fo. split; [done|].
  destruct (load_forest_ok H U HU k Hst ix bmap Eix Ebm _ _ _ E) as (_ & F2 & _). split; [|done].
  unfold load_forest in E. destruct (forest_from_root _ _ _ _) as [[[c f]| |]|] eqn:Ef; try done. injection E as ->.
  eapply forest_from_root_loaded; [|exact Ef]. apply (read_tree_mono H U HU k Hst ix bmap Eix Ebm).
Qed.

(** ** ls *)

Lemma reads_same_line nd n p : reads H (repo_store k) nd n -> Forall clean_name p -> p <> [] -> line_text ([], p, nd) = file_line (p, n).
Proof.
  intros Hr Hp Hne. unfold line_text, file_line. cbn [fst snd]. rewrite render_text by done.
  destruct (path_text_end p Hp Hne) as [_ Hl]. destruct Hr; cbn [n_contents app]; [done|done|]. by rewrite bool_decide_eq_false_2.
Qed.

Lemma parents_first_fmap {A B} (f : list bytes -> A -> B) (l : list (list bytes * A)) :
  parents_first l -> parents_first (map (fun x => (x.1, f x.1 x.2)) l).
Proof.
  intros Hp i q x b E. change (map ?f ?l) with (f <$> l) in *. apply list_lookup_fmap_Some in E as ([y a] & E & Eq). cbn in Eq. injection Eq as <- ->.
  destruct (Hp _ _ _ _ E) as [?|(j & a' & Hj & E')]; [by left|right]. exists j, (f q a'). split; [done|]. apply list_lookup_fmap_Some. by exists (q, a').
Qed.

Lemma ls_prints root es : reads_root H (repo_store k) root es -> clean_names es ->
  exists l, lists_files es l /\ NoDup (map (fun x => path_text x.1) l) /\
    ls (read_tree k bmap) (S (depth es)) (cache_new H) root = Some (Ok (concat (map file_line l))).
Proof.
  intros Hr Hcl. destruct (load_snapshot root es Hr) as (fo & E & Hl & Hfo).
  assert (map_Forall (fun _ (t : tree) => om_sorted t) fo) as Hsort by (intros i t Et; by destruct (forest_of_tree fo Hfo i t Et)).
  unfold ls. unfold load_forest in E. destruct (forest_from_root _ _ _ _) as [[[c f]| |]|]; try done. injection E as ->.
  destruct (walk_tree_total fo Hsort [] (see []) _ [] root [] Hl) as [s Es]. unfold print_tree. rewrite Es.
  destruct (walk_tree_lists fo Hsort [] _ _ _ _ _ Es) as (l & -> & H1 & H2 & H3). cbn [app].
  pose proof (forest_agrees fo _ root es Hfo Hl Hr) as Ha.
  set (g := fun (p : list bytes) (nd : node) => default (FsOther (n_meta nd)) (fs_at es p)).
  assert (forall p nd, (p, nd) ∈ l -> exists n, fs_at es p = Some n /\ reads H (repo_store k) nd n) as Hg.
  { intros p nd Hin. apply H2 in Hin. specialize (Ha p). rewrite Hin in Ha. destruct (fs_at es p); [eauto|done]. }
  exists (map (fun x => (x.1, g x.1 x.2)) l). split; [|split].
  - split; [|split].
    + rewrite map_map. cbn [fst]. done.
    + intros p n. change (map ?f ?l) with (f <$> l). rewrite elem_of_list_fmap. split.
      * intros ([q nd] & Eq & Hin). cbn in Eq. injection Eq as -> ->. destruct (Hg _ _ Hin) as (n & En & _). unfold g. by rewrite En.
      * intros En. specialize (Ha p). rewrite En in Ha. destruct (node_at fo root p) as [nd|] eqn:Enode; [|done]. exists (p, nd). cbn. unfold g. rewrite En. split; [done|]. by apply H2.
    + by apply parents_first_fmap.
  - rewrite map_map. cbn [fst]. rewrite <-(map_map fst path_text). change (map path_text ?l) with (path_text <$> l). apply NoDup_fmap_2_strong; [|done].
    intros p q Hp Hq. change (map fst l) with (fst <$> l) in *.
    apply elem_of_list_fmap in Hp as ([p' nd] & -> & Hin%Hg). apply elem_of_list_fmap in Hq as ([q' nd'] & -> & Hin'%Hg).
    destruct Hin as (n & En & _). destruct Hin' as (n' & En' & _). apply path_text_inj; by eapply Hcl.
  - do 3 f_equal. unfold lines_at. rewrite !map_map. apply map_ext_in. intros [p nd] Hin. cbn [fst snd app].
    apply elem_of_list_In, Hg in Hin as (n & En & Hread). unfold g. rewrite En. cbn [default from_option].
    apply reads_same_line; [done|by eapply Hcl|]. by destruct p.
Qed.

(** ** dump *)

Notation dloop := (dump_loop (read_tree k bmap) (read_chunk k bmap)).

Definition shown_as (txt : bytes) (n : fsnode) : bytes :=
  match n with
  | FsFile _ c => c
  | FsLink _ target => txt ++ ascii_bytes " -> " ++ target ++ [x0a]
  | FsDir _ es =>
      txt ++ [slash; x0a] ++
      concat (map (fun e : bytes * fsnode => txt ++ slash :: e.1 ++
        match e.2 with FsDir _ _ => [slash] | FsLink _ target => ascii_bytes "-> " ++ target | FsFile _ _ | FsOther _ => [] end ++ [x0a]) es)
  | FsOther _ => []
  end.

Lemma dump_file_ok cs ps acc : Forall2 (fun c p => repo_store k !! c = Some (Chunk, p)) cs ps ->
  rfold (fun c out => let* b := read_chunk k bmap c in Ok (out ++ b)) cs acc = Ok (acc ++ concat ps).
Proof.
  intros HF. revert acc. induction HF as [|c p cs ps Hc HF IH]; intros acc; [cbn; by rewrite app_nil_r|]. cbn [rfold concat].
  apply (read_chunk_spec H U HU k Hst ix bmap Eix Ebm) in Hc. rewrite Hc. cbn [rbind]. rewrite IH. by rewrite app_assoc.
Qed.
Lemma dump_dir_ok p t es : Forall2 (fun (a : bytes * node) (b : bytes * fsnode) => a.1 = b.1 /\ reads H (repo_store k) a.2 b.2) t es ->
  forall m, dump_dir p t = shown_as (render p) (FsDir m es).
Proof.
  intros HF m. unfold dump_dir, shown_as. do 3 f_equal. induction HF as [|[x nd] [x' n] t es [Ex Hr] HF IH]; [done|].
  cbn [map concat fst snd] in *. subst x'. rewrite IH. do 5 f_equal. by destruct Hr.
Qed.

Lemma step_tree c cur es x : good_cache H k c -> reads_root H (repo_store k) cur es ->
  exists t c', read_tree k bmap c cur = Ok (t, c') /\ good_cache H k c' /\
    match om_get x t, om_get x es with Some nd, Some n => reads H (repo_store k) nd n | None, None => True | _, _ => False end.
Proof.
  intros Hc (t & Ht & HF). destruct (read_tree_total H U HU Hlen k ix bmap Hst Eix Ebm c cur t Hc Ht) as (c' & E & Hc').
  exists t, c'. split; [done|]. split; [done|]. by apply (Forall2_get _ _ _ x).
Qed.

Lemma no_link_step es x n p : no_link_before es (x :: p) -> om_get x es = Some n ->
  (p <> [] -> forall m tg, n <> FsLink m tg) /\ (forall m es', n = FsDir m es' -> no_link_before es' p).
Proof using.
  intros Hn Hx. split.
  - intros Hp m tg ->. apply (Hn [x] p m tg eq_refl Hp). cbn. by rewrite Hx.
  - intros m es' -> q r m' tg -> Hr E. apply (Hn (x :: q) r m' tg eq_refl Hr). cbn. rewrite Hx. cbn. by destruct q.
Qed.

Lemma dump_names p c cur es sofar out : good_cache H k c -> reads_root H (repo_store k) cur es -> p <> [] -> no_link_before es p ->
  dloop c cur sofar (map Normal p) out =
    match fs_at es p with Some n => Ok (out ++ [shown_as (render (sofar ++ p)) n]) | None => Err end.
Proof.
  revert c cur es sofar out. induction p as [|x p IH]; intros c cur es sofar out Hc Hr Hp Hn; [done|]. clear Hp.
  cbn [map dump_loop]. destruct (step_tree c cur es x Hc Hr) as (t & c' & E & Hc' & Hx). rewrite E. cbn [rbind fs_at].
  destruct (om_get x t) as [nd|], (om_get x es) as [n|] eqn:Ge; try done. cbn [of_option rbind mbind option_bind].
  destruct (no_link_step es x n p Hn Ge) as [Hn1 Hn2].
  destruct Hx as [m cs ps HF|m tg|m id u es' Hs HF]; cbn [n_contents].
  - destruct p as [|y p]; cbn [map]; [|done]. unfold dump_file. by rewrite (dump_file_ok _ ps).
  - destruct p as [|y p]; cbn [map]; [done|]. by destruct (Hn1 ltac:(done) m tg).
  - destruct p as [|y p].
    + cbn [map]. destruct (read_tree_total H U HU Hlen k ix bmap Hst Eix Ebm c' id u Hc' Hs) as (c2 & E2 & _). rewrite E2. cbn [rbind fs_sub].
      by rewrite (dump_dir_ok _ _ _ HF m).
    + cbn [map]. change (Normal y :: map Normal p) with (map Normal (y :: p)). rewrite (IH c' id es' (sofar ++ [x]) out Hc' ltac:(by exists u) ltac:(done) (Hn2 _ _ eq_refl)).
      rewrite <-app_assoc. done.
Qed.

Lemma dump_no_panic cs c cur es sofar out : good_cache H k c -> reads_root H (repo_store k) cur es -> dloop c cur sofar cs out <> Panic.
Proof.
  revert c cur es sofar out. induction cs as [|co cs IH]; intros c cur es sofar out Hc Hr; [done|]. cbn [dump_loop].
  destruct co as [|x|]; [by eapply IH| |done]. destruct (step_tree c cur es x Hc Hr) as (t & c' & E & Hc' & Hx). rewrite E. cbn [rbind].
  destruct (om_get x t) as [nd|], (om_get x es) as [n|] eqn:Ge; try done. cbn [of_option rbind].
  destruct Hx as [m chs ps HF|m tg|m id u es' Hs HF]; cbn [n_contents].
  - destruct cs; [|done]. unfold dump_file. by rewrite (dump_file_ok _ ps).
  - by eapply IH.
  - destruct cs as [|co cs]; [|by eapply (IH _ _ es'); [|by exists u]].
    destruct (read_tree_total H U HU Hlen k ix bmap Hst Eix Ebm c' id u Hc' Hs) as (c2 & E2 & _). by rewrite E2.
Qed.

Lemma dump_up cs c cur sofar out o : RootOrParent ∈ cs -> dloop c cur sofar cs out <> Ok o.
Proof.
  revert c cur sofar out. induction cs as [|co cs IH]; intros c cur sofar out Hin; [by apply elem_of_nil in Hin|]. cbn [dump_loop].
  apply elem_of_cons in Hin as [<-|Hin]; [done|]. destruct co as [|x|]; [by apply IH| |done].
  destruct (read_tree k bmap c cur) as [[t c']| |]; [|done|done]. cbn [rbind]. destruct (om_get x t) as [nd|]; [|done]. cbn [of_option rbind].
  destruct (n_contents nd) as [chs|d|tg]; [|destruct cs; [by apply elem_of_nil in Hin|by apply IH]|by apply IH].
  destruct cs; [by apply elem_of_nil in Hin|done].
Qed.

Lemma parts_shape l : CurDir ∉ concat (map part_components l).
Proof using.
  induction l as [|x l IH]; [by apply not_elem_of_nil|]. cbn [map concat]. rewrite elem_of_app. intros [Hin|Hin]; [|done]. revert Hin.
  unfold part_components. destruct (bool_decide (x = []) || bool_decide (x = dot)); [by apply not_elem_of_nil|].
  destruct (bool_decide (x = dotdot)); by rewrite elem_of_list_singleton.
Qed.
Lemma components_shape path : goes_down path ->
  components path = map Normal (names_in path) \/ components path = CurDir :: map Normal (names_in path).
Proof using.
  assert (forall cs, CurDir ∉ cs -> RootOrParent ∉ cs ->
    cs = map Normal (omap as_name cs)) as Hn.
  { induction cs as [|[|x|] cs IH]; intros H1 H2; [done|destruct H1; by left| |destruct H2; by left]. cbn. f_equal. apply IH; intros Hin; [apply H1|apply H2]; by right. }
  rewrite <-components_down, <-components_names.
  unfold components. destruct (split_slash [] path) as [|x xs]; [by left|].
  pose proof (parts_shape xs) as Hxs. case_bool_decide as Ex.
  { intros Hd. left. apply Hn; [|done]. rewrite elem_of_app. intros [Hin|?]; [|done]. destruct xs; [by apply elem_of_nil in Hin|]. by apply elem_of_list_singleton in Hin. }
  case_bool_decide as Ed.
  - intros Hd. right. cbn [app]. f_equal. cbn. apply Hn; [done|]. intros Hin. apply Hd. by right.
  - intros Hd. left. apply Hn; [|done]. rewrite elem_of_app. intros [Hin|?]; [|done]. apply (parts_shape [x]). cbn. by rewrite app_nil_r.
Qed.

Lemma shown_text p n es : clean_names es -> fs_at es p = Some n -> shown_as (render p) n = shown p n.
Proof using. intros Hc E. apply Hc in E. rewrite render_text by done. done. Qed.

Lemma good_new : good_cache H k (cache_new H).
Proof. split; [exact (cache_new_true H U HU k Hst ix bmap Eix Ebm)|apply lookup_singleton]. Qed.

Lemma dump_prints root es path : reads_root H (repo_store k) root es -> clean_names es ->
  dump (read_tree k bmap) (read_chunk k bmap) (cache_new H) root path <> Panic /\
  (names_in path <> [] -> no_link_before es (names_in path) ->
    (forall out, dump (read_tree k bmap) (read_chunk k bmap) (cache_new H) root path = Ok out <->
      goes_down path /\ exists n, fs_at es (names_in path) = Some n /\ out = [shown (names_in path) n])).
Proof.
  intros Hr Hcl. split; [eapply dump_no_panic; [apply good_new|done]|]. intros Hne Hnl out. unfold dump.
  rewrite <-components_down. destruct (decide (RootOrParent ∉ components path)) as [Hd|Hd].
  2: { split; [|by intros [? _]]. intros E. exfalso. apply dec_stable in Hd. by eapply dump_up in E. }
  assert (dloop (cache_new H) root [] (components path) [] = match fs_at es (names_in path) with Some n => Ok [shown_as (render (names_in path)) n] | None => Err end) as ->.
  { apply components_down in Hd. destruct (components_shape path Hd) as [->| ->]; [|cbn [dump_loop]]; by apply dump_names; [apply good_new| | |]. }
  destruct (fs_at es (names_in path)) as [n|] eqn:En; [|naive_solver]. rewrite (shown_text _ _ _ Hcl En). naive_solver.
Qed.

(** ** diff *)

Lemma stored_same fo1 fo2 : (forall id t, fo1 !! id = Some t -> stored_as H (repo_store k) id t) ->
  (forall id t, fo2 !! id = Some t -> stored_as H (repo_store k) id t) -> same_ids fo1 fo2.
Proof. intros H1 H2 i t1 t2 E1%H1 E2%H2. by eapply stored_as_fun. Qed.

Lemma stored_hash id t : stored_as H (repo_store k) id t -> id = tree_id H t.
Proof.
  unfold stored_as. case_decide; [by intros ->; subst|]. intros (b & Hb & Ed). apply (repo_store_lookup H U HU) in Hb; [|apply Hst].
  destruct (live_tree H U HU k Hst _ Hb eq_refl) as (u & _ & E & Hd). destruct (Hd _ _ Ed) as [-> _]. by injection E.
Qed.
End facts.

(** ** Nothing to report *)

Lemma kind_same_contents a b : ~ differs a b -> (kind_of a = KDirectory /\ kind_of b = KDirectory) \/ n_contents a = n_contents b.
Proof.
  unfold differs. intros Hd. destruct (decide (kind_of a = kind_of b)) as [Ek|]; [|by destruct Hd; left].
  destruct (decide (kind_of a = KDirectory)); [left; split; congruence|]. right. destruct (decide (n_contents a = n_contents b)); [done|]. destruct Hd. by right.
Qed.

Lemma alike_same_id H fo1 fo2 d id1 id2 :
  map_Forall (fun id (t : tree) => id = tree_id H t /\ om_sorted t) fo1 -> map_Forall (fun id (t : tree) => id = tree_id H t /\ om_sorted t) fo2 ->
  loaded fo1 d id1 -> loaded fo2 d id2 -> (forall p, no_news true (node_at fo1 id1 p) (node_at fo2 id2 p)) -> id1 = id2.
Proof.
  intros H1 H2. revert id1 id2. induction d as [|d IH]; intros id1 id2; [done|]. intros (t1 & E1 & L1) (t2 & E2 & L2) Ha.
  destruct (H1 _ _ E1) as [-> S1]. destruct (H2 _ _ E2) as [-> S2]. assert (t1 = t2) as ->; [|done].
  apply om_get_ext; [done|done|]. intros x. pose proof (Ha [x]) as Hx. unfold node_at in Hx. rewrite E1, E2 in Hx. cbn [mbind option_bind] in Hx.
  destruct (om_get x t1) as [a|] eqn:G1, (om_get x t2) as [b|] eqn:G2; try done. cbn in Hx. destruct Hx as [Hd Hm]. specialize (Hm eq_refl).
  f_equal. destruct a as [ca ma], b as [cb mb]. cbn in Hm. subst mb. f_equal.
  apply kind_same_contents in Hd as [[Ka Kb]|E]; [|done]. unfold kind_of in Ka, Kb. cbn [n_contents] in Ka, Kb.
  destruct ca as [|da|], cb as [|db|]; try done. f_equal.
  apply om_get_elem in G1 as I1; [|done]. apply om_get_elem in G2 as I2; [|done].
  apply IH; [apply L1; by eapply node_subtree_in|apply L2; by eapply node_subtree_in|].
  intros p. destruct p as [|y p]; [done|]. pose proof (Ha (x :: y :: p)) as Hp.
  rewrite (node_at_step _ _ _ _ _ _ E1 G1), (node_at_step _ _ _ _ _ _ E2 G2), (node_sub_into _ _ da), (node_sub_into _ _ db) in Hp by done. done.
Qed.

(** No line belongs where there is no news, and some line does where there is. *)
Lemma no_news_lines show_meta o1 o2 : (forall pre n, ~ belongs show_meta o1 o2 pre n) <-> no_news show_meta o1 o2.
Proof.
  split.
  - intros Hno. destruct o1 as [a|], o2 as [b|]; cbn.
    + assert (~ differs a b) as Hd.
      { intros Hd. destruct (decide (kind_of a = kind_of b)) as [Ek|Ek].
        - destruct Hd as [|[Hk Hc]]; [done|]. destruct (kind_of a) eqn:Ka; [| done | |].
          + eapply (Hno (ascii_bytes "C ") a). right; right; left. split; [done|]. exists b. done.
          + eapply (Hno (ascii_bytes "+ ") b). left. split; [done|]. split; [done|]. right. done.
          + unfold kind_of in Ka. by destruct (n_contents a).
        - eapply (Hno (ascii_bytes "+ ") b). left. split; [done|]. split; [done|]. by left. }
      split; [done|]. intros ->. destruct (decide (n_meta a = n_meta b)) as [|Hm]; [done|]. exfalso.
      destruct (meta_diff_char (n_meta a) (n_meta b)) as [c|] eqn:Ec; [|unfold meta_diff_char in Ec; by rewrite decide_False in Ec].
      eapply Hno. right; right; right. split; [done|]. exists a, c. done.
    + eapply (Hno (ascii_bytes "- ") a). right; left. done.
    + eapply (Hno (ascii_bytes "+ ") b). left. done.
    + done.
  - intros Hn pre n [[_ [E Hp]]|[[_ [E Hp]]|[[_ (n2 & E1 & E2 & K1 & K2 & Hc)]|[Hs (n1 & c & E1 & E2 & Hd & Hc & _)]]]]; subst.
    + destruct o1 as [a|]; [|done]. destruct Hn as [Hd _]. apply Hd. destruct Hp as [Hk|[Hk Hc]]; [by left|right]. split; [by rewrite Hk|done].
    + destruct o2 as [b|]; [|done]. destruct Hn as [Hd _]. apply Hd. destruct Hp as [Hk|[Hk Hc]]; [left; by apply not_eq_sym|].
      destruct (decide (kind_of n = kind_of b)) as [Ek|Ek]; [right|by left]. split; [rewrite Ek, Hk; done|by apply not_eq_sym].
    + destruct Hn as [Hd _]. apply Hd. right. split; [by rewrite K1|done].
    + destruct Hn as [_ Hm]. rewrite (Hm eq_refl) in Hc. unfold meta_diff_char in Hc. by rewrite decide_True in Hc.
Qed.
