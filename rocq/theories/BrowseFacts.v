From Verif Require Import Base OMap Formats Hashing Meta Forest ForestFacts FsTree FsSpec FsFacts PruneFacts Browse BrowseSpec.

(** ** Loops *)

Lemma ofold_app {A St} (f : A -> St -> option (result St)) l1 l2 s :
  ofold f (l1 ++ l2) s = match ofold f l1 s with Some (Ok s') => ofold f l2 s' | other => other end.
Proof. revert s. induction l1 as [|a l1 IH]; intros s; simpl; [done|]. destruct (f a s) as [[]|]; auto. Qed.
Lemma ofold_total {A St} (f : A -> St -> option (result St)) l s :
  (forall a s, a ∈ l -> exists s', f a s = Some (Ok s')) -> exists s', ofold f l s = Some (Ok s').
Proof.
  revert s. induction l as [|a l IH]; intros s Hf; simpl; [by eexists|]. destruct (Hf a s) as [s' ->]; [by left|].
  apply IH. intros b s'' Hb. apply Hf. by right.
Qed.
Lemma rfold_app {A St} (f : A -> St -> result St) l1 l2 s : rfold f (l1 ++ l2) s = let* s' := rfold f l1 s in rfold f l2 s'.
Proof. revert s. induction l1 as [|a l1 IH]; intros s; simpl; [done|]. destruct (f a s); simpl; auto. Qed.

(** ** Loaded forests *)

Lemma node_subtree_in t x n s : (x, n) ∈ t -> n_contents n = CDir s -> s ∈ subtrees t.
Proof.
  intros Hin Hc. unfold subtrees. apply elem_of_concat. exists (node_subtree n). split; [unfold node_subtree; rewrite Hc; by left|].
  change (map ?f ?l) with (f <$> l). apply elem_of_list_fmap. by exists (x, n).
Qed.
Lemma subtrees_in t s : s ∈ subtrees t -> exists x n, (x, n) ∈ t /\ n_contents n = CDir s.
Proof.
  unfold subtrees. intros (l & Hs & Hl)%elem_of_concat. change (map ?f ?l) with (f <$> l) in Hl.
  apply elem_of_list_fmap in Hl as ([x n] & -> & Hin). exists x, n. split; [done|]. unfold node_subtree in Hs. simpl in Hs.
  destruct (n_contents n); [by apply elem_of_nil in Hs| |by apply elem_of_nil in Hs]. apply elem_of_list_singleton in Hs. congruence.
Qed.
Lemma loaded_mono fo d d' id : loaded fo d id -> d <= d' -> loaded fo d' id.
Proof.
  revert d' id. induction d as [|d IH]; intros d' id; [done|]. intros (t & Ht & Hs) Hd. destruct d' as [|d']; [lia|].
  exists t. split; [done|]. intros s Hin. apply IH; [by apply Hs|lia].
Qed.

(** What [forest_from_root] returns is loaded. *)
Lemma fold_append_loaded read fuel stack fo :
  (forall id c f c' f', append_tree read fuel stack id (c, f) = Some (Ok (c', f')) ->
     (forall x, reach c' id x -> fo !! x = c' !! x) -> loaded fo fuel id) ->
  (forall c id t c', read c id = Ok (t, c') -> c ⊆ c' /\ c' !! id = Some t) ->
  forall ids c f c' f', fold_ids (append_tree read fuel stack) ids (c, f) = Some (Ok (c', f')) ->
    (forall i x, i ∈ ids -> reach c' i x -> fo !! x = c' !! x) -> forall i, i ∈ ids -> loaded fo fuel i.
Proof.
  intros Hf Hread ids. induction ids as [|j ids IH]; intros c f c' f' E Hr i Hi; [by apply elem_of_nil in Hi|].
  cbn [fold_ids] in E. destruct (append_tree read fuel stack j (c, f)) as [[[c1 f1]| |]|] eqn:E1; try done.
  assert (c1 ⊆ c') as Hsub.
  { eapply (fold_append_ok read Hread); [|exact E]. intros. eapply append_tree_ok; [exact Hread|done]. }
  apply elem_of_cons in Hi as [->|Hi]; [|eapply IH; [exact E| |done]; intros k x Hk Hx; eapply Hr; [by right|done]].
  pose proof (append_tree_ok read Hread _ _ _ _ _ _ _ E1) as [_ Hok]. destruct (Hok c1 ltac:(done)) as [Hown _].
  eapply Hf; [exact E1|]. intros x Hx. destruct (Hown x Hx) as (_ & [u Hu] & _ & _).
  rewrite (Hr j x); [|by left|].
  - rewrite Hu. by eapply lookup_weaken.
  - eapply (rtc_subrel (child c1)); [|exact Hx]. intros a b (t & Ha & Hb). exists t. split; [by eapply lookup_weaken|done].
Qed.
Lemma append_tree_loaded read fuel stack id c f c' f' fo :
  (forall c id t c', read c id = Ok (t, c') -> c ⊆ c' /\ c' !! id = Some t) ->
  append_tree read fuel stack id (c, f) = Some (Ok (c', f')) ->
  (forall x, reach c' id x -> fo !! x = c' !! x) -> loaded fo fuel id.
Proof.
  intros Hread. revert stack id c f c' f'. induction fuel as [|fuel IH]; intros stack id c f c' f' E Hr; [done|].
  cbn [append_tree fst snd] in E. case_decide; [done|]. destruct (read c id) as [[t c1]| |] eqn:Er; try done.
  destruct (Hread _ _ _ _ Er) as [_ Ht].
  assert (c1 ⊆ c') as Hsub.
  { eapply (fold_append_ok read Hread); [|exact E]. intros. eapply append_tree_ok; [exact Hread|done]. }
  assert (c' !! id = Some t) as Ht' by (by eapply lookup_weaken).
  exists t. split; [by rewrite Hr by apply rtc_refl|].
  eapply fold_append_loaded; [|exact Hread|exact E|].
  - intros. by eapply IH.
  - intros i x Hi Hx. apply Hr. eapply rtc_l; [|exact Hx]. exists t. done.
Qed.
Lemma forest_from_root_loaded read fuel cache root cache' fo :
  (forall c id t c', read c id = Ok (t, c') -> c ⊆ c' /\ c' !! id = Some t) ->
  forest_from_root read fuel cache root = Some (Ok (cache', fo)) -> loaded fo fuel root.
Proof.
  intros Hread E. eapply append_tree_loaded; [exact Hread|exact E|]. intros x Hx.
  destruct (append_tree_ok read Hread _ _ _ _ _ _ _ E) as [_ Hok]. by apply Hok.
Qed.

(** ** Walking *)

Section walk.
Local Set Default Proof Using "All".
Variable fo : forest.
Hypothesis Hsorted : map_Forall (fun _ (t : tree) => om_sorted t) fo.
Variable pre : bytes.

Lemma walk_tree_total {St} (v : list bytes -> node -> St -> St) d p id s :
  loaded fo d id -> exists s', walk_tree fo v d p id s = Some (Ok s').
Proof.
  revert p id s. induction d as [|d IH]; intros p id s; [done|]. intros (t & Ht & Hs). cbn [walk_tree]. rewrite Ht.
  apply ofold_total. intros [x n] s' Hin. unfold walk_node_with. cbn [fst snd]. destruct (n_contents n) eqn:Ec; [by eexists| |by eexists].
  apply IH, Hs. by eapply node_subtree_in.
Qed.

(** The paths below a list of entries. *)
Definition below (t : tree) (l : list (list bytes * node)) : Prop :=
  NoDup (map fst l) /\
  (forall p n, (p, n) ∈ l <-> exists x q m, p = x :: q /\ (x, m) ∈ t /\ node_sub fo m q = Some n) /\
  parents_first l.

Lemma node_sub_dir m d q : n_contents m = CDir d -> q <> [] -> node_sub fo m q = node_at fo d q.
Proof. intros Hc Hq. destruct q as [|y q]; [done|]. cbn [node_sub node_at]. by rewrite Hc. Qed.
Lemma node_sub_leaf m q n : (forall d, n_contents m <> CDir d) -> node_sub fo m q = Some n <-> q = [] /\ n = m.
Proof.
  intros Hc. destruct q as [|y q]; cbn [node_sub]; [naive_solver|]. destruct (n_contents m) eqn:E; try naive_solver.
Qed.
Lemma below_at id t l : fo !! id = Some t -> below t l -> lists_all fo id l.
Proof.
  intros Ht (H1 & H2 & H3). split; [done|]. split; [|done]. intros p n. rewrite H2.
  assert (om_sorted t) as Hs by (by eapply Hsorted). split.
  - intros (x & q & m & -> & Hin & E). cbn [node_at]. rewrite Ht. cbn [mbind option_bind].
    by rewrite (proj2 (om_get_elem x m t Hs) Hin).
  - destruct p as [|x q]; [done|]. cbn [node_at]. rewrite Ht. cbn [mbind option_bind].
    destruct (om_get x t) as [m|] eqn:E; [|done]. apply om_get_elem in E; [|done]. cbn. eauto 8.
Qed.

Definition put_below (x : bytes) (l : list (list bytes * node)) : list (list bytes * node) := map (fun y => (x :: y.1, y.2)) l.

Lemma parents_first_app {A} (l1 l2 : list (list bytes * A)) : parents_first l1 -> parents_first l2 -> parents_first (l1 ++ l2).
Proof.
  intros H1 H2 i q x a E. apply lookup_app_Some in E as [E|[Hl E]].
  - destruct (H1 _ _ _ _ E) as [?|(j & a' & Hj & E')]; [by left|]. right. exists j, a'. split; [done|]. by apply lookup_app_l_Some.
  - destruct (H2 _ _ _ _ E) as [?|(j & a' & Hj & E')]; [by left|]. right. exists (length l1 + j), a'. split; [lia|].
    rewrite lookup_app_r by lia. rewrite <-E'. f_equal. lia.
Qed.
Lemma parents_first_below {A} (x : bytes) (a : A) sub : parents_first sub ->
  parents_first (([x], a) :: map (fun y => (x :: y.1, y.2)) sub).
Proof.
  intros Hp i q z b E. destruct i as [|i].
  - simpl in E. injection E as E _. left. destruct q as [|? [|? ?]]; [done|done|done].
  - change (map ?f ?l) with (f <$> l) in *. cbn [lookup list_lookup] in E. change (list_lookup ?i ?l) with (l !! i) in E.
    apply list_lookup_fmap_Some in E as ([y c] & E & Eq). cbn [fst snd] in Eq. injection Eq as Eq ->.
    destruct q as [|q0 q]; [by left|]. right. cbn [app] in Eq. injection Eq as -> <-.
    destruct (Hp _ _ _ _ E) as [->|(j & a' & Hj & E')]; [exists 0, a; split; [lia|done]|].
    exists (S j), a'. split; [lia|]. cbn [lookup list_lookup]. change (list_lookup ?i ?l) with (l !! i).
    apply list_lookup_fmap_Some. exists (q, a'). done.
Qed.

(** The paths at and below one entry. *)
Lemma below_cons x m t sub l :
  NoDup (map fst ((x, m) :: t)) ->
  (forall q n, (q, n) ∈ sub <-> q <> [] /\ node_sub fo m q = Some n) -> NoDup (map fst sub) -> parents_first sub ->
  below t l -> below ((x, m) :: t) (put_below x (([], m) :: sub) ++ l).
Proof.
  intros Hnd Hsub Hns Hps (H1 & H2 & H3). cbn [map fst] in Hnd. apply NoDup_cons in Hnd as [Hx Hnd].
  assert (forall q n, (q, n) ∈ put_below x (([], m) :: sub) <-> exists q', q = x :: q' /\ node_sub fo m q' = Some n) as Hput.
  { intros q n. unfold put_below. change (map ?f ?l) with (f <$> l). rewrite elem_of_list_fmap. split.
    - intros ([q' n'] & E & Hin). cbn [fst snd] in E. injection E as -> ->. exists q'. split; [done|].
      apply elem_of_cons in Hin as [E|Hin]; [by injection E as -> ->|by apply Hsub].
    - intros (q' & -> & E). exists (q', n). split; [done|]. apply elem_of_cons. destruct q' as [|y q']; [left; simpl in E; congruence|].
      right. by apply Hsub. }
  split; [|split].
  - rewrite map_app. apply NoDup_app. split; [|split; [|done]].
    + unfold put_below. rewrite map_map. cbn [map fst]. apply NoDup_cons. split.
      * intros Hin. change (map ?f ?l) with (f <$> l) in Hin. apply elem_of_list_fmap in Hin as ([q n] & E & Hin).
        cbn [fst] in E. injection E as <-. by apply Hsub in Hin as [? _].
      * rewrite <-(map_map fst (cons x)). change (map (cons x) ?l) with (cons x <$> l). apply NoDup_fmap_2; [intros ? ? E; by injection E|done].
    + intros q Hq1 Hq2. change (map fst ?l) with (fst <$> l) in *. apply elem_of_list_fmap in Hq1 as ([q1 n1] & -> & Hq1).
      apply Hput in Hq1 as (q' & -> & _). apply elem_of_list_fmap in Hq2 as ([q2 n2] & E & Hq2). cbn [fst] in E. subst q2.
      apply H2 in Hq2 as (y & q & m' & E & Hin & _). injection E as <- <-. apply Hx. apply elem_of_list_fmap. by exists (x, m').
  - intros p n. rewrite elem_of_app, Hput, H2. split.
    + intros [(q' & -> & E)|(y & q & m' & -> & Hin & E)]; [exists x, q', m|exists y, q, m']; (split; [done|]; split; [|done]); [by left|by right].
    + intros (y & q & m' & -> & [E|Hin]%elem_of_cons & En); [injection E as -> ->; left; eauto|right; eauto 8].
  - apply parents_first_app; [|done]. by apply parents_first_below.
Qed.
Lemma below_nil : below [] [].
Proof.
  split; [constructor|]. split.
  - intros p n. split; [intros Hin; by apply elem_of_nil in Hin|]. intros (x & q & m & _ & Hin & _). by apply elem_of_nil in Hin.
  - intros i q x a E. by rewrite lookup_nil in E.
Qed.

Definition lines_at (p : list bytes) (l : list (list bytes * node)) : list line := map (fun y => (pre, p ++ y.1, y.2)) l.

Lemma walk_tree_lists d p id s s' : walk_tree fo (see pre) d p id s = Some (Ok s') ->
  exists l, s' = s ++ lines_at p l /\ lists_all fo id l.
Proof.
  revert p id s s'. induction d as [|d IH]; intros p id s s' E; [done|]. cbn [walk_tree] in E. destruct (fo !! id) as [t|] eqn:Ht; [|done].
  assert (om_sorted t) as Hs by (by eapply Hsorted). pose proof (om_sorted_nodup t Hs) as Hnd. change (t.*1) with (map fst t) in Hnd.
  assert (exists l, s' = s ++ lines_at p l /\ below t l) as (l & -> & Hl); [|exists l; split; [done|by eapply below_at]].
  clear Ht Hs. revert s E. induction t as [|[x m] t IHt]; intros s E; cbn [ofold] in E.
  { injection E as <-. exists []. rewrite app_nil_r. split; [done|apply below_nil]. }
  assert (NoDup (map fst t)) as Hnd' by (cbn [map] in Hnd; by apply NoDup_cons in Hnd as [_ ?]). specialize (IHt Hnd').
  cbn [fst snd] in E. unfold walk_node_with in E at 1.
  assert (exists sub s1, (match n_contents m with CDir sub => walk_tree fo (see pre) d (p ++ [x]) sub (see pre (p ++ [x]) m s)
      | CFile _ | CSymlink _ => Some (Ok (see pre (p ++ [x]) m s)) end) = Some (Ok s1) /\
      s1 = s ++ lines_at p (put_below x (([], m) :: sub)) /\
      (forall q n, (q, n) ∈ sub <-> q <> [] /\ node_sub fo m q = Some n) /\ NoDup (map fst sub) /\ parents_first sub) as (sub & s1 & E1 & -> & Hs1 & Hs2 & Hs3).
  { destruct (n_contents m) as [cs|d'|tg] eqn:Ec.
    - exists [], (see pre (p ++ [x]) m s). split; [done|]. split; [done|]. split; [|split; [constructor|intros i q z a Ea; by rewrite lookup_nil in Ea]].
      intros q n. rewrite node_sub_leaf by (rewrite Ec; done). split; [intros Hin; by apply elem_of_nil in Hin|naive_solver].
    - destruct (walk_tree fo (see pre) d (p ++ [x]) d' (see pre (p ++ [x]) m s)) as [[s1| |]|] eqn:Ew; try done.
      destruct (IH _ _ _ _ Ew) as (sub & -> & H1 & H2 & H3). exists sub, (see pre (p ++ [x]) m s ++ lines_at (p ++ [x]) sub). split; [done|].
      split; [|split; [|done]].
      + unfold see, lines_at, put_below. rewrite <-app_assoc. f_equal. rewrite map_map. cbn [map fst snd app]. f_equal.
        apply map_ext. intros [q n]. cbn [fst snd]. by rewrite <-app_assoc.
      + intros q n. rewrite H2. destruct q as [|y q]; [by split; [|intros [? _]]|]. rewrite (node_sub_dir m d') by done. naive_solver.
    - exists [], (see pre (p ++ [x]) m s). split; [done|]. split; [done|]. split; [|split; [constructor|intros i q z a Ea; by rewrite lookup_nil in Ea]].
      intros q n. rewrite node_sub_leaf by (rewrite Ec; done). split; [intros Hin; by apply elem_of_nil in Hin|naive_solver]. }
  cbv zeta in E. rewrite E1 in E. destruct (IHt _ E) as (l & -> & Hl). exists (put_below x (([], m) :: sub) ++ l). split.
  - unfold lines_at. by rewrite map_app, app_assoc.
  - by apply below_cons.
Qed.
Lemma walk_node_lists d p m s s' : walk_node fo (see pre) d p m s = Some (Ok s') ->
  exists sub, s' = s ++ lines_at p (([], m) :: sub) /\
    (forall q n, (q, n) ∈ sub <-> q <> [] /\ node_sub fo m q = Some n) /\ NoDup (map fst sub).
Proof.
  unfold walk_node, walk_node_with. intros E. cbv zeta in E. destruct (n_contents m) as [cs|d'|tg] eqn:Ec.
  - injection E as <-. exists []. unfold see, lines_at. cbn [map fst snd]. rewrite app_nil_r. split; [done|]. split; [|constructor].
    intros q n. rewrite node_sub_leaf by (rewrite Ec; done). split; [intros Hin; by apply elem_of_nil in Hin|naive_solver].
  - destruct (walk_tree_lists _ _ _ _ _ E) as (sub & -> & H1 & H2 & _). exists sub. split; [|split; [|done]].
    + unfold see, lines_at. rewrite <-app_assoc. cbn [map fst snd app]. by rewrite app_nil_r.
    + intros q n. rewrite H2. destruct q as [|y q]; [by split; [|intros [? _]]|]. rewrite (node_sub_dir m d') by done. naive_solver.
  - injection E as <-. exists []. unfold see, lines_at. cbn [map fst snd]. rewrite app_nil_r. split; [done|]. split; [|constructor].
    intros q n. rewrite node_sub_leaf by (rewrite Ec; done). split; [intros Hin; by apply elem_of_nil in Hin|naive_solver].
Qed.
End walk.

(** ** Comparing *)

(** Every callback call is the effect of one event. *)
Section runs.
Local Set Default Proof Using "All".
Variables fo1 fo2 : forest.
Context {St : Type}.
Variable cb : list bytes -> event -> St -> result St.

Definition run_events (l : list (list bytes * event)) (s : St) : result St := rfold (fun x : list bytes * event => cb x.1 x.2) l s.

Lemma run_events_app l1 l2 s : run_events (l1 ++ l2) s = let* s' := run_events l1 s in run_events l2 s'.
Proof. apply rfold_app. Qed.

Lemma compare_nodes_runs rec1 rec2 n1 n2 p s0 s1 :
  (forall d1 d2 p s0 s1, rec1 d1 d2 p s0 = Some (Ok s1) -> exists l, s1 = s0 ++ l /\ forall s, rec2 d1 d2 p s = Some (run_events l s)) ->
  compare_nodes_with note rec1 n1 n2 p s0 = Some (Ok s1) ->
  exists l, s1 = s0 ++ l /\ forall s, compare_nodes_with cb rec2 n1 n2 p s = Some (run_events l s).
Proof.
  intros Hrec E. unfold compare_nodes_with in *. destruct (node_kind n1) as [k1| |]; [|done|done]. destruct (node_kind n2) as [k2| |]; [|done|done].
  assert (forall e, note p e s0 = Ok s1 -> exists l, s1 = s0 ++ l /\ forall s, Some (cb p e s) = Some (run_events l s)) as Hone.
  { intros e Ee. injection Ee as <-. exists [(p, e)]. split; [done|]. intros s. cbn. by destruct (cb p e s). }
  assert (forall c1 c2 : contents, Some (
            if bool_decide (k1 = k2) then
              if negb (bool_decide (c1 = c2)) then note p (Changed n1 n2) s0
              else if negb (bool_decide (n_meta n1 = n_meta n2)) then note p (MetaChanged n1 n2) s0
              else note p (Unchanged n2) s0
            else note p (TypeChanged n1 n2) s0) = Some (Ok s1) ->
     exists l, s1 = s0 ++ l /\ forall s, Some (
            if bool_decide (k1 = k2) then
              if negb (bool_decide (c1 = c2)) then cb p (Changed n1 n2) s
              else if negb (bool_decide (n_meta n1 = n_meta n2)) then cb p (MetaChanged n1 n2) s
              else cb p (Unchanged n2) s
            else cb p (TypeChanged n1 n2) s) = Some (run_events l s)) as Hleaf.
  { intros c1 c2 El. injection El as El. destruct (bool_decide (k1 = k2)); [|by apply Hone].
    destruct (negb (bool_decide (c1 = c2))); [by apply Hone|]. destruct (negb (bool_decide (n_meta n1 = n_meta n2))); by apply Hone. }
  destruct (n_contents n1) as [cs1|d1|t1]; destruct (n_contents n2) as [cs2|d2|t2]; try (by apply Hleaf).
  clear Hleaf. case_bool_decide as Ed.
  - cbn [rbind andb] in *. injection E as E. case_bool_decide as Em; cbn [rbind andb] in *; [by apply Hone|].
    injection E as <-. exists [(p, MetaChanged n1 n2)]. split; [done|]. intros s. cbn. by destruct (cb p (MetaChanged n1 n2) s).
  - cbn [rbind andb] in *. destruct (rec1 d1 d2 p s0) as [[s2| |]|] eqn:Er; try done. apply Hrec in Er as (l & -> & Hl).
    injection E as E. exists (l ++ if bool_decide (n_meta n1 = n_meta n2) then [] else [(p, MetaChanged n1 n2)]). split.
    + case_bool_decide; injection E as <-; [by rewrite app_nil_r|by rewrite app_assoc].
    + intros s. rewrite Hl, run_events_app. destruct (run_events l s) as [s2| |]; cbn [rbind]; [|done|done].
      case_bool_decide; [done|]. cbn. by destruct (cb p (MetaChanged n1 n2) s2).
Qed.

Lemma compare_trees_runs fuel id1 id2 p s0 s1 : compare_trees fo1 fo2 note fuel id1 id2 p s0 = Some (Ok s1) ->
  exists l, s1 = s0 ++ l /\ forall s, compare_trees fo1 fo2 cb fuel id1 id2 p s = Some (run_events l s).
Proof.
  revert id1 id2 p s0 s1. induction fuel as [|fuel IH]; intros id1 id2 p s0 s1 E; [done|]. cbn [compare_trees] in *.
  destruct (fo1 !! id1) as [t1|]; [|done]. destruct (fo2 !! id2) as [t2|]; [|done].
  revert s0 E. generalize (os_of_list (map fst t1 ++ map fst t2)) as xs. induction xs as [|x xs IHx]; intros s0 E; cbn [ofold] in *.
  { injection E as <-. exists []. by rewrite app_nil_r. }
  assert (forall e s2, note (p ++ [x]) e s0 = Ok s2 -> exists l, s2 = s0 ++ l /\ forall s, Some (cb (p ++ [x]) e s) = Some (run_events l s)) as Hone.
  { intros e s2 Ee. injection Ee as <-. exists [(p ++ [x], e)]. split; [done|]. intros s. cbn. by destruct (cb (p ++ [x]) e s). }
  assert (exists s2 l, (match om_get x t1, om_get x t2 with
            | None, None => Some Panic
            | None, Some n => Some (note (p ++ [x]) (Added n) s0)
            | Some n, None => Some (note (p ++ [x]) (Removed n) s0)
            | Some n1, Some n2 => compare_nodes_with note (compare_trees fo1 fo2 note fuel) n1 n2 (p ++ [x]) s0
            end) = Some (Ok s2) /\ s2 = s0 ++ l /\ forall s, (match om_get x t1, om_get x t2 with
            | None, None => Some Panic
            | None, Some n => Some (cb (p ++ [x]) (Added n) s)
            | Some n, None => Some (cb (p ++ [x]) (Removed n) s)
            | Some n1, Some n2 => compare_nodes_with cb (compare_trees fo1 fo2 cb fuel) n1 n2 (p ++ [x]) s
            end) = Some (run_events l s)) as (s2 & l & E1 & -> & Hl).
  { destruct (om_get x t1) as [n1|], (om_get x t2) as [n2|]; [| | |done].
    - destruct (compare_nodes_with note _ n1 n2 (p ++ [x]) s0) as [[s2| |]|] eqn:En; try done.
      destruct (compare_nodes_runs _ (compare_trees fo1 fo2 cb fuel) _ _ _ _ _ IH En) as (l & -> & Hl). eauto 8.
    - destruct (Hone (Removed n1) _ eq_refl) as (l & El & Hl). eexists _, l. split; [done|]. split; [exact El|done].
    - destruct (Hone (Added n2) _ eq_refl) as (l & El & Hl). eexists _, l. split; [done|]. split; [exact El|done]. }
  rewrite E1 in E. destruct (IHx _ E) as (l' & -> & Hl'). exists (l ++ l'). split; [by rewrite app_assoc|].
  intros s. rewrite Hl, run_events_app. destruct (run_events l s); cbn [rbind]; auto.
Qed.
End runs.

Lemma node_sub_into fo n d q : n_contents n = CDir d -> q <> [] -> node_sub fo n q = node_at fo d q.
Proof. intros E Hq. destruct q as [|x q]; [done|]. cbn [node_sub node_at]. by rewrite E. Qed.

Lemma os_of_list_snoc l x : os_of_list (l ++ [x]) = os_insert x (os_of_list l).
Proof.
  unfold os_of_list, os_insert. rewrite map_tt_fst. unfold om_of_list. rewrite map_app, foldl_app. done.
Qed.
Lemma elem_of_names l x : x ∈ os_of_list l <-> x ∈ l.
Proof.
  induction l as [|y l IH] using rev_ind; [done|]. rewrite os_of_list_snoc, elem_of_os_insert by apply os_of_list_is_sorted.
  rewrite IH, elem_of_app, elem_of_list_singleton. tauto.
Qed.
Lemma NoDup_names l : NoDup (os_of_list l).
Proof. rewrite <-(map_fst_tt (os_of_list l)). apply om_sorted_nodup, os_of_list_is_sorted. Qed.
Lemma om_get_names {A} x (t : list (bytes * A)) : om_sorted t -> x ∈ map fst t <-> is_Some (om_get x t).
Proof.
  intros Hs. change (map fst t) with (fst <$> t). rewrite elem_of_list_fmap. split.
  - intros ([y n] & -> & Hin). exists n. by apply om_get_elem.
  - intros [n Hn]. exists (x, n). split; [done|]. by apply om_get_elem.
Qed.

Lemma node_at_step fo id t x q n : fo !! id = Some t -> om_get x t = Some n -> node_at fo id (x :: q) = node_sub fo n q.
Proof. intros Ht Hx. cbn [node_at]. rewrite Ht. cbn. by rewrite Hx. Qed.
Lemma node_at_none fo id t x q : fo !! id = Some t -> om_get x t = None -> node_at fo id (x :: q) = None.
Proof. intros Ht Hx. cbn [node_at]. rewrite Ht. cbn. by rewrite Hx. Qed.
Lemma node_sub_prefix fo n q r m : node_sub fo n (q ++ r) = Some m -> exists n', node_sub fo n q = Some n' /\ node_sub fo n' r = Some m.
Proof.
  revert n. induction q as [|x q IH]; intros n E; [by exists n|]. cbn [app node_sub] in *. destruct (n_contents n); [done| |done].
  destruct (fo !! subtree ≫= om_get x); [|done]. cbn in *. by apply IH.
Qed.
Lemma node_sub_app fo n q r n' : node_sub fo n q = Some n' -> node_sub fo n (q ++ r) = node_sub fo n' r.
Proof.
  revert n. induction q as [|x q IH]; intros n E; [by injection E as ->|]. cbn [app node_sub] in *. destruct (n_contents n); [done| |done].
  destruct (fo !! subtree ≫= om_get x); [|done]. cbn in *. by apply IH.
Qed.

(** What the events are. *)
Section compare.
Local Set Default Proof Using "All".
Variables fo1 fo2 : forest.
Hypothesis Hsane1 : map_Forall (fun _ (t : tree) => om_sorted t /\ Forall (fun e : bytes * node => meta_kind (n_meta e.2) = contents_kind (n_contents e.2)) t) fo1.
Hypothesis Hsane2 : map_Forall (fun _ (t : tree) => om_sorted t /\ Forall (fun e : bytes * node => meta_kind (n_meta e.2) = contents_kind (n_contents e.2)) t) fo2.
Hypothesis Hsame : same_ids fo1 fo2.

Definition verdict (o1 o2 : option node) : option event :=
  match o1, o2 with
  | None, None => None
  | None, Some n => Some (Added n)
  | Some n, None => Some (Removed n)
  | Some a, Some b =>
      match n_contents a, n_contents b with
      | CDir d1, CDir d2 =>
          if bool_decide (n_meta a = n_meta b) then (if bool_decide (d1 = d2) then Some (Unchanged a) else None)
          else Some (MetaChanged a b)
      | c1, c2 =>
          Some (if bool_decide (contents_kind c1 = contents_kind c2) then
                  if negb (bool_decide (c1 = c2)) then Changed a b
                  else if negb (bool_decide (n_meta a = n_meta b)) then MetaChanged a b
                  else Unchanged b
                else TypeChanged a b)
      end
  end.

Definition is_dir (o : option node) (d : oid) : Prop := exists n, o = Some n /\ n_contents n = CDir d.

(** All directories on the way to [p] are directories on both sides. *)
Definition comparable (id1 id2 : oid) (p : list bytes) : Prop :=
  forall q r, p = q ++ r -> q <> [] -> r <> [] -> (exists d, is_dir (node_at fo1 id1 q) d) /\ (exists d, is_dir (node_at fo2 id2 q) d).

Definition report (id1 id2 : oid) (l : list (list bytes * event)) : Prop :=
  NoDup (map fst l) /\
  (forall p e, (p, e) ∈ l -> p <> [] /\ comparable id1 id2 p /\ verdict (node_at fo1 id1 p) (node_at fo2 id2 p) = Some e) /\
  (forall p e, comparable id1 id2 p -> verdict (node_at fo1 id1 p) (node_at fo2 id2 p) = Some e -> (forall n, e <> Unchanged n) -> (p, e) ∈ l).

Lemma same_node_at k1 k2 d q : loaded fo1 k1 d -> loaded fo2 k2 d -> node_at fo1 d q = node_at fo2 d q.
Proof.
  revert k1 k2 d. induction q as [|x q IH]; intros k1 k2 d; [done|]. destruct k1 as [|k1], k2 as [|k2]; [done..|].
  intros (t1 & H1 & L1) (t2 & H2 & L2). pose proof (Hsame _ _ _ H1 H2) as ->. cbn [node_at]. rewrite H1, H2. cbn [mbind option_bind].
  destruct (om_get x t2) as [n|] eqn:E; [|done]. cbn. apply om_get_elem in E; [|by eapply Hsane2].
  destruct q as [|y q]; [done|]. destruct (n_contents n) as [cs|d'|tg] eqn:Ec; [cbn; by rewrite Ec| |cbn; by rewrite Ec].
  rewrite !(node_sub_into _ n d') by done. eapply IH; [apply L1|apply L2]; by eapply node_subtree_in.
Qed.
Lemma verdict_same o n : verdict o o = Some n -> exists m, n = Unchanged m.
Proof.
  destruct o as [a|]; [|done]. unfold verdict. destruct (n_contents a); rewrite ?bool_decide_eq_true_2 by done; cbn; intros E; injection E as <-; eauto.
Qed.

Lemma comparable_one id1 id2 x : comparable id1 id2 [x].
Proof. intros q r E Hq Hr. destruct q as [|? [|? ?]], r as [|? ?]; try done. Qed.
Lemma comparable_step id1 id2 t1 t2 x q : fo1 !! id1 = Some t1 -> fo2 !! id2 = Some t2 -> q <> [] ->
  comparable id1 id2 (x :: q) <->
  exists n1 n2 d1 d2, om_get x t1 = Some n1 /\ om_get x t2 = Some n2 /\ n_contents n1 = CDir d1 /\ n_contents n2 = CDir d2 /\ comparable d1 d2 q.
Proof.
  intros Ht1 Ht2 Hq. split.
  - intros Hc. destruct (Hc [x] q eq_refl ltac:(done) Hq) as [(d1 & n1 & E1 & C1) (d2 & n2 & E2 & C2)].
    cbn [node_at] in E1, E2. rewrite Ht1 in E1. rewrite Ht2 in E2. cbn in E1, E2.
    destruct (om_get x t1) as [m1|] eqn:G1; [|done]. destruct (om_get x t2) as [m2|] eqn:G2; [|done]. cbn in E1, E2. injection E1 as ->. injection E2 as ->.
    exists n1, n2, d1, d2. split_and!; try done. intros q' r' -> Hq' Hr'.
    specialize (Hc (x :: q') r' eq_refl ltac:(done) Hr'). rewrite (node_at_step _ _ _ _ _ _ Ht1 G1), (node_at_step _ _ _ _ _ _ Ht2 G2) in Hc.
    by rewrite (node_sub_into _ n1 d1), (node_sub_into _ n2 d2) in Hc.
  - intros (n1 & n2 & d1 & d2 & G1 & G2 & C1 & C2 & Hc) q' r' E Hq' Hr'. destruct q' as [|x' q']; [done|]. cbn [app] in E. injection E as <- ->.
    rewrite (node_at_step _ _ _ _ _ _ Ht1 G1), (node_at_step _ _ _ _ _ _ Ht2 G2). destruct q' as [|y q'].
    + split; [exists d1, n1|exists d2, n2]; done.
    + rewrite (node_sub_into _ n1 d1), (node_sub_into _ n2 d2) by done. by apply (Hc (y :: q') r').
Qed.

(** The events for one name on both sides. *)
Definition node_report (n1 n2 : node) (l : list (list bytes * event)) : Prop :=
  NoDup (map fst l) /\
  (forall q e, (q, e) ∈ l ->
     (q = [] /\ verdict (Some n1) (Some n2) = Some e) \/
     (q <> [] /\ exists d1 d2, n_contents n1 = CDir d1 /\ n_contents n2 = CDir d2 /\ comparable d1 d2 q /\ verdict (node_at fo1 d1 q) (node_at fo2 d2 q) = Some e)) /\
  (forall e, verdict (Some n1) (Some n2) = Some e -> (forall n, e <> Unchanged n) -> ([], e) ∈ l) /\
  (forall q e d1 d2, q <> [] -> n_contents n1 = CDir d1 -> n_contents n2 = CDir d2 -> comparable d1 d2 q ->
     verdict (node_at fo1 d1 q) (node_at fo2 d2 q) = Some e -> (forall n, e <> Unchanged n) -> (q, e) ∈ l).

Definition at_path (p : list bytes) (l : list (list bytes * event)) : list (list bytes * event) := map (fun y => (p ++ y.1, y.2)) l.
Lemma at_path_nil p e : at_path p [([], e)] = [(p, e)].
Proof. unfold at_path. cbn. by rewrite app_nil_r. Qed.

Lemma node_kind_ok n : meta_kind (n_meta n) = contents_kind (n_contents n) -> node_kind n = Ok (contents_kind (n_contents n)).
Proof. intros E. unfold node_kind. by rewrite bool_decide_eq_true_2. Qed.

Lemma node_report_one n1 n2 e :
  verdict (Some n1) (Some n2) = Some e -> (forall d1 d2, n_contents n1 = CDir d1 -> n_contents n2 = CDir d2 -> 
     forall q e', verdict (node_at fo1 d1 q) (node_at fo2 d2 q) = Some e' -> exists n, e' = Unchanged n) ->
  node_report n1 n2 [([], e)].
Proof.
  intros Hv Hd. split; [apply NoDup_singleton|]. split.
  - intros q e' Hin. apply elem_of_list_singleton in Hin. injection Hin as -> ->. by left.
  - split; [intros e' He' _; assert (e' = e) as -> by congruence; by left|]. intros q e' d1 d2 _ C1 C2 _ He' Hu.
    destruct (Hd _ _ C1 C2 _ _ He') as [n ->]. by destruct (Hu n).
Qed.

Lemma compare_nodes_report rec n1 n2 p s s' k1 k2 :
  meta_kind (n_meta n1) = contents_kind (n_contents n1) -> meta_kind (n_meta n2) = contents_kind (n_contents n2) ->
  (forall d, n_contents n1 = CDir d -> loaded fo1 k1 d) -> (forall d, n_contents n2 = CDir d -> loaded fo2 k2 d) ->
  (forall d1 d2 p s s', n_contents n1 = CDir d1 -> n_contents n2 = CDir d2 -> rec d1 d2 p s = Some (Ok s') -> exists l, s' = s ++ at_path p l /\ report d1 d2 l) ->
  compare_nodes_with note rec n1 n2 p s = Some (Ok s') -> exists l, s' = s ++ at_path p l /\ node_report n1 n2 l.
Proof.
  intros K1 K2 L1 L2 Hrec E. unfold compare_nodes_with in E. rewrite (node_kind_ok _ K1), (node_kind_ok _ K2) in E.
  assert (forall e, note p e s = Ok s' -> verdict (Some n1) (Some n2) = Some e -> (forall d1 d2, n_contents n1 = CDir d1 -> n_contents n2 = CDir d2 -> False) ->
     exists l, s' = s ++ at_path p l /\ node_report n1 n2 l) as Hleaf.
  { intros e Ee Hv Hd. injection Ee as <-. exists [([], e)]. rewrite at_path_nil. split; [done|]. apply node_report_one; [done|].
    intros d1 d2 C1 C2. by destruct (Hd d1 d2). }
  unfold verdict in Hleaf.
  destruct (n_contents n1) as [cs1|d1|t1] eqn:C1; destruct (n_contents n2) as [cs2|d2|t2] eqn:C2.
  5: { clear Hleaf. case_bool_decide as Ed.
    - subst d2. assert (forall q e', verdict (node_at fo1 d1 q) (node_at fo2 d1 q) = Some e' -> exists n, e' = Unchanged n) as Hd.
      { intros q e'. rewrite (same_node_at k1 k2) by auto. apply verdict_same. }
      assert (forall d2 d3, n_contents n1 = CDir d2 -> n_contents n2 = CDir d3 -> forall q e', verdict (node_at fo1 d2 q) (node_at fo2 d3 q) = Some e' -> exists n, e' = Unchanged n) as Hd'.
      { intros d2 d3 E1 E2. rewrite C1 in E1. rewrite C2 in E2. injection E1 as <-. injection E2 as <-. done. }
      cbn [rbind andb] in E. injection E as E. case_bool_decide as Em; cbn [rbind andb note] in E; injection E as <-; eexists [([], _)]; rewrite at_path_nil;
        (split; [done|]; apply node_report_one; [|done]); unfold verdict; rewrite C1, C2.
      + by rewrite !bool_decide_eq_true_2.
      + by rewrite bool_decide_eq_false_2.
    - cbn [rbind andb] in E. destruct (rec d1 d2 p s) as [[s2| |]|] eqn:Er; try done.
      destruct (Hrec _ _ _ _ _ eq_refl eq_refl Er) as (l & -> & Hn & Hsound & Hcomp).
      injection E as E. exists (l ++ if bool_decide (n_meta n1 = n_meta n2) then [] else [([], MetaChanged n1 n2)]). split.
      + unfold at_path. rewrite map_app. case_bool_decide; injection E as <-; [by rewrite app_nil_r|]. cbn. by rewrite app_nil_r, app_assoc.
      + split; [|split; [|split]].
        * rewrite map_app. apply NoDup_app. split; [done|]. split; [|case_bool_decide; [constructor|apply NoDup_singleton]].
          intros q Hq. case_bool_decide; [by intros ?%elem_of_nil|]. cbn. intros ->%elem_of_list_singleton.
          change (map fst l) with (fst <$> l) in Hq. apply elem_of_list_fmap in Hq as ([q e] & E' & Hq). simpl in E'. subst q. by destruct (Hsound _ _ Hq) as [? _].
        * intros q e [Hin|Hin]%elem_of_app.
          -- right. destruct (Hsound _ _ Hin) as (Hq & H1 & H2). split; [done|]. eauto 8.
          -- left. case_bool_decide; [by apply elem_of_nil in Hin|]. apply elem_of_list_singleton in Hin. injection Hin as -> ->. split; [done|].
             unfold verdict. rewrite C1, C2. by rewrite bool_decide_eq_false_2.
        * intros e He Hu. unfold verdict in He. rewrite C1, C2 in He. apply elem_of_app. right. case_bool_decide.
          -- rewrite bool_decide_eq_false_2 in He by done. done.
          -- injection He as <-. by left.
        * intros q e d1' d2' Hq E1 E2 H1 H2 H3. rewrite C1 in E1. rewrite C2 in E2. injection E1 as <-. injection E2 as <-. apply elem_of_app. left. by apply Hcomp. }
  all: apply (inj Some) in E.
  all: destruct (bool_decide (contents_kind _ = contents_kind _)) eqn:Ek; [|by eapply Hleaf; [exact E|done|congruence]].
  all: destruct (bool_decide (_ = _ :> contents)) eqn:Ec; cbn [negb] in *; [|by eapply Hleaf; [exact E|done|congruence]].
  all: destruct (bool_decide (n_meta n1 = n_meta n2)) eqn:Em; cbn [negb] in *; by eapply Hleaf; [exact E|done|congruence].
Qed.

(** The events for some of the names. *)
Definition names_report (id1 id2 : oid) (xs : list bytes) (l : list (list bytes * event)) : Prop :=
  NoDup (map fst l) /\
  (forall p e, (p, e) ∈ l -> exists x q, p = x :: q /\ x ∈ xs /\ comparable id1 id2 p /\ verdict (node_at fo1 id1 p) (node_at fo2 id2 p) = Some e) /\
  (forall x q e, x ∈ xs -> comparable id1 id2 (x :: q) -> verdict (node_at fo1 id1 (x :: q)) (node_at fo2 id2 (x :: q)) = Some e ->
     (forall n, e <> Unchanged n) -> (x :: q, e) ∈ l).

Definition events_below (x : bytes) (l : list (list bytes * event)) : list (list bytes * event) := map (fun y => (x :: y.1, y.2)) l.
Lemma elem_of_events_below x l p e : (p, e) ∈ events_below x l <-> exists q, p = x :: q /\ (q, e) ∈ l.
Proof.
  unfold events_below. change (map ?f ?l) with (f <$> l). rewrite elem_of_list_fmap. split.
  - intros ([q e'] & E & Hin). cbn [fst snd] in E. injection E as -> ->. eauto.
  - intros (q & -> & Hin). by exists (q, e).
Qed.
Lemma names_report_cons id1 id2 x xs l1 l2 : x ∉ xs ->
  NoDup (map fst l1) ->
  (forall q e, (q, e) ∈ l1 -> comparable id1 id2 (x :: q) /\ verdict (node_at fo1 id1 (x :: q)) (node_at fo2 id2 (x :: q)) = Some e) ->
  (forall q e, comparable id1 id2 (x :: q) -> verdict (node_at fo1 id1 (x :: q)) (node_at fo2 id2 (x :: q)) = Some e -> (forall n, e <> Unchanged n) -> (q, e) ∈ l1) ->
  names_report id1 id2 xs l2 -> names_report id1 id2 (x :: xs) (events_below x l1 ++ l2).
Proof.
  intros Hx Hn Hs Hc (Hn2 & Hs2 & Hc2). split; [|split].
  - rewrite map_app. apply NoDup_app. split; [|split; [|done]].
    + unfold events_below. rewrite map_map. cbn [fst]. rewrite <-(map_map fst (cons x)). change (map (cons x) ?l) with (cons x <$> l).
      apply NoDup_fmap_2; [intros ? ? E; by injection E|done].
    + intros p H1 H2. change (map fst ?l) with (fst <$> l) in *. apply elem_of_list_fmap in H1 as ([p1 e1] & -> & H1). apply elem_of_list_fmap in H2 as ([p2 e2] & E & H2).
      apply elem_of_events_below in H1 as (q & -> & _). apply Hs2 in H2 as (y & q' & -> & Hy & _). cbn in E. injection E as -> ->. done.
  - intros p e [Hin|Hin]%elem_of_app.
    + apply elem_of_events_below in Hin as (q & -> & Hin). exists x, q. split; [done|]. split; [by left|]. by apply Hs.
    + apply Hs2 in Hin as (y & q & -> & Hy & H1 & H2). exists y, q. split; [done|]. split; [by right|]. done.
  - intros y q e [->|Hy]%elem_of_cons H1 H2 H3; apply elem_of_app; [left; apply elem_of_events_below; eauto|right; by apply Hc2].
Qed.

Lemma compare_trees_report fuel id1 id2 p s s' k1 k2 : loaded fo1 k1 id1 -> loaded fo2 k2 id2 ->
  compare_trees fo1 fo2 note fuel id1 id2 p s = Some (Ok s') -> exists l, s' = s ++ at_path p l /\ report id1 id2 l.
Proof.
  revert id1 id2 p s s' k1 k2. induction fuel as [|fuel IH]; intros id1 id2 p s s' k1 k2 L1 L2 E; [done|]. cbn [compare_trees] in E.
  destruct (fo1 !! id1) as [t1|] eqn:Ht1; [|done]. destruct (fo2 !! id2) as [t2|] eqn:Ht2; [|done].
  destruct k1 as [|k1]; [done|]. destruct k2 as [|k2]; [done|]. destruct L1 as (? & E1 & L1). rewrite Ht1 in E1. injection E1 as <-.
  destruct L2 as (? & E2 & L2). rewrite Ht2 in E2. injection E2 as <-.
  destruct (Hsane1 _ _ Ht1) as [S1 M1]. destruct (Hsane2 _ _ Ht2) as [S2 M2]. rewrite Forall_forall in M1, M2.
  assert (forall x, x ∈ os_of_list (map fst t1 ++ map fst t2) <-> (is_Some (om_get x t1) \/ is_Some (om_get x t2))) as Hnames.
  { intros x. rewrite elem_of_names, elem_of_app, !om_get_names by done. done. }
  assert (NoDup (os_of_list (map fst t1 ++ map fst t2))) as Hnd by apply NoDup_names.
  assert (exists l, s' = s ++ at_path p l /\ names_report id1 id2 (os_of_list (map fst t1 ++ map fst t2)) l) as (l & -> & Hl).
  { clear Hnames. revert s E Hnd. generalize (os_of_list (map fst t1 ++ map fst t2)) as xs. induction xs as [|x xs IHx]; intros s E Hnd; cbn [ofold] in E.
    { injection E as <-. exists []. cbn. rewrite app_nil_r. split; [done|]. split; [constructor|]. split.
      - intros ? ? Hin. by apply elem_of_nil in Hin.
      - intros ? ? ? Hin. by apply elem_of_nil in Hin. }
    apply NoDup_cons in Hnd as [Hx Hnd].
    assert (forall l1 s2, s2 = s ++ at_path (p ++ [x]) l1 -> ofold (fun x s =>
            match om_get x t1, om_get x t2 with
            | None, None => Some Panic
            | None, Some n => Some (note (p ++ [x]) (Added n) s)
            | Some n, None => Some (note (p ++ [x]) (Removed n) s)
            | Some n1, Some n2 => compare_nodes_with note (compare_trees fo1 fo2 note fuel) n1 n2 (p ++ [x]) s
            end) xs s2 = Some (Ok s') ->
        NoDup (map fst l1) ->
        (forall q e, (q, e) ∈ l1 -> comparable id1 id2 (x :: q) /\ verdict (node_at fo1 id1 (x :: q)) (node_at fo2 id2 (x :: q)) = Some e) ->
        (forall q e, comparable id1 id2 (x :: q) -> verdict (node_at fo1 id1 (x :: q)) (node_at fo2 id2 (x :: q)) = Some e -> (forall n, e <> Unchanged n) -> (q, e) ∈ l1) ->
        exists l, s' = s ++ at_path p l /\ names_report id1 id2 (x :: xs) l) as Hstep.
    { intros l1 s2 -> E2 H1 H2 H3. destruct (IHx _ E2 Hnd) as (l & -> & Hl). exists (events_below x l1 ++ l). split.
      - unfold at_path, events_below. rewrite map_app, map_map, <-app_assoc. f_equal. f_equal. apply map_ext. intros [q e]. cbn. by rewrite <-app_assoc.
      - by apply names_report_cons. }
    destruct (om_get x t1) as [n1|] eqn:G1; destruct (om_get x t2) as [n2|] eqn:G2; [| | |done].
    - destruct (compare_nodes_with note _ n1 n2 (p ++ [x]) s) as [[s2| |]|] eqn:En; try done.
      apply om_get_elem in G1 as I1; [|done]. apply om_get_elem in G2 as I2; [|done].
      destruct (compare_nodes_report _ n1 n2 _ _ _ k1 k2 (M1 _ I1) (M2 _ I2) ltac:(intros; apply L1; by eapply node_subtree_in)
        ltac:(intros; apply L2; by eapply node_subtree_in) ltac:(intros; eapply IH; [apply L1; by eapply node_subtree_in|apply L2; by eapply node_subtree_in|done]) En)
        as (l1 & -> & R1 & R2 & R3 & R4).
      eapply Hstep; [done|exact E|done| |].
      + intros q e Hin. apply R2 in Hin as [[-> Hv]|(Hq & d1 & d2 & C1 & C2 & Hc & Hv)].
        * split; [apply comparable_one|]. by rewrite (node_at_step _ _ _ _ _ _ Ht1 G1), (node_at_step _ _ _ _ _ _ Ht2 G2).
        * split; [eapply comparable_step; eauto 12|]. by rewrite (node_at_step _ _ _ _ _ _ Ht1 G1), (node_at_step _ _ _ _ _ _ Ht2 G2), (node_sub_into _ n1 d1), (node_sub_into _ n2 d2).
      + intros q e Hc Hv Hu. rewrite (node_at_step _ _ _ _ _ _ Ht1 G1), (node_at_step _ _ _ _ _ _ Ht2 G2) in Hv. destruct q as [|y q]; [by apply R3|].
        apply (comparable_step _ _ _ _ _ _ Ht1 Ht2) in Hc as (m1 & m2 & d1 & d2 & G1' & G2' & C1 & C2 & Hc); [|done].
        rewrite G1 in G1'. rewrite G2 in G2'. injection G1' as <-. injection G2' as <-. rewrite (node_sub_into _ n1 d1), (node_sub_into _ n2 d2) in Hv by done.
        by eapply R4.
    - eapply (Hstep [([], Removed n1)]); [by rewrite at_path_nil|exact E|apply NoDup_singleton| |].
      + intros q e Hin. apply elem_of_list_singleton in Hin. injection Hin as -> ->. split; [apply comparable_one|].
        by rewrite (node_at_step _ _ _ _ _ _ Ht1 G1), (node_at_none _ _ _ _ _ Ht2 G2).
      + intros q e Hc Hv _. rewrite (node_at_step _ _ _ _ _ _ Ht1 G1), (node_at_none _ _ _ _ _ Ht2 G2) in Hv. destruct q as [|y q].
        * cbn in Hv. injection Hv as <-. by left.
        * apply (comparable_step _ _ _ _ _ _ Ht1 Ht2) in Hc as (m1 & m2 & d1 & d2 & G1' & G2' & _); [congruence|done].
    - eapply (Hstep [([], Added n2)]); [by rewrite at_path_nil|exact E|apply NoDup_singleton| |].
      + intros q e Hin. apply elem_of_list_singleton in Hin. injection Hin as -> ->. split; [apply comparable_one|].
        by rewrite (node_at_none _ _ _ _ _ Ht1 G1), (node_at_step _ _ _ _ _ _ Ht2 G2).
      + intros q e Hc Hv _. rewrite (node_at_none _ _ _ _ _ Ht1 G1), (node_at_step _ _ _ _ _ _ Ht2 G2) in Hv. destruct q as [|y q].
        * cbn in Hv. injection Hv as <-. by left.
        * apply (comparable_step _ _ _ _ _ _ Ht1 Ht2) in Hc as (m1 & m2 & d1 & d2 & G1' & G2' & _); [congruence|done]. }
  exists l. split; [done|]. destruct Hl as (H1 & H2 & H3). split; [done|]. split.
  - intros q e Hin. apply H2 in Hin as (x & q' & -> & _ & Hc & Hv). done.
  - intros [|x q] e Hc Hv Hu; [done|]. apply H3; [|done..]. apply Hnames.
    destruct (om_get x t1) as [n1|] eqn:G1; [left; eauto|]. destruct (om_get x t2) as [n2|] eqn:G2; [right; eauto|].
    rewrite (node_at_none _ _ _ _ _ Ht1 G1), (node_at_none _ _ _ _ _ Ht2 G2) in Hv. done.
Qed.
End compare.
