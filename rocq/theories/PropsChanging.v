(** Files that change while they are backed up: C63. *)

From Verif Require Import Base OMap Cbor Formats FormatsFacts Hashing Pack Meta Forest
  FsTree FsSpec FsFacts BackupFacts Toy PropsBackup Changing.

(** ** Specification *)

(** The modification time and the size tell: a file that has the same at two times has
    had the same contents all the time in between. *)
Definition stamps_tell (w : world) : Prop :=
  forall path t1 t2 m1 c1 m2 c2, t1 <= t2 ->
    w t1 path = Some (TFile m1 c1) -> w t2 path = Some (TFile m2 c2) ->
    meta_mtime m1 = meta_mtime m2 -> meta_size m1 = meta_size m2 -> stays w path t1 t2 c1.

(** The absolute path of a place in a snapshot of some paths. *)
Definition absolute (paths : list (bytes * bytes)) (p : list bytes) (path : bytes) : Prop :=
  exists top x q, p = x :: q /\ (top, x) ∈ paths /\ path = foldl join top q.

(** ** Facts *)

Scheme looks_mind := Induction for looks Sort Prop
  with looks_all_mind := Induction for looks_all Sort Prop.

Lemma looks_time w filter t path n t' : looks w filter t path n t' -> t <= t'.
Proof.
  revert t path n t'. apply (looks_mind w filter (fun t _ _ t' _ => t <= t') (fun t _ _ t' _ => t <= t')); intros; lia.
Qed.
Lemma looks_all_time w filter t path es t' : looks_all w filter t path es t' -> t <= t'.
Proof. induction 1 as [|t1 t2 t3 path x n es Hl _ IH]; [done|]. apply looks_time in Hl. lia. Qed.
Lemma looks_all_in w filter t path es t' x n : looks_all w filter t path es t' -> (x, n) ∈ es ->
  exists s s', t <= s /\ s' <= t' /\ looks w filter s (join path x) n s'.
Proof.
  induction 1 as [|t1 t2 t3 path y n' es Hl Ha IH]; [intros Hx; by apply elem_of_nil in Hx|]. intros [[= -> ->]|Hx]%elem_of_cons.
  - exists t1, t2. split; [done|]. split; [by eapply looks_all_time|done].
  - apply IH in Hx as (s & s' & ? & ? & ?). apply looks_time in Hl. exists s, s'. split; [lia|done].
Qed.
Lemma looks_paths_in w filter t ps t' path x n : looks_paths w filter t ps t' -> (path, x, n) ∈ ps ->
  exists s s', t <= s /\ s' <= t' /\ looks w filter s path n s'.
Proof.
  intros Hp. assert (t <= t') as Ht by (induction Hp as [|t1 t2 t3 q y n' ps Hl]; [done|]; apply looks_time in Hl; lia). revert Ht.
  induction Hp as [|t1 t2 t3 q y n' ps Hl Ha IH]; [intros _ Hx; by apply elem_of_nil in Hx|]. intros _ Hx.
  assert (t2 <= t3) as Ht2 by (clear -Ha; induction Ha as [|t1 t2 t3 q y n' ps Hl]; [done|]; apply looks_time in Hl; lia).
  apply elem_of_cons in Hx as [[= -> -> ->]|Hx].
  - by exists t1, t2.
  - apply IH in Hx as (s & s' & ? & ? & ?); [|done]. apply looks_time in Hl. exists s, s'. split; [lia|done].
Qed.

(** What was seen of a file. *)
Lemma looks_file_at w filter cuts deref q : forall t path n t' n' m c,
  looks w filter t path n t' -> fs_ok cuts deref n -> kept filter path n = Some n' -> fs_sub n' q = Some (FsFile m c) ->
  exists t1 c0, t <= t1 <= t' /\ w t1 (foldl join path q) = Some (TFile m c0) /\ forall c1, stays w (foldl join path q) t1 t' c1 -> c = c1.
Proof.
  induction q as [|x q IH]; intros t path n t' n' m c Hl Hok Hk Hs.
  - simpl in Hs. injection Hs as ->. destruct Hl as [t path n Hf|t t1 t2 path m' c0 c' Ht Hw Hc|t t1 t2 t3 path m' ns0 m2 ns es Ht H1 H2 Ha Hns|t t1 t2 path m' tg0 m2 tg Ht H1 H2|t t1 path m' Ht H1];
      simpl in Hk; try (destruct (filter path); simpl in Hk; congruence).
    + by destruct n; simpl in Hk; rewrite Hf in Hk.
    + destruct (filter path); simpl in Hk; [|done]. injection Hk as -> ->. by exists t1, c0.
  - destruct Hl as [t path n Hf|t t1 t2 path m' c0 c' Ht Hw Hc|t t1 t2 t3 path m' ns0 m2 ns es Ht H1 H2 Ha Hns|t t1 t2 path m' tg0 m2 tg Ht H1 H2|t t1 path m' Ht H1];
      simpl in Hk.
    + by destruct n; simpl in Hk; rewrite Hf in Hk.
    + destruct (filter path); simpl in Hk; [|done]. by injection Hk as <-.
    + destruct (filter path); simpl in Hk; [|done]. injection Hk as <-. simpl in Hs.
      apply fs_ok_dir in Hok as (_ & _ & _ & Hnd & Hall).
      destruct (om_get x _) as [k|] eqn:Ek in Hs; [|done]. simpl in Hs. apply om_get_of_list in Ek; [|by apply collect_nodup].
      apply collect_elem in Ek as ([x' n1] & He & <- & Hk1). simpl in Hk1, Hs.
      destruct (looks_all_in _ _ _ _ _ _ _ _ Ha He) as (s & s' & Hs1 & Hs2 & Hl1).
      eapply Forall_forall in Hall as [_ Hok1]; [|exact He].
      destruct (IH _ _ _ _ _ _ _ Hl1 Hok1 Hk1 Hs) as (u & c0 & Hu & Hw & Hc). exists u, c0. split; [lia|]. split; [exact Hw|].
      intros c1 Hst. apply Hc. intros v Hv. apply Hst. lia.
    + destruct (filter path); simpl in Hk; [|done]. by injection Hk as <-.
    + by destruct (filter path).
Qed.

Lemma node_sub_weaken pf fo nd p n : pf ⊆ fo -> node_sub pf nd p = Some n -> node_sub fo nd p = Some n.
Proof.
  intros Hsub. revert nd. induction p as [|x p IH]; intros nd; [done|]. simpl. destruct (n_contents nd) as [|s|]; try done.
  destruct (pf !! s) as [t|] eqn:Et; [|done]. rewrite (lookup_weaken _ _ _ _ Et Hsub). simpl. destruct (om_get x t); simpl; [apply IH|done].
Qed.
Lemma node_at_weaken pf fo r p n : pf ⊆ fo -> node_at pf r p = Some n -> node_at fo r p = Some n.
Proof.
  intros Hsub. destruct p as [|x p]; [done|]. simpl. destruct (pf !! r) as [t|] eqn:Et; [|done]. rewrite (lookup_weaken _ _ _ _ Et Hsub). simpl.
  destruct (om_get x t); simpl; [by apply node_sub_weaken|done].
Qed.

(** What a backup records of a file it saw. *)
Lemma recorded_file H cuts deref filter pf parent paths packed fo p m c s root :
  forest_sane pf -> paths_ok cuts deref paths ->
  (forall t, ITree t ∈ plan_all H cuts filter pf parent paths -> fo !! tree_id H t = Some t) ->
  backup_tree H cuts deref filter pf parent paths packed = Ok (s, root) ->
  fs_at (kept_paths filter paths) p = Some (FsFile m c) ->
  exists nd, node_at fo root p = Some nd /\ n_meta nd = m /\
    n_contents nd = recorded H cuts (parent ≫= (fun r => node_at pf r p)) m c.
Proof.
  intros Hpf Hok Hfo E Hat. rewrite backup_tree_plan in E by done.
  assert (root = plan_root H cuts filter pf parent paths) as -> by congruence. clear E.
  destruct Hok as (_ & Hnd & Hall). destruct p as [|x p]; [done|]. cbn [fs_at] in Hat.
  destruct (om_get x (kept_paths filter paths)) as [k|] eqn:Ek; [|done]. simpl in Hat.
  unfold kept_paths in Ek. apply om_get_of_list in Ek; [|by apply collect_nodup].
  apply collect_elem in Ek as (e & He & <- & Hk).
  eapply Forall_forall in Hall as [_ Hoke]; [|exact He].
  set (f := fun e : fspath => plan H cuts filter pf e.1.1 ((parent ≫= (fun id => pf !! id)) ≫= om_get e.1.2) e.2).
  destruct (f e) as [[nde ise]|] eqn:Ef.
  2: { exfalso. assert (is_Some (f e)) as [y Hy]; [|congruence]. apply plan_kept. eauto. }
  destruct (plan_node_sub H cuts filter deref pf fo e.2 e.1.1 _ nde ise k p m c Hoke Ef Hk) as (nd & E1 & E2 & E3); [|done|].
  { intros t Ht. apply Hfo. unfold plan_all, plan_list. by eapply plan_items_sub. }
  exists nd. unfold plan_root, plan_list. fold f. cbn [node_at].
  rewrite has_trees_root.
  2: { intros t Ht. apply Hfo. exact Ht. }
  simpl. rewrite (plan_tree_get (fun e : fspath => e.1.2) f paths e nde ise) by done. simpl.
  split; [done|]. split; [done|]. rewrite E3. destruct parent as [r|]; done.
Qed.

(** A file in the snapshot was seen as a file. *)
Lemma plan_node_file H cuts filter deref pf fo n : forall path prev nd is p nd' ids,
  fs_ok cuts deref n -> plan H cuts filter pf path prev n = Some (nd, is) ->
  has_trees H fo is -> node_sub fo nd p = Some nd' -> n_contents nd' = CFile ids ->
  exists n' m c, kept filter path n = Some n' /\ fs_sub n' p = Some (FsFile m c).
Proof.
  induction n as [m0 c0|m0 es IH|m0 tg|m0] using fsnode_ind'; intros path prev nd is p nd' ids Hok Hp Ht Hs Hc;
    cbn [plan kept] in Hp |- *; destruct (filter path); simpl in Hp |- *; try done.
  - assert (forall d, n_contents nd <> CDir d) as Hnd.
    { intros d. destruct prev as [q|]; [destruct (looks_unchanged (Some q) m0) eqn:El; simpl in El; try rewrite El in Hp|]; injection Hp as <- <-; simpl; try done.
      apply andb_true_iff in El as [[El _]%andb_true_iff _]. apply bool_decide_eq_true in El. intros E. by rewrite E in El. }
    destruct p as [|x p]; [by exists (FsFile m0 c0), m0, c0|]. simpl in Hs. destruct (n_contents nd) as [| |] eqn:E; try done. by destruct (Hnd subtree).
  - injection Hp as <- <-. apply fs_ok_dir in Hok as (_ & _ & _ & Hnd & Hall).
    set (f := fun e : bytes * fsnode => plan H cuts filter pf (join path e.1) (ptree_of pf prev ≫= om_get e.1) e.2) in *.
    destruct p as [|x p]; [simpl in Hs; injection Hs as <-; done|]. cbn [node_sub n_contents] in Hs.
    rewrite (has_trees_root H) in Hs by done. simpl in Hs. destruct (om_get x _) as [nd1|] eqn:Ex in Hs; [|done]. simpl in Hs.
    apply om_get_of_list in Ex; [|rewrite <-list_fmap_compose; by apply collect_nodup].
    apply elem_of_list_fmap in Ex as ([x' [nd2 is2]] & [= -> ->] & Hin). apply collect_elem in Hin as (e & He & Hx & Hf). simpl in Hx. subst x'.
    eapply Forall_forall in IH; [|exact He]. eapply Forall_forall in Hall as [_ Hok]; [|exact He].
    destruct (IH (join path e.1) (ptree_of pf prev ≫= om_get e.1) nd2 is2 p nd' ids) as (n1 & m & c & Hk & Hs'); try done.
    { intros t Hit. apply Ht. by eapply plan_items_sub. }
    eexists _, m, c. split; [reflexivity|]. cbn [fs_sub].
    assert (om_get e.1 (om_of_list (collect fst (fun e : bytes * fsnode => kept filter (join path e.1) e.2) es)) = Some n1) as ->; [|done].
    apply om_get_of_list; [by apply collect_nodup|]. apply collect_elem. by exists e.
  - injection Hp as <- <-. destruct p as [|x p]; [simpl in Hs; injection Hs as <-; done|done].
Qed.
Lemma seen_file H cuts deref filter pf parent paths packed fo p s root nd ids :
  forest_sane pf -> paths_ok cuts deref paths ->
  (forall t, ITree t ∈ plan_all H cuts filter pf parent paths -> fo !! tree_id H t = Some t) ->
  backup_tree H cuts deref filter pf parent paths packed = Ok (s, root) ->
  node_at fo root p = Some nd -> n_contents nd = CFile ids ->
  exists m c, fs_at (kept_paths filter paths) p = Some (FsFile m c).
Proof.
  intros Hpf Hok Hfo E Hat Hc. rewrite backup_tree_plan in E by done.
  assert (root = plan_root H cuts filter pf parent paths) as -> by congruence. clear E.
  destruct Hok as (_ & Hnd & Hall). destruct p as [|x p]; [done|]. cbn [node_at] in Hat. unfold plan_root in Hat.
  rewrite (has_trees_root H) in Hat by exact Hfo. simpl in Hat. destruct (om_get x _) as [nd1|] eqn:Ex in Hat; [|done]. simpl in Hat.
  unfold plan_tree, plan_list in Ex. apply om_get_of_list in Ex; [|rewrite <-list_fmap_compose; by apply collect_nodup].
  apply elem_of_list_fmap in Ex as ([x' [nd2 is2]] & [= -> ->] & Hin). apply collect_elem in Hin as (e & He & Hx & Hf). simpl in Hx. subst x'.
  eapply Forall_forall in Hall as [_ Hoke]; [|exact He].
  destruct (plan_node_file H cuts filter deref pf fo e.2 _ _ _ _ p nd ids Hoke Hf) as (n1 & m & c & Hk & Hs'); try done.
  { intros t Hit. apply Hfo. unfold plan_all, plan_list. by eapply plan_items_sub. }
  exists m, c. cbn [fs_at]. assert (om_get e.1.2 (kept_paths filter paths) = Some n1) as ->; [|done].
  unfold kept_paths. apply om_get_of_list; [by apply collect_nodup|]. apply collect_elem. by exists e.
Qed.

Lemma key_once {A B} (f : A -> B) l a b : NoDup (map f l) -> a ∈ l -> b ∈ l -> f a = f b -> a = b.
Proof.
  intros Hnd [i Hi]%elem_of_list_lookup [j Hj]%elem_of_list_lookup E.
  assert (i = j) as ->; [|congruence]. eapply (NoDup_lookup (map f l)); [done|..]; rewrite list_lookup_fmap; [by rewrite Hi|rewrite Hj; simpl; by rewrite E].
Qed.
(** When and where a file of the walk was seen. *)
Lemma looked_at w filter cuts deref paths from to p m c path :
  paths_ok cuts deref paths -> looks_paths w filter from paths to -> fs_at (kept_paths filter paths) p = Some (FsFile m c) ->
  absolute (map fst paths) p path ->
  exists t c0, from <= t <= to /\ w t path = Some (TFile m c0) /\ forall c1, stays w path t to c1 -> c = c1.
Proof.
  intros (_ & Hnd & Hall) Hl Hat (top & x & q & -> & Htop & ->). cbn [fs_at] in Hat.
  destruct (om_get x (kept_paths filter paths)) as [k|] eqn:Ek; [|done]. simpl in Hat.
  unfold kept_paths in Ek. apply om_get_of_list in Ek; [|by apply collect_nodup].
  apply collect_elem in Ek as ([[top' x'] n] & He & Hx & Hk). simpl in Hx, Hk. subst x'.
  assert (top' = top) as ->.
  { apply elem_of_list_fmap in Htop as ([[top2 x2] n2] & [= -> ->] & He2).
    assert ((top', x2, n) = (top2, x2, n2)) as E; [|by injection E].
    eapply (key_once (fun e : fspath => e.1.2)); eauto. }
  destruct (looks_paths_in _ _ _ _ _ _ _ _ Hl He) as (s & s' & Hs1 & Hs2 & Hl1).
  eapply Forall_forall in Hall as [_ Hok1]; [|exact He].
  destruct (looks_file_at w filter cuts deref q _ _ _ _ _ _ _ Hl1 Hok1 Hk Hat) as (u & c0 & Hu & Hw & Hc).
  exists u, c0. split; [lia|]. split; [exact Hw|]. intros c1 Hst. apply Hc. intros v Hv. apply Hst. lia.
Qed.
Lemma looked_at_all paths cuts deref filter p m c : paths_ok cuts deref paths -> fs_at (kept_paths filter paths) p = Some (FsFile m c) ->
  exists path, absolute (map fst paths) p path.
Proof.
  intros (_ & Hnd & _) Hat. destruct p as [|x q]; [done|]. cbn [fs_at] in Hat. destruct (om_get x _) as [k|] eqn:Ek; [|done].
  unfold kept_paths in Ek. apply om_get_of_list in Ek; [|by apply collect_nodup]. apply collect_elem in Ek as ([[top x'] n] & He & Hx & _). simpl in Hx. subst x'.
  exists (foldl join top q), top, x, q. split; [done|]. split; [|done]. apply elem_of_list_fmap. by exists (top, x, n).
Qed.

(** What holds for each backup of a history: a file it recorded has, as long as its
    stamps are those recorded, the contents recorded. *)
Definition trustworthy (H : bytes -> oid) (cuts : bytes -> list bytes) (w : world) (fo : forest) (r : backup_run) : Prop :=
  forall p path nd ids t m c, absolute (map fst (br_paths r)) p path -> node_at fo (br_root r) p = Some nd -> n_contents nd = CFile ids ->
    br_to r <= t -> w t path = Some (TFile m c) -> meta_mtime m = meta_mtime (n_meta nd) -> meta_size m = meta_size (n_meta nd) ->
    ids = map H (cuts c).

(** One backup: what it records of a file, in terms of when it was looked at. *)
Lemma run_records H cuts w fo rs r pf parent packed s p path nd ids :
  Forall (trustworthy H cuts w fo) rs ->
  (parent = None \/ exists r0, r0 ∈ rs /\ br_to r0 <= br_from r /\ map fst (br_paths r0) = map fst (br_paths r) /\ parent = Some (br_root r0)) ->
  pf ⊆ fo -> forest_sane pf -> paths_ok cuts (br_deref r) (br_paths r) ->
  looks_paths w (br_filter r) (br_from r) (br_paths r) (br_to r) ->
  backup_tree H cuts (br_deref r) (br_filter r) pf parent (br_paths r) packed = Ok (s, br_root r) ->
  (forall t, ITree t ∈ plan_all H cuts (br_filter r) pf parent (br_paths r) -> fo !! tree_id H t = Some t) ->
  absolute (map fst (br_paths r)) p path -> node_at fo (br_root r) p = Some nd -> n_contents nd = CFile ids ->
  exists t c0, br_from r <= t <= br_to r /\ w t path = Some (TFile (n_meta nd) c0) /\
    forall c, stays w path t (br_to r) c -> ids = map H (cuts c).
Proof.
  intros Htr Hpar Hsub Hpf Hok Hl E Hfo Habs Hat Hc.
  destruct (seen_file H cuts _ _ _ _ _ _ _ _ _ _ _ _ Hpf Hok Hfo E Hat Hc) as (m & c & Hseen).
  destruct (recorded_file H cuts _ _ _ _ _ _ _ _ _ _ _ _ Hpf Hok Hfo E Hseen) as (nd' & Hat' & Hm & Hrec).
  assert (nd' = nd) as -> by congruence. clear Hat'.
  destruct (looked_at w _ cuts _ _ _ _ _ _ _ _ Hok Hl Hseen Habs) as (t & c0 & Ht & Hw & Hread).
  exists t, c0. split; [done|]. split; [by rewrite Hm|]. intros c1 Hst. rewrite Hc in Hrec.
  assert (c0 = c1) as ->. { destruct (Hst t) as [m' E']; [lia|]. rewrite Hw in E'. by injection E'. }
  unfold recorded in Hrec. destruct (parent ≫= (fun r => node_at pf r p)) as [old|] eqn:Eold; [|injection Hrec as ->; by rewrite (Hread c1 Hst)].
  destruct (looks_unchanged (Some old) m) eqn:El; [|injection Hrec as ->; by rewrite (Hread c1 Hst)].
  simpl in El. apply andb_true_iff in El as [[E1 E2]%andb_true_iff E3]. apply bool_decide_eq_true in E1, E2, E3.
  destruct Hpar as [->|(r0 & Hr0 & Hle & Hpaths & ->)]; [done|]. simpl in Eold.
  eapply Forall_forall in Htr; [|exact Hr0]. symmetry in Hrec. rewrite <-Hpaths in Habs.
  apply (Htr p path old ids t m c1 Habs); [by eapply node_at_weaken|exact Hrec|lia|exact Hw|exact E2|exact E3].
Qed.
Lemma history_trustworthy H cuts w fo rs : stamps_tell w -> history H cuts w fo rs -> Forall (trustworthy H cuts w fo) rs.
Proof.
  intros Hst. induction 1 as [|rs r pf parent packed s Hh IH Hpar Hsub Hpf Hok Hl E Hfo]; [constructor|].
  apply Forall_app. split; [exact IH|]. constructor; [|constructor].
  intros p path nd ids t m c Habs Hat Hc Ht Hw E1 E2.
  destruct (run_records H cuts w fo rs r pf parent packed s p path nd ids IH Hpar Hsub Hpf Hok Hl E Hfo Habs Hat Hc) as (t1 & c0 & Ht1 & Hw1 & Hrec).
  assert (stays w path t1 t c0) as Hs by (eapply (Hst path t1 t); try done; lia).
  assert (c0 = c) as ->. { destruct (Hs t) as [m' E']; [lia|]. rewrite Hw in E'. by injection E'. }
  apply Hrec. intros v Hv. apply Hs. lia.
Qed.

(** * C63: what changes while a backup runs is not lost on the next one *)

(** Files change at any time, also while they are backed up, as long as modification
    time and size tell.  Then in every backup of every history each file that keeps its
    contents while that backup runs is recorded with them, and with metadata it had
    meanwhile: also if it changed during an earlier backup, after its metadata or part of
    its contents had been read. *)
Theorem C63_steady_files_are_recorded H cuts w fo rs r p path nd ids c :
  stamps_tell w -> history H cuts w fo rs -> r ∈ rs ->
  absolute (map fst (br_paths r)) p path -> node_at fo (br_root r) p = Some nd -> n_contents nd = CFile ids ->
  stays w path (br_from r) (br_to r) c ->
  ids = map H (cuts c) /\ exists t, br_from r <= t <= br_to r /\ w t path = Some (TFile (n_meta nd) c).
Proof.
  intros Hst Hh Hr Habs Hat Hc Hs. induction Hh as [|rs r' pf parent packed s Hh IH Hpar Hsub Hpf Hok Hl E Hfo]; [by apply elem_of_nil in Hr|].
  apply elem_of_app in Hr as [Hr|Hr]; [by apply IH|]. apply elem_of_list_singleton in Hr as ->.
  destruct (run_records H cuts w fo rs r' pf parent packed s p path nd ids) as (t & c0 & Ht & Hw & Hrec); try done.
  { by apply history_trustworthy. }
  assert (c0 = c) as ->. { destruct (Hs t) as [m' E']; [lia|]. rewrite Hw in E'. by injection E'. }
  split; [|by exists t]. apply Hrec. intros v Hv. apply Hs. lia.
Qed.

(** And a file that does change meanwhile, but is left alone from then on, is either
    recorded as it is then, or looks changed to every later backup. *)
Theorem C63_changed_files_look_changed H cuts w fo rs r p path nd ids t m c :
  stamps_tell w -> history H cuts w fo rs -> r ∈ rs ->
  absolute (map fst (br_paths r)) p path -> node_at fo (br_root r) p = Some nd -> n_contents nd = CFile ids ->
  br_to r <= t -> w t path = Some (TFile m c) ->
  ids = map H (cuts c) \/ file_changed m (Some nd) <> Ok false.
Proof.
  intros Hst Hh Hr Habs Hat Hc Ht Hw. pose proof (history_trustworthy H cuts w fo rs Hst Hh) as Htr. eapply Forall_forall in Htr; [|exact Hr].
  destruct (decide (meta_mtime m = meta_mtime (n_meta nd))) as [E1|N1].
  - destruct (decide (meta_size m = meta_size (n_meta nd))) as [E2|N2].
    + left. by eapply (Htr p path nd ids t m c).
    + right. unfold file_changed. destruct (node_kind nd) as [k| |]; simpl; try done. destruct (bool_decide (k = KFile)); simpl; [|done].
      rewrite (bool_decide_eq_true_2 _ E1), (bool_decide_eq_false_2 _ N2). done.
  - right. unfold file_changed. destruct (node_kind nd) as [k| |]; simpl; try done. destruct (bool_decide (k = KFile)); simpl; [|done].
    by rewrite (bool_decide_eq_false_2 _ N1).
Qed.

(** ** Cases *)

(** One file, changed while the first backup looks at it: it has seen the metadata
    before the change and part of the contents after it. *)
Definition ex_meta (mtime : Z) : metadata := Posix (mkPosix 33188 (Some 2%N) 1 1 5 mtime).
Definition ex_file : bytes := ascii_bytes "/f".
Definition ex_world (after : metadata) : world := fun t path =>
  if bool_decide (path = ex_file) then Some (if bool_decide (t = 0) then TFile (ex_meta 1) (ascii_bytes "aa") else TFile after (ascii_bytes "bb")) else None.
Lemma ex_world_0 a : ex_world a 0 ex_file = Some (TFile (ex_meta 1) (ascii_bytes "aa")).
Proof. unfold ex_world. by rewrite bool_decide_eq_true_2 by done. Qed.
Lemma ex_world_later a t : 0 < t -> ex_world a t ex_file = Some (TFile a (ascii_bytes "bb")).
Proof. intros Ht. unfold ex_world. rewrite bool_decide_eq_true_2 by done. by rewrite bool_decide_eq_false_2 by lia. Qed.
Definition ex_view (m : metadata) (c : bytes) : list fspath := [(ex_file, ascii_bytes "f", FsFile m c)].
Definition ex_back (pf : forest) (parent : option oid) (v : list fspath) : oid :=
  (ex_get (mkBstate ∅ [], []) (backup_tree quick_hash toy_cuts false (fun _ => true) pf parent v ∅)).2.
Definition ex_trees (pf : forest) (parent : option oid) (v : list fspath) : forest :=
  list_to_map (map (fun t => (tree_id quick_hash t, t))
    (omap (fun i => match i with ITree t => Some t | _ => None end) (plan_all quick_hash toy_cuts (fun _ => true) pf parent v))).

Definition ex_v1 := ex_view (ex_meta 1) (ascii_bytes "ab").
Definition ex_fo1 := ex_trees ∅ None ex_v1.
Definition ex_r1 := mkBackupRun 0 1 (ex_back ∅ None ex_v1) false (fun _ => true) ex_v1.
Definition ex_v2 (after : metadata) := ex_view after (ascii_bytes "bb").
Definition ex_fo2 (after : metadata) : forest := ex_trees ex_fo1 (Some (br_root ex_r1)) (ex_v2 after).
Definition ex_r2 (after : metadata) := mkBackupRun 2 3 (ex_back ex_fo1 (Some (br_root ex_r1)) (ex_v2 after)) false (fun _ => true) (ex_v2 after).
Definition ex_all (after : metadata) : forest := ex_fo1 ∪ ex_fo2 after.

Lemma ex_view_ok m c : meta_kind m = KFile -> metadata_wf m -> is_Some (meta_size m) -> length c < 30 -> paths_ok toy_cuts false (ex_view m c).
Proof.
  intros Hk Hm Hs Hc. split; [unfold len_wf; simpl; lia|]. split; [apply (bool_decide_unpack _); vm_compute; exact I|].
  constructor; [|constructor]. split; [apply (bool_decide_unpack _); vm_compute; exact I|]. cbn [fs_ok snd]. split; [done|]. split; [done|]. split; [done|].
  assert (forall acc x, length (chop acc x) <= length acc + length x) as Hchop.
  { intros acc x; revert acc; induction x as [|b x IH]; intros acc; simpl; [destruct acc; simpl; lia|].
    destruct (Nat.eqb_spec (length acc) 2); simpl; [pose proof (IH []) as H0; simpl in H0; lia|].
    pose proof (IH (acc ++ [b])) as H0. rewrite app_length in H0. simpl in H0. lia. }
  unfold len_wf, toy_cuts. pose proof (Hchop [] c) as H1. simpl in H1. lia.
Qed.
Lemma ex_fo_sane : forest_sane ex_fo1.
Proof.
  intros id t Et. apply elem_of_list_to_map_2 in Et. apply elem_of_list_fmap in Et as (t' & [= -> <-] & Ht).
  assert (forallb (fun t => bool_decide (tree_wf t) && forallb (fun kv : bytes * node => bool_decide (meta_kind (n_meta kv.2) = contents_kind (n_contents kv.2))) t)
    (omap (fun i => match i with ITree t => Some t | _ => None end) (plan_all quick_hash toy_cuts (fun _ => true) ∅ None ex_v1)) = true) as E by (vm_compute; reflexivity).
  rewrite forallb_forall in E. specialize (E t (proj1 (elem_of_list_In _ _) Ht)). apply andb_true_iff in E as [E1 E2]. apply bool_decide_eq_true in E1.
  split; [exact E1|]. apply Forall_forall. intros kv Hkv. rewrite forallb_forall in E2. specialize (E2 kv (proj1 (elem_of_list_In _ _) Hkv)). by apply bool_decide_eq_true in E2.
Qed.
Lemma ex_trees_in pf parent v t : NoDup (map (fun t => tree_id quick_hash t) (omap (fun i => match i with ITree t => Some t | _ => None end) (plan_all quick_hash toy_cuts (fun _ => true) pf parent v))) ->
  ITree t ∈ plan_all quick_hash toy_cuts (fun _ => true) pf parent v -> ex_trees pf parent v !! tree_id quick_hash t = Some t.
Proof.
  intros Hnd Ht. unfold ex_trees. apply elem_of_list_to_map_1; [rewrite <-list_fmap_compose; exact Hnd|]. apply elem_of_list_fmap. exists t. split; [done|].
  apply elem_of_list_omap. by exists (ITree t).
Qed.

Lemma ex_back_ok pf parent v : forest_sane pf -> paths_ok toy_cuts false v ->
  exists s, backup_tree quick_hash toy_cuts false (fun _ => true) pf parent v ∅ = Ok (s, ex_back pf parent v).
Proof.
  intros Hpf Hv. unfold ex_back. destruct (C17_only_new_blobs_are_packed quick_hash toy_cuts false (fun _ => true) pf parent v ∅ Hpf Hv) as (s & root & E & _).
  rewrite E. by exists s.
Qed.
Lemma ex_fo1_in t : ITree t ∈ plan_all quick_hash toy_cuts (fun _ => true) ∅ None ex_v1 -> ex_fo1 !! tree_id quick_hash t = Some t.
Proof. intros Ht. apply ex_trees_in; [|exact Ht]. apply (bool_decide_unpack _). vm_compute. exact I. Qed.
Lemma ex_fo2_in after : bool_decide (NoDup (map (fun t => tree_id quick_hash t) (omap (fun i => match i with ITree t => Some t | _ => None end) (plan_all quick_hash toy_cuts (fun _ => true) ex_fo1 (Some (br_root ex_r1)) (ex_v2 after))))) = true ->
  forall t, ITree t ∈ plan_all quick_hash toy_cuts (fun _ => true) ex_fo1 (Some (br_root ex_r1)) (ex_v2 after) -> ex_fo2 after !! tree_id quick_hash t = Some t.
Proof. intros Hnd%bool_decide_eq_true t Ht. unfold ex_fo2. exact (ex_trees_in ex_fo1 (Some (br_root ex_r1)) (ex_v2 after) t Hnd Ht). Qed.
Lemma ex_v1_ok : paths_ok toy_cuts false ex_v1.
Proof. apply ex_view_ok; [reflexivity|apply (bool_decide_unpack _); vm_compute; exact I|eauto|vm_compute; lia]. Qed.
Local Opaque ex_fo1 ex_fo2 ex_back.
(** The history, if the two kinds of trees do not get in each other's way. *)
Lemma ex_history after : meta_kind after = KFile -> metadata_wf after -> is_Some (meta_size after) ->
  bool_decide (ex_fo1 ##ₘ ex_fo2 after) || bool_decide (ex_fo1 = ex_fo2 after) = true ->
  (forall t, ITree t ∈ plan_all quick_hash toy_cuts (fun _ => true) ex_fo1 (Some (br_root ex_r1)) (ex_v2 after) -> ex_fo2 after !! tree_id quick_hash t = Some t) ->
  history quick_hash toy_cuts (ex_world after) (ex_all after) [ex_r1; ex_r2 after].
Proof.
  intros Hk Hm Hs Hdis Hfo2.
  assert (ex_fo2 after ⊆ ex_all after) as Hsub2.
  { unfold ex_all. apply orb_true_iff in Hdis as [Hd|Hd]; apply bool_decide_eq_true in Hd; [exact (map_union_subseteq_r _ _ Hd)|rewrite Hd; exact (map_union_subseteq_l _ _)]. }
  assert (ex_fo1 ⊆ ex_all after) as Hsub1 by exact (map_union_subseteq_l _ _).
  change [ex_r1; ex_r2 after] with (([] ++ [ex_r1]) ++ [ex_r2 after]).
  assert (paths_ok toy_cuts false (ex_v2 after)) as Hok2 by (apply ex_view_ok; [done|done|done|vm_compute; lia]).
  destruct (ex_back_ok ∅ None ex_v1) as [s1 Eb1]; [apply map_Forall_empty|apply ex_v1_ok|].
  destruct (ex_back_ok ex_fo1 (Some (br_root ex_r1)) (ex_v2 after)) as [s2 Eb2]; [apply ex_fo_sane|exact Hok2|].
  apply (history_next _ _ _ _ ([] ++ [ex_r1]) (ex_r2 after) ex_fo1 (Some (br_root ex_r1)) ∅ s2); [..|exact Eb2|].
  - apply (history_next _ _ _ _ [] ex_r1 ∅ None ∅ s1); [..|exact Eb1|].
    + constructor.
    + by left.
    + apply map_empty_subseteq.
    + apply map_Forall_empty.
    + apply ex_v1_ok.
    + apply (looks_paths_cons _ _ 0 1 1); [|constructor]. apply (looks_file _ _ 0 0 1 _ _ (ascii_bytes "aa")); [lia|apply ex_world_0|].
      intros c1 Hst. exfalso. destruct (Hst 0) as [m0 E0]; [lia|]. destruct (Hst 1) as [m1 E1]; [lia|].
      rewrite ex_world_0 in E0. rewrite ex_world_later in E1 by lia. injection E0 as _ E0. injection E1 as _ E1.
      rewrite <-E1 in E0. vm_compute in E0. discriminate E0.
    + intros t Ht. eapply lookup_weaken; [|exact Hsub1]. by apply ex_fo1_in.
  - right. exists ex_r1. split; [by left|]. split; [simpl; lia|]. split; reflexivity.
  - exact Hsub1.
  - apply ex_fo_sane.
  - exact Hok2.
  - apply (looks_paths_cons _ _ 2 3 3); [|constructor]. apply (looks_file _ _ 2 2 3 _ _ (ascii_bytes "bb")); [lia|apply ex_world_later; lia|].
    intros c1 Hst. destruct (Hst 2) as [m0 E0]; [lia|]. rewrite ex_world_later in E0 by lia. injection E0 as _ E0. exact E0.
  - intros t Ht. eapply lookup_weaken; [|exact Hsub2]. apply Hfo2. exact Ht.
Qed.
Local Transparent ex_fo1 ex_fo2 ex_back.

Lemma ex_tells : stamps_tell (ex_world (ex_meta 2)).
Proof.
  intros path t1 t2 m1 c1 m2 c2 Ht E1 E2 Em _ t Htt. unfold ex_world in *. destruct (bool_decide (path = ex_file)); [|done].
  destruct (bool_decide_reflect (t1 = 0)) as [->|N1], (bool_decide_reflect (t2 = 0)) as [->|N2]; injection E1 as <- <-; injection E2 as <- <-.
  - assert (t = 0) as -> by lia. eexists. reflexivity.
  - discriminate Em.
  - lia.
  - rewrite bool_decide_eq_false_2 by lia. by eexists.
Qed.

(** The next backup records what the first one missed. *)
Example C63_witness : exists nd,
  node_at (ex_all (ex_meta 2)) (br_root ex_r1) [ascii_bytes "f"] = Some nd /\ n_contents nd = CFile [quick_hash (ascii_bytes "ab")] /\
  exists nd2, node_at (ex_all (ex_meta 2)) (br_root (ex_r2 (ex_meta 2))) [ascii_bytes "f"] = Some nd2 /\ n_contents nd2 = CFile [quick_hash (ascii_bytes "bb")].
Proof.
  assert (history quick_hash toy_cuts (ex_world (ex_meta 2)) (ex_all (ex_meta 2)) [ex_r1; ex_r2 (ex_meta 2)]) as Hh.
  { apply ex_history; [reflexivity|apply (bool_decide_unpack _); vm_compute; exact I|eauto|vm_compute; reflexivity|]. refine (ex_fo2_in _ _). vm_compute. reflexivity. }
  assert (exists nd1 ids1, node_at (ex_all (ex_meta 2)) (br_root ex_r1) [ascii_bytes "f"] = Some nd1 /\ n_contents nd1 = CFile ids1 /\ ids1 = [quick_hash (ascii_bytes "ab")]) as (nd1 & ids1 & E1 & C1 & ->)
    by (eexists _, _; split; [vm_compute; reflexivity|split; [reflexivity|vm_compute; reflexivity]]).
  exists nd1. split; [exact E1|]. split; [exact C1|].
  assert (exists nd2 ids2, node_at (ex_all (ex_meta 2)) (br_root (ex_r2 (ex_meta 2))) [ascii_bytes "f"] = Some nd2 /\ n_contents nd2 = CFile ids2) as (nd2 & ids2 & E2 & C2)
    by (eexists _, _; split; [vm_compute; reflexivity|reflexivity]).
  exists nd2. split; [exact E2|]. rewrite C2. f_equal.
  destruct (C63_steady_files_are_recorded _ _ _ _ _ (ex_r2 (ex_meta 2)) [ascii_bytes "f"] ex_file nd2 ids2 (ascii_bytes "bb") ex_tells Hh) as [-> _].
  - right. by left.
  - exists ex_file, (ascii_bytes "f"), []. split; [done|]. split; [by left|done].
  - exact E2.
  - exact C2.
  - intros t Ht. simpl in Ht. rewrite ex_world_later by lia. by eexists.
  - vm_compute. reflexivity.
Qed.

(** What the first backup missed looks changed afterwards. *)
Example C63_changed_witness : exists nd, node_at (ex_all (ex_meta 2)) (br_root ex_r1) [ascii_bytes "f"] = Some nd /\ file_changed (ex_meta 2) (Some nd) <> Ok false.
Proof.
  assert (history quick_hash toy_cuts (ex_world (ex_meta 2)) (ex_all (ex_meta 2)) [ex_r1; ex_r2 (ex_meta 2)]) as Hh.
  { apply ex_history; [reflexivity|apply (bool_decide_unpack _); vm_compute; exact I|eauto|vm_compute; reflexivity|]. refine (ex_fo2_in _ _). vm_compute. reflexivity. }
  assert (exists nd1 ids1, node_at (ex_all (ex_meta 2)) (br_root ex_r1) [ascii_bytes "f"] = Some nd1 /\ n_contents nd1 = CFile ids1 /\ ids1 <> map quick_hash (toy_cuts (ascii_bytes "bb"))) as (nd1 & ids1 & E1 & C1 & N1)
    by (eexists _, _; split; [vm_compute; reflexivity|split; [reflexivity|vm_compute; discriminate]]).
  exists nd1. split; [exact E1|].
  destruct (C63_changed_files_look_changed _ _ _ _ _ ex_r1 [ascii_bytes "f"] ex_file nd1 ids1 1 (ex_meta 2) (ascii_bytes "bb") ex_tells Hh) as [E|E].
  - by left.
  - exists ex_file, (ascii_bytes "f"), []. split; [done|]. split; [by left|done].
  - exact E1.
  - exact C1.
  - simpl. lia.
  - apply ex_world_later. lia.
  - by destruct (N1 E).
  - exact E.
Qed.

(** If a change leaves modification time and size as they were, it is lost on every
    later backup. *)
Theorem C63_stamps_are_needed : exists w fo r1 r2 p path nd,
  history quick_hash toy_cuts w fo [r1; r2] /\ absolute (map fst (br_paths r2)) p path /\
  (forall t, br_from r2 <= t -> exists m, w t path = Some (TFile m (ascii_bytes "bb"))) /\
  node_at fo (br_root r2) p = Some nd /\ n_contents nd <> CFile (map quick_hash (toy_cuts (ascii_bytes "bb"))).
Proof.
  exists (ex_world (ex_meta 1)), (ex_all (ex_meta 1)), ex_r1, (ex_r2 (ex_meta 1)), [ascii_bytes "f"], ex_file.
  eexists. split.
  { apply ex_history; [reflexivity|apply (bool_decide_unpack _); vm_compute; exact I|eauto|vm_compute; reflexivity|]. refine (ex_fo2_in _ _). vm_compute. reflexivity. }
  split; [exists ex_file, (ascii_bytes "f"), []; split; [done|]; split; [by left|done]|]. split.
  { intros t Ht. simpl in Ht. rewrite ex_world_later by lia. by eexists. }
  split; [vm_compute; reflexivity|]. vm_compute. discriminate.
Qed.

Print Assumptions C63_steady_files_are_recorded.
Print Assumptions C63_changed_files_look_changed.
Print Assumptions C63_stamps_are_needed.
