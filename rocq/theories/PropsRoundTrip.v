(** C16 from end to end: backup, then restore into an empty directory. *)

From Verif Require Import Base OMap Formats FormatsFacts Hashing Pack Index IndexFacts Meta Forest ForestFacts FsTree FsSpec FsFacts BackupFacts
  Pipeline PipelineFacts PropsPipeline Repo RepoSpec RepoFacts RewriteFacts PublishFacts PlanFacts CommandFacts
  History PruneFacts ReadFacts HistoryFacts PathFacts Exec RepeatFacts Toy Witness PropsRepo PropsWhole
  Browse BrowseSpec BrowseFacts DiffFacts BrowseRepo ReadBack
  Restore RestoreSpec RestoreFacts RestoreSteps RestoreForest RestoreRun RestoreWitness PropsBrowse PropsRestore
  BackupPaths PropsPaths.

(** * What is kept of a file tree with special files in it *)

Lemma kept_place filter n path q : in_shape n ->
  (forall k, kept filter path n ≫= (fun k => fs_sub k q) = Some k -> passes_from filter path q /\
     exists n0, fs_sub n q = Some n0 /\ thing_of n0 = thing_of k /\ fs_meta n0 = fs_meta k /\ thing_of n0 <> TOther) /\
  (forall n0, fs_sub n q = Some n0 -> thing_of n0 <> TOther -> passes_from filter path q ->
     exists k, kept filter path n ≫= (fun k => fs_sub k q) = Some k /\ thing_of n0 = thing_of k /\ fs_meta n0 = fs_meta k).
Proof.
  revert n path. induction q as [|x q IH]; intros n path Hn.
  - assert (passes_from filter path [] <-> filter path = true) as Hp.
    { split; [intros Hp; apply (Hp []), prefix_nil|]. intros Hf q Hq. by apply prefix_nil_inv in Hq as ->. }
    setoid_rewrite Hp. destruct n as [m c|m es|m t|m]; cbn [kept]; destruct (filter path); cbn; try (by split; [|intros ? _ _ ?]).
    + split; [intros k [= <-]|intros n0 [= <-] _ _]; [split; [done|]; exists (FsFile m c); done|by exists (FsFile m c)].
    + split; [intros k [= <-]|intros n0 [= <-] _ _]; [split; [done|]; exists (FsDir m es); done|by eexists].
    + split; [intros k [= <-]|intros n0 [= <-] _ _]; [split; [done|]; exists (FsLink m t); done|by exists (FsLink m t)].
    + split; [done|]. by intros n0 [= <-] [].
  - setoid_rewrite passes_from_cons. destruct n as [m c|m es|m t|m]; cbn [kept]; destruct (filter path) eqn:Ef; cbn [negb mbind option_bind fs_sub]; try (split; [done|by intros]).
    2: { split; [done|]. intros n0 _ _ [? _]. done. }
    destruct Hn as [Hs Hall]. assert (forall n', om_get x es = Some n' -> in_shape n') as Hsub.
    { intros n' E. apply om_get_in in E. clear -E Hall. induction es as [|e es IHe]; [by apply elem_of_nil in E|]. cbn in Hall. destruct Hall as [H1 H2]. apply elem_of_cons in E as [<-|E]; [done|auto]. }
    rewrite om_of_list_sorted by (by apply collect_sorted). rewrite collect_get by done. cbn [fst snd]. destruct (om_get x es) as [n'|] eqn:Eg; cbn [mbind option_bind]; [|split; done].
    destruct (IH n' (join path x) (Hsub n' eq_refl)) as [I1 I2]. split.
    + intros k E. destruct (I1 k E) as [P Q]. auto.
    + intros n0 E Hne [_ P]. by apply I2.
Qed.

(** The text of a path with names added. *)
Lemma join_text p x : Forall is_name p -> p <> [] -> is_name x -> join (path_text p) x = path_text (p ++ [x]).
Proof.
  intros Hp Hne Hx. assert (path_text p = concat (map (fun x => slash :: x) p)) as Et by (by destruct p).
  assert (path_text (p ++ [x]) = concat (map (fun x => slash :: x) p) ++ slash :: x) as Et'.
  { unfold path_text. destruct (p ++ [x]) eqn:E; [by destruct p|]. rewrite <-E, map_app, concat_app. cbn. by rewrite app_nil_r. }
  rewrite Et, Et'. unfold join. rewrite bool_decide_false, bool_decide_false; [done| |by destruct p].
  destruct (exists_last Hne) as (p' & y & ->). apply Forall_app in Hp as [_ [(Hy & Hys & _) _]%Forall_cons]. rewrite map_app, concat_app. cbn. rewrite app_nil_r.
  destruct (exists_last Hy) as (y' & b & ->). intros E. change (slash :: y' ++ [b]) with ((slash :: y') ++ [b]) in E. rewrite app_assoc, last_snoc in E. injection E as ->. apply Hys. apply elem_of_app. right. by left.
Qed.
Lemma joins_text p r : Forall is_name p -> p <> [] -> Forall is_name r -> foldl join (path_text p) r = path_text (p ++ r).
Proof.
  revert p. induction r as [|x r IH]; intros p Hp Hne Hr; [by rewrite app_nil_r|]. apply Forall_cons in Hr as [Hx Hr]. cbn [foldl]. rewrite join_text by done.
  rewrite IH; [by rewrite <-app_assoc|by apply Forall_app; split; [|constructor]|by destruct p|done].
Qed.

(** What a backup keeps, place by place. *)
Lemma what_is_kept cuts canon args ps files paths filter :
  backup_paths canon args = Ok ps -> sorted_fs files -> (forall l, is_Some (ent files l) -> Forall is_name l) ->
  Forall2 (fun p (e : fspath) => e.1 = (path_text p, default [] (last p)) /\ fs_at files p = Some e.2) ps paths -> paths_ok cuts false paths ->
  let es := kept_paths filter paths in
  (forall p, p ∈ ps -> exists x n, last p = Some x /\ (path_text p, x, n) ∈ paths /\ fs_at files p = Some n /\ Forall is_name p /\ p <> []) /\
  (forall x n, om_get x es = Some n -> exists p, p ∈ ps /\ last p = Some x) /\
  (forall p x q, p ∈ ps -> last p = Some x ->
     (forall t m, ent es (x :: q) = Some (t, m) -> ent files (p ++ q) = Some (t, m) /\ t <> TOther /\ forall r, r `prefix_of` q -> filter (path_text (p ++ r)) = true) /\
     (forall t m, ent files (p ++ q) = Some (t, m) -> t <> TOther -> (forall r, r `prefix_of` q -> filter (path_text (p ++ r)) = true) -> ent es (x :: q) = Some (t, m))).
Proof.
  intros Eps Hsf Hnames HF Hp es0.
  pose proof (C69_what_paths_are_taken_partial canon args) as Htk. rewrite Eps in Htk. destruct Htk as (Hndp & Hinps & Hlast & Huniq).
  (* each path given, and what is there *)
  assert (forall p, p ∈ ps -> exists x n, last p = Some x /\ (path_text p, x, n) ∈ paths /\ fs_at files p = Some n /\ Forall is_name p /\ p <> []) as Hps.
  { intros p Hin. pose proof Hin as (a & Ha' & Ea)%Hinps. destruct (Hlast a Ha') as (p' & x & Ea' & Ex). assert (p' = p) as -> by congruence.
    apply elem_of_list_lookup in Hin as [j Hj]. destruct (Forall2_lookup_l _ _ _ _ _ HF Hj) as ([[tx' nm] n] & Hj' & Hb & En). cbn in Hb. rewrite Ex in Hb. cbn in Hb. injection Hb as -> ->.
    exists x, n. split; [done|]. split; [by eapply elem_of_list_lookup_2|]. split; [exact En|]. split; [|by intros ->]. apply Hnames. unfold ent. cbn in En. rewrite En. by eexists. }
  assert (forall e, e ∈ paths -> exists p x, p ∈ ps /\ last p = Some x /\ e.1 = (path_text p, x) /\ fs_at files p = Some e.2) as Hpaths.
  { intros e [j Hj]%elem_of_list_lookup. destruct (Forall2_lookup_r _ _ _ _ _ HF Hj) as (p & Hj' & Hb & En). apply elem_of_list_lookup_2 in Hj'. destruct (Hps p Hj') as (x & n & Ex & _). exists p, x. rewrite Ex in Hb. done. }
  assert (forall p p' x, p ∈ ps -> p' ∈ ps -> last p = Some x -> last p' = Some x -> p = p') as Hsame.
  { intros p p' x (a & Ha1 & Ea1)%Hinps (b & Hb1 & Eb1)%Hinps E1 E2. apply (Huniq a b); congruence. }
  destruct Hp as (Hfew & Hnd & Hok).
  set (es := es0) in *.
  assert (forall x n, om_get x es = Some n <-> exists p n0, p ∈ ps /\ last p = Some x /\ fs_at files p = Some n0 /\ kept filter (path_text p) n0 = Some n) as Hes.
  { intros x n. unfold es, es0, kept_paths. rewrite om_get_of_list by (by apply collect_nodup). rewrite collect_elem. split.
    - intros (e & He & Ek & Ef). destruct (Hpaths e He) as (p & x' & Hin & Ex & Ee & En). rewrite Ee in Ek, Ef. cbn in Ek, Ef. subst x'. eauto 10.
    - intros (p & n0 & Hin & Ex & En & Ef). destruct (Hps p Hin) as (x' & n1 & Ex' & He & En' & _). assert (x' = x) as -> by congruence. assert (n1 = n0) as -> by congruence.
      exists (path_text p, x, n0). done. }
  assert (forall p x q, p ∈ ps -> last p = Some x ->
     (forall t m, ent es (x :: q) = Some (t, m) -> ent files (p ++ q) = Some (t, m) /\ t <> TOther /\ forall r, r `prefix_of` q -> filter (path_text (p ++ r)) = true) /\
     (forall t m, ent files (p ++ q) = Some (t, m) -> t <> TOther -> (forall r, r `prefix_of` q -> filter (path_text (p ++ r)) = true) -> ent es (x :: q) = Some (t, m))) as Hent.
  { intros p x q Hin Ex. destruct (Hps p Hin) as (x' & n & Ex' & He & En & Hpn & Hpne). assert (x' = x) as -> by congruence. clear Ex'.
    pose proof (fs_at_shape files p n Hsf En) as Hshape. destruct (kept_place filter n (path_text p) q Hshape) as [K1 K2].
    assert (fs_at es (x :: q) = kept filter (path_text p) n ≫= (fun k => fs_sub k q)) as Eat.
    { rewrite fs_at_cons. f_equal. apply option_eq. intros k0. rewrite Hes. split.
      - intros (p1 & n1 & Hin1 & Ex1 & En1 & Ek). assert (p1 = p) as -> by (by eapply Hsame). congruence.
      - intros Ek. eauto 10. }
    assert (fs_at files (p ++ q) = fs_sub n q) as Efa by (rewrite fs_at_app, En by done; done).
    assert (forall n0, fs_sub n q = Some n0 -> passes_from filter (path_text p) q <-> forall r, r `prefix_of` q -> filter (path_text (p ++ r)) = true) as Hpass.
    { intros n0 Eq. assert (Forall is_name q) as Hq. { assert (Forall is_name (p ++ q)) as Hpq by (apply Hnames; unfold ent; rewrite Efa, Eq; by eexists). by apply Forall_app in Hpq as [_ ?]. }
      unfold passes_from. split; intros Hr r Hrq; specialize (Hr r Hrq); (assert (Forall is_name r) as Hrn by (destruct Hrq as [z ->]; by apply Forall_app in Hq as [? _])); [by rewrite joins_text in Hr|by rewrite joins_text]. }
    unfold ent. rewrite Eat, Efa. split.
    - intros t m E. destruct (kept filter (path_text p) n ≫= _) as [k0|] eqn:Ek; [|done]. cbn in E. injection E as <- <-. destruct (K1 k0 eq_refl) as (Hpf & n0 & Eq & Et & Em & Hne). rewrite Eq. cbn. rewrite Et, Em.
      split; [done|]. split; [by rewrite <-Et|]. by apply (Hpass n0).
    - intros t m E Hne Hr. destruct (fs_sub n q) as [n0|] eqn:Eq; [|done]. cbn in E. injection E as <- <-. destruct (K2 n0 eq_refl Hne) as (k0 & Ek & Et & Em); [by apply (Hpass n0)|]. rewrite Ek. cbn. by rewrite Et, Em. }
  split; [done|]. split; [|done]. intros x n (p & n0 & Hin & Ex & _)%Hes. eauto.
Qed.

(** ** C16 *)

(** Back up what is at the paths given, then, at any time the snapshot can still be read ([k2] is the repository then), restore
    into an empty directory [to]: it succeeds, and there is what was there, with the contents and targets it had (and, if
    asked for, the times of files and the permissions), but for what was skipped and for special files; and nothing else.  What is
    outside [to] stays as it is.  Several paths become entries of [to]; a single one, a directory, becomes [to] itself. *)
Theorem C16_backup_then_restore H U cuts allow_empty filter author tz tags now canon args ps files paths parent pf k w c target cpus k' w' :
  universe H U -> (forall x, length (H x) = 28) -> (forall x, concat (cuts x) = x) ->
  in_order H U k -> own_leftovers H U k w ->
  (* the arguments, and what is there *)
  backup_paths canon args = Ok ps -> sorted_fs files -> (forall l, is_Some (ent files l) -> Forall is_name l) ->
  Forall2 (fun p (e : fspath) => e.1 = (path_text p, default [] (last p)) /\ fs_at files p = Some e.2) ps paths ->
  (* the backup, to the end *)
  backup_command H cuts false false allow_empty filter author tz tags now paths parent pf k w c ->
  paths_ok cuts false paths -> Forall U (plan_blobs H cuts filter pf (sn_tree <$> parent) paths) ->
  (forall p before, parent = Some p -> program_reads H k p before -> stamps_honest before (kept_paths filter paths)) ->
  no_clash H k w c -> command_done H target true cpus k w c k' w' ->
  (* something was to be backed up; if one path, a directory *)
  (exists p t m, p ∈ ps /\ ent files p = Some (t, m) /\ t <> TOther /\ filter (path_text p) = true /\ (forall p', ps = [p'] -> t = TDir)) ->
  exists i sn, k_snaps k' !! i = Some sn /\
  forall k2, in_order H U k2 -> (forall es, program_reads H k' sn es -> program_reads H k2 sn es) ->
  exists ix bmap, master k2 = Ok ix /\ blob_to_pack_map ix = Ok bmap /\
  forall resolves clock fresh rargs to m0 (v : fsworld),
  r_dry_run rargs = false ->
  (* the empty directory *)
  sorted_fs v.2 -> fs_at v.2 to = Some (FsDir m0 []) -> is_Some (modes m0) -> fs_ok cuts false (FsDir m0 []) -> Forall text_wf to ->
  (* what was there can be given its times and permissions *)
  (forall p q t m, p ∈ ps -> ent files (p ++ q) = Some (t, m) ->
     (r_permissions rargs = true -> is_Some (modes m)) /\
     (r_times rargs = true -> forall s, meta_mtime m = Some s \/ meta_atime m = Some s -> (0 <= s \/ s mod 1000000000 = 0)%Z)) ->
  (exists load_fuel fo, load_forest H k2 bmap load_fuel (sn_tree sn) = Some (Ok fo)) /\
  forall load_fuel fo, load_forest H k2 bmap load_fuel (sn_tree sn) = Some (Ok fo) ->
  Forall U (made_there H cuts fo sn (Some to) v.2) ->
  exists fuel v', restore H cuts resolves clock fresh k2 bmap load_fuel fuel rargs (Some to) sn v = Some (Ok v') /\
    (forall p x q, p ∈ ps -> last p = Some x ->
       let l := match ps with [_] => to | _ => to ++ [x] end in
       (forall t m, ent files (p ++ q) = Some (t, m) -> t <> TOther -> (forall r, r `prefix_of` q -> filter (path_text (p ++ r)) = true) ->
          exists got, ent v'.2 (l ++ q) = Some got /\ is_what_was_saved rargs (t, m) got) /\
       (ent files (p ++ q) = None \/ (exists m, ent files (p ++ q) = Some (TOther, m)) \/ (exists r, r `prefix_of` q /\ filter (path_text (p ++ r)) = false) ->
          ent v'.2 (l ++ q) = None)) /\
    (forall l, ~ to `prefix_of` l -> left_alone (ent v.2 l) (ent v'.2 l)).
Proof.
  intros HU Hlen Hcuts Hk Hw Eps Hsf Hnames HF Hc Hp HpU Hhon Hcl Hd Hsome.
  destruct (C16_finished_backup_gives_the_files_back H U cuts false allow_empty filter author tz tags now paths parent pf k w c target cpus k' w' HU Hlen Hcuts Hk Hw Hc Hp HpU Hhon Hcl Hd) as (_ & _ & Hres).
  destruct (backup_adding H U HU Hlen _ _ _ _ _ _ _ _ _ _ _ _ _ _ Hk Hw Hc Hp HpU Hcl) as (_ & _ & sns & Ha & _).
  destruct (adds_safe H U HU Hlen k w c _ sns target cpus NoError k' w' ltac:(done) Hk Hw Ha HpU Hcl (done_reaches _ _ _ _ _ _ _ _ _ Hd)) as (Hk' & _ & _ & _).
  pose proof (C69_what_paths_are_taken_partial canon args) as Htk. rewrite Eps in Htk. destruct Htk as (Hndp & Hinps & Hlast & Huniq).
  destruct (what_is_kept cuts canon args ps files paths filter Eps Hsf Hnames HF Hp) as (Hps & Hes & Hent).
  destruct Hp as (Hfew & Hnd & Hok).
  set (es := kept_paths filter paths) in *.
  assert (exists x n, om_get x es = Some n) as Hone.
  { destruct Hsome as (p & t & m & Hin & Et & Hne & Hf & _). destruct (Hps p Hin) as (x & n & Ex & _). destruct (Hent p x [] Hin Ex) as [_ H2]. rewrite app_nil_r in H2.
    assert (ent es [x] = Some (t, m)) as E. { apply H2; [done|done|]. intros r Hr. apply prefix_nil_inv in Hr as ->. by rewrite app_nil_r. }
    unfold ent in E. rewrite fs_at_cons in E. destruct (om_get x es) as [n'|] eqn:Eg; [eauto|done]. }
  destruct Hres as [(E0 & _)|(i & sn & Hi & _ & _ & _ & Esn & Hreads)].
  { exfalso. destruct Hone as (x & n & E). fold es in E0. by rewrite E0 in E. }
  exists i, sn. split; [done|]. intros k2 Hk2 Hstill. apply Hstill in Hreads. rewrite (program_reads_iff H U HU Hlen) in Hreads by done.
  destruct (in_order_maps H U HU Hlen k2 Hk2) as (ix & bmap & packed & Eix & Ebm & _).
  exists ix, bmap. split; [done|]. split; [done|].
  intros resolves clock fresh rargs to m0 v Hdry Hsv Eto Hm0 Hok0 Htx Hmeta.
  assert (sn_paths sn = map path_text ps) as Esn'.
  { rewrite Esn. clear -HF. induction HF as [|p e ps paths [He _] _ IH]; [done|]. cbn [map]. f_equal; [by rewrite He|done]. }
  assert (map fst paths = map (fun p => (path_text p, default [] (last p))) ps) as Efst.
  { clear -HF. induction HF as [|p e ps paths [He _] _ IH]; [done|]. cbn [map]. f_equal; done. }
  assert (forall a p, a ∈ args -> canon a = Some p -> Forall is_name p) as Hcanon.
  { intros a p Ha' Ea. destruct (Hps p) as (_ & _ & _ & _ & _ & ? & _); [apply Hinps; eauto|done]. }
  destruct (C69_where_things_came_from canon args ps sn (Some to) paths Hcanon Eps Esn' Efst) as (HT & Hnamed & Hdist & _).
  (* where they go *)
  assert (targets sn (Some to) = map (fun p => (default [] (last p), match ps with [_] => to | _ => to ++ [default [] (last p)] end)) ps) as HT'.
  { unfold targets in HT |- *. rewrite HT. destruct ps as [|p [|p' ps']]; [done|done|]. cbn [map]. f_equal. f_equal. rewrite map_map. done. }
  assert (forall x l, (x, l) ∈ targets sn (Some to) <-> exists p, p ∈ ps /\ last p = Some x /\ l = match ps with [_] => to | _ => to ++ [x] end) as Hin'.
  { intros x l. rewrite HT'. change (map ?f ?l) with (f <$> l). rewrite elem_of_list_fmap. split.
    - intros (p & [= -> ->] & Hp). exists p. destruct (Hps p Hp) as (x & _ & Ex & _). rewrite Ex. done.
    - intros (p & Hp & Ex & ->). exists p. rewrite Ex. done. }
  assert (to <> []) as Htone by (by intros ->).
  assert (ent v.2 to = Some (TDir, m0)) as Eto' by (unfold ent; by rewrite Eto).
  assert (forall q, q <> [] -> ent v.2 (to ++ q) = None) as Hempty. { intros q Hq. unfold ent. rewrite fs_at_app, Eto by done. by destruct q. }
  assert (forall x l q, (x, l) ∈ targets sn (Some to) -> ent v.2 (l ++ q) = None \/ (q = [] /\ l = to /\ exists p, ps = [p] /\ ent v.2 (l ++ q) = Some (TDir, m0))) as Hbefore.
  { intros x l q (p & Hp & Ex & ->)%Hin'. destruct ps as [|p1 [|p2 ps']]; [by apply elem_of_nil in Hp| |left; rewrite <-app_assoc; by apply Hempty].
    destruct q as [|y q]; [right|left; by apply Hempty]. rewrite app_nil_r. eauto 10. }
  assert (can_restore cuts resolves rargs (Some to) sn es v.2) as Hcr.
  { constructor.
    - done.
    - done.
    - rewrite Esn. unfold len_wf in *. by rewrite map_length.
    - intros x l y (p & Hp & Ex & ->)%Hin' Ey. rewrite Forall_forall in Hok. destruct (Hps p Hp) as (x' & n & Ex' & He & _). assert (x' = x) as -> by congruence. destruct (Hok _ He) as [Hx _]. cbn in Hx. split; [done|].
      destruct ps as [|p1 [|p2 ps']]; [by apply elem_of_nil in Hp| |by rewrite last_snoc in Ey; injection Ey as <-]. rewrite Forall_forall in Htx. apply Htx. by eapply last_Some_elem_of.
    - intros x n (p & Hp & Ex)%Hes. change (map ?f ?l) with (f <$> l). apply elem_of_list_fmap. exists (x, match ps with [_] => to | _ => to ++ [x] end). split; [done|]. apply Hin'. eauto.
    - destruct (targets sn (Some to)) as [|[x1 l1] [|[x2 l2] T']] eqn:ET.
      + split; [right; eauto|]. intros x l t m Hx. by apply elem_of_nil in Hx.
      + eauto.
      + split; [right; eauto|]. intros x l t m Hx E. destruct (Hbefore x l [] Hx) as [Hb|(_ & _ & p & -> & Hb)]; rewrite app_nil_r in Hb; congruence.
    - done.
    - intros x l n Hx En. destruct (Hbefore x l [] Hx) as [Hb|(_ & -> & _)]; [|congruence]. rewrite app_nil_r in Hb. unfold ent in Hb. by rewrite En in Hb.
    - intros x l q t m Hx E. destruct (Hbefore x l q Hx) as [Hb|(_ & _ & p & _ & Hb)]; [congruence|]. rewrite Hb in E. by injection E as <- <-.
    - intros q t m E Hpm. destruct q as [|x q]; [done|]. assert (exists n, om_get x es = Some n) as [n (p & Hp & Ex)%Hes]. { unfold ent in E. rewrite fs_at_cons in E. destruct (om_get x es); [eauto|done]. }
      destruct (Hent p x q Hp Ex) as [H1 _]. destruct (H1 _ _ E) as (E' & _). by apply (Hmeta p q t m Hp E').
    - intros q t m s E Ht Hs. destruct q as [|x q]; [done|]. assert (exists n, om_get x es = Some n) as [n (p & Hp & Ex)%Hes]. { unfold ent in E. rewrite fs_at_cons in E. destruct (om_get x es); [eauto|done]. }
      destruct (Hent p x q Hp Ex) as [H1 _]. destruct (H1 _ _ E) as (E' & _). by apply (Hmeta p q t m Hp E').
    - intros x l q ? ? ? ? Hx _ E. destruct (Hbefore x l q Hx) as [Hb|(_ & _ & p & _ & Hb)]; congruence.
    - intros x l q m Hx E. destruct (Hbefore x l q Hx) as [Hb|(_ & _ & p & _ & Hb)]; congruence. }
  destruct (C36_restore_partial H U cuts resolves clock fresh k2 ix bmap rargs (Some to) sn es v HU Hlen Hcuts Hk2 Eix Ebm Hreads Hdry Hcr) as [Hl Hall].
  split; [done|]. intros load_fuel fo Efo HUs. destruct (Hall load_fuel fo Efo HUs) as (fuel & v' & Ev & Hco & Hout). exists fuel, v'. split; [done|].
  assert (forall p x q, p ∈ ps -> last p = Some x -> ~ in_the_way (fun q => ent v.2 (match ps with [_] => to | _ => to ++ [x] end ++ q)) (fun q => ent es (x :: q)) q) as Hnot.
  { intros p x q Hp Ex (r & m & s & Hr & Hb & Hs & Hne). assert ((x, match ps with [_] => to | _ => to ++ [x] end) ∈ targets sn (Some to)) as Hx by (apply Hin'; eauto).
    destruct (Hbefore x _ r Hx) as [Hb'|(-> & _ & p' & Ep' & _)]; [congruence|]. rewrite Ep' in Hp. apply elem_of_list_singleton in Hp as ->.
    destruct Hsome as (p1 & t & m1 & Hin1 & Et & _ & _ & Hdir). rewrite Ep' in Hin1. apply elem_of_list_singleton in Hin1 as ->. destruct s as [ts ms].
    destruct (Hent p' x [] ltac:(rewrite Ep'; by left) Ex) as [H1 _]. destruct (H1 _ _ Hs) as (E' & _). rewrite app_nil_r, Et in E'. injection E' as <- <-. by rewrite (Hdir p') in Hne. }
  split.
  - intros p x q Hp Ex l. assert ((x, l) ∈ targets sn (Some to)) as Hx by (apply Hin'; eauto). pose proof (Hco x l q Hx) as [Cd Cn]. pose proof (Hnot p x q Hp Ex) as Hnw. fold l in Hnw.
    destruct (Hent p x q Hp Ex) as [H1 H2]. split.
    + intros t m E Hne Hf. pose proof (H2 t m E Hne Hf) as Es. rewrite Es in Cd, Cn. destruct (r_delete rargs); [specialize (Cd eq_refl)|destruct (Cn eq_refl) as [_ Cn']; specialize (Cn' Hnw)]; (destruct (ent v'.2 (l ++ q)) as [g|]; [eauto|done]).
    + intros Hno. assert (ent es (x :: q) = None) as Es.
      { destruct (ent es (x :: q)) as [[t m]|] eqn:Es; [|done]. exfalso. destruct (H1 t m eq_refl) as (E' & Hne & Hf). destruct Hno as [?|[(m' & ?)|(r & Hr & Er)]]; [congruence|congruence|]. by rewrite (Hf r Hr) in Er. }
      rewrite Es in Cd, Cn. destruct (r_delete rargs); [specialize (Cd eq_refl); by destruct (ent v'.2 (l ++ q))|]. destruct (Cn eq_refl) as [_ Cn']. specialize (Cn' Hnw).
      destruct (Hbefore x l q Hx) as [Hb|(-> & _ & p' & Ep' & Hb)]; [rewrite Hb in Cn'; by destruct (ent v'.2 (l ++ q))|].
      exfalso. rewrite Ep' in Hp. apply elem_of_list_singleton in Hp as ->. destruct Hsome as (p1 & t & m1 & Hin1 & Et & Hne & Hf & _). rewrite Ep' in Hin1. apply elem_of_list_singleton in Hin1 as ->.
      assert (ent es [x] = Some (t, m1)) as E; [|congruence]. apply H2; [by rewrite app_nil_r|done|]. intros r Hr. apply prefix_nil_inv in Hr as ->. by rewrite app_nil_r.
  - intros l Hl'. apply Hout. intros x l' (p & Hp & Ex & ->)%Hin' Hpre. apply Hl'. destruct ps as [|p1 [|p2 ps']]; [by apply elem_of_nil in Hp|done|]. etrans; [|exact Hpre]. by apply prefix_app_r.
Qed.
Print Assumptions C16_backup_then_restore.

(** It applies: to the run of C16_witness_whole, which goes on where an interrupted one stopped, and a restore with times and
    permissions into an empty directory beside another file. *)
Definition rt_files : list (bytes * fsnode) := [(fa.1.2, fa.2); (fb.1.2, fb.2)].
Definition rt_canon (a : bytes) : option (list bytes) :=
  if bool_decide (a = tx "/aa") then Some [tx "aa"] else if bool_decide (a = tx "../x/../bb") then Some [tx "bb"] else None.
Definition rt_world : fsworld := (0, [(tx "out", FsDir ex_dirmeta []); (tx "z", FsFile (ex_meta 33188 (Some 1%N)) (tx "z"))]).
Example C16_round_trip_witness : exists parent pf c k1 w1,
  let k := interrupted_kw.1 in let w := interrupted_kw.2 in
  universe quick_hash (in_list ex_blobs) /\ in_order quick_hash (in_list ex_blobs) k /\ own_leftovers quick_hash (in_list ex_blobs) k w /\
  backup_paths rt_canon [tx "../x/../bb"; tx "/aa"] = Ok [[tx "aa"]; [tx "bb"]] /\ sorted_fs rt_files /\ (forall l, is_Some (ent rt_files l) -> Forall is_name l) /\
  Forall2 (fun p (e : fspath) => e.1 = (path_text p, default [] (last p)) /\ fs_at rt_files p = Some e.2) [[tx "aa"]; [tx "bb"]] [fa; fb] /\
  backup_command quick_hash toy_cuts false false false (fun _ => true) [] [] [] 3 [fa; fb] parent pf k w c /\
  paths_ok toy_cuts false [fa; fb] /\ Forall (in_list ex_blobs) (plan_blobs quick_hash toy_cuts (fun _ => true) pf (sn_tree <$> parent) [fa; fb]) /\
  parent = None /\ no_clash quick_hash k w c /\ command_done quick_hash 20000 true 4 k w c k1 w1 /\
  (exists p t m, p ∈ [[tx "aa"]; [tx "bb"]] /\ ent rt_files p = Some (t, m) /\ t <> TOther /\ true = true /\ forall p', [[tx "aa"]; [tx "bb"]] = [p'] -> t = TDir) /\
  sorted_fs rt_world.2 /\ fs_at rt_world.2 [tx "out"] = Some (FsDir ex_dirmeta []) /\ is_Some (modes ex_dirmeta) /\ fs_ok toy_cuts false (FsDir ex_dirmeta []) /\ Forall text_wf [tx "out"] /\
  (forall p q t m, p ∈ [[tx "aa"]; [tx "bb"]] -> ent rt_files (p ++ q) = Some (t, m) ->
     is_Some (modes m) /\ forall s, meta_mtime m = Some s \/ meta_atime m = Some s -> (0 <= s \/ s mod 1000000000 = 0)%Z) /\
  forall i sn fo, k_snaps k1 !! i = Some sn -> sn_paths sn = map path_text [[tx "aa"]; [tx "bb"]] ->
    Forall (in_list ex_blobs) (made_there quick_hash toy_cuts fo sn (Some [tx "out"]) rt_world.2).
Proof.
  destruct C16_witness_whole as (parent & pf & c & k1 & w1 & sn & _ & _ & _ & _ & _ & Hk & Hw & _ & Hc & Hok & HU & Hpar & Hcl & _ & Hd & _).
  exists parent, pf, c, k1, w1. cbv zeta.
  split; [apply ex_universe|]. split; [exact Hk|]. split; [exact Hw|]. split; [reflexivity|].
  assert (forall es, sortedb es = true -> forallb (fun e : bytes * fsnode => shapeb e.2) es = true -> sorted_fs es) as Hsorted.
  { intros es H1 H2. split; [by apply sortedb_ok|]. apply Forall_forall. intros e He. apply shapeb_ok. by apply (forallb_in _ _ _ H2). }
  split; [apply Hsorted; vm_compute; reflexivity|].
  assert (all_of rt_files = [([tx "aa"], fa.2); ([tx "bb"], fb.2)]) as Eall by (vm_compute; reflexivity).
  assert (is_name (tx "aa") /\ is_name (tx "bb")) as [Na Nb].
  { split; (split; [done|]; split; [|done]; intros Hx; assert (bool_decide (slash ∈ tx "aa") = false /\ bool_decide (slash ∈ tx "bb") = false) as [H1%bool_decide_eq_false H2%bool_decide_eq_false] by done; done). }
  split. { intros l [[t m] E]. apply ent_in in E as (n & _ & Hin & _). rewrite Eall in Hin. apply elem_of_cons in Hin as [[= -> _]|[[= -> _]|Hin%elem_of_nil]%elem_of_cons]; [by constructor|by constructor|done]. }
  split; [constructor; [split; reflexivity|]; constructor; [split; reflexivity|]; constructor|].
  split; [exact Hc|]. split; [exact Hok|]. split; [exact HU|]. split; [exact Hpar|]. split; [exact Hcl|]. split; [exact Hd|].
  split. { exists [tx "aa"]. destruct (ent rt_files [tx "aa"]) as [[t m]|] eqn:E; [|vm_compute in E; discriminate E]. exists t, m. split; [by left|]. split; [done|]. split; [|split; [done|intros p' Hx; discriminate Hx]].
    intros ->. vm_compute in E. discriminate E. }
  split; [apply Hsorted; vm_compute; reflexivity|]. split; [reflexivity|]. split; [by eexists|]. split; [apply fs_okb_ok; vm_compute; reflexivity|].
  split. { constructor; [|constructor]. assert (bool_decide (text_wf (tx "out")) = true) as Hx by (vm_compute; reflexivity). by apply bool_decide_eq_true in Hx. }
  split.
  { intros p q t m _ E. apply ent_in in E as (n & _ & Hin & _ & <-). rewrite Eall in Hin.
    assert (forall n, n = fa.2 \/ n = fb.2 -> is_Some (modes (fs_meta n)) /\ forall s, meta_mtime (fs_meta n) = Some s \/ meta_atime (fs_meta n) = Some s -> (0 <= s \/ s mod 1000000000 = 0)%Z) as Hn.
    { intros n' Hn'. split; [destruct Hn' as [->| ->]; by eexists|]. intros s Hs. left.
      destruct Hn' as [->| ->]; vm_compute in Hs; destruct Hs as [Hs|Hs]; try discriminate Hs; injection Hs as <-; lia. }
    apply Hn. apply elem_of_cons in Hin as [[= _ ->]|[[= _ ->]|Hin%elem_of_nil]%elem_of_cons]; [by left|by right|done]. }
  intros i s fo _ Hs. assert (made_there quick_hash toy_cuts fo s (Some [tx "out"]) rt_world.2 = []) as ->; [|constructor].
  unfold made_there, targets. rewrite Hs. change (omap _ (map path_text [[tx "aa"]; [tx "bb"]])) with [(tx "aa", [tx "aa"]); (tx "bb", [tx "bb"])]. cbn [map fst snd].
  assert (found rt_world.2 [[tx "out"] ++ [tx "aa"]; [tx "out"] ++ [tx "bb"]] = []) as -> by (vm_compute; reflexivity). reflexivity.
Qed.
