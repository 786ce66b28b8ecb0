(** An interrupted restore: what each change keeps. *)

From Verif Require Import Base OMap Formats Hashing Meta Forest FsTree FsSpec FsFacts Pack Pipeline Repo Browse BrowseSpec BrowseFacts
  Times Restore RestoreSpec RestoreFacts RestoreSteps RestoreRun Interrupt InterruptSpec.

Lemma size_mtime t m : meta_size (set_mtime t m) = meta_size m.
Proof. by destruct m. Qed.
Lemma size_atime t m : meta_size (set_atime t m) = meta_size m.
Proof. by destruct m. Qed.
Lemma size_mode t m : meta_size (set_mode t m) = meta_size m.
Proof. by destruct m. Qed.
Lemma size_size n m : meta_size (set_size n m) = Some n.
Proof. by destruct m. Qed.

Lemma dir_or_not (t : thing) : t = TDir \/ t <> TDir.
Proof. by destruct t; auto. Qed.

Section inv.
Local Set Default Proof Using "All".
Variable clock : nat -> Z.
Variable fresh : nat -> kind -> posix.
Hypothesis Hfresh : forall n, p_size (fresh n KFile) = Some 0%N.
Variable args : restore_args.
Variable T : list (bytes * loc).
Variables es before : list (bytes * fsnode).
Hypothesis Hplace : forall x l, (x, l) ∈ T -> l <> [].
Hypothesis Hapart : forall x l y l', (x, l) ∈ T -> (y, l') ∈ T -> x <> y -> ~ l `prefix_of` l'.
Hypothesis Hone : forall x l l', (x, l) ∈ T -> (x, l') ∈ T -> l = l'.

Definition way (x : bytes) (l : loc) (q : list bytes) : Prop :=
  r_delete args = false /\ in_the_way (fun q => ent before (l ++ q)) (fun q => ent es (x :: q)) q.

Definition inv (w : list (bytes * fsnode)) : Prop :=
  sorted_fs w /\ frame (map snd T) before w /\
  forall x l q, (x, l) ∈ T ->
    on_the_way args (ent before (l ++ q)) (ent es (x :: q)) (ent w (l ++ q)) /\
    (way x l q -> ent w (l ++ q) = ent before (l ++ q)).

Lemma same_target x l q y l' q' : (x, l) ∈ T -> (y, l') ∈ T -> l ++ q `prefix_of` l' ++ q' -> x = y /\ l = l' /\ q `prefix_of` q'.
Proof.
  intros H1 H2 Hp. assert (x = y) as ->.
  { destruct (decide (x = y)) as [|Hne]; [done|]. exfalso.
    assert (l `prefix_of` l' ++ q') as Hp1 by (etrans; [|exact Hp]; by apply prefix_app_r).
    destruct (prefix_weak_total l l' (l' ++ q') Hp1) as [Hc|Hc]; [by apply prefix_app_r|by eapply (Hapart x l y l')|].
    eapply (Hapart y l' x l); [done|done|by intros ->|done]. }
  assert (l = l') as -> by by eapply Hone. split; [done|]. split; [done|]. by apply prefix_app_inv in Hp.
Qed.

Lemma way_prefix x l q r : way x l q -> way x l (q ++ r).
Proof. intros [Hd (r' & m & s & Hp & Hw)]. split; [done|]. exists r', m, s. split; [|done]. etrans; [exact Hp|]. by apply prefix_app_r. Qed.

Lemma inv_change tm f x l q0 (w w' : list (bytes * fsnode)) : inv w -> (x, l) ∈ T -> fs_change tm f (l ++ q0) w = Ok w' ->
  (forall n, f (fs_at w (l ++ q0)) = Ok (Some n) -> in_shape n) -> (tm = id \/ exists t, tm = set_mtime t) -> ~ way x l q0 ->
  is_Some (ent w (l ++ q0)) \/ is_Some (ent w' (l ++ q0)) ->
  (forall r, on_the_way args (ent before (l ++ q0 ++ r)) (ent es (x :: q0 ++ r)) (ent w' (l ++ q0 ++ r))) ->
  (forall r, way x l (q0 ++ r) -> ent w' (l ++ q0 ++ r) = ent w (l ++ q0 ++ r)) -> inv w'.
Proof.
  intros (Hs & Hf & Hall) Hin E Hsh Htm Hnw Hsome Hon Hway. destruct (fs_change_at tm f _ _ _ Hs E Hsh) as (Hs' & Hne & _ & Hpar & Hrest).
  assert (forall m, modes (tm m) = modes m) as Hmo by (intros m; destruct Htm as [->|[t ->]]; [done|apply modes_mtime]).
  assert (removelast (l ++ q0) = [] \/ (exists m, ent w (removelast (l ++ q0)) = Some (TDir, m))) as Hdir.
  { destruct Hsome as [[e He]|[e He]].
    - by destruct (ent_parent _ _ _ He) as [_ ?].
    - destruct (ent_parent _ _ _ He) as [_ [?|[m Hm]]]; [by left|right]. rewrite Hpar in Hm. destruct (ent w _) as [[t m']|]; [|done]. injection Hm as -> _. by exists m'. }
  assert (forall y l' q', (y, l') ∈ T -> l' ++ q' = removelast (l ++ q0) -> y = x /\ l' = l /\ exists z, q0 = q' ++ [z]) as Hinpar.
  { intros y l' q' Hin' Eq. destruct (last_some (l ++ q0)) as [z Ez]; [done|]. apply last_Some in Ez as [p Ep]. rewrite Ep, removelast_last in Eq. subst p.
    assert (l' ++ q' `prefix_of` l ++ q0) as Hp by (rewrite Ep; by apply prefix_app_r).
    destruct (same_target _ _ _ _ _ _ Hin' Hin Hp) as (-> & -> & _). split; [done|]. split; [done|]. exists z. rewrite <-app_assoc in Ep. by apply app_inv_head in Ep. }
  split; [done|]. split.
  - intros p Hp. destruct (Hf p Hp) as [F1 F2].
    assert (~ l ++ q0 `prefix_of` p) as Hnp.
    { intros Hc. apply (Hp l); [change (map ?f ?l) with (f <$> l); apply elem_of_list_fmap; by exists (x, l)|]. etrans; [|exact Hc]. by apply prefix_app_r. }
    destruct (decide (p = removelast (l ++ q0))) as [->|Hr].
    + split.
      * eapply left_alone_trans; [exact F1|]. rewrite Hpar. destruct Hdir as [->|[m ->]]; [by rewrite ent_nil|]. cbn. by rewrite Hmo.
      * intros Hn. exfalso. destruct (decide (q0 = [])) as [->|Hq].
        -- rewrite app_nil_r in Hn. eapply (Hn l); [|done]. change (map ?f ?l) with (f <$> l). apply elem_of_list_fmap. by exists (x, l).
        -- apply (Hp l); [change (map ?f ?l) with (f <$> l); apply elem_of_list_fmap; by exists (x, l)|]. rewrite removelast_app by done. by apply prefix_app_r.
    + rewrite Hrest by done. done.
  - intros y l' q' Hin'. destruct (decide (l ++ q0 `prefix_of` l' ++ q')) as [Hp|Hp].
    + destruct (same_target _ _ _ _ _ _ Hin Hin' Hp) as (<- & <- & [r ->]). split; [apply Hon|]. intros Hw. rewrite Hway by done. by apply (proj2 (Hall x l (q0 ++ r) Hin)).
    + destruct (decide (l' ++ q' = removelast (l ++ q0))) as [Eq|Hne'].
      * destruct (Hinpar _ _ _ Hin' Eq) as (-> & -> & z & ->). split; [|intros Hw; destruct Hnw; by apply way_prefix].
        destruct (Hall x l q' Hin) as [Ho _]. rewrite Eq in Ho |- *. rewrite Hpar.
        destruct Hdir as [Hd|[m Hm]]; [rewrite Hd in Eq; apply app_eq_nil in Eq as [-> _]; by destruct (Hplace x [])|].
        rewrite Hm in Ho |- *. cbn in Ho |- *. rewrite Hmo. destruct Ho as [Hso Ho]. split; [done|]. destruct Ho as [(m1 & Eb & Hu)|(s & Es & Hwr)].
        -- left. exists m1. cbn in *. split; [done|]. destruct Hu as [->|[[_ Hu]|Hu]]; [right; left; split; [done|]; intros _; apply Hmo|right; left; split; [done|intros Hno; rewrite Hmo; auto]|by right; right].
        -- right. exists s. split; [done|]. unfold written in *. cbn in *. destruct s.1; try done. by destruct Hwr as (c & ? & _).
      * rewrite Hrest by done. by apply Hall.
Qed.

(** Changes of one place only. *)
Lemma inv_point tp f x l q0 (w w' : fsworld) : inv w.2 -> (x, l) ∈ T -> change clock tp f (l ++ q0) w = Ok w' ->
  (forall n, f (fs_at w.2 (l ++ q0)) = Ok (Some n) -> in_shape n) -> ~ way x l q0 ->
  (forall o n r, f (fs_at w.2 (l ++ q0)) = Ok o -> o = Some n -> r <> [] -> fs_sub n r = fs_at w.2 (l ++ q0) ≫= (fun m => fs_sub m r)) ->
  (forall o, f (fs_at w.2 (l ++ q0)) = Ok o -> exists n, o = Some n /\
     on_the_way args (ent before (l ++ q0)) (ent es (x :: q0)) (Some (thing_of n, fs_meta n))) ->
  inv w'.2 /\ exists n, f (fs_at w.2 (l ++ q0)) = Ok (Some n) /\ ent w'.2 (l ++ q0) = Some (thing_of n, fs_meta n).
Proof.
  intros Hinv Hin E Hsh Hnw Hsub Hon. unfold change in E. destruct (fs_change _ f (l ++ q0) w.2) as [es'| |] eqn:Ec; try done. injection E as <-. cbn [snd].
  pose proof Hinv as (Hs & _ & Hall). destruct (fs_change_at _ f _ _ _ Hs Ec Hsh) as (_ & Hne & (o & Eo & Hat) & _).
  destruct (Hon o Eo) as (n & -> & Hon').
  assert (ent es' (l ++ q0) = Some (thing_of n, fs_meta n)) as En.
  { unfold ent. pose proof (Hat []) as Ha. rewrite app_nil_r in Ha. rewrite Ha. done. }
  assert (forall r, r <> [] -> ent es' (l ++ q0 ++ r) = ent w.2 (l ++ q0 ++ r)) as Hr.
  { intros r Hr. unfold ent. rewrite !app_assoc, Hat. cbn [mbind option_bind]. rewrite (Hsub _ _ r Eo eq_refl Hr). by rewrite <-fs_at_app. }
  split; [|by exists n]. eapply inv_change; [done|done|exact Ec|done|destruct tp; [right; by eexists|by left]|done|right; by rewrite En| |].
  - intros r. destruct (decide (r = [])) as [->|Hne']; [rewrite !app_nil_r, En; done|]. rewrite Hr by done. by apply Hall.
  - intros r Hw. destruct (decide (r = [])) as [->|Hne']; [|by apply Hr]. rewrite app_nil_r in Hw. done.
Qed.

Lemma on_written b (s g : thing_meta) : is_Some (modes g.2) -> written s g -> on_the_way args b (Some s) (Some g).
Proof. intros Hm Hw. split; [done|]. right. by exists s. Qed.

Lemma create_inv x l q0 c0 m0 (w w' : fsworld) : inv w.2 -> (x, l) ∈ T -> ent es (x :: q0) = Some (TFile c0, m0) -> ~ way x l q0 ->
  create_file clock fresh (l ++ q0) w = Ok w' ->
  inv w'.2 /\ exists m, ent w'.2 (l ++ q0) = Some (TFile [], m) /\ is_Some (modes m) /\ meta_size m = Some 0%N.
Proof.
  intros Hinv Hin Es Hnw E. unfold create_file in E.
  assert (forall m c, fs_at w.2 (l ++ q0) = Some (FsFile m c) -> is_Some (modes m)) as Hmo.
  { intros m c Ef. pose proof Hinv as (_ & _ & Hall). destruct (Hall x l q0 Hin) as [Ho _]. unfold ent at 3 in Ho. rewrite Ef in Ho. apply Ho. }
  eapply inv_point in E; [|done|done| |done| |].
  - destruct E as (Hi & n & En & Ee). split; [done|]. destruct (fs_at w.2 (l ++ q0)) as [[m c|m c|m c|m]|] eqn:Ef; try done; injection En as <-; cbn in Ee.
    + eexists. split; [exact Ee|]. rewrite modes_mtime, modes_size, size_mtime, size_size. by split; [eapply Hmo|].
    + eexists. split; [exact Ee|]. split; [by eexists|]. apply Hfresh.
  - intros n En. destruct (fs_at w.2 (l ++ q0)) as [[]|]; try done; by injection En as <-.
  - intros o n r Eo -> Hr. destruct (fs_at w.2 (l ++ q0)) as [[]|]; try done; injection Eo as <-; by destruct r.
  - intros o Eo. destruct (fs_at w.2 (l ++ q0)) as [[m c|m c|m c|m]|] eqn:Ef; try done; injection Eo as <-; eexists; (split; [done|]); rewrite Es; apply on_written; cbn.
    + rewrite modes_mtime, modes_size. by eapply Hmo.
    + exists []. split; [done|]. split; [apply prefix_nil|]. cbn. by rewrite size_mtime, size_size.
    + by eexists.
    + exists []. split; [done|]. split; [apply prefix_nil|]. apply Hfresh.
Qed.

Lemma append_inv b x l q0 c0 m0 c m (w w' : fsworld) : inv w.2 -> (x, l) ∈ T -> ent es (x :: q0) = Some (TFile c0, m0) -> ~ way x l q0 ->
  ent w.2 (l ++ q0) = Some (TFile c, m) -> is_Some (modes m) -> (c ++ b) `prefix_of` c0 ->
  append_file clock b (l ++ q0) w = Ok w' ->
  inv w'.2 /\ exists m, ent w'.2 (l ++ q0) = Some (TFile (c ++ b), m) /\ is_Some (modes m) /\ meta_size m = Some (N.of_nat (length (c ++ b))).
Proof.
  intros Hinv Hin Es Hnw Ec Hm Hpre E. unfold append_file in E.
  assert (fs_at w.2 (l ++ q0) = Some (FsFile m c)) as Ef.
  { apply (fs_at_ent clock fresh) in Ec as (n & -> & Ht & Hn). destruct n; try done. cbn in *. by simplify_eq. }
  eapply inv_point in E; [|done|done| |done| |]; rewrite ?Ef.
  - destruct E as (Hi & n & En & Ee). split; [done|]. rewrite Ef in En. injection En as <-. cbn in Ee. eexists. split; [exact Ee|].
    by rewrite modes_mtime, modes_size, size_mtime, size_size.
  - intros n [= <-]. done.
  - intros o n r [= <-] [= <-] Hr. by destruct r.
  - intros o [= <-]. eexists. split; [done|]. rewrite Es. apply on_written; cbn; [by rewrite modes_mtime, modes_size|].
    exists (c ++ b). split; [done|]. split; [done|]. cbn. by rewrite size_mtime, size_size.
Qed.

Lemma mkdir_inv x l q0 m0 (w w' : fsworld) : inv w.2 -> (x, l) ∈ T -> ent es (x :: q0) = Some (TDir, m0) -> ~ way x l q0 ->
  create_dir clock fresh (l ++ q0) w = Ok w' -> inv w'.2.
Proof.
  intros Hinv Hin Es Hnw E. unfold create_dir in E. eapply inv_point in E; [apply E|done|done| |done| |].
  - intros n En. destruct (fs_at w.2 (l ++ q0)) as [[]|]; try done. injection En as <-. by split; constructor.
  - intros o n r Eo -> Hr. destruct (fs_at w.2 (l ++ q0)) as [[]|]; try done. injection Eo as <-. by destruct r as [|? []].
  - intros o Eo. destruct (fs_at w.2 (l ++ q0)) as [[]|]; try done. injection Eo as <-. eexists; split; [done|]. rewrite Es. apply on_written; cbn; [by eexists|done].
Qed.

Lemma link_inv t x l q0 m0 (w w' : fsworld) : inv w.2 -> (x, l) ∈ T -> ent es (x :: q0) = Some (TLink t, m0) -> ~ way x l q0 ->
  create_link clock fresh t (l ++ q0) w = Ok w' -> inv w'.2.
Proof.
  intros Hinv Hin Es Hnw E. unfold create_link in E. eapply inv_point in E; [apply E|done|done| |done| |].
  - intros n En. destruct (fs_at w.2 (l ++ q0)) as [[]|]; try done. by injection En as <-.
  - intros o n r Eo -> Hr. destruct (fs_at w.2 (l ++ q0)) as [[]|]; try done. injection Eo as <-. by destruct r.
  - intros o Eo. destruct (fs_at w.2 (l ++ q0)) as [[]|]; try done. injection Eo as <-. eexists; split; [done|]. rewrite Es. apply on_written; cbn; [by eexists|done].
Qed.

(** Metadata is set on what has been written, or was there with the saved contents. *)
Definition settable (x : bytes) (l : loc) (q0 : list bytes) (s : thing_meta) (w : list (bytes * fsnode)) : Prop :=
  forall c, s.1 = TFile c -> (exists m1, ent before (l ++ q0) = Some (TFile c, m1)) \/ exists g, ent w (l ++ q0) = Some g /\ written s g.

Lemma meta_inv g x l q0 s (w w' : fsworld) : inv w.2 -> (x, l) ∈ T -> ent es (x :: q0) = Some s -> ~ way x l q0 -> settable x l q0 s w.2 ->
  (forall m, is_Some (modes m) -> is_Some (modes (g m))) -> (forall m, meta_size (g m) = meta_size m) ->
  change_meta clock g (l ++ q0) w = Ok w' -> inv w'.2 /\ settable x l q0 s w'.2.
Proof.
  intros Hinv Hin Es Hnw Hset Hgm Hgs E. unfold change_meta in E.
  assert (forall n, written s (thing_of n, fs_meta n) -> written s (thing_of (set_meta_of g n), fs_meta (set_meta_of g n))) as Hwr.
  { intros n. unfold written. destruct s as [t m]. cbn. destruct t; [|by destruct n|by destruct n|done]. intros (c & Et & Hp & Hsz). exists c.
    destruct n; try done. cbn in *. by rewrite Hgs. }
  pose proof Hinv as (Hso & _ & Hall). destruct (Hall x l q0 Hin) as [Ho _].
  eapply inv_point in E; [|done|done| |done| |].
  - destruct E as (Hi & n & En & Ee). split; [done|]. intros c Ec. destruct (Hset c Ec) as [?|(g0 & Eg & Hw)]; [by left|right].
    destruct (fs_at w.2 (l ++ q0)) as [n0|] eqn:Ef; [|done]. injection En as <-. eexists. split; [exact Ee|]. apply Hwr. unfold ent in Eg. rewrite Ef in Eg. by injection Eg as <-.
  - intros n En. destruct (fs_at w.2 (l ++ q0)) as [n0|] eqn:Ef; [|done]. injection En as <-. apply set_meta_of_shape. by eapply fs_at_shape.
  - intros o n r Eo -> Hr. destruct (fs_at w.2 (l ++ q0)) as [n0|] eqn:Ef; [|done]. injection Eo as <-. by apply fs_sub_set_meta.
  - intros o Eo. unfold ent at 3 in Ho. destruct (fs_at w.2 (l ++ q0)) as [n0|] eqn:Ef; [|done]. injection Eo as <-. eexists. split; [done|].
    cbn in Ho. destruct Ho as [Hm Ho]. split; [cbn; destruct n0; by apply Hgm|]. destruct Ho as [(m1 & Eb & Hu)|(s' & Es' & Hw)].
    + assert ((exists c, s.1 = TFile c) \/ ~ exists c, s.1 = TFile c) as [Hc|Hc] by (clear; destruct s as [[] ?]; cbn; [left; by eexists|right; by intros [? ?]..]).
      * destruct Hc as [c Ec]. destruct (Hset c Ec) as [(m2 & Eb2)|(g0 & Eg & Hw)].
        -- left. exists m1. cbn in *. rewrite Eb in Eb2. injection Eb2 as Et <-. split; [rewrite Eb; by destruct n0|]. right. right. exists s. split; [done|].
           intros c' Ec'. rewrite Ec in Ec'. injection Ec' as <-. by destruct n0.
        -- right. exists s. split; [done|]. apply Hwr. unfold ent in Eg. rewrite Ef in Eg. by injection Eg as <-.
      * left. exists m1. cbn in *. split; [rewrite Eb; by destruct n0|]. right. right. exists s. split; [done|]. intros c Ec. destruct Hc. by exists c.
    + right. exists s'. split; [done|]. change (ent es (x :: q0) = Some s') in Es'. rewrite Es in Es'. injection Es' as <-. by apply Hwr.
Qed.

Lemma remove_inv f x l q0 (w w' : fsworld) : inv w.2 -> (x, l) ∈ T ->
  (forall r, on_the_way args (ent before (l ++ q0 ++ r)) (ent es (x :: q0 ++ r)) None) -> (forall r, ~ way x l (q0 ++ r)) ->
  (forall o o', f o = Ok o' -> is_Some o /\ o' = None) ->
  change clock true f (l ++ q0) w = Ok w' -> inv w'.2.
Proof.
  intros Hinv Hin Hon Hnw Hf E. unfold change in E. destruct (fs_change _ f (l ++ q0) w.2) as [es'| |] eqn:Ec; try done. injection E as <-. cbn [snd].
  pose proof Hinv as (Hs & _ & Hall).
  assert (forall n, f (fs_at w.2 (l ++ q0)) = Ok (Some n) -> in_shape n) as Hsh by (intros n En; by destruct (Hf _ _ En) as [_ ?]).
  destruct (fs_change_at _ f _ _ _ Hs Ec Hsh) as (_ & Hne & (o & Eo & Hat) & _). destruct (Hf _ _ Eo) as [[n Hn] ->].
  assert (forall r, ent es' (l ++ q0 ++ r) = None) as Hnone by (intros r; unfold ent; by rewrite app_assoc, Hat).
  eapply inv_change; [done|done|exact Ec|done|right; by eexists| |left; unfold ent; by rewrite Hn| |].
  - specialize (Hnw []). by rewrite app_nil_r in Hnw.
  - intros r. rewrite Hnone. apply Hon.
  - intros r Hw. by destruct (Hnw r).
Qed.

(** What may go. *)
Lemma may_go x l q0 bt bm : (x, l) ∈ T -> ~ way x l q0 -> ent before (l ++ q0) = Some (bt, bm) ->
  match ent es (x :: q0) with None => r_delete args = true | Some (st, _) => (bt = TDir -> r_delete args = true) /\ ~ same_kind bt st end ->
  (forall r, on_the_way args (ent before (l ++ q0 ++ r)) (ent es (x :: q0 ++ r)) None) /\ (forall r, ~ way x l (q0 ++ r)).
Proof.
  intros Hin Hnw Eb Hok.
  assert (l ++ q0 <> []) as Hne by (intros [-> _]%app_eq_nil; by destruct (Hplace x [])).
  assert (forall r, r <> [] -> bt <> TDir -> ent before (l ++ q0 ++ r) = None) as Hbelow.
  { intros r Hr Hbt. rewrite app_assoc. apply ent_below; [done| |done]. intros m. rewrite Eb. by intros [= -> _]. }
  split.
  - intros r. destruct (decide (r = [])) as [->|Hr].
    + rewrite !app_nil_r, Eb. unfold on_the_way. split.
      * destruct (ent es (x :: q0)); [by right; right|by right; left].
      * intros t m t' m' [= <- <-] Es. rewrite Es in Hok. apply Hok.
    + unfold on_the_way. split.
      * destruct (dir_or_not bt) as [->|Hbt]; [|left; by apply Hbelow]. right. left. destruct (ent es (x :: q0)) as [[st sm]|]; [by apply Hok|done].
      * intros t m t' m' E1 E2 _. destruct (dir_or_not bt) as [->|Hbt]; [|by rewrite Hbelow in E1].
        destruct (ent es (x :: q0)) as [[st sm]|] eqn:Es.
        -- destruct Hok as [_ Hk]. assert (st <> TDir) as Hst by (intros ->; by apply Hk).
           rewrite app_comm_cons, ent_below in E2; [done|done| |done]. intros m2. rewrite Es. by intros [= ? _].
        -- rewrite app_comm_cons, ent_below in E2; [done|done| |done]. intros m2. by rewrite Es.
  - intros r [Hd (r' & m & s & [r2 Er] & Hw)]. assert (bt <> TDir) as Hbt.
    { intros ->. destruct (ent es (x :: q0)) as [[st sm]|]; [destruct Hok as [Hok _]; rewrite Hok in Hd; done|by rewrite Hok in Hd]. }
    destruct (prefix_weak_total r' q0 (q0 ++ r)) as [Hp|[r3 ->]]; [by exists r2|by apply prefix_app_r| |].
    + apply Hnw. split; [done|]. exists r', m, s. by split.
    + destruct (decide (r3 = [])) as [->|Hr3].
      * rewrite app_nil_r in Hw. destruct Hw as [Hw _]. rewrite Eb in Hw. by injection Hw as -> _.
      * rewrite Hbelow in Hw by done. by destruct Hw.
Qed.

(** ** Along a list of changes *)

Definition keeps (ops : list fsop) (w : fsworld) : Prop := forall mid, interrupted clock fresh ops w mid -> inv mid.2.

Lemma keeps_nil w : inv w.2 -> keeps [] w.
Proof. intros Hi mid (n & w1 & E & Hm). rewrite take_nil in E. injection E as <-. destruct Hm as [->|(op & part & Ho & _)]; [done|by rewrite lookup_nil in Ho]. Qed.

Lemma keeps_cons op ops w : inv w.2 -> (forall part w2, torn op part -> perform_all clock fresh part w = Ok w2 -> inv w2.2) ->
  (forall w1, perform clock fresh op w = Ok w1 -> keeps ops w1) -> keeps (op :: ops) w.
Proof.
  intros Hi Ht Hk mid (n & w1 & E & Hm). destruct n as [|n].
  - cbn in E. injection E as <-. destruct Hm as [->|(op' & part & Ho & Htn & Ep)]; [done|]. cbn in Ho. injection Ho as ->. by eapply Ht.
  - cbn in E. destruct (perform clock fresh op w) as [w0| |] eqn:E0; try done. eapply Hk; [done|]. by exists n, w1.
Qed.

Lemma keeps_app o1 o2 w : keeps o1 w -> (forall w1, perform_all clock fresh o1 w = Ok w1 -> inv w1.2 -> keeps o2 w1) -> keeps (o1 ++ o2) w.
Proof.
  intros H1 H2 mid (n & w1 & E & Hm). assert (n < length o1 \/ length o1 <= n) as [Hn|Hn] by lia.
  - apply H1. exists n, w1. rewrite take_app_le in E by lia. split; [done|]. destruct Hm as [->|(op & part & Ho & Hr)]; [by left|]. right. exists op, part. by rewrite lookup_app_l in Ho.
  - rewrite take_app_ge in E by lia. unfold perform_all in E. rewrite rfold_app in E.
    destruct (rfold (perform clock fresh) o1 w) as [w0| |] eqn:E0; try done. cbn in E. eapply (H2 w0); [done| |].
    + apply H1. exists (length o1), w0. rewrite take_ge by lia. by split; [|left].
    + exists (n - length o1), w1. split; [done|]. rewrite lookup_app_r in Hm by lia. done.
Qed.

Lemma untorn op part : torn op part -> (forall b l, op <> OpAppend b l) -> (forall l, op <> OpRmdir l) -> False.
Proof. intros []; naive_solver. Qed.
Ltac no_part := (let H := fresh in intros ? ? H _; exfalso; by eapply untorn).

Lemma metadata_keeps n x l q0 s (w : fsworld) o : metadata_ops args n (l ++ q0) = Ok o -> inv w.2 -> (x, l) ∈ T -> ent es (x :: q0) = Some s ->
  ~ way x l q0 -> settable x l q0 s w.2 -> keeps o w.
Proof.
  intros Eo Hinv Hin Es Hnw Hset. unfold metadata_ops in Eo.
  assert (exists o1 o2, o = o1 ++ o2 /\ (o1 = [] \/ exists mt at_, o1 = [OpTimes mt at_ (l ++ q0)]) /\ (o2 = [] \/ exists mode, o2 = [OpMode mode (l ++ q0)])) as (o1 & o2 & -> & H1 & H2).
  { destruct (if r_times args then _ else _) as [o1| |] eqn:E1; try done. cbn in Eo.
    assert (o1 = [] \/ exists mt at_, o1 = [OpTimes mt at_ (l ++ q0)]) as H1.
    { destruct (r_times args); [|left; by injection E1]. unfold times_ops in E1.
      destruct (meta_mtime (n_meta n)) as [mt|], (meta_atime (n_meta n)) as [at_|]; try (left; by injection E1); right.
      all: destruct (ensure _); try done; cbn in E1; injection E1 as <-; eauto. }
    destruct (r_permissions args).
    - destruct (node_kind n) as [k| |]; try done. cbn in Eo. case_bool_decide; [exists o1, []; rewrite app_nil_r; by injection Eo as <-; auto|].
      destruct (n_meta n) as [p|]; [|done]. injection Eo as <-. exists o1, [OpMode (p_mode p) (l ++ q0)]. eauto.
    - injection Eo as <-. exists o1, []. rewrite app_nil_r. auto. }
  apply (keeps_app o1 o2).
  - destruct H1 as [->|(mt & at_ & ->)]; [by apply keeps_nil|]. apply keeps_cons; [done|no_part|]. intros w1 E1. apply keeps_nil. cbn in E1.
    eapply meta_inv in E1; [apply E1|done|done|exact Es|done|done| |].
    + intros m Hm. by rewrite modes_atime, modes_mtime.
    + intros m. by rewrite size_atime, size_mtime.
  - intros w1 Ew1 Hi1. destruct H2 as [->|(mode & ->)]; [by apply keeps_nil|]. apply keeps_cons; [done|no_part|]. intros w2 E2. apply keeps_nil. cbn in E2.
    assert (settable x l q0 s w1.2) as Hset1.
    { destruct H1 as [->|(mt & at_ & ->)]; [by injection Ew1 as <-|]. cbn in Ew1. destruct (change_meta _ _ _ _) as [w1'| |] eqn:E1; try done. injection Ew1 as ->.
      eapply meta_inv in E1; [apply E1|done|done|exact Es|done|done| |].
      + intros m Hm. by rewrite modes_atime, modes_mtime.
      + intros m. by rewrite size_atime, size_mtime. }
    eapply meta_inv in E2; [apply E2|done|done|exact Es|done|done| |].
    + intros m Hm. by apply set_mode_some.
    + intros m. by rewrite size_mode.
Qed.

Lemma fill_ops_read (read : oid -> result bytes) cs ps loc : Forall2 (fun c p => read c = Ok p) cs ps ->
  fill_ops read cs loc = Ok (map (fun p => OpAppend p loc) ps).
Proof.
  intros HF. unfold fill_ops. assert (forall acc, rfold (fun c ops => let* b := read c in Ok (ops ++ [OpAppend b loc])) cs acc = Ok (acc ++ map (fun p => OpAppend p loc) ps)) as Hgen; [|apply Hgen].
  induction HF as [|c p cs ps Hc _ IH]; intros acc; [by rewrite app_nil_r|]. cbn. rewrite Hc. cbn. rewrite IH. by rewrite <-app_assoc.
Qed.

Lemma appends_keep ps x l q0 c0 m0 c m (w : fsworld) : inv w.2 -> (x, l) ∈ T -> ent es (x :: q0) = Some (TFile c0, m0) -> ~ way x l q0 ->
  ent w.2 (l ++ q0) = Some (TFile c, m) -> is_Some (modes m) -> meta_size m = Some (N.of_nat (length c)) -> (c ++ concat ps) `prefix_of` c0 ->
  keeps (map (fun p => OpAppend p (l ++ q0)) ps) w /\
  forall w1, perform_all clock fresh (map (fun p => OpAppend p (l ++ q0)) ps) w = Ok w1 ->
    exists m1, ent w1.2 (l ++ q0) = Some (TFile (c ++ concat ps), m1) /\ meta_size m1 = Some (N.of_nat (length (c ++ concat ps))).
Proof.
  revert c m w. induction ps as [|p ps IH]; intros c m w Hinv Hin Es Hnw Ec Hm Hsz Hpre.
  { split; [by apply keeps_nil|]. intros w1 [= <-]. exists m. cbn. by rewrite app_nil_r. }
  cbn [concat] in Hpre |- *.
  assert (forall w1, append_file clock p (l ++ q0) w = Ok w1 -> keeps (map (fun p => OpAppend p (l ++ q0)) ps) w1 /\
    forall w2, perform_all clock fresh (map (fun p => OpAppend p (l ++ q0)) ps) w1 = Ok w2 ->
    exists m1, ent w2.2 (l ++ q0) = Some (TFile (c ++ p ++ concat ps), m1) /\ meta_size m1 = Some (N.of_nat (length (c ++ p ++ concat ps)))) as Hnext.
  { intros w1 E1. eapply append_inv in E1 as (Hi & m1 & Em & Hmo & Hs1); [|done|done|exact Es|done|exact Ec|done|].
    - rewrite !(app_assoc c p). by eapply IH; try done; rewrite <-app_assoc.
    - etrans; [|exact Hpre]. rewrite app_assoc. by apply prefix_app_r. }
  split.
  - cbn [map]. apply keeps_cons; [done| |intros w1 E1; by apply Hnext]. intros part w2 Ht Ep. inversion Ht as [b1 b2 loc Eb|]; subst. cbn in Ep.
    destruct (append_file clock b1 (l ++ q0) w) as [w1| |] eqn:E1; try done. injection Ep as <-.
    eapply append_inv in E1 as [Hi _]; [exact Hi|done|done|exact Es|done|exact Ec|done|]. etrans; [|exact Hpre]. rewrite <-app_assoc, app_assoc. by apply prefix_app_r.
  - intros w2 E2. cbn in E2. destruct (append_file clock p (l ++ q0) w) as [w1| |] eqn:E1; try done. by eapply Hnext.
Qed.

Lemma write_keeps (read : oid -> result bytes) n cs ps x l q0 (w : fsworld) o1 o2 : n_contents n = CFile cs -> Forall2 (fun c p => read c = Ok p) cs ps ->
  inv w.2 -> (x, l) ∈ T -> ent es (x :: q0) = Some (TFile (concat ps), n_meta n) -> ~ way x l q0 ->
  fill_ops read cs (l ++ q0) = Ok o1 -> metadata_ops args n (l ++ q0) = Ok o2 -> keeps (OpCreate (l ++ q0) :: o1 ++ o2) w.
Proof.
  intros En HF Hinv Hin Es Hnw E1 E2. rewrite (fill_ops_read _ _ _ _ HF) in E1. injection E1 as <-.
  apply keeps_cons; [done|no_part|]. intros w1 Ew1. cbn in Ew1. eapply create_inv in Ew1 as (Hi1 & m & Em & Hmo & Hsz); [|done|done|exact Es|done].
  destruct (appends_keep ps x l q0 _ _ [] m w1 Hi1 Hin Es Hnw Em Hmo Hsz) as [Hk Hpost]; [done|].
  apply keeps_app; [done|]. intros w2 Ew2 Hi2. destruct (Hpost w2 Ew2) as (m1 & Em1 & Hs1). eapply metadata_keeps; [exact E2|done|done|exact Es|done|].
  intros c Ec. right. eexists. split; [exact Em1|]. cbn. by exists (concat ps).
Qed.

Lemma add_keeps (read : oid -> result bytes) fo2 d : forall n x l q0 (w : fsworld) o,
  map_Forall (fun _ (t : tree) => om_sorted t) fo2 ->
  add_ops args read fo2 d n (l ++ q0) = Some (Ok o) -> inv w.2 -> (x, l) ∈ T ->
  (forall r, saves read (node_sub fo2 n r) (ent es (x :: q0 ++ r))) -> (forall r, ~ way x l (q0 ++ r)) -> keeps o w.
Proof.
  induction d as [|d IH]; intros n x l q0 w o Hsort E Hinv Hin Hsv Hnw.
  all: pose proof (Hsv []) as Hs; rewrite app_nil_r in Hs; change (node_sub fo2 n []) with (Some n) in Hs.
  all: assert (~ way x l q0) as Hnw0 by (specialize (Hnw []); by rewrite app_nil_r in Hnw).
  all: destruct (ent es (x :: q0)) as [[t m]|] eqn:Es; [|done]; destruct Hs as [Em Hs]; cbn [fst snd] in Em, Hs.
  all: cbn [add_ops] in E; destruct (n_contents n) as [cs|sub|tg] eqn:En.
  all: try done.
  all: try (destruct t; try done; subst; injection E as <-; apply keeps_cons; [done|no_part|]; intros w1 E1; apply keeps_nil; by eapply link_inv).
  all: try (destruct t; try done; destruct Hs as (ps & HF & ->); destruct (fill_ops read cs (l ++ q0)) as [o1| |] eqn:E1; try done; cbn in E;
    destruct (metadata_ops args n (l ++ q0)) as [o2| |] eqn:E2; try done; injection E as <-; eapply write_keeps; try done; by rewrite Em).
  destruct t; try done. destruct (fo2 !! sub) as [tr|] eqn:Esub; [|done].
  destruct (ofold _ tr _) as [[o1| |]|] eqn:Ef; try done. destruct (metadata_ops args n (l ++ q0)) as [o2| |] eqn:E2; try done. injection E as <-.
  assert (keeps o1 w) as Hk1.
  { assert (forall pre post acc, tr = pre ++ post -> keeps acc w ->
      (forall o', ofold (fun (e : bytes * node) ops =>
                match add_ops args read fo2 d e.2 ((l ++ q0) ++ [e.1]) with Some (Ok o) => Some (Ok (ops ++ o)) | other => other end) post acc = Some (Ok o') -> keeps o' w)) as Hgen.
    { intros pre post. revert pre. induction post as [|[y nd] post IHp]; intros pre acc Etr Hacc o' Eo; [by injection Eo as <-|]. cbn in Eo.
      destruct (add_ops args read fo2 d nd ((l ++ q0) ++ [y])) as [[oy| |]|] eqn:Ey; try done.
      eapply (IHp (pre ++ [(y, nd)]) (acc ++ oy)); [by rewrite <-app_assoc| |exact Eo].
      apply keeps_app; [done|]. intros w1 _ Hi1. rewrite <-app_assoc in Ey. eapply (IH nd x l (q0 ++ [y])); try done.
      - intros r. specialize (Hsv (y :: r)). rewrite <-app_assoc. cbn [app].
        rewrite (node_sub_into fo2 n sub (y :: r) En ltac:(done)) in Hsv. rewrite (node_at_step fo2 sub tr y r nd Esub) in Hsv; [done|].
        apply om_get_elem; [by apply (Hsort sub)|]. rewrite Etr. apply elem_of_app. right. left.
      - intros r. rewrite <-app_assoc. apply Hnw. }
    eapply (Hgen [] tr); [done| |exact Ef]. apply keeps_cons; [done|no_part|]. intros w1 E1. apply keeps_nil. by eapply mkdir_inv. }
  apply keeps_app; [done|]. intros w1 _ Hi1. eapply metadata_keeps; [exact E2|done|done|exact Es|done|]. intros c Hc. done.
Qed.
End inv.
