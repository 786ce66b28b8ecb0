(** Restoring: what each callback does. *)

From Verif Require Import Base OMap Formats Hashing Meta Forest FsTree FsSpec FsFacts Pack Pipeline Repo Browse BrowseSpec BrowseFacts Restore RestoreSpec RestoreFacts.

(** ** The restorer's steps *)

(** [nd] is the snapshot's node for what was saved. *)
Definition node_thing (read : oid -> result bytes) (nd : node) (s : thing_meta) : Prop :=
  n_meta nd = s.2 /\
  match n_contents nd, s.1 with
  | CFile cs, TFile c => exists ps, Forall2 (fun c p => read c = Ok p) cs ps /\ c = concat ps
  | CDir _, TDir => True
  | CSymlink t, TLink t' => t = t'
  | _, _ => False
  end.
Definition saves (read : oid -> result bytes) (o : option node) (s : option thing_meta) : Prop :=
  match o, s with None, None => True | Some nd, Some s => node_thing read nd s | _, _ => False end.

(** [o] is the node made of what is there; special files have none. *)
Definition shows (read : oid -> result bytes) (o : option node) (e : option thing_meta) : Prop :=
  match o, e with
  | None, None => True
  | None, Some e => e.1 = TOther
  | Some nd, Some e =>
      n_meta nd = e.2 /\ is_Some (modes e.2) /\
      match n_contents nd, e.1 with
      | CFile cs, TFile c => forall ps, Forall2 (fun c p => read c = Ok p) cs ps -> concat ps = c
      | CDir _, TDir => True
      | CSymlink t, TLink t' => t = t'
      | _, _ => False
      end
  | Some _, None => False
  end.

(** What the metadata of the snapshot must allow. *)
Definition node_fit (args : restore_args) (nd : node) : Prop :=
  meta_kind (n_meta nd) = contents_kind (n_contents nd) /\
  (r_permissions args = true -> contents_kind (n_contents nd) <> KSymlink -> is_Some (modes (n_meta nd))) /\
  (r_times args = true -> time_taken (meta_mtime (n_meta nd)) = true /\ time_taken (meta_atime (n_meta nd)) = true).

(** The outcome of putting what was saved where nothing else is. *)
Definition same_as_saved (args : restore_args) (s : option thing_meta) (g : option thing_meta) : Prop :=
  match s, g with None, None => True | Some s, Some g => is_what_was_saved args s g | _, _ => False end.

Section nodes.
Local Set Default Proof Using "All".
Variable clock : nat -> Z.
Variable fresh : nat -> kind -> posix.
Variable args : restore_args.
Variable pm : gmap bytes loc.
Variable read : oid -> result bytes.
Variable fo2 : forest.
Hypothesis Hfit2 : map_Forall (fun _ (t : tree) => om_sorted t /\ Forall (fun e : bytes * node => node_fit args e.2) t) fo2.

Lemma set_metadata_ok nd l w t m : node_fit args nd -> sorted_fs w.2 -> ent w.2 l = Some (t, m) -> is_Some (modes m) ->
  (contents_kind (n_contents nd) = KSymlink <-> exists tg, t = TLink tg) ->
  exists w', set_metadata clock args nd l w = Ok w' /\ sorted_fs w'.2 /\ frame [l] w.2 w'.2 /\
    (forall q, q <> [] -> ent w'.2 (l ++ q) = ent w.2 (l ++ q)) /\
    exists m', ent w'.2 l = Some (t, m') /\ is_what_was_saved args (t, n_meta nd) (t, m').
Proof.
  intros (Hk & Hperm & Htimes) Hs He Hm Hlink. unfold set_metadata.
  assert (exists w1, (if r_times args then restore_times clock (n_meta nd) l w else Ok w) = Ok w1 /\ sorted_fs w1.2 /\ frame [l] w.2 w1.2 /\
    (forall q, q <> [] -> ent w1.2 (l ++ q) = ent w.2 (l ++ q)) /\
    exists m', ent w1.2 l = Some (t, m') /\ is_Some (modes m') /\ (r_times args = true -> forall t, meta_mtime (n_meta nd) = Some t -> meta_mtime m' = Some t)) as (w1 & E1 & Hs1 & F1 & Hq1 & m1 & He1 & Hm1 & Ht1).
  { destruct (r_times args); [|exists w; split; [done|]; split; [done|]; split; [apply frame_refl|]; split; [done|]; by exists m].
    destruct (Htimes eq_refl) as [Htm Hta]. unfold restore_times. set (g := fun old => set_atime (default (clock w.1) (meta_atime (n_meta nd))) (set_mtime (default (clock w.1) (meta_mtime (n_meta nd))) old)).
    assert (exists w1, change_meta clock g l w = Ok w1 /\ sorted_fs w1.2 /\ frame [l] w.2 w1.2 /\ ent w1.2 l = Some (t, g m) /\ forall q, q <> [] -> ent w1.2 (l ++ q) = ent w.2 (l ++ q)) as (w1 & E1 & Hs1 & F1 & He1 & Hq1)
      by (apply (change_meta_ok clock fresh); done).
    assert (forall t, meta_mtime (n_meta nd) = Some t -> meta_mtime (g m) = Some t) as Hg.
    { intros t0 E0. unfold g. rewrite E0. cbn [default]. by destruct m. }
    assert (is_Some (modes (g m))) as Hgm by (unfold g; by rewrite modes_atime, modes_mtime).
    destruct (meta_mtime (n_meta nd)) as [mt|] eqn:Emt; [exists w1; split; [rewrite Hta, Htm; exact E1|]; split; [done|]; split; [done|]; split; [done|]; exists (g m); done|].
    destruct (meta_atime (n_meta nd)) as [at_|] eqn:Eat; [exists w1; split; [rewrite Hta, Htm; exact E1|]; split; [done|]; split; [done|]; split; [done|]; exists (g m); done|].
    exists w. split; [done|]. split; [done|]. split; [apply frame_refl|]. split; [done|]. by exists m. }
  rewrite E1. cbn [rbind]. destruct (r_permissions args) eqn:Ep.
  - unfold node_kind. rewrite Hk, bool_decide_eq_true_2 by done. cbn [rassert rbind]. case_bool_decide as Ek.
    + exists w1. split; [done|]. split; [done|]. split; [done|]. split; [done|]. exists m1. split; [done|]. split; [done|]. split; [intros ?; by intros; apply Ht1|].
      intros _ Hn. apply Hlink in Ek as [tg ->]. by destruct (Hn tg).
    + destruct (Hperm eq_refl Ek) as [mode Hmode]. destruct (n_meta nd) as [p|p] eqn:En; [|done]. cbn in Hmode. injection Hmode as Hmode.
      destruct (change_meta_ok clock fresh (set_mode (p_mode p)) l w1 t m1 Hs1 He1) as (w2 & E2 & Hs2 & F2 & He2 & Hq2).
      destruct (set_mode_some (p_mode p) m1 Hm1) as [Hm2 Hp2].
      exists w2. split; [done|]. split; [done|]. split; [by eapply frame_trans|]. split; [intros q Hq; by rewrite Hq2, Hq1|]. eexists. split; [done|].
      split; [done|]. split; [|by intros _ _]. intros Hti c t0 _ E0. cbn [snd]. rewrite set_mode_mtime. by apply Ht1.
  - exists w1. split; [done|]. split; [done|]. split; [done|]. split; [done|]. exists m1. split; [done|]. split; [done|]. split; [|by rewrite Ep]. intros Hti c t0 _ E0. by apply Ht1.
Qed.

(** Writing a file, new or in place of another. *)
Lemma write_file_ok nd cs ps l w : n_contents nd = CFile cs -> node_fit args nd -> Forall2 (fun c p => read c = Ok p) cs ps ->
  sorted_fs w.2 -> l <> [] -> dir_at w.2 (removelast l) ->
  (ent w.2 l = None \/ exists c m, ent w.2 l = Some (TFile c, m) /\ is_Some (modes m)) ->
  exists w', (let* w1 := create_file clock fresh l w in let* w2 := fill_file clock read cs l w1 in set_metadata clock args nd l w2) = Ok w' /\
    sorted_fs w'.2 /\ frame [l] w.2 w'.2 /\
    exists m', (forall q, ent w'.2 (l ++ q) = match q with [] => Some (TFile (concat ps), m') | _ => None end) /\
      is_what_was_saved args (TFile (concat ps), n_meta nd) (TFile (concat ps), m').
Proof.
  intros Ec Hfit Hps Hs Hne Hd Hl.
  destruct (create_file_ok clock fresh l w Hs Hne Hd Hl) as (w1 & E1 & Hs1 & F1 & m1 & Hl1 & Hm1). rewrite E1. cbn [rbind].
  destruct (fill_file_ok clock fresh read cs ps l w1 m1 [] Hps Hs1 Hl1 Hm1) as (w2 & E2 & Hs2 & F2 & m2 & Hl2 & Hm2). rewrite E2. cbn [rbind app] in *.
  assert (ent w2.2 l = Some (TFile (concat ps), m2)) as He2 by (unfold ent; by rewrite Hl2).
  destruct (set_metadata_ok nd l w2 _ m2 Hfit Hs2 He2 Hm2) as (w3 & E3 & Hs3 & F3 & Hq3 & m3 & He3 & Hw3).
  { rewrite Ec. cbn. split; [done|]. by intros [? ?]. }
  exists w3. split; [done|]. split; [done|]. split; [eapply frame_trans; [exact F1|]; by eapply frame_trans|]. exists m3. split; [|done].
  intros [|x q]; [by rewrite app_nil_r|]. rewrite Hq3 by done. apply ent_below; [done| |done]. intros m. by rewrite He2.
Qed.

Lemma node_sub_leaf nd x q : (forall d, n_contents nd <> CDir d) -> node_sub fo2 nd (x :: q) = None.
Proof. intros Hd. cbn [node_sub]. destruct (n_contents nd); try done. by destruct (Hd subtree). Qed.

Lemma add_node_ok d nd l w saved : node_fit args nd -> (forall s, n_contents nd = CDir s -> loaded fo2 d s) ->
  sorted_fs w.2 -> l <> [] -> dir_at w.2 (removelast l) -> ent w.2 l = None ->
  (forall q, saves read (node_sub fo2 nd q) (saved q)) ->
  exists w', add_node clock fresh args read fo2 d nd l w = Some (Ok w') /\ sorted_fs w'.2 /\ frame [l] w.2 w'.2 /\
    forall q, same_as_saved args (saved q) (ent w'.2 (l ++ q)).
Proof.
  revert nd l w saved. induction d as [|d IH]; intros nd l w saved Hfit Hload Hs Hne Hd Hl Hsv.
  all: pose proof (Hsv []) as H0; cbn [node_sub] in H0; destruct (saved []) as [[th mt]|] eqn:Es0; [|done]; destruct H0 as [Hmeta Hth]; cbn [fst snd] in Hmeta, Hth.
  all: destruct (n_contents nd) as [cs|s|tg] eqn:Ec.
  all: try (destruct th as [c| |t'|]; try done; cbn [add_node]; rewrite Ec).
  all: try (match goal with H : exists ps, _ |- _ => destruct Hth as (ps & Hps & ->);
      destruct (write_file_ok nd cs ps l w Ec Hfit Hps Hs Hne Hd (or_introl Hl)) as (w' & E & Hs' & F & m' & Hq & Hw); exists w'; rewrite E; split; [done|]; split; [done|]; split; [done|];
      intros [|x q]; [rewrite Hq, Es0, <- Hmeta; done|]; pose proof (Hsv (x :: q)) as Hx; rewrite node_sub_leaf in Hx by (by rewrite Ec); rewrite Hq; by destruct (saved (x :: q)) end).
  all: try (subst t'; destruct (create_link_ok clock fresh tg l w Hs Hne Hd Hl) as (w' & E & Hs' & F & m' & Hq); exists w'; rewrite E; split; [done|]; split; [done|]; split; [done|];
      intros [|x q]; [rewrite Hq, Es0; split; [done|]; split; [done|]; intros _ Hn; by destruct (Hn tg)|]; pose proof (Hsv (x :: q)) as Hx; rewrite node_sub_leaf in Hx by (by rewrite Ec); rewrite Hq; by destruct (saved (x :: q))).
  - by destruct (Hload s).
  - destruct (create_dir_ok clock fresh l w Hs Hne Hd Hl) as (w1 & E1 & Hs1 & F1 & m1 & Hq1 & Hm1). rewrite E1.
    destruct (Hload s eq_refl) as (t & Ht & Hsub). rewrite Ht. destruct (Hfit2 _ _ Ht) as [Hst Hft].
    assert (ent w1.2 l = Some (TDir, m1)) as He1 by (specialize (Hq1 []); by rewrite app_nil_r in Hq1).
    destruct (ofold_frames (fun (e : bytes * node) w => add_node clock fresh args read fo2 d e.2 (l ++ [e.1]) w) (fun e => l ++ [e.1])
      (fun e q g => same_as_saved args (saved (e.1 :: q)) g) t w1) as (w2 & E2 & Hs2 & F2 & P2).
    + apply (NoDup_fmap_1 fst). by apply om_sorted_nodup.
    + intros [x a] [y b] Ha Hb Hab [k Hk]. cbn [fst] in Hk. rewrite <- app_assoc in Hk. apply app_inv_head in Hk. injection Hk as <- _.
      apply om_get_elem in Ha, Hb; [|done|done]. apply Hab. congruence.
    + intros e _ Hx. by destruct l.
    + done.
    + intros e _. rewrite removelast_last. right. by exists m1.
    + intros [x a] w2 Ha Hs2 Hd2 Hsame. cbn [fst snd] in *. rewrite Forall_forall in Hft. destruct (IH a (l ++ [x]) w2 (fun q => saved (x :: q))) as (w3 & E3 & Hs3 & F3 & P3).
      * exact (Hft _ Ha).
      * intros s' Es'. apply Hsub. by eapply node_subtree_in.
      * done.
      * by destruct l.
      * done.
      * specialize (Hsame []). rewrite !app_nil_r in Hsame. rewrite Hsame. by rewrite Hq1.
      * intros q. specialize (Hsv (x :: q)). cbn [node_sub] in Hsv. rewrite Ec, Ht in Hsv. cbn [mbind option_bind] in Hsv. apply om_get_elem in Ha; [|done]. by rewrite Ha in Hsv.
      * exists w3. done.
    + rewrite E2. pose proof F2 as F0. rewrite <- (map_map fst (fun x => l ++ [x])) in F2. apply frame_below in F2 as [F2 La]; [|done].
      rewrite He1 in La. destruct (ent w2.2 l) as [[t2 m2]|] eqn:He2; [|done]. destruct La as (Et2 & Hm & _). cbn [fst snd] in *. subst t2.
      destruct (set_metadata_ok nd l w2 TDir m2 Hfit Hs2 He2) as (w3 & E3 & Hs3 & F3 & Hq3 & m3 & He3 & Hw3); [by rewrite <- Hm|rewrite Ec; split; [done|by intros [? ?]]|].
      exists w3. rewrite E3. split; [done|]. split; [done|]. split; [eapply frame_trans; [exact F1|]; by eapply frame_trans|].
      intros [|x q].
      * rewrite app_nil_r, He3, Es0, <- Hmeta. done.
      * rewrite Hq3 by done. pose proof (Hsv (x :: q)) as Hx. cbn [node_sub] in Hx. rewrite Ec, Ht in Hx. cbn [mbind option_bind] in Hx.
        destruct (om_get x t) as [a|] eqn:Ex.
        -- apply om_get_elem in Ex; [|done]. specialize (P2 (x, a) q Ex). cbn [fst] in P2. by rewrite <- app_assoc in P2.
        -- cbn [saves mbind option_bind] in Hx. destruct (saved (x :: q)) as [s'|]; [done|].
           assert (ent w2.2 (l ++ x :: q) = ent w1.2 (l ++ x :: q)) as ->; [|by rewrite Hq1].
           assert (forall L, L ∈ map (fun e : bytes * node => l ++ [e.1]) t -> exists y b, L = l ++ [y] /\ om_get y t = Some b) as HL.
           { intros L HL. change (map (fun e : bytes * node => l ++ [e.1]) t) with ((fun e : bytes * node => l ++ [e.1]) <$> t) in HL.
             apply elem_of_list_fmap in HL as ([y b] & -> & Hin). exists y, b. split; [done|]. by apply om_get_elem. }
           apply F0.
           ++ intros L (y & b & -> & Ey)%HL [k Hk]. rewrite <- app_assoc in Hk. apply app_inv_head in Hk. injection Hk as <- _. congruence.
           ++ intros L (y & b & -> & Ey)%HL Hk. rewrite removelast_last in Hk. apply (f_equal length) in Hk. rewrite app_length in Hk. cbn in Hk. lia.
Qed.
End nodes.

(** ** What comes out *)

Lemma comes_out_untouched args before saved q :
  match saved q with
  | None => r_delete args = true -> before q = None
  | Some s => exists g, before q = Some g /\ is_what_was_saved args s g
  end -> comes_out args before saved q (before q).
Proof.
  intros Hq. split.
  - intros Hd. destruct (saved q) as [s|]; [destruct Hq as (g & -> & Hg); done|]. by rewrite Hq.
  - intros _. split; [done|]. intros _. destruct (saved q) as [s|]; [destruct Hq as (g & -> & Hg); done|]. apply left_alone_refl.
Qed.

Lemma comes_out_new args before saved q after : same_as_saved args (saved q) after -> ~ in_the_way before saved q ->
  (saved q = None -> r_delete args = false -> before q = None) -> comes_out args before saved q after.
Proof.
  intros Hs Hw Hb. split; [intros _; exact Hs|]. intros Hd. split; [done|]. intros _. unfold same_as_saved in Hs.
  destruct (saved q) as [s|], after as [g|]; try done. by rewrite Hb.
Qed.

Lemma in_the_way_leaf (before saved : list bytes -> option thing_meta) q :
  (forall m, before [] <> Some (TDir, m)) -> (forall q, q <> [] -> before q = None) -> ~ in_the_way before saved q.
Proof. intros H0 Hq (r & m & s & _ & Hr & _). destruct r as [|x r]; [by apply (H0 m)|]. by rewrite Hq in Hr. Qed.

Lemma in_the_way_cons (before saved : list bytes -> option thing_meta) x q s : saved [] = Some s -> s.1 = TDir ->
  in_the_way before saved (x :: q) <-> in_the_way (fun q => before (x :: q)) (fun q => saved (x :: q)) q.
Proof.
  intros Es Et. split.
  - intros (r & m & s' & Hp & Hb & Hs & Hn). destruct r as [|y r]; [congruence|].
    pose proof (prefix_cons_inv_1 _ _ _ _ Hp) as ->. apply prefix_cons_inv_2 in Hp. by exists r, m, s'.
  - intros (r & m & s' & Hp & Hb & Hs & Hn). exists (x :: r), m, s'. split; [by apply prefix_cons|done].
Qed.

Lemma comes_out_cons args before saved x q s after : saved [] = Some s -> s.1 = TDir ->
  comes_out args (fun q => before (x :: q)) (fun q => saved (x :: q)) q after -> comes_out args before saved (x :: q) after.
Proof.
  intros Es Et [H1 H2]. split; [done|]. intros Hd. specialize (H2 Hd). destruct H2 as [H2 H3].
  split; intros Hw; [apply H2|apply H3; intros Hx; apply Hw]; revert Hw; rewrite (in_the_way_cons _ _ _ _ s Es Et) || rewrite <- (in_the_way_cons before saved x q s Es Et); done.
Qed.

(** The same node on both sides: what is there is what was saved. *)
Lemma same_node_same args read nd e s : shows read (Some nd) e -> node_thing read nd s ->
  exists g, e = Some g /\ is_what_was_saved args s g.
Proof.
  destruct e as [[t m]|]; [|done]. intros (Em & _ & Ht) [Em' Ht']. cbn [fst snd] in *. subst m. exists (t, n_meta nd). split; [done|].
  assert (t = s.1) as ->. { destruct (n_contents nd), t, (s.1); try done; try congruence. destruct Ht' as (ps & Hps & ->). f_equal. symmetry. by apply Ht. }
  rewrite Em'. split; [done|]. split; [|done]. by intros _ c t _.
Qed.

Section compare.
Local Set Default Proof Using "All".
Variable clock : nat -> Z.
Variable fresh : nat -> kind -> posix.
Variable args : restore_args.
Variable pm : gmap bytes loc.
Variable read : oid -> result bytes.
Variables fo1 fo2 : forest.
Hypothesis Hfit2 : map_Forall (fun _ (t : tree) => om_sorted t /\ Forall (fun e : bytes * node => node_fit args e.2) t) fo2.
Hypothesis Hsane1 : map_Forall (fun _ (t : tree) => om_sorted t /\ Forall (fun e : bytes * node => meta_kind (n_meta e.2) = contents_kind (n_contents e.2)) t) fo1.
Hypothesis Hsame : same_ids fo1 fo2.
Hypothesis Hdry : r_dry_run args = false.
Variable fuel : nat.

Notation cb := (restore_cb clock fresh args pm read fo2 fuel).

Lemma sane2 : map_Forall (fun _ (t : tree) => om_sorted t /\ Forall (fun e : bytes * node => meta_kind (n_meta e.2) = contents_kind (n_contents e.2)) t) fo2.
Proof. intros i t E. destruct (Hfit2 _ _ E) as [Hs Hf]. split; [done|]. eapply Forall_impl; [exact Hf|]. by intros e [? _]. Qed.

Definition trees_ok (k : nat) : Prop :=
  forall d1 d2 p (L : bytes -> loc) (saved : list bytes -> option thing_meta) (w : fsworld) t1 t2,
  fo1 !! d1 = Some t1 -> fo2 !! d2 = Some t2 -> loaded fo1 k d1 -> loaded fo2 k d2 -> k <= fuel -> sorted_fs w.2 ->
  (forall x q, x ∈ os_of_list (map fst t1 ++ map fst t2) -> translate pm (p ++ x :: q) = Ok (L x ++ q)) ->
  (forall x, x ∈ os_of_list (map fst t1 ++ map fst t2) -> L x <> [] /\ dir_at w.2 (removelast (L x))) ->
  (forall x y, x ∈ os_of_list (map fst t1 ++ map fst t2) -> y ∈ os_of_list (map fst t1 ++ map fst t2) -> x <> y -> ~ L x `prefix_of` L y) ->
  (forall x q, x ∈ os_of_list (map fst t1 ++ map fst t2) -> shows read (node_at fo1 d1 (x :: q)) (ent w.2 (L x ++ q))) ->
  (forall x q, x ∈ os_of_list (map fst t1 ++ map fst t2) -> saves read (node_at fo2 d2 (x :: q)) (saved (x :: q))) ->
  (forall x q m, x ∈ os_of_list (map fst t1 ++ map fst t2) -> ent w.2 (L x ++ q) = Some (TOther, m) -> r_delete args = false /\ saved (x :: q) = None) ->
  exists w', compare_trees fo1 fo2 cb k d1 d2 p w = Some (Ok w') /\ sorted_fs w'.2 /\
    frame (map L (os_of_list (map fst t1 ++ map fst t2))) w.2 w'.2 /\
    forall x q, x ∈ os_of_list (map fst t1 ++ map fst t2) ->
      comes_out args (fun q => ent w.2 (L x ++ q)) (fun q => saved (x :: q)) q (ent w'.2 (L x ++ q)).

(** A place and what the two trees have there. *)
Record at_place (p : list bytes) (l : loc) (w : fsworld) (o1 o2 : option node) (saved : list bytes -> option thing_meta) : Prop := {
  ap_sorted : sorted_fs w.2;
  ap_path : forall q, translate pm (p ++ q) = Ok (l ++ q);
  ap_loc : l <> [];
  ap_dir : dir_at w.2 (removelast l);
  ap_shows : forall q, shows read (o1 ≫= (fun n => node_sub fo1 n q)) (ent w.2 (l ++ q));
  ap_saves : forall q, saves read (o2 ≫= (fun n => node_sub fo2 n q)) (saved q);
  ap_special : forall q m, ent w.2 (l ++ q) = Some (TOther, m) -> r_delete args = false /\ saved q = None }.

Definition went_well (l : loc) (saved : list bytes -> option thing_meta) (w : fsworld) (r : option (result fsworld)) : Prop :=
  exists w', r = Some (Ok w') /\ sorted_fs w'.2 /\ frame [l] w.2 w'.2 /\
    forall q, comes_out args (fun q => ent w.2 (l ++ q)) saved q (ent w'.2 (l ++ q)).

Lemma ap_path_here p l w o1 o2 saved : at_place p l w o1 o2 saved -> translate pm p = Ok l.
Proof. intros A. pose proof (ap_path _ _ _ _ _ _ A []) as Ht. by rewrite !app_nil_r in Ht. Qed.
Lemma ap_here p l w n1 o2 saved : at_place p l w (Some n1) o2 saved -> shows read (Some n1) (ent w.2 l).
Proof. intros A. pose proof (ap_shows _ _ _ _ _ _ A []) as Ht. by rewrite app_nil_r in Ht. Qed.

Lemma added_ok p l w n2 saved : at_place p l w None (Some n2) saved -> node_fit args n2 -> (forall s, n_contents n2 = CDir s -> loaded fo2 fuel s) ->
  went_well l saved w (Some (cb p (Added n2) w)).
Proof.
  intros A Hfit Hload. unfold went_well. cbn [restore_cb]. rewrite (ap_path_here _ _ _ _ _ _ A), Hdry. cbn [rbind].
  pose proof (ap_saves _ _ _ _ _ _ A []) as Hs0. cbn in Hs0. destruct (saved []) as [s0|] eqn:Es0; [|done].
  assert (ent w.2 l = None) as El.
  { pose proof (ap_shows _ _ _ _ _ _ A []) as Hx. rewrite app_nil_r in Hx. cbn in Hx. destruct (ent w.2 l) as [[t m]|] eqn:El; [|done]. cbn in Hx. subst t.
    destruct (ap_special _ _ _ _ _ _ A [] m) as [_ Hn]; [by rewrite app_nil_r|]. congruence. }
  destruct (add_node_ok clock fresh args pm read fo2 Hfit2 fuel n2 l w saved Hfit Hload (ap_sorted _ _ _ _ _ _ A) (ap_loc _ _ _ _ _ _ A) (ap_dir _ _ _ _ _ _ A) El (ap_saves _ _ _ _ _ _ A)) as (w' & E & Hs' & F & Hq).
  rewrite E. cbn [or_panic]. exists w'. split; [done|]. split; [done|]. split; [done|]. intros q.
  assert (forall q, ent w.2 (l ++ q) = None) as Hnone.
  { intros [|x q']; [by rewrite app_nil_r|]. apply ent_below; [apply (ap_loc _ _ _ _ _ _ A)|by rewrite El|done]. }
  apply comes_out_new; [apply Hq| |intros; apply Hnone]. intros (r & m & s & _ & Hr & _). by rewrite Hnone in Hr.
Qed.

Lemma removed_node_ok p l w n1 o2 saved : at_place p l w (Some n1) o2 saved -> meta_kind (n_meta n1) = contents_kind (n_contents n1) ->
  exists w', remove_node clock n1 l w = Ok w' /\ sorted_fs w'.2 /\ frame [l] w.2 w'.2 /\ forall q, ent w'.2 (l ++ q) = None.
Proof.
  intros A Hk. pose proof (ap_here _ _ _ _ _ _ A) as Hsh. destruct (ent w.2 l) as [[t m]|] eqn:El; [|done]. destruct Hsh as (_ & _ & Ht). cbn [fst] in Ht.
  unfold remove_node, node_kind. rewrite bool_decide_eq_true_2 by done. cbn [rassert rbind].
  pose proof (remove_ok clock fresh l w t m (bool_decide (contents_kind (n_contents n1) = KDirectory)) (ap_sorted _ _ _ _ _ _ A) El) as Hr.
  destruct (n_contents n1) as [cs|d|tg]; destruct t; try done; cbn [contents_kind] in *; (apply Hr; case_bool_decide; done).
Qed.

Lemma removed_ok p l w n1 saved : at_place p l w (Some n1) None saved -> meta_kind (n_meta n1) = contents_kind (n_contents n1) ->
  went_well l saved w (Some (cb p (Removed n1) w)).
Proof.
  intros A Hk. unfold went_well. cbn [restore_cb]. assert (forall q, saved q = None) as Hsv.
  { intros q. pose proof (ap_saves _ _ _ _ _ _ A q) as Hs0. cbn in Hs0. by destruct (saved q). }
  destruct (r_delete args) eqn:Ed; cbn [negb].
  - rewrite (ap_path_here _ _ _ _ _ _ A), Hdry. cbn [rbind].
    destruct (removed_node_ok _ _ _ _ _ _ A Hk) as (w' & E & Hs' & F & Hq). rewrite E. exists w'. split; [done|]. split; [done|]. split; [done|].
    intros q. rewrite Hq. split; [by rewrite Hsv|]. by rewrite Ed.
  - exists w. split; [done|]. split; [apply (ap_sorted _ _ _ _ _ _ A)|]. split; [apply frame_refl|]. intros q.
    apply (comes_out_untouched args (fun q => ent w.2 (l ++ q))). rewrite Hsv. by rewrite Ed.
Qed.

Lemma type_changed_ok p l w n1 n2 saved : at_place p l w (Some n1) (Some n2) saved ->
  meta_kind (n_meta n1) = contents_kind (n_contents n1) -> node_fit args n2 -> (forall s, n_contents n2 = CDir s -> loaded fo2 fuel s) ->
  contents_kind (n_contents n1) <> contents_kind (n_contents n2) ->
  went_well l saved w (Some (cb p (TypeChanged n1 n2) w)).
Proof.
  intros A Hk Hfit Hload Hdiff. unfold went_well. cbn [restore_cb]. rewrite (ap_path_here _ _ _ _ _ _ A). cbn [rbind].
  pose proof (ap_here _ _ _ _ _ _ A) as Hsh. destruct (ent w.2 l) as [[t m]|] eqn:El; [|done]. destruct Hsh as (_ & _ & Ht). cbn [fst] in Ht.
  pose proof (ap_saves _ _ _ _ _ _ A []) as Hs0. cbn in Hs0. destruct (saved []) as [s0|] eqn:Es0; [|done].
  assert ((t = TDir /\ r_delete args = false /\ s0.1 <> TDir /\ (match n_contents n1, r_delete args with
      | CDir _, false => match n_contents n2 with CDir _ => Panic | _ => Ok w end
      | _, _ => if r_dry_run args then Ok w else let* w1 := remove_node clock n1 l w in or_panic (add_node clock fresh args read fo2 fuel n2 l w1)
      end) = Ok w) \/
    ((t = TDir -> r_delete args = true) /\ (match n_contents n1, r_delete args with
      | CDir _, false => match n_contents n2 with CDir _ => Panic | _ => Ok w end
      | _, _ => if r_dry_run args then Ok w else let* w1 := remove_node clock n1 l w in or_panic (add_node clock fresh args read fo2 fuel n2 l w1)
      end) = let* w1 := remove_node clock n1 l w in or_panic (add_node clock fresh args read fo2 fuel n2 l w1))) as [(-> & Hdel & Hs0' & ->)|[Hdel ->]].
  { rewrite Hdry. destruct Hs0 as [_ Hs0]. destruct (n_contents n1) as [cs|d|tg], t; try done; [by right| |by right]. destruct (r_delete args); [by right|left].
    split; [done|]. split; [done|]. split; [|destruct (n_contents n2); done]. intros E0. rewrite E0 in Hs0. destruct (n_contents n2); done. }
  - exists w. split; [done|]. split; [apply (ap_sorted _ _ _ _ _ _ A)|]. split; [apply frame_refl|]. intros q. split; [by rewrite Hdel|]. intros _. split; [done|].
    intros Hw. destruct Hw. exists [], m, s0. split; [apply prefix_nil|]. by rewrite app_nil_r.
  - destruct (removed_node_ok _ _ _ _ _ _ A Hk) as (w1 & E1 & Hs1 & F1 & Hq1). rewrite E1. cbn [rbind].
    assert (dir_at w1.2 (removelast l)) as Hd1.
    { eapply dir_at_alone; [|apply (ap_dir _ _ _ _ _ _ A)]. apply F1. intros L ->%elem_of_list_singleton. apply removelast_prefix, (ap_loc _ _ _ _ _ _ A). }
    destruct (add_node_ok clock fresh args pm read fo2 Hfit2 fuel n2 l w1 saved Hfit Hload Hs1 (ap_loc _ _ _ _ _ _ A) Hd1) as (w' & E & Hs' & F & Hq).
    { specialize (Hq1 []). by rewrite app_nil_r in Hq1. }
    { apply (ap_saves _ _ _ _ _ _ A). }
    rewrite E. cbn [or_panic]. exists w'. split; [done|]. split; [done|]. split; [by eapply frame_trans|]. intros q.
    destruct (r_delete args) eqn:Ed; [split; [intros _; apply Hq|by rewrite Ed]|].
    assert (t <> TDir) as Hnd by (intros ->; by specialize (Hdel eq_refl)).
    assert (forall q, q <> [] -> ent w.2 (l ++ q) = None) as Hnone.
    { intros q' Hq'. apply ent_below; [apply (ap_loc _ _ _ _ _ _ A)|rewrite El; congruence|done]. }
    apply comes_out_new; [apply Hq| |].
    + apply in_the_way_leaf; [|done]. intros m'. rewrite app_nil_r, El. congruence.
    + intros Hn _. destruct q as [|x q]; [congruence|]. by apply Hnone.
Qed.

(** Two files or two links. *)
Lemma leaf_ok p l w n1 n2 saved e : at_place p l w (Some n1) (Some n2) saved -> node_fit args n2 ->
  contents_kind (n_contents n1) = contents_kind (n_contents n2) -> (forall d, n_contents n2 <> CDir d) ->
  e = (if negb (bool_decide (n_contents n1 = n_contents n2)) then Changed n1 n2
       else if negb (bool_decide (n_meta n1 = n_meta n2)) then MetaChanged n1 n2 else Unchanged n2) ->
  went_well l saved w (Some (cb p e w)).
Proof.
  intros A Hfit Hkk Hnd ->. unfold went_well.
  pose proof (ap_here _ _ _ _ _ _ A) as Hsh. destruct (ent w.2 l) as [[t m]|] eqn:El; [|done]. destruct Hsh as (Hm1 & Hmode & Ht). cbn [fst snd] in Hm1, Hmode, Ht.
  pose proof (ap_saves _ _ _ _ _ _ A []) as Hs0. cbn in Hs0. destruct (saved []) as [s0|] eqn:Es0; [|done]. destruct Hs0 as [Hm2 Hs0].
  assert (t <> TDir) as Htd. { intros ->. destruct (n_contents n1) as [|d1|]; try done. destruct (n_contents n2) as [|d2|]; try done. by destruct (Hnd d2). }
  assert (forall q, q <> [] -> ent w.2 (l ++ q) = None) as Hnone.
  { intros q' Hq'. apply ent_below; [apply (ap_loc _ _ _ _ _ _ A)|rewrite El; congruence|done]. }
  assert (forall q, q <> [] -> saved q = None) as Hsnone.
  { intros [|x q] Hq; [done|]. pose proof (ap_saves _ _ _ _ _ _ A (x :: q)) as Hx. cbn [mbind option_bind] in Hx.
    rewrite (node_sub_leaf clock fresh args pm read fo2 Hfit2) in Hx by done. by destruct (saved (x :: q)). }
  assert (forall q, ~ in_the_way (fun q => ent w.2 (l ++ q)) saved q) as Hway.
  { intros q. apply in_the_way_leaf; [|done]. intros m'. rewrite app_nil_r, El. congruence. }
  assert (forall (w' : fsworld) m', sorted_fs w'.2 -> frame [l] w.2 w'.2 -> (forall q, ent w'.2 (l ++ q) = match q with [] => Some (s0.1, m') | _ => None end) -> is_what_was_saved args s0 (s0.1, m') ->
    forall q, comes_out args (fun q => ent w.2 (l ++ q)) saved q (ent w'.2 (l ++ q))) as Hdone.
  { intros w' m' Hs' F Hq Hw q. apply comes_out_new; [|done|].
    - rewrite Hq. destruct q as [|x q]; [by rewrite Es0|by rewrite Hsnone].
    - intros Hn _. destruct q as [|x q]; [congruence|by apply Hnone]. }
  assert (forall (w' : fsworld) m', ent w'.2 l = Some (s0.1, m') -> forall q, ent w'.2 (l ++ q) = match q with [] => Some (s0.1, m') | _ => None end) as Hleaf.
  { intros w' m' E' [|x q]; [by rewrite app_nil_r|]. apply ent_below; [apply (ap_loc _ _ _ _ _ _ A)| |done]. intros m''. rewrite E'. intros [= E'']. rewrite E'' in Hs0. destruct (n_contents n2) as [|d2|]; try done. by destruct (Hnd d2). }
  destruct (bool_decide_reflect (n_contents n1 = n_contents n2)) as [Ec|Ec]; cbn [negb].
  - assert (t = s0.1) as Ets. { rewrite Ec in Ht. destruct (n_contents n2), t, (s0.1); try done; try congruence. destruct Hs0 as (ps & Hps & ->). f_equal. symmetry. by apply Ht. }
    destruct (bool_decide_reflect (n_meta n1 = n_meta n2)) as [Em|Em]; cbn [negb restore_cb].
    + exists w. split; [done|]. split; [apply (ap_sorted _ _ _ _ _ _ A)|]. split; [apply frame_refl|]. intros q. apply (comes_out_untouched args (fun q => ent w.2 (l ++ q))).
      destruct q as [|x q]; [|rewrite Hsnone by done; intros _; by apply Hnone]. rewrite Es0, app_nil_r, El. eexists. split; [done|].
      subst t m. rewrite Em, Hm2. split; [done|]. split; [|done]. by intros _ c t0 _.
    + rewrite (ap_path_here _ _ _ _ _ _ A), Hdry. cbn [rbind].
      destruct (set_metadata_ok clock fresh args pm read fo2 Hfit2 n2 l w t m Hfit (ap_sorted _ _ _ _ _ _ A) El Hmode) as (w' & E & Hs' & F & Hq & m' & He & Hw).
      { rewrite <- Ec. destruct (n_contents n1), t; try done; cbn; split; try done; try (by intros [? ?]); eauto. }
      exists w'. rewrite E. split; [done|]. split; [done|]. split; [done|]. subst t. apply (Hdone w' m'); [done|done|by apply Hleaf|].
      rewrite Hm2 in Hw. by destruct s0.
  - cbn [restore_cb]. rewrite (ap_path_here _ _ _ _ _ _ A), Hdry. cbn [rbind]. unfold change_node_contents.
    destruct (n_contents n2) as [cs2|d2|tg2] eqn:Ec2; [|by destruct (Hnd d2)|].
    + destruct (s0.1) as [c0| | |] eqn:Et0; try done. destruct Hs0 as (ps & Hps & ->).
      assert (exists c, t = TFile c) as [c ->]. { destruct (n_contents n1), t; try done. eauto. }
      destruct (write_file_ok clock fresh args pm read fo2 Hfit2 n2 cs2 ps l w Ec2 Hfit Hps (ap_sorted _ _ _ _ _ _ A) (ap_loc _ _ _ _ _ _ A) (ap_dir _ _ _ _ _ _ A)) as (w' & E & Hs' & F & m' & Hq & Hw); [right; eauto|].
      exists w'. rewrite E. split; [done|]. split; [done|]. split; [done|]. apply (Hdone w' m'); [done|done|done|]. rewrite Hm2 in Hw. destruct s0 as [t0 m0]. cbn in Et0. by subst t0.
    + destruct (s0.1) as [| |t0|] eqn:Et0; try done. subst t0.
      destruct (remove_ok clock fresh l w t m false (ap_sorted _ _ _ _ _ _ A) El Htd) as (w1 & E1 & Hs1 & F1 & Hq1). rewrite E1. cbn [rbind].
      assert (dir_at w1.2 (removelast l)) as Hd1.
      { eapply dir_at_alone; [|apply (ap_dir _ _ _ _ _ _ A)]. apply F1. intros L ->%elem_of_list_singleton. apply removelast_prefix, (ap_loc _ _ _ _ _ _ A). }
      destruct (create_link_ok clock fresh tg2 l w1 Hs1 (ap_loc _ _ _ _ _ _ A) Hd1) as (w' & E & Hs' & F & m' & Hq).
      { specialize (Hq1 []). by rewrite app_nil_r in Hq1. }
      exists w'. rewrite E. split; [done|]. split; [done|]. assert (frame [l] w.2 w'.2) as F' by by eapply frame_trans. split; [done|]. apply (Hdone w' m'); [done|done|done|].
      split; [done|]. split; [intros _ c t1; by rewrite Et0|]. intros _ Hn. by destruct (Hn tg2).
Qed.

(** Two directories. *)
Lemma dirs_ok k p l w n1 n2 d1 d2 saved : trees_ok k -> k <= fuel -> at_place p l w (Some n1) (Some n2) saved -> node_fit args n2 ->
  n_contents n1 = CDir d1 -> n_contents n2 = CDir d2 -> loaded fo1 k d1 -> loaded fo2 k d2 ->
  went_well l saved w (
    match (if bool_decide (d1 = d2) then Some (Ok w) else compare_trees fo1 fo2 cb k d1 d2 p w) with
    | Some (Ok s') =>
        Some (
          let* s'' := if bool_decide (n_meta n1 = n_meta n2) then Ok s' else cb p (MetaChanged n1 n2) s' in
          if bool_decide (d1 = d2) && bool_decide (n_meta n1 = n_meta n2) then cb p (Unchanged n1) s'' else Ok s'')
    | other => other
    end).
Proof.
  intros IH Hk A Hfit Ec1 Ec2 L1 L2. unfold went_well.
  pose proof (ap_here _ _ _ _ _ _ A) as Hsh. destruct (ent w.2 l) as [[t m]|] eqn:El; [|done]. destruct Hsh as (Hm1 & Hmode & Ht). cbn [fst snd] in Hm1, Hmode, Ht.
  rewrite Ec1 in Ht. destruct t; try done. clear Ht.
  pose proof (ap_saves _ _ _ _ _ _ A []) as Hs0. cbn in Hs0. destruct (saved []) as [s0|] eqn:Es0; [|done]. destruct Hs0 as [Hm2 Hs0].
  rewrite Ec2 in Hs0. assert (s0.1 = TDir) as Et0 by (by destruct (s0.1)). clear Hs0.
  assert (forall q, q <> [] -> shows read (node_at fo1 d1 q) (ent w.2 (l ++ q))) as Hsh.
  { intros q Hq. pose proof (ap_shows _ _ _ _ _ _ A q) as Hx. cbn [mbind option_bind] in Hx. by rewrite (node_sub_into _ _ d1) in Hx. }
  assert (forall q, q <> [] -> saves read (node_at fo2 d2 q) (saved q)) as Hsv.
  { intros q Hq. pose proof (ap_saves _ _ _ _ _ _ A q) as Hx. cbn [mbind option_bind] in Hx. by rewrite (node_sub_into _ _ d2) in Hx. }
  (* the contents *)
  assert (exists w1, (if bool_decide (d1 = d2) then Some (Ok w) else compare_trees fo1 fo2 cb k d1 d2 p w) = Some (Ok w1) /\ sorted_fs w1.2 /\ frame [l] w.2 w1.2 /\
    left_alone (ent w.2 l) (ent w1.2 l) /\
    forall q, q <> [] -> comes_out args (fun q => ent w.2 (l ++ q)) saved q (ent w1.2 (l ++ q))) as (w1 & E1 & Hs1 & F1 & La1 & Hq1).
  { case_bool_decide as Ed.
    - subst d2. exists w. split; [done|]. split; [apply (ap_sorted _ _ _ _ _ _ A)|]. split; [apply frame_refl|]. split; [apply left_alone_refl|].
      intros q Hq. apply (comes_out_untouched args (fun q => ent w.2 (l ++ q))). specialize (Hsh q Hq). specialize (Hsv q Hq).
      rewrite (same_node_at fo1 fo2 Hsane1 sane2 Hsame k k d1 q L1 L2) in Hsh. destruct (node_at fo2 d1 q) as [nd|].
      + destruct (saved q) as [s|]; [|done]. by eapply same_node_same.
      + destruct (saved q) as [s|]; [done|]. intros Hdel. destruct (ent w.2 (l ++ q)) as [[t' m']|] eqn:Ee; [|done]. cbn in Hsh. subst t'.
        destruct (ap_special _ _ _ _ _ _ A q m' Ee) as [Hx _]. congruence.
    - assert (exists t1, fo1 !! d1 = Some t1) as [t1 Ht1] by (destruct k; [done|]; destruct L1 as (t1 & ? & _); eauto).
      assert (exists t2, fo2 !! d2 = Some t2) as [t2 Ht2] by (destruct k; [done|]; destruct L2 as (t2 & ? & _); eauto).
      destruct (IH d1 d2 p (fun x => l ++ [x]) saved w t1 t2 Ht1 Ht2 L1 L2 Hk (ap_sorted _ _ _ _ _ _ A)) as (w1 & E1 & Hs1 & F1 & Hq1).
      + intros x q _. rewrite (ap_path _ _ _ _ _ _ A). by rewrite <- app_assoc.
      + intros x _. split; [by destruct l|]. rewrite removelast_last. right. by exists m.
      + intros x y _ _ Hxy [r Hr]. rewrite <- app_assoc in Hr. apply app_inv_head in Hr. injection Hr as <- _. done.
      + intros x q _. rewrite <- app_assoc. by apply Hsh.
      + intros x q _. by apply Hsv.
      + intros x q m'. rewrite <- app_assoc. intros _. by apply (ap_special _ _ _ _ _ _ A).
      + exists w1. split; [done|]. split; [done|]. pose proof F1 as F0. apply frame_below in F1 as [F1 La1]; [|apply (ap_loc _ _ _ _ _ _ A)].
        split; [done|]. split; [done|]. intros [|x q] Hq0; [done|]. destruct (decide (x ∈ os_of_list (map fst t1 ++ map fst t2))) as [Hx|Hx].
        * specialize (Hq1 x q Hx). rewrite <- app_assoc in Hq1. eapply comes_out_cons; [exact Es0|exact Et0|].
          assert (forall r, ent w.2 ((l ++ [x]) ++ r) = ent w.2 (l ++ x :: r)) as Hass by (intros r; by rewrite <- app_assoc).
          destruct Hq1 as [Q1 Q2]. split; [done|]. intros Hdel. destruct (Q2 Hdel) as [Q3 Q4].
          assert (in_the_way (fun q => ent w.2 ((l ++ [x]) ++ q)) (fun q => saved (x :: q)) q <-> in_the_way (fun q => ent w.2 (l ++ x :: q)) (fun q => saved (x :: q)) q) as Hway.
          { unfold in_the_way. setoid_rewrite Hass. done. }
          rewrite <- Hway, <- Hass. done.
        * assert (ent w1.2 (l ++ x :: q) = ent w.2 (l ++ x :: q)) as ->.
          { assert (forall L, L ∈ map (fun x => l ++ [x]) (os_of_list (map fst t1 ++ map fst t2)) -> exists y, L = l ++ [y] /\ y ∈ os_of_list (map fst t1 ++ map fst t2)) as HL.
            { intros L HL. change (map (fun x => l ++ [x]) (os_of_list (map fst t1 ++ map fst t2))) with ((fun x => l ++ [x]) <$> os_of_list (map fst t1 ++ map fst t2)) in HL.
              apply elem_of_list_fmap in HL as (y & -> & Hin). eauto. }
            apply F0.
            - intros L (y & -> & Hy)%HL [r Hr]. rewrite <- app_assoc in Hr. apply app_inv_head in Hr. injection Hr as <- _. done.
            - intros L (y & -> & Hy)%HL Hr. rewrite removelast_last in Hr. apply (f_equal length) in Hr. rewrite app_length in Hr. cbn in Hr. lia. }
          apply (comes_out_untouched args (fun q => ent w.2 (l ++ q))). rewrite elem_of_names, elem_of_app in Hx.
          assert (om_get x t1 = None /\ om_get x t2 = None) as [Ex1 Ex2].
          { rewrite !om_get_names in Hx by (first [by eapply Hsane1|by eapply Hfit2]). split; apply eq_None_not_Some; tauto. }
          specialize (Hsh (x :: q) ltac:(done)). specialize (Hsv (x :: q) ltac:(done)). rewrite (node_at_none _ _ _ _ _ Ht1 Ex1) in Hsh. rewrite (node_at_none _ _ _ _ _ Ht2 Ex2) in Hsv.
          destruct (saved (x :: q)) as [s|]; [done|]. intros Hdel. destruct (ent w.2 (l ++ x :: q)) as [[t' m']|] eqn:Ee; [|done]. cbn in Hsh. subst t'.
          destruct (ap_special _ _ _ _ _ _ A (x :: q) m' Ee) as [Hy _]. congruence. }
  rewrite E1. cbn [rbind].
  rewrite El in La1. destruct (ent w1.2 l) as [[t1 m1]|] eqn:El1; [|done]. destruct La1 as (Et1 & Hmo1 & _). cbn [fst snd] in Et1, Hmo1. subst t1.
  assert (~ in_the_way (fun q => ent w.2 (l ++ q)) saved []) as Hway.
  { intros (r & m' & s' & Hp & _ & Hs' & Hn). apply prefix_nil_inv in Hp as ->. congruence. }
  destruct (bool_decide_reflect (n_meta n1 = n_meta n2)) as [Em|Em].
  - cbn [rbind]. exists w1. split; [by destruct (bool_decide (d1 = d2))|]. split; [done|]. split; [done|]. intros [|x q]; [|by apply Hq1].
    apply comes_out_new; [|done|congruence]. rewrite app_nil_r, El1, Es0. split; [by rewrite Et0|]. split; [intros _ c t; by rewrite Et0|].
    intros _ _. cbn [snd]. apply perms_modes. rewrite <- Hmo1. by subst m; rewrite Em, Hm2.
  - cbn [restore_cb]. rewrite (ap_path_here _ _ _ _ _ _ A), Hdry. cbn [rbind].
    destruct (set_metadata_ok clock fresh args pm read fo2 Hfit2 n2 l w1 TDir m1 Hfit Hs1 El1) as (w2 & E2 & Hs2 & F2 & Hq2 & m2 & He2 & Hw2).
    { by rewrite <- Hmo1. } { rewrite Ec2. split; [done|by intros [? ?]]. }
    exists w2. rewrite E2. cbn [rbind]. rewrite andb_false_r. split; [done|]. split; [done|]. split; [by eapply frame_trans|]. intros [|x q].
    + apply comes_out_new; [|done|congruence]. rewrite app_nil_r, He2, Es0. rewrite Hm2 in Hw2. destruct s0. cbn in Et0. by subst.
    + rewrite Hq2 by done. by apply Hq1.
Qed.

Lemma nodes_ok k p l w n1 n2 saved : trees_ok k -> k <= fuel -> at_place p l w (Some n1) (Some n2) saved ->
  meta_kind (n_meta n1) = contents_kind (n_contents n1) -> node_fit args n2 ->
  (forall s, n_contents n1 = CDir s -> loaded fo1 k s) -> (forall s, n_contents n2 = CDir s -> loaded fo2 k s) ->
  went_well l saved w (compare_nodes_with cb (compare_trees fo1 fo2 cb k) n1 n2 p w).
Proof.
  intros IH Hk A H1 Hfit L1 L2. unfold compare_nodes_with, node_kind. pose proof (proj1 Hfit) as H2. rewrite H1, H2, !bool_decide_eq_true_2 by done. cbn [rassert rbind].
  assert (forall s, n_contents n2 = CDir s -> loaded fo2 fuel s) as L2' by (intros s Es; eapply loaded_mono; eauto).
  destruct (n_contents n1) as [cs1|d1|t1] eqn:Ec1, (n_contents n2) as [cs2|d2|t2] eqn:Ec2; cbn [contents_kind].
  all: try (rewrite bool_decide_eq_false_2 by done; apply type_changed_ok; rewrite ?Ec1, ?Ec2; done).
  - rewrite bool_decide_eq_true_2 by done.
    replace (if negb (bool_decide (CFile cs1 = CFile cs2)) then _ else _) with (cb p (if negb (bool_decide (n_contents n1 = n_contents n2)) then Changed n1 n2
       else if negb (bool_decide (n_meta n1 = n_meta n2)) then MetaChanged n1 n2 else Unchanged n2) w).
    + eapply leaf_ok; [done|done|by rewrite Ec1, Ec2|by rewrite Ec2|done].
    + rewrite Ec1, Ec2. destruct (bool_decide (CFile cs1 = CFile cs2)); [|done]. by destruct (bool_decide (n_meta n1 = n_meta n2)).
  - apply dirs_ok; auto.
  - rewrite bool_decide_eq_true_2 by done.
    replace (if negb (bool_decide (CSymlink t1 = CSymlink t2)) then _ else _) with (cb p (if negb (bool_decide (n_contents n1 = n_contents n2)) then Changed n1 n2
       else if negb (bool_decide (n_meta n1 = n_meta n2)) then MetaChanged n1 n2 else Unchanged n2) w).
    + eapply leaf_ok; [done|done|by rewrite Ec1, Ec2|by rewrite Ec2|done].
    + rewrite Ec1, Ec2. destruct (bool_decide (CSymlink t1 = CSymlink t2)); [|done]. by destruct (bool_decide (n_meta n1 = n_meta n2)).
Qed.

Theorem compare_trees_ok k : trees_ok k.
Proof.
  induction k as [|k IH]; intros d1 d2 p L saved w t1 t2 Ht1 Ht2 L1 L2 Hk Hs Htr Hloc Hinc Hsh Hsv Hsp; [done|].
  cbn [compare_trees]. rewrite Ht1, Ht2.
  destruct L1 as (t1' & Ht1' & L1). rewrite Ht1 in Ht1'. injection Ht1' as <-. destruct L2 as (t2' & Ht2' & L2). rewrite Ht2 in Ht2'. injection Ht2' as <-.
  destruct (Hsane1 _ _ Ht1) as [So1 Fo1]. destruct (Hfit2 _ _ Ht2) as [So2 Fo2]. rewrite Forall_forall in Fo1, Fo2.
  set (names := os_of_list (map fst t1 ++ map fst t2)) in *.
  destruct (ofold_frames (fun x s =>
            match om_get x t1, om_get x t2 with
            | None, None => Some Panic
            | None, Some n => Some (cb (p ++ [x]) (Added n) s)
            | Some n, None => Some (cb (p ++ [x]) (Removed n) s)
            | Some n1, Some n2 => compare_nodes_with cb (compare_trees fo1 fo2 cb k) n1 n2 (p ++ [x]) s
            end) L (fun x q g => comes_out args (fun q => ent w.2 (L x ++ q)) (fun q => saved (x :: q)) q g) names w) as (w' & E & Hs' & F & Hq).
  - apply NoDup_names.
  - done.
  - intros x Hx. by apply Hloc.
  - done.
  - intros x Hx. by apply Hloc.
  - intros x w1 Hx Hs1 Hd1 Hsame1.
    assert (at_place (p ++ [x]) (L x) w1 (om_get x t1) (om_get x t2) (fun q => saved (x :: q))) as A.
    { constructor; [done| | |done| | |].
      - intros q. rewrite <- app_assoc. by apply Htr.
      - by apply Hloc.
      - intros q. specialize (Hsh x q Hx). rewrite Hsame1. cbn [node_at] in Hsh. by rewrite Ht1 in Hsh.
      - intros q. specialize (Hsv x q Hx). cbn [node_at] in Hsv. by rewrite Ht2 in Hsv.
      - intros q m. rewrite Hsame1. by apply Hsp. }
    assert (went_well (L x) (fun q => saved (x :: q)) w1 (match om_get x t1, om_get x t2 with
            | None, None => Some Panic
            | None, Some n => Some (cb (p ++ [x]) (Added n) w1)
            | Some n, None => Some (cb (p ++ [x]) (Removed n) w1)
            | Some n1, Some n2 => compare_nodes_with cb (compare_trees fo1 fo2 cb k) n1 n2 (p ++ [x]) w1
            end)) as (w2 & E2 & Hs2 & F2 & Hq2).
    { destruct (om_get x t1) as [n1|] eqn:E1, (om_get x t2) as [n2|] eqn:E2.
      - apply om_get_elem in E1, E2; [|done..]. apply nodes_ok; [done|lia|done|exact (Fo1 _ E1)|exact (Fo2 _ E2)| |].
        + intros s Es. apply L1. by eapply node_subtree_in.
        + intros s Es. apply L2. by eapply node_subtree_in.
      - apply om_get_elem in E1; [|done]. apply removed_ok; [done|exact (Fo1 _ E1)].
      - apply om_get_elem in E2; [|done]. apply added_ok; [done|exact (Fo2 _ E2)|]. intros s Es. eapply loaded_mono; [apply L2; by eapply node_subtree_in|lia].
      - exfalso. unfold names in Hx. rewrite elem_of_names, elem_of_app, !om_get_names in Hx by done. rewrite E1, E2 in Hx. by destruct Hx as [[? ?]|[? ?]]. }
    exists w2. split; [done|]. split; [done|]. split; [done|]. intros q. specialize (Hq2 q). destruct Hq2 as [Q1 Q2]. split; [done|]. intros Hdel. destruct (Q2 Hdel) as [Q3 Q4].
    assert (in_the_way (fun q => ent w1.2 (L x ++ q)) (fun q => saved (x :: q)) q <-> in_the_way (fun q => ent w.2 (L x ++ q)) (fun q => saved (x :: q)) q) as Hway.
    { unfold in_the_way. setoid_rewrite Hsame1. done. }
    rewrite <- Hway, <- Hsame1. done.
  - exists w'. split; [done|]. split; [done|]. split; [done|]. intros x q Hx. by apply Hq.
Qed.
End compare.
