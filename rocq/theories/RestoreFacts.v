(** Restoring: the file operations and the comparison that drives them. *)

From Verif Require Import Base OMap Formats Hashing Meta Forest FsTree FsSpec FsFacts Pack Pipeline Repo Browse BrowseSpec Times Restore RestoreSpec.

Lemma time_taken_spec s : time_taken (Some s) = true <-> (0 <= s \/ s mod 1000000000 = 0)%Z.
Proof.
  cbn [time_taken]. unfold utimens_takes, to_timespec, billion. cbn [tv_nsec]. rewrite bool_decide_eq_true.
  destruct (Z.le_gt_cases 0 s) as [Hs|Hs].
  - assert (0 < 1000000000)%Z as Hb by lia. pose proof (Z.rem_bound_pos s 1000000000%Z Hs Hb). split; [by left|done].
  - assert (0 < 1000000000)%Z as Hb by lia. assert (s <= 0)%Z as Hs' by lia. pose proof (Z.rem_bound_pos_neg s 1000000000%Z Hb Hs').
    rewrite Z.mod_divide by lia. rewrite <-Z.rem_divide by lia. split; [intros; right|intros [?|?]]; lia.
Qed.

Lemma in_shape_dir m es : in_shape (FsDir m es) <-> sorted_fs es.
Proof.
  simpl. unfold sorted_fs. apply and_iff_compat_l. induction es as [|e es IH]; simpl; [split; constructor|].
  rewrite IH, Forall_cons. done.
Qed.

Lemma sorted_fs_get es x n : sorted_fs es -> om_get x es = Some n -> in_shape n.
Proof. intros [Hs Hf] E. apply om_get_elem in E; [|done]. rewrite Forall_forall in Hf. exact (Hf _ E). Qed.

Lemma om_get_put {A} x y (o : option A) es : om_sorted es -> om_get y (om_put x o es) = if decide (x = y) then o else om_get y es.
Proof.
  intros Hs. destruct o as [n|]; cbn [om_put]; [by apply om_get_insert|]. apply option_eq. intros v.
  rewrite om_get_elem by by apply om_filter_sorted. rewrite elem_of_list_filter. cbn. case_decide as E.
  - subst. split; [by intros [? _]|done].
  - rewrite om_get_elem by done. split; [by intros [_ ?]|]. intros Hv. split; [congruence|done].
Qed.

Lemma om_put_sorted_fs x o es : sorted_fs es -> (forall n, o = Some n -> in_shape n) -> sorted_fs (om_put x o es).
Proof.
  intros [Hs Hf] Ho. assert (om_sorted (om_put x o es)) as Hs'.
  { destruct o; cbn [om_put]; [by apply om_insert_sorted|by apply om_filter_sorted]. }
  split; [done|]. apply Forall_forall. intros [y n] Hin. apply om_get_elem in Hin; [|done]. rewrite om_get_put in Hin by done.
  case_decide as Exy; [by apply Ho|]. eapply (sorted_fs_get es y); [by split|done].
Qed.

Lemma fs_at_cons es x p : fs_at es (x :: p) = om_get x es ≫= (fun n => fs_sub n p).
Proof. done. Qed.

Lemma fs_sub_app n p q : fs_sub n (p ++ q) = fs_sub n p ≫= (fun n' => fs_sub n' q).
Proof.
  revert n. induction p as [|x p IH]; intros n; [done|]. cbn [app fs_sub]. destruct n as [|m es| |]; try done.
  destruct (om_get x es); [|done]. apply IH.
Qed.
Lemma fs_at_app es p q : p <> [] -> fs_at es (p ++ q) = fs_at es p ≫= (fun n => fs_sub n q).
Proof. destruct p as [|x p]; [done|]. intros _. cbn [app fs_at]. destruct (om_get x es); [|done]. apply fs_sub_app. Qed.

Lemma fs_at_dir es x m es' p : om_get x es = Some (FsDir m es') -> p <> [] -> fs_at es (x :: p) = fs_at es' p.
Proof. intros E Hp. destruct p as [|y p]; [done|]. cbn [fs_at]. rewrite E. done. Qed.

(** ** Changing one place *)

Lemma fs_change_in tm f x y rest es : fs_change tm f (x :: y :: rest) es =
  match om_get x es with
  | Some (FsDir m es') =>
      let* es'' := fs_change tm f (y :: rest) es' in
      Ok (om_put x (Some (FsDir (match rest with [] => tm m | _ => m end) es'')) es)
  | _ => Err
  end.
Proof. done. Qed.

Lemma fs_change_at tm f loc es es' : sorted_fs es -> fs_change tm f loc es = Ok es' ->
  (forall n, f (fs_at es loc) = Ok (Some n) -> in_shape n) ->
  sorted_fs es' /\ loc <> [] /\
  (exists o, f (fs_at es loc) = Ok o /\ forall q, fs_at es' (loc ++ q) = o ≫= (fun n => fs_sub n q)) /\
  ent es' (removelast loc) = (fun e => (e.1, tm e.2)) <$> ent es (removelast loc) /\
  (forall l, ~ loc `prefix_of` l -> l <> removelast loc -> ent es' l = ent es l).
Proof.
  revert es es'. induction loc as [|x rest IH]; intros es es' Hs E Hf; [done|]. destruct rest as [|y rest].
  - cbn [fs_change] in E. change (fs_at es [x]) with (om_get x es ≫= (fun n => Some n)) in *.
    assert (om_get x es ≫= (fun n => Some n) = om_get x es) as Eg by (by destruct (om_get x es)). rewrite Eg in *.
    destruct (f (om_get x es)) as [o| |] eqn:Ef; try done. injection E as <-.
    assert (forall n, o = Some n -> in_shape n) as Ho by (intros n ->; by apply Hf). split; [by apply om_put_sorted_fs|]. split; [done|]. split; [|split].
    + exists o. split; [done|]. intros q. cbn [app fs_at]. rewrite om_get_put by apply Hs. rewrite decide_True by done. done.
    + done.
    + intros l Hl Hne. destruct l as [|z l]; [done|]. unfold ent. cbn [fs_at]. rewrite om_get_put by apply Hs. rewrite decide_False; [done|].
      intros ->. apply Hl. by exists l.
  - rewrite fs_change_in in E. destruct (om_get x es) as [[|m es1| |]|] eqn:Ex; try done.
    assert (sorted_fs es1) as Hs1. { eapply in_shape_dir. by eapply sorted_fs_get. }
    rewrite (fs_at_dir _ _ _ _ _ Ex) in Hf by done.
    destruct (fs_change tm f (y :: rest) es1) as [es2| |] eqn:E2; try done. cbn [rbind] in E. injection E as <-.
    destruct (IH _ _ Hs1 E2 Hf) as (Hs2 & _ & (o & Ho & Hq) & Hpar & Hl). set (m' := match rest with [] => tm m | _ => m end) in *.
    assert (om_get x (om_insert x (FsDir m' es2) es) = Some (FsDir m' es2)) as Ex' by apply om_get_insert_eq.
    split.
    { apply (om_put_sorted_fs x (Some (FsDir m' es2))); [done|]. intros n [= <-]. by apply in_shape_dir. }
    split; [done|]. split; [|split].
    + exists o. rewrite (fs_at_dir _ _ _ _ _ Ex) by done. split; [done|]. intros q. rewrite <- Hq. cbn [app]. by rewrite (fs_at_dir _ _ _ _ _ Ex').
    + change (removelast (x :: y :: rest)) with (x :: removelast (y :: rest)). destruct rest as [|z rest].
      { cbn [removelast]. unfold ent. cbn [fs_at]. rewrite Ex, Ex'. done. }
      set (par := removelast (y :: z :: rest)) in *. unfold ent in *. rewrite (fs_at_dir _ _ _ _ _ Ex), (fs_at_dir _ _ _ _ _ Ex') by done. done.
    + intros l Hnp Hne. destruct l as [|u l]; [done|]. destruct (decide (u = x)) as [->|Hu].
      * destruct l as [|v l].
        -- unfold ent. cbn [fs_at]. rewrite Ex, Ex'. cbn. destruct rest; [|done]. by destruct Hne.
        -- unfold ent in *. rewrite (fs_at_dir _ _ _ _ _ Ex), (fs_at_dir _ _ _ _ _ Ex') by done. apply Hl.
           ++ intros [k Hk]. apply Hnp. exists k. cbn. f_equal. done.
           ++ intros Hk. apply Hne. change (removelast (x :: y :: rest)) with (x :: removelast (y :: rest)). by f_equal.
      * unfold ent. cbn [fs_at]. change (om_insert x (FsDir m' es2) es) with (om_put x (Some (FsDir m' es2)) es). rewrite om_get_put by apply Hs. by rewrite decide_False.
Qed.

Lemma fs_change_ok tm f loc es o : loc <> [] -> dir_at es (removelast loc) -> f (fs_at es loc) = Ok o ->
  exists es', fs_change tm f loc es = Ok es'.
Proof.
  revert es. induction loc as [|x rest IH]; intros es Hne Hd Hf; [done|]. destruct rest as [|y rest].
  - cbn [fs_change]. change (fs_at es [x]) with (om_get x es ≫= (fun n => Some n)) in Hf. destruct (om_get x es); cbn in Hf; rewrite Hf; by eexists.
  - rewrite fs_change_in. destruct Hd as [?|[m Hd]]; [done|].
    change (removelast (x :: y :: rest)) with (x :: removelast (y :: rest)) in Hd. unfold ent in Hd. apply fmap_Some in Hd as (n & Hn & Em).
    destruct (om_get x es) as [n0|] eqn:Ex; [|by rewrite fs_at_cons, Ex in Hn].
    assert (exists m0 es0, n0 = FsDir m0 es0) as (m0 & es0 & ->).
    { destruct rest as [|z rest]; cbn [removelast] in Hn; rewrite fs_at_cons, Ex in Hn; cbn [mbind option_bind fs_sub] in Hn.
      - injection Hn as ->. destruct n as [|m1 e1| |]; try done. eauto.
      - destruct n0 as [|m1 e1| |]; try done. eauto. }
    rewrite (fs_at_dir _ _ _ _ _ Ex) in Hf by done.
    destruct (IH es0) as [es1 E1]; [done| |done|].
    { destruct rest as [|z rest]; [by left|]. right. exists m. unfold ent. rewrite (fs_at_dir _ _ _ _ _ Ex) in Hn by done. by rewrite Hn, Em. }
    rewrite E1. cbn [rbind]. by eexists.
Qed.

(** ** What stays as it was *)

Notation loc := (list bytes).

Lemma left_alone_refl o : left_alone o o.
Proof. destruct o; done. Qed.
Lemma left_alone_trans a b c : left_alone a b -> left_alone b c -> left_alone a c.
Proof.
  destruct a as [a|], b as [b|], c as [c|]; try done. intros (H1 & H2 & H3) (H4 & H5 & H6).
  split; [congruence|]. split; [congruence|]. intros Hd. rewrite H3 by done. apply H6. congruence.
Qed.

(** Only what is below the [Ls] changed, and the times of the directories they are in. *)
Definition frame (Ls : list loc) (es es' : list (bytes * fsnode)) : Prop :=
  forall l, (forall L, L ∈ Ls -> ~ L `prefix_of` l) ->
    left_alone (ent es l) (ent es' l) /\ ((forall L, L ∈ Ls -> l <> removelast L) -> ent es' l = ent es l).

Lemma frame_refl Ls es : frame Ls es es.
Proof. intros l _. split; [apply left_alone_refl|done]. Qed.
Lemma frame_trans Ls es1 es2 es3 : frame Ls es1 es2 -> frame Ls es2 es3 -> frame Ls es1 es3.
Proof.
  intros F1 F2 l Hl. destruct (F1 l Hl) as [A1 B1]. destruct (F2 l Hl) as [A2 B2].
  split; [by eapply left_alone_trans|]. intros Hn. by rewrite B2, B1.
Qed.
Lemma frame_mono Ls Ls' es es' : (forall L, L ∈ Ls -> L ∈ Ls') -> frame Ls es es' -> frame Ls' es es'.
Proof. intros Hs F l Hl. destruct (F l) as [A B]; [intros L HL; auto|]. split; [done|]. intros Hn. apply B. intros L HL. auto. Qed.

Lemma removelast_prefix (l : loc) : l <> [] -> removelast l `prefix_of` l /\ ~ l `prefix_of` removelast l.
Proof.
  intros Hne. destruct (exists_last Hne) as (l0 & y & ->). rewrite removelast_last. split; [by exists [y]|].
  intros [k Hk]. apply (f_equal length) in Hk. rewrite !app_length in Hk. cbn in Hk. lia.
Qed.

(** Places in a location's directory: below it, that directory itself, or elsewhere. *)
Lemma frame_below (l : loc) (xs : list bytes) es es' : l <> [] -> frame (map (fun x => l ++ [x]) xs) es es' ->
  frame [l] es es' /\ left_alone (ent es l) (ent es' l).
Proof.
  intros Hne F. assert (forall L, L ∈ map (fun x => l ++ [x]) xs -> exists x, L = l ++ [x]) as HL.
  { intros L HL. change (map (fun x => l ++ [x]) xs) with ((fun x => l ++ [x]) <$> xs) in HL. apply elem_of_list_fmap in HL as (x & -> & _). eauto. }
  split.
  - intros l' Hl'. specialize (Hl' l ltac:(by left)). destruct (F l') as [A B].
    { intros L (x & ->)%HL Hp. apply Hl'. etrans; [|exact Hp]. by eexists. }
    split; [done|]. intros _. apply B. intros L (x & ->)%HL ->. rewrite removelast_last in *. by apply Hl'.
  - destruct (F l) as [A _]; [|done]. intros L (x & ->)%HL [k Hk]. apply (f_equal length) in Hk. rewrite !app_length in Hk. cbn in Hk. lia.
Qed.

Lemma dir_at_alone es es' l : left_alone (ent es l) (ent es' l) -> dir_at es l -> dir_at es' l.
Proof.
  intros Ha [->|[m E]]; [by left|]. right. rewrite E in Ha. destruct (ent es' l) as [[t m']|]; [|done]. destruct Ha as [Ht _]. cbn in Ht. subst t. by exists m'.
Qed.

Lemma ent_nil es : ent es [] = None.
Proof. done. Qed.

Lemma ent_below es l q : l <> [] -> (forall m, ent es l <> Some (TDir, m)) -> q <> [] -> ent es (l ++ q) = None.
Proof.
  intros Hne Hd Hq. unfold ent in *. rewrite fs_at_app by done. destruct (fs_at es l) as [n|]; [|done]. cbn [mbind option_bind].
  destruct q as [|y q]; [done|]. destruct n as [|m es'| |]; try done. by destruct (Hd m).
Qed.

Lemma ent_parent es l e : ent es l = Some e -> l <> [] /\ dir_at es (removelast l).
Proof.
  intros E. assert (l <> []) as Hne by (by intros ->). split; [done|]. destruct (exists_last Hne) as (l0 & y & ->). rewrite removelast_last.
  destruct l0 as [|x l0]; [by left|]. right. unfold ent in *. rewrite fs_at_app in E by done.
  destruct (fs_at es (x :: l0)) as [n|]; [|done]. cbn in E. destruct n as [|m es'| |]; try done. by exists m.
Qed.

(** A loop whose steps each change one place. *)
Lemma ofold_frames {A} (f : A -> fsworld -> option (result fsworld)) (L : A -> loc) (P : A -> list bytes -> option thing_meta -> Prop) (l : list A) w0 :
  NoDup l -> (forall a b, a ∈ l -> b ∈ l -> a <> b -> ~ L a `prefix_of` L b) -> (forall a, a ∈ l -> L a <> []) ->
  sorted_fs w0.2 -> (forall a, a ∈ l -> dir_at w0.2 (removelast (L a))) ->
  (forall a w, a ∈ l -> sorted_fs w.2 -> dir_at w.2 (removelast (L a)) -> (forall q, ent w.2 (L a ++ q) = ent w0.2 (L a ++ q)) ->
    exists w', f a w = Some (Ok w') /\ sorted_fs w'.2 /\ frame [L a] w.2 w'.2 /\ forall q, P a q (ent w'.2 (L a ++ q))) ->
  exists w', ofold f l w0 = Some (Ok w') /\ sorted_fs w'.2 /\ frame (map L l) w0.2 w'.2 /\ forall a q, a ∈ l -> P a q (ent w'.2 (L a ++ q)).
Proof.
  intros Hnd Hinc Hne Hs Hd Hstep.
  assert (forall l2 l1 w, l = l1 ++ l2 -> sorted_fs w.2 -> frame (map L l1) w0.2 w.2 -> (forall a q, a ∈ l1 -> P a q (ent w.2 (L a ++ q))) ->
    exists w', ofold f l2 w = Some (Ok w') /\ sorted_fs w'.2 /\ frame (map L l) w0.2 w'.2 /\ forall a q, a ∈ l -> P a q (ent w'.2 (L a ++ q))) as Hgo.
  { induction l2 as [|a l2 IH]; intros l1 w El Hsw Hf Hp.
    { rewrite app_nil_r in El. subst l1. by exists w. }
    assert (a ∈ l) as Ha by (rewrite El; set_solver). assert (a ∉ l1) as Hna.
    { rewrite El in Hnd. apply NoDup_app in Hnd as (_ & Hx & _). intros Hin. apply (Hx a Hin). by left. }
    assert (forall q, (forall L', L' ∈ map L l1 -> ~ L' `prefix_of` L a ++ q) /\ (forall L', L' ∈ map L l1 -> L a ++ q <> removelast L')) as Hfar.
    { intros q. split; intros L' HL'; change (map L l1) with (L <$> l1) in HL'; apply elem_of_list_fmap in HL' as (b & -> & Hb).
      - assert (b ∈ l) as Hbl by (rewrite El; set_solver). assert (a <> b) as Hab by congruence. intros Hp'.
        destruct (prefix_weak_total (L b) (L a) (L a ++ q)) as [Hx|Hx]; [done|by eexists| |]; [apply (Hinc b a)|apply (Hinc a b)]; congruence.
      - assert (b ∈ l) as Hbl by (rewrite El; set_solver). assert (a <> b) as Hab by congruence. intros Hp'.
        apply (Hinc a b); [done|done|done|]. destruct (removelast_prefix (L b)) as [Hx _]; [by apply Hne|]. rewrite <- Hp' in Hx. etrans; [|exact Hx]. by eexists. }
    destruct (Hstep a w) as (w1 & E1 & Hs1 & F1 & P1); [done|done| | |].
    { eapply dir_at_alone; [|by apply Hd]. apply Hf. intros L' HL' Hp'. destruct (Hfar []) as [Hx _]. rewrite app_nil_r in Hx. apply (Hx L' HL').
      etrans; [exact Hp'|]. by apply removelast_prefix, Hne. }
    { intros q. by apply Hf; apply Hfar. }
    cbn [ofold]. rewrite E1. apply (IH (l1 ++ [a]) w1); [by rewrite <- app_assoc|done| |].
    - eapply frame_trans; [eapply frame_mono; [|exact Hf]|eapply frame_mono; [|exact F1]]; intros L'; rewrite map_app; set_solver.
    - intros b q [Hb|Hb]%elem_of_app.
      + assert (b ∈ l) as Hbl by (rewrite El; set_solver). assert (a <> b) as Hab by congruence.
        destruct (F1 (L b ++ q)) as [_ Eq]; [|rewrite Eq; [by apply Hp|]].
        * intros L' ->%elem_of_list_singleton Hp'.
          destruct (prefix_weak_total (L a) (L b) (L b ++ q)) as [Hx|Hx]; [done|by eexists| |]; [apply (Hinc a b)|apply (Hinc b a)]; congruence.
        * intros L' ->%elem_of_list_singleton Hp'. apply (Hinc b a); [done|done|congruence|].
          destruct (removelast_prefix (L a)) as [Hx _]; [by apply Hne|]. rewrite <- Hp' in Hx. etrans; [|exact Hx]. by eexists.
      + apply elem_of_list_singleton in Hb as ->. apply P1. }
  apply (Hgo l [] w0); [done|done|apply frame_refl|]. intros a q Ha. by apply elem_of_nil in Ha.
Qed.

(** ** The operations *)

Lemma modes_mtime t m : modes (set_mtime t m) = modes m.
Proof. by destruct m. Qed.
Lemma modes_atime t m : modes (set_atime t m) = modes m.
Proof. by destruct m. Qed.
Lemma modes_size t m : modes (set_size t m) = modes m.
Proof. by destruct m. Qed.
Lemma perms_modes m m' : modes m = modes m' -> perms m = perms m'.
Proof. destruct m, m'; cbn; congruence. Qed.
Lemma set_mode_some mode m : is_Some (modes m) -> is_Some (modes (set_mode mode m)) /\ perms (set_mode mode m) = Some (mode mod 4096)%N.
Proof.
  destruct m as [p|p]; [|by intros [? ?]]. intros _. split; [by eexists|]. cbn. f_equal.
  rewrite N.add_comm, N.mod_add by done. by apply N.mod_mod.
Qed.
Lemma set_mode_mtime mode m : meta_mtime (set_mode mode m) = meta_mtime m.
Proof. by destruct m. Qed.

Lemma fs_sub_set_meta g n q : q <> [] -> fs_sub (set_meta_of g n) q = fs_sub n q.
Proof. destruct q as [|x q]; [done|]. by destruct n. Qed.
Lemma set_meta_of_shape g n : in_shape n -> in_shape (set_meta_of g n).
Proof. by destruct n. Qed.
Lemma fs_at_shape es l n : sorted_fs es -> fs_at es l = Some n -> in_shape n.
Proof.
  destruct l as [|x l]; [done|]. cbn [fs_at]. intros Hs E. apply bind_Some in E as (n0 & E0 & E). eapply sorted_fs_get in E0; [|done].
  revert n0 E0 E. induction l as [|y l IH]; intros n0 H0 E; [by injection E as ->|]. cbn [fs_sub] in E. destruct n0 as [|m es'| |]; try done.
  apply bind_Some in E as (n1 & E1 & E). apply in_shape_dir in H0. eapply IH; [|exact E]. by eapply sorted_fs_get.
Qed.

Section ops.
Local Set Default Proof Using "All".
Variable clock : nat -> Z.
Variable fresh : nat -> kind -> posix.

Lemma change_ok tp f l w o : sorted_fs w.2 -> l <> [] -> dir_at w.2 (removelast l) -> f (fs_at w.2 l) = Ok o ->
  (forall n, o = Some n -> in_shape n) ->
  exists w', change clock tp f l w = Ok w' /\ sorted_fs w'.2 /\ frame [l] w.2 w'.2 /\ forall q, fs_at w'.2 (l ++ q) = o ≫= (fun n => fs_sub n q).
Proof.
  intros Hs Hne Hd Ef Ho. unfold change. set (tm := if tp then set_mtime (clock w.1) else id).
  destruct (fs_change_ok tm f l w.2 o Hne Hd Ef) as [es' E]. rewrite E. cbn [rbind]. eexists. split; [done|]. cbn [snd].
  destruct (fs_change_at tm f l w.2 es' Hs E) as (Hs' & _ & (o' & Eo & Hq) & Hpar & Hoth).
  { intros n En. apply Ho. congruence. }
  rewrite Ef in Eo. injection Eo as <-. split; [done|]. split; [|done].
  intros l' Hl'. specialize (Hl' l ltac:(by left)). destruct (decide (l' = removelast l)) as [->|Hn].
  - rewrite Hpar. split; [|intros Hx; by destruct (Hx l ltac:(by left))]. destruct (ent w.2 (removelast l)) as [[t m]|] eqn:Ee; [|done]. cbn.
    split; [done|]. split; [unfold tm; by destruct tp; rewrite ?modes_mtime|]. destruct Hd as [Hd|[m' Hd]]; [by rewrite Hd in Ee|]. rewrite Hd in Ee. injection Ee as <- _. done.
  - rewrite Hoth by done. split; [apply left_alone_refl|done].
Qed.

(** The entry at a place after a change there. *)
Lemma ent_change es l (o : option fsnode) : (forall q, fs_at es (l ++ q) = o ≫= (fun n => fs_sub n q)) ->
  ent es l = (fun n => (thing_of n, fs_meta n)) <$> o.
Proof. intros Hq. unfold ent. specialize (Hq []). rewrite app_nil_r in Hq. rewrite Hq. by destruct o. Qed.

Lemma fs_at_ent es l t m : ent es l = Some (t, m) -> exists n, fs_at es l = Some n /\ thing_of n = t /\ fs_meta n = m.
Proof. unfold ent. intros (n & E & En)%fmap_Some. injection En as -> ->. eauto. Qed.
Lemma fs_at_no_ent es l : ent es l = None -> fs_at es l = None.
Proof. unfold ent. by intros ?%fmap_None. Qed.

Lemma create_file_ok l w : sorted_fs w.2 -> l <> [] -> dir_at w.2 (removelast l) ->
  (ent w.2 l = None \/ exists c m, ent w.2 l = Some (TFile c, m) /\ is_Some (modes m)) ->
  exists w', create_file clock fresh l w = Ok w' /\ sorted_fs w'.2 /\ frame [l] w.2 w'.2 /\
    exists m, fs_at w'.2 l = Some (FsFile m []) /\ is_Some (modes m).
Proof.
  intros Hs Hne Hd Hl. unfold create_file.
  set (f := fun o : option fsnode => match o with None => _ | Some _ => _ end). set (tp := match fs_at w.2 l with None => true | Some _ => false end). clearbody tp.
  assert (exists m, f (fs_at w.2 l) = Ok (Some (FsFile m [])) /\ is_Some (modes m)) as (m & Ef & Hm).
  { destruct Hl as [Hl%fs_at_no_ent|(c & m & Hl & Hm)]; [rewrite Hl; by eexists|].
    apply fs_at_ent in Hl as (n & Hl & Ht & En). rewrite Hl. destruct n; try done. cbn in Ht, En. subst. cbn [f]. eexists. split; [done|]. by rewrite modes_mtime, modes_size. }
  destruct (change_ok tp f l w _ Hs Hne Hd Ef) as (w' & E & Hs' & F & Hq); [by intros n [= <-]|]. exists w'. split; [done|]. split; [done|]. split; [done|].
  exists m. split; [|done]. specialize (Hq []). by rewrite app_nil_r in Hq.
Qed.

Lemma append_file_ok b l w m c : sorted_fs w.2 -> fs_at w.2 l = Some (FsFile m c) -> is_Some (modes m) ->
  exists w', append_file clock b l w = Ok w' /\ sorted_fs w'.2 /\ frame [l] w.2 w'.2 /\
    exists m', fs_at w'.2 l = Some (FsFile m' (c ++ b)) /\ is_Some (modes m').
Proof.
  intros Hs Hl Hm. unfold append_file. set (f := fun o : option fsnode => match o with Some _ => _ | None => _ end).
  assert (exists m', f (fs_at w.2 l) = Ok (Some (FsFile m' (c ++ b))) /\ is_Some (modes m')) as (m' & Ef & Hm').
  { rewrite Hl. cbn [f]. eexists. split; [done|]. by rewrite modes_mtime, modes_size. }
  assert (ent w.2 l = Some (TFile c, m)) as He by (unfold ent; by rewrite Hl). apply ent_parent in He as [Hne Hd].
  destruct (change_ok false f l w _ Hs Hne Hd Ef) as (w' & E & Hs' & F & Hq); [by intros n [= <-]|]. exists w'. split; [done|]. split; [done|]. split; [done|].
  exists m'. split; [|done]. specialize (Hq []). by rewrite app_nil_r in Hq.
Qed.

Lemma fill_file_ok read cs ps l w m c : Forall2 (fun c p => read c = Ok p) cs ps -> sorted_fs w.2 ->
  fs_at w.2 l = Some (FsFile m c) -> is_Some (modes m) ->
  exists w', fill_file clock read cs l w = Ok w' /\ sorted_fs w'.2 /\ frame [l] w.2 w'.2 /\
    exists m', fs_at w'.2 l = Some (FsFile m' (c ++ concat ps)) /\ is_Some (modes m').
Proof.
  intros HF. revert w m c. induction HF as [|x p cs ps Hx HF IH]; intros w m c Hs Hl Hm.
  - exists w. split; [done|]. split; [done|]. split; [apply frame_refl|]. exists m. by rewrite app_nil_r.
  - unfold fill_file. cbn [rfold]. rewrite Hx. cbn [rbind]. destruct (append_file_ok p l w m c Hs Hl Hm) as (w1 & E1 & Hs1 & F1 & m1 & Hl1 & Hm1). rewrite E1. cbn [rbind].
    destruct (IH w1 m1 (c ++ p) Hs1 Hl1 Hm1) as (w2 & E2 & Hs2 & F2 & m2 & Hl2 & Hm2). exists w2. split; [done|]. split; [done|]. split; [by eapply frame_trans|].
    exists m2. cbn [concat]. by rewrite app_assoc.
Qed.

Lemma change_meta_ok g l w t m : sorted_fs w.2 -> ent w.2 l = Some (t, m) ->
  exists w', change_meta clock g l w = Ok w' /\ sorted_fs w'.2 /\ frame [l] w.2 w'.2 /\
    ent w'.2 l = Some (t, g m) /\ forall q, q <> [] -> ent w'.2 (l ++ q) = ent w.2 (l ++ q).
Proof.
  intros Hs He. destruct (ent_parent _ _ _ He) as [Hne Hd]. destruct (fs_at_ent _ _ _ _ He) as (n & Hl & Ht & Hm).
  unfold change_meta. set (f := fun o : option fsnode => match o with Some _ => _ | None => _ end).
  assert (f (fs_at w.2 l) = Ok (Some (set_meta_of g n))) as Ef by by rewrite Hl.
  destruct (change_ok false f l w _ Hs Hne Hd Ef) as (w' & E & Hs' & F & Hq).
  { intros n' [= <-]. apply set_meta_of_shape. by eapply fs_at_shape. }
  exists w'. split; [done|]. split; [done|]. split; [done|]. split.
  - rewrite (ent_change _ _ _ Hq). cbn. f_equal. by destruct n; cbn in *; subst.
  - intros q Hqn. unfold ent. rewrite Hq, fs_at_app, Hl by done. cbn [mbind option_bind]. by rewrite fs_sub_set_meta.
Qed.

Lemma create_dir_ok l w : sorted_fs w.2 -> l <> [] -> dir_at w.2 (removelast l) -> ent w.2 l = None ->
  exists w', create_dir clock fresh l w = Ok w' /\ sorted_fs w'.2 /\ frame [l] w.2 w'.2 /\
    exists m, (forall q, ent w'.2 (l ++ q) = match q with [] => Some (TDir, m) | _ => None end) /\ is_Some (modes m).
Proof.
  intros Hs Hne Hd Hl%fs_at_no_ent. unfold create_dir. set (f := fun o : option fsnode => match o with Some _ => _ | None => _ end).
  assert (f (fs_at w.2 l) = Ok (Some (FsDir (Posix (fresh w.1 KDirectory)) []))) as Ef by by rewrite Hl.
  destruct (change_ok true f l w _ Hs Hne Hd Ef) as (w' & E & Hs' & F & Hq); [by intros n [= <-]|].
  exists w'. split; [done|]. split; [done|]. split; [done|]. exists (Posix (fresh w.1 KDirectory)). split; [|by eexists].
  intros q. unfold ent. rewrite Hq. by destruct q.
Qed.

Lemma create_link_ok t l w : sorted_fs w.2 -> l <> [] -> dir_at w.2 (removelast l) -> ent w.2 l = None ->
  exists w', create_link clock fresh t l w = Ok w' /\ sorted_fs w'.2 /\ frame [l] w.2 w'.2 /\
    exists m, forall q, ent w'.2 (l ++ q) = match q with [] => Some (TLink t, m) | _ => None end.
Proof.
  intros Hs Hne Hd Hl%fs_at_no_ent. unfold create_link. set (f := fun o : option fsnode => match o with Some _ => _ | None => _ end).
  assert (f (fs_at w.2 l) = Ok (Some (FsLink (Posix (fresh w.1 KSymlink)) t))) as Ef by by rewrite Hl.
  destruct (change_ok true f l w _ Hs Hne Hd Ef) as (w' & E & Hs' & F & Hq); [by intros n [= <-]|].
  exists w'. split; [done|]. split; [done|]. split; [done|]. eexists.
  intros q. unfold ent. rewrite Hq. by destruct q.
Qed.

Lemma remove_ok l w t m (b : bool) : sorted_fs w.2 -> ent w.2 l = Some (t, m) -> (if b then t = TDir else t <> TDir) ->
  exists w', (if b then remove_dir_all clock l w else remove_file clock l w) = Ok w' /\ sorted_fs w'.2 /\ frame [l] w.2 w'.2 /\
    forall q, ent w'.2 (l ++ q) = None.
Proof.
  intros Hs He Hb. destruct (ent_parent _ _ _ He) as [Hne Hd]. destruct (fs_at_ent _ _ _ _ He) as (n & Hl & Ht & Hm).
  destruct b; [unfold remove_dir_all|unfold remove_file]; set (f := fun o : option fsnode => match o with Some _ => _ | None => _ end).
  - assert (f (fs_at w.2 l) = Ok None) as Ef by (rewrite Hl; by destruct n; subst).
    destruct (change_ok true f l w _ Hs Hne Hd Ef) as (w' & E & Hs' & F & Hq); [done|]. exists w'. do 3 (split; [done|]). intros q. unfold ent. by rewrite Hq.
  - assert (f (fs_at w.2 l) = Ok None) as Ef by (rewrite Hl; by destruct n; subst).
    destruct (change_ok true f l w _ Hs Hne Hd Ef) as (w' & E & Hs' & F & Hq); [done|]. exists w'. do 3 (split; [done|]). intros q. unfold ent. by rewrite Hq.
Qed.
End ops.

