(** Paths given to a backup: C69. *)

From Verif Require Import Base OMap Formats Meta Forest FsTree FsSpec Browse BrowseSpec BrowseRepo Restore RestoreSpec BackupPaths.

(** * The order *)

Lemma path_cmp_eq p q : path_cmp p q = Eq <-> p = q.
Proof.
  revert q. induction p as [|x p IH]; intros [|y q]; cbn [path_cmp]; try done. destruct (bytes_cmp x y) eqn:E.
  - apply bytes_cmp_eq in E as ->. rewrite IH. split; [by intros ->|by intros [= ->]].
  - split; [done|]. intros [= -> _]. by rewrite (proj2 (bytes_cmp_eq y y) eq_refl) in E.
  - split; [done|]. intros [= -> _]. by rewrite (proj2 (bytes_cmp_eq y y) eq_refl) in E.
Qed.
Lemma path_cmp_antisym p q : path_cmp q p = CompOpp (path_cmp p q).
Proof.
  revert q. induction p as [|x p IH]; intros [|y q]; cbn [path_cmp]; try done. rewrite (bytes_cmp_antisym x y).
  destruct (bytes_cmp x y); cbn; auto.
Qed.
Lemma path_lt_trans p q r : path_cmp p q = Lt -> path_cmp q r = Lt -> path_cmp p r = Lt.
Proof.
  revert q r. induction p as [|x p IH]; intros [|y q] [|z r]; cbn [path_cmp]; try done.
  destruct (bytes_cmp x y) eqn:E1, (bytes_cmp y z) eqn:E2; try done; intros H1 H2.
  - apply bytes_cmp_eq in E1 as ->. rewrite E2. eauto.
  - apply bytes_cmp_eq in E1 as ->. by rewrite E2.
  - apply bytes_cmp_eq in E2 as ->. by rewrite E1.
  - assert (bytes_lt x z) as -> by (by eapply bytes_lt_trans). done.
Qed.
Fixpoint sorted_paths (s : list (list bytes)) : Prop :=
  match s with [] => True | p :: s' => Forall (fun q => path_cmp p q = Lt) s' /\ sorted_paths s' end.
Lemma set_insert_in p s q : q ∈ set_insert p s <-> q = p \/ q ∈ s.
Proof.
  induction s as [|r s IH]; cbn [set_insert]; [by rewrite elem_of_list_singleton, elem_of_nil; naive_solver|].
  destruct (path_cmp p r) eqn:E; rewrite ?elem_of_cons, ?IH; [|naive_solver|naive_solver].
  apply path_cmp_eq in E as ->. naive_solver.
Qed.
Lemma set_insert_sorted p s : sorted_paths s -> sorted_paths (set_insert p s).
Proof.
  induction s as [|r s IH]; cbn [set_insert sorted_paths]; [done|]. intros [Hr Hs]. destruct (path_cmp p r) eqn:E; cbn [sorted_paths]; [done| |].
  - split; [|done]. constructor; [done|]. eapply Forall_impl; [exact Hr|]. intros q Hq. by eapply path_lt_trans.
  - split; [|auto]. apply Forall_forall. intros q [->|Hq]%set_insert_in; [|by eapply Forall_forall in Hr].
    by rewrite path_cmp_antisym, E.
Qed.
Lemma sorted_nodup s : sorted_paths s -> NoDup s.
Proof.
  induction s as [|p s IH]; cbn; [constructor|]. intros [Hp Hs]. constructor; [|auto]. intros Hin. eapply Forall_forall in Hp; [|exact Hin].
  cbn in Hp. by rewrite (proj2 (path_cmp_eq p p) eq_refl) in Hp.
Qed.
Lemma sorted_unique s s' : sorted_paths s -> sorted_paths s' -> (forall p, p ∈ s <-> p ∈ s') -> s = s'.
Proof.
  revert s'. induction s as [|p s IH]; intros [|q s'] Hs Hs' Hall; [done|exfalso; eapply not_elem_of_nil, Hall; by left|exfalso; eapply not_elem_of_nil, Hall; by left|].
  destruct Hs as [Hp Hs], Hs' as [Hq Hs']. rewrite Forall_forall in Hp, Hq. assert (p = q) as ->.
  { assert (p ∈ q :: s') as [|H1]%elem_of_cons by (apply Hall; by left); [done|]. assert (q ∈ p :: s) as [|H2]%elem_of_cons by (apply Hall; by left); [done|].
    specialize (Hp _ H2). specialize (Hq _ H1). cbn in Hp, Hq. by rewrite path_cmp_antisym, Hp in Hq. }
  f_equal. apply IH; [done|done|]. intros r. split; intros Hr.
  - assert (r ∈ q :: s') as [->|]%elem_of_cons by (apply Hall; by right); [|done]. specialize (Hp _ Hr). cbn in Hp. by rewrite (proj2 (path_cmp_eq q q) eq_refl) in Hp.
  - assert (r ∈ q :: s) as [->|]%elem_of_cons by (apply Hall; by right); [|done]. specialize (Hq _ Hr). cbn in Hq. by rewrite (proj2 (path_cmp_eq q q) eq_refl) in Hq.
Qed.

(** * The functions *)

Lemma canonical_spec (canon : bytes -> option (list bytes)) args s0 : sorted_paths s0 ->
  match rfold (fun a s => match canon a with Some p => Ok (set_insert p s) | None => Err end) args s0 with
  | Ok s => sorted_paths s /\ Forall (fun a => is_Some (canon a)) args /\ forall p, p ∈ s <-> p ∈ s0 \/ exists a, a ∈ args /\ canon a = Some p
  | Err => exists a, a ∈ args /\ canon a = None
  | Panic => False
  end.
Proof.
  revert s0. induction args as [|a args IH]; intros s0 Hs; cbn [rfold].
  - split; [done|]. split; [done|]. intros p. split; [by left|]. intros [|(a & Ha & _)]; [done|]. by apply not_elem_of_nil in Ha.
  - destruct (canon a) as [p0|] eqn:E; cbn [rbind]; [|exists a; split; [by left|done]].
    specialize (IH (set_insert p0 s0) (set_insert_sorted _ _ Hs)). destruct (rfold _ args (set_insert p0 s0)) as [s| |]; [| |done].
    + destruct IH as (H1 & H2 & H3). split; [done|]. split; [by constructor; [rewrite E|]|]. intros p. rewrite H3, set_insert_in. split.
      * intros [[->|]|(b & Hb & Eb)]; [right; exists a; split; [by left|done]|by left|right; exists b; split; [by right|done]].
      * intros [|(b & [->|Hb]%elem_of_cons & Eb)]; [auto| |eauto]. rewrite E in Eb. injection Eb as ->. auto.
    + destruct IH as (b & Hb & Eb). exists b. split; [by right|done].
Qed.
Lemma reject_spec seen ps :
  match reject_matching_directories seen ps with
  | Ok _ => NoDup (map last ps) /\ Forall (fun p => exists x, last p = Some x /\ x ∉ seen) ps
  | Err => (exists p x, p ∈ ps /\ last p = Some x /\ x ∈ seen) \/ exists i j p q x, i < j /\ ps !! i = Some p /\ ps !! j = Some q /\ last p = Some x /\ last q = Some x
  | Panic => [] ∈ ps
  end.
Proof.
  revert seen. induction ps as [|p ps IH]; intros seen; cbn [reject_matching_directories]; [split; [constructor|constructor]|].
  destruct (last p) as [x|] eqn:El; [|apply last_None in El as ->; by left]. destruct (decide (x ∈ seen)) as [Hx|Hx]; [left; exists p, x; split; [by left|done]|].
  specialize (IH ({[x]} ∪ seen)). destruct (reject_matching_directories ({[x]} ∪ seen) ps) as [u| |].
  - destruct IH as [H1 H2]. rewrite Forall_forall in H2. split.
    + cbn [map]. constructor; [|done]. rewrite El. intros Hin. change (map last ps) with (last <$> ps) in Hin. apply elem_of_list_fmap in Hin as (q & Eq & Hq).
      destruct (H2 q Hq) as (y & Ey & Hy). rewrite Ey in Eq. injection Eq as ->. set_solver.
    + constructor; [eauto|]. apply Forall_forall. intros q Hq. destruct (H2 q Hq) as (y & Ey & Hy). exists y. split; [done|set_solver].
  - destruct IH as [(q & y & Hq & Ey & Hy)|(i & j & q & r & y & Hij & Ei & Ej & Ey & Ey')].
    + apply elem_of_union in Hy as [->%elem_of_singleton|Hy]; [|left; exists q, y; split; [by right|done]].
      right. apply elem_of_list_lookup in Hq as [j Ej]. exists 0, (S j), p, q, x. split; [lia|]. done.
    + right. exists (S i), (S j), q, r, y. split; [lia|]. done.
  - by right.
Qed.

(** * C69: what paths a backup takes *)

(** A backup takes the paths it is given exactly if all of them can be made canonical, none is the root, and
    no two different ones have the same last name; it works with each once.  It refuses with an error if one cannot be
    made canonical or two clash; and panics only if one is the root. *)
Theorem C69_what_paths_are_taken_partial canon args :
  match backup_paths canon args with
  | Ok ps => NoDup ps /\ (forall p, p ∈ ps <-> exists a, a ∈ args /\ canon a = Some p) /\
      (forall a, a ∈ args -> exists p x, canon a = Some p /\ last p = Some x) /\
      (forall a b p q, a ∈ args -> b ∈ args -> canon a = Some p -> canon b = Some q -> last p = last q -> p = q)
  | Err => (exists a, a ∈ args /\ canon a = None) \/
      exists a b p q x, a ∈ args /\ b ∈ args /\ canon a = Some p /\ canon b = Some q /\ p <> q /\ last p = Some x /\ last q = Some x
  | Panic => exists a, a ∈ args /\ canon a = Some []
  end.
Proof.
  unfold backup_paths, canonical_paths. pose proof (canonical_spec canon args [] I) as Hc. destruct (rfold _ args []) as [s| |]; [|by left|done]. cbn [rbind].
  destruct Hc as (Hs & Hall & Hin). assert (forall p, p ∈ s <-> exists a, a ∈ args /\ canon a = Some p) as Hin'.
  { intros p. rewrite Hin, elem_of_nil. naive_solver. }
  pose proof (reject_spec ∅ s) as Hr. destruct (reject_matching_directories ∅ s) as [u| |]; cbn [rbind].
  - destruct Hr as [H1 H2]. rewrite Forall_forall in H2. rewrite Forall_forall in Hall. split; [by apply sorted_nodup|]. split; [done|]. split.
    + intros a Ha. destruct (Hall a Ha) as [p Ep]. destruct (H2 p) as (x & Ex & _); [apply Hin'; eauto|]. eauto.
    + intros a b p q Ha Hb Ep Eq E. assert (p ∈ s) as [i Ei]%elem_of_list_lookup by (apply Hin'; eauto). assert (q ∈ s) as [j Ej]%elem_of_list_lookup by (apply Hin'; eauto).
      assert (i = j) as ->; [|congruence]. eapply NoDup_lookup; [exact H1| |]; change (map last s) with (last <$> s); rewrite list_lookup_fmap; [rewrite Ei; reflexivity|rewrite Ej; cbn; by rewrite E].
  - right. destruct Hr as [(p & x & _ & _ & Hx)|(i & j & p & q & x & Hij & Ei & Ej & Ex & Ex')]; [by apply elem_of_empty in Hx|].
    assert (p ∈ s) as (a & Ha & Ea)%Hin' by (by eapply elem_of_list_lookup_2). assert (q ∈ s) as (b & Hb & Eb)%Hin' by (by eapply elem_of_list_lookup_2).
    exists a, b, p, q, x. repeat (split; [done|]). split; [|done]. intros ->. apply sorted_nodup in Hs. pose proof (NoDup_lookup s i j q Hs Ei Ej). lia.
  - apply Hin' in Hr. done.
Qed.

(** In what order, how often and by which names the paths are given does not matter, nor from which directory
    the command is run ([canon] and [canon'] may differ). *)
Theorem C69_spelling_does_not_matter canon canon' args args' :
  (forall a, a ∈ args -> is_Some (canon a)) -> (forall a, a ∈ args' -> is_Some (canon' a)) ->
  (forall p, (exists a, a ∈ args /\ canon a = Some p) <-> (exists a, a ∈ args' /\ canon' a = Some p)) ->
  backup_paths canon args = backup_paths canon' args'.
Proof.
  intros H1 H2 Hsame. unfold backup_paths, canonical_paths.
  pose proof (canonical_spec canon args [] I) as Hc. pose proof (canonical_spec canon' args' [] I) as Hc'.
  destruct (rfold _ args []) as [s| |]; [|destruct Hc as (a & Ha & Ea); destruct (H1 a Ha); congruence|done].
  destruct (rfold _ args' []) as [s'| |]; [|destruct Hc' as (a & Ha & Ea); destruct (H2 a Ha); congruence|done].
  destruct Hc as (Hs & _ & Hin), Hc' as (Hs' & _ & Hin'). replace s' with s; [done|]. apply sorted_unique; [done|done|].
  intros p. rewrite Hin, Hin', elem_of_nil. naive_solver.
Qed.

(** So a second backup of the same paths has a parent: the latest snapshot of these paths. *)
Theorem C69_the_parent_is_found canon canon' args args' ps ps' sn id snaps :
  (forall a, a ∈ args' -> is_Some (canon' a)) ->
  (forall p, (exists a, a ∈ args /\ canon a = Some p) <-> (exists a, a ∈ args' /\ canon' a = Some p)) ->
  backup_paths canon args = Ok ps -> backup_paths canon' args' = Ok ps' ->
  (sn, id) ∈ snaps -> sn_paths sn = map path_text ps ->
  exists before p pid after, parent_snapshot (map path_text ps') snaps = Some p /\ snaps = before ++ (p, pid) :: after /\ sn_paths p = map path_text ps /\
    Forall (fun s : snapshot * oid => sn_paths s.1 <> map path_text ps) after.
Proof.
  intros Hall' Hsame E E' Hin Hpaths. assert (ps' = ps) as ->.
  { rewrite (C69_spelling_does_not_matter canon canon' args args') in E; [congruence| |done|done].
    intros a Ha. pose proof (C69_what_paths_are_taken_partial canon args) as Hw. rewrite E in Hw. destruct Hw as (_ & _ & Hw & _). destruct (Hw a Ha) as (p & _ & Ep & _). by exists p. }
  clear -Hin Hpaths. unfold parent_snapshot. set (P := map path_text ps) in *.
  destruct (List.find (fun s : snapshot * oid => bool_decide (sn_paths s.1 = P)) (rev snaps)) as [[p pid]|] eqn:Ef.
  - revert Ef. clear. induction snaps as [|s snaps IH] using rev_ind; [done|]. rewrite rev_app_distr. cbn. destruct (bool_decide (sn_paths s.1 = P)) eqn:Eb.
    + intros [= ->]. apply bool_decide_eq_true in Eb. exists snaps, p, pid, []. split; [done|]. split; [done|]. split; [done|constructor].
    + intros Ef. destruct (IH Ef) as (b & p' & pid' & af & [= ->] & -> & E1 & E2). exists b, p', pid', (af ++ [s]). split; [done|]. split; [by rewrite <-app_assoc|]. split; [done|].
      apply Forall_app. split; [done|]. constructor; [by apply bool_decide_eq_false in Eb|constructor].
  - exfalso. eapply List.find_none in Ef; [|apply in_rev; rewrite rev_involutive; apply elem_of_list_In; exact Hin]. cbn in Ef. by apply bool_decide_eq_false in Ef.
Qed.

(** What the names in a canonical path are not. *)
Definition is_name (x : bytes) : Prop := x <> [] /\ slash ∉ x /\ x <> ascii_bytes "." /\ x <> ascii_bytes "..".

Lemma between_some s : between_slashes s <> [].
Proof. induction s as [|b s IH]; cbn [between_slashes]; [done|]. destruct (between_slashes s); [done|]. by case_bool_decide. Qed.
Lemma between_cons s : between_slashes (slash :: s) = [] :: between_slashes s.
Proof. cbn [between_slashes]. pose proof (between_some s). destruct (between_slashes s); [done|]. by rewrite bool_decide_true. Qed.
Lemma between_name x s : slash ∉ x -> between_slashes (x ++ slash :: s) = x :: between_slashes s /\ between_slashes x = [x].
Proof.
  induction x as [|b x IH]; intros Hx; [split; [apply between_cons|done]|].
  apply not_elem_of_cons in Hx as [Hb Hx]. destruct (IH Hx) as [H1 H2]. cbn [app between_slashes]. rewrite H1, H2, bool_decide_false by congruence. done.
Qed.
Lemma between_text p : Forall is_name p -> p <> [] -> between_slashes (concat (map (fun x => slash :: x) p)) = [] :: p.
Proof.
  induction p as [|x p IH]; [done|]. intros [(_ & Hx & _) Hp]%Forall_cons _. cbn [map concat app]. rewrite between_cons. f_equal.
  destruct p as [|y p]; [cbn; rewrite app_nil_r; by apply (between_name x [])|]. specialize (IH Hp ltac:(done)).
  cbn [map concat app] in IH |- *. rewrite between_cons in IH. injection IH as IH. rewrite (proj1 (between_name x _ Hx)). cbn [map concat app]. by rewrite IH.
Qed.
Lemma names_text p : Forall is_name p -> names_in (path_text p) = p.
Proof.
  intros Hp. unfold names_in, path_text. destruct p as [|x p]; [done|]. rewrite between_text by done. rewrite filter_cons_False by naive_solver.
  clear -Hp. induction (x :: p) as [|y l IH]; [done|]. apply Forall_cons in Hp as [(H1 & _ & H2 & H3) Hp]. rewrite filter_cons_True by done. by rewrite IH.
Qed.

(** The snapshot of paths that were taken says where each came from, under names that differ: premises [cr_named] and
    [cr_distinct] of C36 hold of it, and the name check in the model of the backup command (Repo.v) passes. *)
Theorem C69_where_things_came_from canon args ps sn output paths :
  (forall a p, a ∈ args -> canon a = Some p -> Forall is_name p) ->
  backup_paths canon args = Ok ps -> sn_paths sn = map path_text ps -> map fst paths = map (fun p => (path_text p, default [] (last p))) ps ->
  targets sn None = map (fun p => (default [] (last p), p)) ps /\
  Forall (fun p => names_in p <> []) (sn_paths sn) /\ NoDup (map fst (targets sn output)) /\
  reject_matching ∅ (map (fun e : fspath => e.1.2) paths) = Ok tt.
Proof.
  intros Hcanon E Hsn Hpaths. pose proof (C69_what_paths_are_taken_partial canon args) as Hw. rewrite E in Hw. destruct Hw as (_ & Hin & Hlast & _).
  assert (Forall (fun p => Forall is_name p /\ exists x, last p = Some x) ps) as Hps.
  { apply Forall_forall. intros p (a & Ha & Ea)%Hin. split; [by eapply Hcanon|]. destruct (Hlast a Ha) as (p' & x & Ea' & Ex). replace p with p' by congruence. eauto. }
  assert (targets sn None = map (fun p => (default [] (last p), p)) ps) as HT.
  { unfold targets. rewrite Hsn. clear -Hps. induction ps as [|p ps IH]; [done|]. apply Forall_cons in Hps as [[Hp (x & Ex)] Hps]. cbn [map omap list_omap].
    rewrite names_text, Ex by done. cbn [fmap option_fmap option_map default from_option]. f_equal. by apply IH. }
  assert (NoDup (map fst (targets sn None))) as Hnd.
  { rewrite HT, map_map. cbn [fst]. unfold backup_paths in E. destruct (canonical_paths canon args) as [s| |]; try discriminate E. cbn [rbind] in E.
    pose proof (reject_spec ∅ s) as Hr. destruct (reject_matching_directories ∅ s) as [u| |]; try discriminate E. cbn [rbind] in E. injection E as ->. destruct Hr as [Hnd _].
    clear -Hnd Hps. induction ps as [|p ps IH]; [constructor|]. apply Forall_cons in Hps as [[_ (x & Ex)] Hps]. cbn [map] in *. apply NoDup_cons in Hnd as [Hp Hnd].
    constructor; [|by apply IH]. intros Hq. apply Hp. change (map ?f ?l) with (f <$> l) in Hq. change (map ?f ?l) with (f <$> l). apply elem_of_list_fmap in Hq as (q & Eq & Hq). apply elem_of_list_fmap. exists q. split; [|done].
    rewrite Forall_forall in Hps. destruct (Hps q Hq) as [_ (y & Ey)]. rewrite Ex, Ey in Eq |- *. cbn in Eq. by subst. }
  split; [done|]. split.
  { rewrite Hsn. apply Forall_forall. intros t Ht. change (map ?f ?l) with (f <$> l) in Ht. apply elem_of_list_fmap in Ht as (p & -> & Hp). rewrite Forall_forall in Hps. destruct (Hps p Hp) as [Hn (x & Ex)].
    rewrite names_text by done. intros ->. done. }
  split.
  { destruct output as [to|]; [|done]. unfold targets in HT, Hnd |- *. rewrite HT in Hnd |- *. clear -Hnd.
    assert (map fst (map (fun e : bytes * list bytes => (e.1, to ++ [e.1])) (map (fun p => (default [] (last p), p)) ps)) = map fst (map (fun p : list bytes => (default [] (last p), p)) ps)) as Hm by (by rewrite !map_map).
    destruct ps as [|p [|q ps]]; cbn [map] in *; [done|cbn; apply NoDup_singleton|]. by rewrite Hm. }
  assert (map (fun e : fspath => e.1.2) paths = map fst (targets sn None)) as ->.
  { rewrite HT, map_map. cbn [fst]. transitivity (map snd (map fst paths)); [by rewrite map_map|]. rewrite Hpaths, map_map. done. }
  revert Hnd. clear. generalize (map fst (targets sn None)) as l. intros l. assert (forall seen, (forall x, x ∈ l -> x ∉ seen) -> NoDup l -> reject_matching seen l = Ok tt) as Hg.
  { induction l as [|x l IH]; intros seen Hs Hnd; cbn [reject_matching]; [done|]. rewrite decide_False by (apply Hs; by left). apply NoDup_cons in Hnd as [Hx Hnd]. apply IH; [|done].
    intros y Hy. apply not_elem_of_union. split; [|by apply Hs; right]. intros ->%elem_of_singleton. done. }
  intros Hnd. apply Hg; [|done]. intros x _. apply not_elem_of_empty.
Qed.

(** That name check, on its own: names that differ pass, others are an error (the program does not crash). *)
Theorem C69_names_must_differ names :
  (NoDup names -> reject_matching ∅ names = Ok tt) /\ (~ NoDup names -> reject_matching ∅ names = Err).
Proof.
  assert (forall seen, ((forall x, x ∈ names -> x ∉ seen) /\ NoDup names /\ reject_matching seen names = Ok tt) \/
    (~ ((forall x, x ∈ names -> x ∉ seen) /\ NoDup names) /\ reject_matching seen names = Err)) as Hg.
  { induction names as [|x l IH]; intros seen; cbn [reject_matching].
    { left. split; [by intros ? ?%elem_of_nil|]. split; [constructor|done]. }
    destruct (decide (x ∈ seen)) as [Hx|Hx].
    { right. split; [|done]. intros [Hs _]. by destruct (Hs x ltac:(by left)). }
    destruct (IH ({[x]} ∪ seen)) as [(Hs & Hnd & E)|[Hn E]]; [left|right]; rewrite E; (split; [|try done]).
    - intros y [->|Hy]%elem_of_cons; [done|]. intros Hy'. apply (Hs y Hy). apply elem_of_union. by right.
    - split; [|done]. constructor; [|done]. intros Hx'. apply (Hs x Hx'). apply elem_of_union. left. by apply elem_of_singleton.
    - intros [Hs [Hx' Hnd]%NoDup_cons]. apply Hn. split; [|done]. intros y Hy [->%elem_of_singleton|Hy']%elem_of_union; [done|]. by apply (Hs y ltac:(by right)). }
  destruct (Hg ∅) as [(_ & Hnd & E)|[Hn E]]; rewrite E; (split; [done|]) || (split; [|done]).
  - done.
  - intros Hnd. destruct Hn. split; [|done]. intros x _. apply not_elem_of_empty.
Qed.

(** C69, refuted in full: the root can be made canonical, but a backup of it panics. *)
Theorem C69_the_root_refuted : exists canon args, (forall a, a ∈ args -> is_Some (canon a)) /\
  (forall a b p q, a ∈ args -> b ∈ args -> canon a = Some p -> canon b = Some q -> p = q) /\ backup_paths canon args = Panic.
Proof.
  exists (fun a => if bool_decide (a = ascii_bytes "/") then Some [] else None), [ascii_bytes "/"]. split; [|split; [|reflexivity]].
  - intros a ->%elem_of_list_singleton. by exists [].
  - intros a b p q ->%elem_of_list_singleton ->%elem_of_list_singleton. cbn. congruence.
Qed.

(** ** Examples *)

Definition px_canon (a : bytes) : option (list bytes) :=
  if bool_decide (a = ascii_bytes "b") then Some [ascii_bytes "a"; ascii_bytes "b"]
  else if bool_decide (a = ascii_bytes "../a/./b/") then Some [ascii_bytes "a"; ascii_bytes "b"]
  else if bool_decide (a = ascii_bytes "/a-b") then Some [ascii_bytes "a-b"]
  else if bool_decide (a = ascii_bytes "/b") then Some [ascii_bytes "b"]
  else None.
(** Components are compared, not bytes: /a/b comes before /a-b. *)
Example C69_taken : backup_paths px_canon [ascii_bytes "/a-b"; ascii_bytes "b"; ascii_bytes "../a/./b/"] = Ok [[ascii_bytes "a"; ascii_bytes "b"]; [ascii_bytes "a-b"]].
Proof. reflexivity. Qed.
Example C69_texts : map path_text [[ascii_bytes "a"; ascii_bytes "b"]; [ascii_bytes "a-b"]] = [ascii_bytes "/a/b"; ascii_bytes "/a-b"] /\
  Forall (Forall is_name) [[ascii_bytes "a"; ascii_bytes "b"]; [ascii_bytes "a-b"]].
Proof.
  split; [reflexivity|]. assert (forall x, x <> [] -> x <> ascii_bytes "." -> x <> ascii_bytes ".." -> bool_decide (slash ∈ x) = false -> is_name x) as Hn.
  { intros x H1 H2 H3 H4%bool_decide_eq_false. by split. }
  repeat apply Forall_cons_2; try apply Forall_nil_2; by apply Hn.
Qed.
Example C69_clash : backup_paths px_canon [ascii_bytes "/b"; ascii_bytes "b"] = Err.
Proof. reflexivity. Qed.
Example C69_missing : backup_paths px_canon [ascii_bytes "b"; ascii_bytes "c"] = Err.
Proof. reflexivity. Qed.
Example C69_same : backup_paths px_canon [ascii_bytes "b"; ascii_bytes "/a-b"] = backup_paths px_canon [ascii_bytes "/a-b"; ascii_bytes "../a/./b/"; ascii_bytes "b"].
Proof. apply C69_spelling_does_not_matter.
  - intros a [->|[->|Ha%elem_of_nil]%elem_of_cons]%elem_of_cons; [by eexists|by eexists|done].
  - intros a [->|[->|[->|Ha%elem_of_nil]%elem_of_cons]%elem_of_cons]%elem_of_cons; [by eexists|by eexists|by eexists|done].
  - intros p. split.
    + intros (a & Ha & Ea). exists a. split; [|done]. rewrite !elem_of_cons in *. naive_solver.
    + intros (a & [->|[->|[->|Ha%elem_of_nil]%elem_of_cons]%elem_of_cons]%elem_of_cons & Ea); [exists (ascii_bytes "/a-b")|exists (ascii_bytes "b")|exists (ascii_bytes "b")|done]; (split; [rewrite !elem_of_cons; auto|exact Ea]).
Qed.

Print Assumptions C69_what_paths_are_taken_partial.
Print Assumptions C69_spelling_does_not_matter.
Print Assumptions C69_the_parent_is_found.
Print Assumptions C69_where_things_came_from.
Print Assumptions C69_names_must_differ.
Print Assumptions C69_the_root_refuted.
