(** Finding paths in a file tree that was filtered. *)

From Verif Require Import Base OMap Formats Hashing Pack Meta Forest FsTree FsSpec FsFacts BackupFacts Pipeline Repo RepoSpec RewriteFacts CommandFacts History PruneFacts.

(** As read from a repository: sorted directories, no special files. *)
Fixpoint tidy (n : fsnode) : Prop :=
  match n with
  | FsDir _ es => om_sorted es /\ foldr (fun (e : bytes * fsnode) P => tidy e.2 /\ P) True es
  | FsOther _ => False
  | _ => True
  end.
Definition tidy_list (es : list (bytes * fsnode)) : Prop := om_sorted es /\ Forall (fun e : bytes * fsnode => tidy e.2) es.

Lemma tidy_dir m es : tidy (FsDir m es) <-> tidy_list es.
Proof.
  simpl. unfold tidy_list. apply and_iff_compat_l. induction es as [|e es IH]; simpl; [split; constructor|].
  rewrite IH, Forall_cons. done.
Qed.

Lemma collect_get {A B} (f : bytes * A -> option B) (l : list (bytes * A)) x :
  om_sorted l -> om_get x (collect fst f l) = om_get x l ≫= (fun n => f (x, n)).
Proof.
  intros Hs. apply option_eq. intros b. rewrite om_get_elem by by apply collect_sorted. rewrite collect_elem. split.
  - intros ([y n] & Hin & Hf & E). simpl in *. subst y. apply om_get_elem in Hin as ->; done.
  - intros (n & Hin & Hf)%bind_Some. apply om_get_elem in Hin; [|done]. exists (x, n). done.
Qed.

Lemma join_nil x : join [] x = x.
Proof. done. Qed.

Section filter.
Variable filter : bytes -> bool.

(** The rest of a path, starting at some place. *)
Definition passes_from (path : bytes) (p : list bytes) : Prop :=
  forall q, q `prefix_of` p -> filter (foldl join path q) = true.

Lemma passes_from_cons path x p : passes_from path (x :: p) <-> filter path = true /\ passes_from (join path x) p.
Proof.
  split.
  - intros Hp. split; [apply (Hp []), prefix_nil|]. intros q Hq. apply (Hp (x :: q)). by apply prefix_cons.
  - intros [Hf Hp] q Hq. destruct q as [|y q]; [done|]. pose proof (prefix_cons_inv_1 _ _ _ _ Hq) as <-.
    apply prefix_cons_inv_2 in Hq. by apply Hp.
Qed.

Lemma kept_dir path m es : tidy_list es -> kept filter path (FsDir m es) =
  if filter path then Some (FsDir m (collect fst (fun e : bytes * fsnode => kept filter (join path e.1) e.2) es)) else None.
Proof.
  intros [Hs _]. cbn [kept]. destruct (filter path); simpl; [|done]. rewrite om_of_list_sorted; [done|]. by apply collect_sorted.
Qed.

Lemma kept_sub n path p : tidy n ->
  (forall n', kept filter path n ≫= (fun k => fs_sub k p) = Some n' -> passes_from path p /\ exists n0, fs_sub n p = Some n0 /\ same_entry n0 n') /\
  (forall n0, fs_sub n p = Some n0 -> passes_from path p -> exists n', kept filter path n ≫= (fun k => fs_sub k p) = Some n' /\ same_entry n0 n').
Proof.
  revert n path. induction p as [|x p IH]; intros n path Ht.
  - assert (passes_from path [] <-> filter path = true) as Hp.
    { split; [intros Hp; apply (Hp []), prefix_nil|]. intros Hf q Hq. by apply prefix_nil_inv in Hq as ->. }
    destruct n as [m c|m es|m t|m]; [| | |done].
    + cbn [kept]. destruct (filter path); simpl; [|by split; [|intros ? _ ?%Hp]]. split; [intros ? E|intros ? E _]; injection E as <-; [split; [by apply Hp|]|]; by eexists.
    + apply tidy_dir in Ht. rewrite kept_dir by done. destruct (filter path); simpl; [|by split; [|intros ? _ ?%Hp]]. split; [intros ? E|intros ? E _]; injection E as <-; [split; [by apply Hp|]|]; by eexists.
    + cbn [kept]. destruct (filter path); simpl; [|by split; [|intros ? _ ?%Hp]]. split; [intros ? E|intros ? E _]; injection E as <-; [split; [by apply Hp|]|]; by eexists.
  - destruct n as [m c|m es|m t|m]; [| | |done].
    + cbn [kept]. destruct (filter path); simpl; split; done.
    + apply tidy_dir in Ht. rewrite kept_dir by done. setoid_rewrite passes_from_cons.
      destruct (filter path); simpl; [|split; [done|]; by intros ? _ [? _]].
      rewrite collect_get by apply Ht. simpl. destruct (om_get x es) as [n|] eqn:Eg; simpl; [|split; done].
      assert (tidy n) as Hn. { apply om_get_elem in Eg; [|apply Ht]. destruct Ht as [_ Ht]. rewrite Forall_forall in Ht. exact (Ht _ Eg). }
      destruct (IH n (join path x) Hn) as [I1 I2]. split.
      * intros n' E. destruct (I1 n' E) as [P Q]. auto.
      * intros n0 E [_ P]. by apply I2.
    + cbn [kept]. destruct (filter path); simpl; split; done.
Qed.

Lemma passes_cons x p : passes filter (x :: p) <-> passes_from x p.
Proof.
  assert (forall q, path_of (x :: q) = foldl join x q) as Ex by (intros q; unfold path_of; simpl; by rewrite join_nil). split.
  - intros Hp q Hq. rewrite <-Ex. apply Hp; [by apply prefix_cons|done].
  - intros Hp q Hq Hne. destruct q as [|y q]; [done|]. pose proof (prefix_cons_inv_1 _ _ _ _ Hq) as <-.
    apply prefix_cons_inv_2 in Hq. rewrite Ex. by apply Hp.
Qed.

Lemma kept_entries_at es p : tidy_list es ->
  (forall n', fs_at (kept_entries filter es) p = Some n' -> passes filter p /\ exists n, fs_at es p = Some n /\ same_entry n n') /\
  (forall n, fs_at es p = Some n -> passes filter p -> exists n', fs_at (kept_entries filter es) p = Some n' /\ same_entry n n').
Proof.
  intros Ht. destruct p as [|x p]; [split; done|]. unfold fs_at, kept_entries. rewrite collect_get by apply Ht. simpl.
  setoid_rewrite passes_cons. destruct (om_get x es) as [n|] eqn:Eg; simpl; [|split; done].
  assert (tidy n) as Hn. { apply om_get_elem in Eg; [|apply Ht]. destruct Ht as [_ Ht]. rewrite Forall_forall in Ht. exact (Ht _ Eg). }
  by apply kept_sub.
Qed.
End filter.

Lemma reads_tidy H st nd n : (forall id t, stored_as H st id t -> om_sorted t) -> reads H st nd n -> tidy n.
Proof.
  intros Hst. revert nd. induction n as [m c|m es IH|m tg|m] using fsnode_ind'; intros nd Hr; inversion Hr as [| |m' id t es' Ht HF]; subst; try done.
  apply tidy_dir. split; [eapply reads_sorted; eauto|].
  apply Forall_forall. intros e He. apply elem_of_list_lookup in He as [j Hj]. eapply Forall2_lookup_r in HF as (a & _ & _ & Ha); [|exact Hj].
  rewrite Forall_forall in IH. eapply IH; [by eapply elem_of_list_lookup_2|exact Ha].
Qed.

Lemma reads_root_tidy H st id es : (forall id t, stored_as H st id t -> om_sorted t) -> reads_root H st id es -> tidy_list es.
Proof.
  intros Hst (t & Ht & HF). split; [eapply reads_sorted; eauto|].
  apply Forall_forall. intros e He. apply elem_of_list_lookup in He as [j Hj]. eapply Forall2_lookup_r in HF as (a & _ & _ & Ha); [|exact Hj].
  by eapply reads_tidy.
Qed.
