(** Ordered maps and sets keyed by byte strings, as strictly sorted lists.

    Models Rust's [BTreeMap<K, V>] / [BTreeSet<K>] with [K] an [ObjectId],
    [String] or [Utf8PathBuf]: iteration in ascending key order, insertion
    replacing an existing value.  (Object ids and strings compare as their
    bytes; [Utf8PathBuf] compares by components, which for the single-component
    names used as tree keys is the byte order too.) *)

From Verif Require Import Base.

Section omap.
Context {A : Type}.

Fixpoint om_insert (k : bytes) (v : A) (m : list (bytes * A)) : list (bytes * A) :=
  match m with
  | [] => [(k, v)]
  | (k', v') :: m' =>
      match bytes_cmp k k' with
      | Lt => (k, v) :: m
      | Eq => (k, v) :: m'
      | Gt => (k', v') :: om_insert k v m'
      end
  end.

Fixpoint om_get (k : bytes) (m : list (bytes * A)) : option A :=
  match m with
  | [] => None
  | (k', v') :: m' =>
      match bytes_cmp k k' with
      | Lt => None
      | Eq => Some v'
      | Gt => om_get k m'
      end
  end.

(** Strictly ascending keys. *)
Fixpoint om_sorted (m : list (bytes * A)) : Prop :=
  match m with
  | [] => True
  | (k, _) :: m' => Forall (fun kv => bytes_lt k kv.1) m' /\ om_sorted m'
  end.

Lemma om_insert_keys k v m kv :
  kv ∈ om_insert k v m -> kv = (k, v) \/ kv ∈ m.
Proof.
  induction m as [|[k' v'] m IH]; simpl.
  - rewrite elem_of_list_singleton. auto.
  - destruct (bytes_cmp k k'); rewrite ?elem_of_cons; naive_solver.
Qed.

Lemma om_insert_sorted k v m : om_sorted m -> om_sorted (om_insert k v m).
Proof.
  induction m as [|[k' v'] m IH]; simpl; [auto|].
  intros [Hall Hs]. destruct (bytes_cmp k k') eqn:E; simpl.
  - apply bytes_cmp_eq in E as ->. auto.
  - split; [|auto]. constructor; [done|].
    eapply Forall_impl; [done|]. intros kv ?. eapply bytes_lt_trans; eauto.
  - split; [|auto]. apply Forall_forall. intros kv Hin.
    apply om_insert_keys in Hin as [->|Hin].
    + simpl. unfold bytes_lt. rewrite bytes_cmp_antisym, E. done.
    + rewrite Forall_forall in Hall. auto.
Qed.

Lemma om_get_elem k v m : om_sorted m -> om_get k m = Some v <-> (k, v) ∈ m.
Proof.
  induction m as [|[k' v'] m IH]; simpl.
  - intros _. rewrite elem_of_nil. naive_solver.
  - intros [Hall Hs]. rewrite elem_of_cons. rewrite Forall_forall in Hall.
    destruct (bytes_cmp k k') eqn:E.
    + apply bytes_cmp_eq in E as ->. split.
      * naive_solver.
      * intros [?|Hin]; [naive_solver|]. apply Hall in Hin. by apply bytes_lt_irrefl in Hin.
    + split; [done|]. intros [[= -> ->]|Hin].
      * by rewrite (proj2 (bytes_cmp_eq k' k') eq_refl) in E.
      * apply Hall in Hin; simpl in Hin. destruct (bytes_lt_irrefl k).
        eapply bytes_lt_trans; eauto.
    + rewrite IH by done. split; [auto|]. intros [[= -> ->]|?]; [|done].
      by rewrite (proj2 (bytes_cmp_eq k' k') eq_refl) in E.
Qed.

Lemma om_get_insert_eq k v m : om_get k (om_insert k v m) = Some v.
Proof.
  induction m as [|[k' v'] m IH]; simpl.
  - by rewrite (proj2 (bytes_cmp_eq k k) eq_refl).
  - destruct (bytes_cmp k k') eqn:E; simpl.
    + by rewrite (proj2 (bytes_cmp_eq k k) eq_refl).
    + by rewrite (proj2 (bytes_cmp_eq k k) eq_refl).
    + by rewrite E.
Qed.

Lemma om_get_insert_ne k j v m :
  om_sorted m -> k <> j -> om_get j (om_insert k v m) = om_get j m.
Proof.
  intros Hs Hne. induction m as [|[k' v'] m IH]; simpl.
  - destruct (bytes_cmp j k) eqn:E; auto. by apply bytes_cmp_eq in E as ->.
  - destruct Hs as [Hall Hs].
    destruct (bytes_cmp k k') eqn:E; simpl.
    + apply bytes_cmp_eq in E as ->.
      destruct (bytes_cmp j k') eqn:E2; auto. by apply bytes_cmp_eq in E2 as ->.
    + destruct (bytes_cmp j k) eqn:E2; auto.
      * by apply bytes_cmp_eq in E2 as ->.
      * assert (bytes_lt j k') as Hlt by (eapply bytes_lt_trans; eauto).
        unfold bytes_lt in Hlt. by rewrite Hlt.
    + destruct (bytes_cmp j k') eqn:E2; auto.
Qed.

(** Collecting an iterator into a [BTreeMap]. *)
Definition om_of_list (l : list (bytes * A)) : list (bytes * A) :=
  foldl (fun m kv => om_insert kv.1 kv.2 m) [] l.

Lemma om_insert_last k v m :
  Forall (fun kv => bytes_lt kv.1 k) m -> om_insert k v m = m ++ [(k, v)].
Proof.
  induction 1 as [|[k' v'] m Hlt Hall IH]; simpl; [done|].
  simpl in Hlt. unfold bytes_lt in Hlt.
  rewrite bytes_cmp_antisym, Hlt. simpl. by rewrite IH.
Qed.

Lemma om_of_list_sorted_gen acc l :
  om_sorted (acc ++ l) ->
  foldl (fun m kv => om_insert kv.1 kv.2 m) acc l = acc ++ l.
Proof.
  revert acc; induction l as [|[k v] l IH]; intros acc Hs; simpl.
  - by rewrite app_nil_r.
  - rewrite om_insert_last.
    + rewrite IH; rewrite <-app_assoc; done.
    + clear IH. induction acc as [|[k' v'] acc IH]; simpl in *; constructor; simpl.
      * destruct Hs as [Hall _]. rewrite Forall_app, Forall_cons in Hall. tauto.
      * apply IH. tauto.
Qed.

(** A sorted list is what collecting it yields. *)
Lemma om_of_list_sorted l : om_sorted l -> om_of_list l = l.
Proof. intros. unfold om_of_list. by rewrite om_of_list_sorted_gen. Qed.

Lemma om_of_list_is_sorted l : om_sorted (om_of_list l).
Proof.
  unfold om_of_list. assert (om_sorted []) as H by done. revert H.
  generalize (@nil (bytes * A)) as acc.
  induction l as [|[k v] l IH]; intros acc Hs; simpl; [done|].
  apply IH. by apply om_insert_sorted.
Qed.

Lemma om_sorted_nodup m : om_sorted m -> NoDup m.*1.
Proof.
  induction m as [|[k v] m IH]; simpl; constructor.
  - destruct H as [Hall _]. rewrite Forall_forall in Hall.
    intros ([k' v'] & -> & Hin)%elem_of_list_fmap. apply Hall in Hin. simpl in Hin.
    by apply bytes_lt_irrefl in Hin.
  - apply IH. tauto.
Qed.

(** Sorted maps with the same entries are equal. *)
Lemma om_sorted_ext m1 m2 :
  om_sorted m1 -> om_sorted m2 -> (forall kv, kv ∈ m1 <-> kv ∈ m2) -> m1 = m2.
Proof.
  revert m2; induction m1 as [|[k1 v1] m1 IH]; intros [|[k2 v2] m2] H1 H2 Hext.
  - done.
  - exfalso. assert ((k2, v2) ∈ @nil (bytes * A)) as Hin by (apply Hext; left).
    by apply elem_of_nil in Hin.
  - exfalso. assert ((k1, v1) ∈ @nil (bytes * A)) as Hin by (apply Hext; left).
    by apply elem_of_nil in Hin.
  - destruct H1 as [Ha1 Hs1], H2 as [Ha2 Hs2]. rewrite Forall_forall in Ha1, Ha2.
    assert (forall k v k' v' (m : list (bytes * A)),
      (forall kv, kv ∈ m -> bytes_lt k kv.1) -> (k', v') ∈ (k, v) :: m ->
      (k', v') = (k, v) \/ bytes_lt k k') as Haux.
    { intros k v k' v' m Hm [?|Hin]%elem_of_cons; [auto|]. right. by apply Hm in Hin. }
    assert ((k1, v1) = (k2, v2)) as Heq.
    { assert ((k1, v1) ∈ (k2, v2) :: m2) as Hin1 by (apply Hext; left).
      assert ((k2, v2) ∈ (k1, v1) :: m1) as Hin2 by (apply Hext; left).
      apply (Haux _ _ _ _ _ Ha2) in Hin1 as [?|Hlt1]; [done|].
      apply (Haux _ _ _ _ _ Ha1) in Hin2 as [?|Hlt2]; [done|].
      destruct (bytes_lt_irrefl k1). eapply bytes_lt_trans; eauto. }
    injection Heq as -> ->. f_equal. apply IH; try done.
    intros kv. specialize (Hext kv). rewrite !elem_of_cons in Hext. split; intros Hin.
    + destruct (proj1 Hext (or_intror Hin)) as [->|?]; [|done].
      apply Ha1 in Hin. by apply bytes_lt_irrefl in Hin.
    + destruct (proj2 Hext (or_intror Hin)) as [->|?]; [|done].
      apply Ha2 in Hin. by apply bytes_lt_irrefl in Hin.
Qed.

End omap.

(** Sets: the keys only. *)
Definition os_insert (k : bytes) (s : list bytes) : list bytes :=
  (om_insert k tt (map (fun k => (k, tt)) s)).*1.
Definition os_sorted (s : list bytes) : Prop := om_sorted (map (fun k => (k, tt)) s).
Definition os_of_list (l : list bytes) : list bytes :=
  (om_of_list (map (fun k => (k, tt)) l)).*1.

Lemma os_of_list_sorted l : os_sorted l -> os_of_list l = l.
Proof.
  intros. unfold os_of_list. rewrite om_of_list_sorted by done.
  induction l; simpl in *; f_equal; auto. apply IHl. apply H.
Qed.

(** ** More facts *)

Lemma om_get_insert {A} k j (v : A) m :
  om_sorted m -> om_get j (om_insert k v m) = if decide (k = j) then Some v else om_get j m.
Proof.
  intros Hs. destruct (decide (k = j)) as [->|Hne]; [apply om_get_insert_eq|by apply om_get_insert_ne].
Qed.

Lemma om_get_ext {A} (m1 m2 : list (bytes * A)) :
  om_sorted m1 -> om_sorted m2 -> (forall k, om_get k m1 = om_get k m2) -> m1 = m2.
Proof.
  intros H1 H2 E. apply om_sorted_ext; try done. intros [k v].
  by rewrite <- !om_get_elem, E.
Qed.

Lemma om_filter_sorted {A} (P : bytes * A -> Prop) `{forall x, Decision (P x)} m :
  om_sorted m -> om_sorted (filter P m).
Proof.
  induction m as [|[k v] m IH]; [done|]. intros [Hall Hs]. rewrite filter_cons.
  case_decide; [|by apply IH]. split; [|by apply IH].
  apply Forall_forall. intros x [_ Hin]%elem_of_list_filter. rewrite Forall_forall in Hall. auto.
Qed.

Lemma om_get_list_to_map {A} k (m : list (bytes * A)) :
  om_sorted m -> om_get k m = (list_to_map m : gmap bytes A) !! k.
Proof.
  intros Hs. apply option_eq. intros v. rewrite om_get_elem by done.
  rewrite elem_of_list_to_map; [done|]. by apply om_sorted_nodup.
Qed.

Lemma map_fst_tt s : (map (fun k : bytes => (k, tt)) s).*1 = s.
Proof. induction s; simpl; f_equal; auto. Qed.

Lemma map_tt_fst (m : list (bytes * unit)) : map (fun k => (k, tt)) m.*1 = m.
Proof. induction m as [|[k []] m IH]; simpl; f_equal; auto. Qed.

Lemma os_insert_sorted k s : os_sorted s -> os_sorted (os_insert k s).
Proof. intros Hs. unfold os_sorted, os_insert. rewrite map_tt_fst. by apply om_insert_sorted. Qed.

Lemma elem_of_os_insert k s x : os_sorted s -> x ∈ os_insert k s <-> x = k \/ x ∈ s.
Proof.
  intros Hs. unfold os_insert.
  assert (forall m : list (bytes * unit), x ∈ m.*1 <-> (x, tt) ∈ m) as A.
  { intros m. rewrite elem_of_list_fmap. split; [intros ([? []] & -> & ?); done|intros; by exists (x, tt)]. }
  rewrite A. rewrite <- om_get_elem by by apply om_insert_sorted.
  rewrite om_get_insert by done. destruct (decide (k = x)) as [->|Hne]; [naive_solver|].
  rewrite om_get_elem by done. rewrite <- A, map_fst_tt. naive_solver.
Qed.

Lemma os_sorted_ext s1 s2 : os_sorted s1 -> os_sorted s2 -> (forall x, x ∈ s1 <-> x ∈ s2) -> s1 = s2.
Proof.
  intros H1 H2 E. rewrite <- (map_fst_tt s1), <- (map_fst_tt s2). f_equal.
  apply om_sorted_ext; try done. intros [k []].
  rewrite !elem_of_list_fmap. setoid_rewrite E. done.
Qed.
