(** Facts about the file system walk. *)

From Verif Require Import Base OMap Formats FormatsFacts Hashing Pack Meta Forest FsTree FsSpec.

(** Induction over file trees. *)
Lemma fsnode_ind' (P : fsnode -> Prop) :
  (forall m c, P (FsFile m c)) ->
  (forall m es, Forall (fun e : bytes * fsnode => P e.2) es -> P (FsDir m es)) ->
  (forall m t, P (FsLink m t)) ->
  (forall m, P (FsOther m)) ->
  forall n, P n.
Proof.
  intros Hf Hd Hl Ho. fix IH 1. intros [m c|m es|m t|m]; [apply Hf| |apply Hl|apply Ho].
  apply Hd. induction es as [|[nm n] es IHes]; constructor; [apply IH|exact IHes].
Qed.

Lemma fs_ok_dir cuts deref m es :
  fs_ok cuts deref (FsDir m es) <->
  meta_kind m = KDirectory /\ metadata_wf m /\ len_wf es /\ NoDup es.*1 /\
  Forall (fun e : bytes * fsnode => text_wf e.1 /\ fs_ok cuts deref e.2) es.
Proof.
  simpl. assert (foldr (fun (e : bytes * fsnode) P => (text_wf e.1 /\ fs_ok cuts deref e.2) /\ P) True es
    <-> Forall (fun e : bytes * fsnode => text_wf e.1 /\ fs_ok cuts deref e.2) es) as ->; [|done].
  induction es as [|e es IH]; simpl; [done|]. rewrite Forall_cons. by rewrite IH.
Qed.

(** ** [collect] and ordered insertion *)

Lemma collect_elem {A B} (key : A -> bytes) (f : A -> option B) l k b :
  (k, b) ∈ collect key f l <-> exists a, a ∈ l /\ key a = k /\ f a = Some b.
Proof.
  induction l as [|a l IH]; simpl.
  - split; [intros H; by apply elem_of_nil in H|]. intros (a & Ha & _). by apply elem_of_nil in Ha.
  - destruct (f a) as [b'|] eqn:E.
    + rewrite elem_of_cons, IH. split.
      * intros [[= -> ->]|(a' & Ha' & Hk & Hf)].
        { exists a. rewrite elem_of_cons. auto. }
        { exists a'. rewrite elem_of_cons. auto. }
      * intros (a' & [->|Ha']%elem_of_cons & Hk & Hf).
        { left. congruence. }
        { right. eauto. }
    + rewrite IH. split.
      * intros (a' & Ha' & Hk & Hf). exists a'. rewrite elem_of_cons. auto.
      * intros (a' & [->|Ha']%elem_of_cons & Hk & Hf); [congruence|eauto].
Qed.

Lemma collect_nodup {A B} (key : A -> bytes) (f : A -> option B) l :
  NoDup (map key l) -> NoDup (collect key f l).*1.
Proof.
  induction l as [|a l IH]; simpl; [constructor|]. intros [Hk Hnd]%NoDup_cons.
  destruct (f a) as [b|]; simpl; [|auto]. apply NoDup_cons. split; [|auto].
  intros ([k b'] & Hkb & Hin)%elem_of_list_fmap. apply collect_elem in Hin as (a' & Ha' & Hk' & _).
  simpl in Hkb. apply Hk. rewrite Hkb, <-Hk'. apply elem_of_list_fmap. eauto.
Qed.

Lemma collect_length {A B} (key : A -> bytes) (f : A -> option B) l :
  length (collect key f l) <= length l.
Proof. induction l as [|a l IH]; simpl; [lia|]. destruct (f a); simpl; lia. Qed.

Section om.
Context {A : Type}.
Implicit Types m l : list (bytes * A).

Lemma om_insert_length k (v : A) m : length (om_insert k v m) <= S (length m).
Proof.
  induction m as [|[k' v'] m IH]; simpl; [lia|]. destruct (bytes_cmp k k'); simpl; lia.
Qed.

Lemma om_of_list_length_gen l acc :
  length (foldl (fun m kv => om_insert kv.1 kv.2 m) acc l) <= length acc + length l.
Proof.
  revert acc; induction l as [|[k v] l IH]; intros acc; simpl; [lia|].
  pose proof (IH (om_insert k v acc)). pose proof (om_insert_length k v acc). lia.
Qed.
Lemma om_of_list_length l : length (om_of_list l) <= length l.
Proof. apply (om_of_list_length_gen l []). Qed.

Lemma om_of_list_subset_gen l acc kv :
  kv ∈ foldl (fun m kv => om_insert kv.1 kv.2 m) acc l -> kv ∈ acc \/ kv ∈ l.
Proof.
  revert acc; induction l as [|[k v] l IH]; intros acc; simpl; [auto|].
  intros [Hin|Hin]%IH.
  - apply om_insert_keys in Hin. rewrite elem_of_cons. naive_solver.
  - rewrite elem_of_cons. auto.
Qed.
Lemma om_of_list_subset l kv : kv ∈ om_of_list l -> kv ∈ l.
Proof. intros [H|H]%(om_of_list_subset_gen l []); [by apply elem_of_nil in H|done]. Qed.

(** What a list collects to, looked up. *)
Lemma om_get_of_list_gen l acc k :
  NoDup l.*1 -> om_sorted acc ->
  om_get k (foldl (fun m kv => om_insert kv.1 kv.2 m) acc l)
  = match list_find (fun kv : bytes * A => kv.1 = k) l with
    | Some (_, kv) => Some kv.2
    | None => om_get k acc
    end.
Proof.
  revert acc; induction l as [|[k' v] l IH]; intros acc Hnd Hs; simpl; [done|].
  simpl in Hnd. apply NoDup_cons in Hnd as [Hk Hnd].
  rewrite IH by (try done; by apply om_insert_sorted). rewrite om_get_insert by done.
  destruct (decide (k' = k)) as [->|Hne].
  - assert (list_find (fun kv : bytes * A => kv.1 = k) l = None) as ->; [|done].
    apply list_find_None. apply Forall_forall. intros [k0 v0] Hin E; simpl in E; subst k0. apply Hk.
    apply elem_of_list_fmap. by exists (k, v0).
  - destruct (list_find (fun kv : bytes * A => kv.1 = k) l) as [[i kv]|]; done.
Qed.

Lemma om_get_of_list l k v :
  NoDup l.*1 -> om_get k (om_of_list l) = Some v <-> (k, v) ∈ l.
Proof.
  intros Hnd. unfold om_of_list. rewrite om_get_of_list_gen by done.
  destruct (list_find (fun kv : bytes * A => kv.1 = k) l) as [[i [k' v']]|] eqn:E.
  - apply list_find_Some in E as (Hi & Hk & _). simpl in Hk; subst k'. simpl.
    assert ((k, v') ∈ l) as Hin by (by eapply elem_of_list_lookup_2).
    split; [intros [= ->]; done|]. intros Hin'.
    f_equal. clear Hi. induction l as [|[k' v''] l IH]; [by apply elem_of_nil in Hin|].
    simpl in Hnd. apply NoDup_cons in Hnd as [Hk Hnd].
    apply elem_of_cons in Hin as [Heq|Hin]; apply elem_of_cons in Hin' as [Heq'|Hin']; auto.
    + congruence.
    + exfalso. apply Hk. injection Heq as -> ->. apply elem_of_list_fmap. by exists (k', v).
    + exfalso. apply Hk. injection Heq' as -> ->. apply elem_of_list_fmap. by exists (k', v').
  - split; [done|]. intros Hin. exfalso. apply list_find_None in E.
    eapply Forall_forall in E; [|exact Hin]. done.
Qed.

Lemma elem_of_om_of_list l kv : NoDup l.*1 -> kv ∈ om_of_list l <-> kv ∈ l.
Proof.
  intros Hnd. destruct kv as [k v]. rewrite <-(om_get_of_list l) by done.
  symmetry. apply om_get_elem. apply om_of_list_is_sorted.
Qed.

End om.

(** Ordered insertion respects a relation between the values. *)
Lemma om_insert_Forall2 {A B} (R : A -> B -> Prop) k a b m1 m2 :
  R a b -> Forall2 (fun x y => x.1 = y.1 /\ R x.2 y.2) m1 m2 ->
  Forall2 (fun x y => x.1 = y.1 /\ R x.2 y.2) (om_insert k a m1) (om_insert k b m2).
Proof.
  intros Hab H. induction H as [|[k1 v1] [k2 v2] m1 m2 [Hk Hv] HF IH]; simpl in *.
  - constructor; [done|constructor].
  - subst k2. destruct (bytes_cmp k k1); repeat constructor; auto.
Qed.

Lemma om_of_list_Forall2 {A B} (R : A -> B -> Prop) l1 l2 :
  Forall2 (fun x y => x.1 = y.1 /\ R x.2 y.2) l1 l2 ->
  Forall2 (fun x y => x.1 = y.1 /\ R x.2 y.2) (om_of_list l1) (om_of_list l2).
Proof.
  unfold om_of_list. intros H.
  assert (Forall2 (fun x y => x.1 = y.1 /\ R x.2 y.2) (@nil (bytes * A)) (@nil (bytes * B))) as H0 by constructor.
  revert H0. generalize (@nil (bytes * A)) as a1. generalize (@nil (bytes * B)) as a2.
  induction H as [|[k1 v1] [k2 v2] l1 l2 [Hk Hv] HF IH]; intros a2 a1 H0; simpl in *; [done|].
  subst k2. apply IH. by apply om_insert_Forall2.
Qed.

(** ** The backup walk computes the plan *)

Lemma file_changed_spec m prev :
  (forall p, prev = Some p -> meta_kind (n_meta p) = contents_kind (n_contents p)) ->
  file_changed m prev = Ok (negb (looks_unchanged prev m)).
Proof.
  intros Hp. destruct prev as [p|]; simpl; [|done].
  unfold node_kind. rewrite bool_decide_eq_true_2 by (by apply Hp). simpl.
  destruct (bool_decide (contents_kind (n_contents p) = KFile)) eqn:E1; simpl; [|done].
  destruct (bool_decide (meta_mtime m = meta_mtime (n_meta p))) eqn:E2; simpl; done.
Qed.

Definition kind_ok (nd : node) : Prop := meta_kind (n_meta nd) = contents_kind (n_contents nd).
Definition prev_sane (prev : option node) : Prop :=
  forall p, prev = Some p -> kind_ok p /\ node_wf p.

Lemma om_get_in {A} k (v : A) m : om_get k m = Some v -> (k, v) ∈ m.
Proof.
  induction m as [|[k' v'] m IH]; simpl; [done|].
  destruct (bytes_cmp k k') eqn:E; intros H; rewrite elem_of_cons.
  - apply bytes_cmp_eq in E as ->. left. congruence.
  - done.
  - auto.
Qed.

Lemma ptree_sane pf (ot : option oid) nm :
  forest_sane pf -> prev_sane ((ot ≫= (fun id => pf !! id)) ≫= om_get nm).
Proof.
  intros Hs p Hp. destruct ot as [id|]; simpl in Hp; [|done].
  destruct (pf !! id) as [t|] eqn:E; simpl in Hp; [|done].
  destruct (Hs _ _ E) as [(_ & Hwf & _) Hk]. apply om_get_in in Hp.
  split; [eapply Forall_forall in Hk; [|exact Hp]; exact Hk|]. eapply Forall_forall in Hwf as [_ ?]; [|exact Hp]. done.
Qed.

Section refine.
Variable H : bytes -> oid.
Variable cuts : bytes -> list bytes.
Variable filter : bytes -> bool.
Variable pf : forest.
Variable deref : bool.

Notation bwalk := (walk_entry pf filter [] (backup_visit H cuts deref) (backup_finalize H)).
Notation plan := (plan H cuts filter pf).
Notation blobs_of l := (concat (map (item_blobs H) l)).

Lemma tree_insert_new name nd t : om_get name t = None -> tree_insert name nd t = Ok (om_insert name nd t).
Proof. unfold tree_insert. by intros ->. Qed.

(** What one loop over entries does, once each entry is known. *)
Lemma walk_loop {A} (key : A -> bytes) (step : A -> bstate * tree -> result (bstate * tree))
    (f : A -> option (node * list item)) (l : list A) s t :
  (forall a s t, a ∈ l -> om_get (key a) t = None ->
     step a (s, t) = Ok match f a with
                        | Some (nd, is) => (foldl send_new s (blobs_of is), om_insert (key a) nd t)
                        | None => (s, t)
                        end) ->
  NoDup (map key l) -> om_sorted t -> (forall a, a ∈ l -> om_get (key a) t = None) ->
  rfold step l (s, t)
  = Ok (foldl send_new s (blobs_of (concat (map (fun x => x.2.2) (collect key f l)))),
        foldl (fun m kv => om_insert kv.1 kv.2 m) t (map (fun x => (x.1, x.2.1)) (collect key f l))).
Proof.
  revert s t. induction l as [|a l IH]; intros s t Hstep Hnd Hs Ht; simpl; [done|].
  simpl in Hnd. apply NoDup_cons in Hnd as [Hk Hnd].
  rewrite Hstep; [|by left|apply Ht; by left].
  assert (forall a', a' ∈ l -> key a' <> key a) as Hne.
  { intros a' Ha' Heq. apply Hk. rewrite <-Heq. apply elem_of_list_fmap. eauto. }
  destruct (f a) as [[nd is]|] eqn:E; simpl.
  - rewrite IH.
    + f_equal. f_equal. rewrite map_app, concat_app, foldl_app. done.
    + intros. apply Hstep; [by right|done].
    + done.
    + by apply om_insert_sorted.
    + intros a' Ha'. rewrite om_get_insert_ne; [apply Ht; by right|done|]. intros Heq. by apply (Hne a').
  - apply IH; [|done|done|].
    + intros. apply Hstep; [by right|done].
    + intros a' Ha'. apply Ht. by right.
Qed.

Lemma backup_finalize_ok s t :
  backup_finalize H s t = Ok (foldl send_new s (item_blobs H (ITree t)), tree_id H t).
Proof. destruct t; done. Qed.

Lemma map_b_id_chunks c : map b_id (chunk_file H cuts c) = map H (cuts c).
Proof. unfold chunk_file. rewrite map_map. done. Qed.
Lemma chunks_blobs c : concat (map (item_blobs H) (map IChunk (cuts c))) = chunk_file H cuts c.
Proof.
  unfold chunk_file. rewrite map_map. simpl. induction (cuts c) as [|x l IH]; simpl; [done|]. by rewrite IH.
Qed.

Lemma walk_entry_plan n path name prev s t :
  forest_sane pf -> fs_ok cuts deref n -> prev_sane prev -> om_get name t = None ->
  bwalk path name prev n (s, t)
  = Ok match plan path prev n with
       | Some (nd, is) => (foldl send_new s (blobs_of is), om_insert name nd t)
       | None => (s, t)
       end.
Proof.
  intros Hpf. revert path name prev s t.
  induction n as [m c|m es IH|m tg|m] using fsnode_ind'; intros path name prev s t Hok Hprev Hnew; cbn [walk_entry plan].
  - destruct (negb (filter path)); [done|].
    rewrite file_changed_spec by (intros p ->; by apply Hprev).
    destruct Hok as (Hk & Hm & [sz Hsz] & Hl).
    cbn [rbind]. destruct prev as [p|].
    + destruct (looks_unchanged (Some p) m); simpl.
      * rewrite Hsz. simpl. by rewrite tree_insert_new.
      * rewrite tree_insert_new by done. simpl. by rewrite map_b_id_chunks, chunks_blobs.
    + simpl. rewrite tree_insert_new by done. simpl. by rewrite map_b_id_chunks, chunks_blobs.
  - destruct (negb (filter path)); [done|].
    apply fs_ok_dir in Hok as (Hk & Hm & Hl & Hnd & Hall).
    rewrite (walk_loop fst _ (fun e => plan (join path e.1) (ptree_of pf prev ≫= om_get e.1) e.2)).
    + simpl. rewrite backup_finalize_ok. simpl. rewrite tree_insert_new by done. simpl.
      f_equal. f_equal. unfold plan_items. rewrite map_app, concat_app, foldl_app. simpl.
      by rewrite app_nil_r.
    + intros e s' t' He Hnew'. eapply Forall_forall in IH; [|exact He].
      eapply Forall_forall in Hall as [_ Hok]; [|exact He].
      apply IH; [done| |done]. apply ptree_sane. done.
    + done.
    + done.
    + done.
  - destruct (negb (filter path)); [done|]. destruct Hok as (-> & _ & _ & _). simpl.
    by rewrite tree_insert_new.
  - destruct (negb (filter path)); done.
Qed.

Theorem backup_tree_plan ptree paths packed :
  forest_sane pf -> paths_ok cuts deref paths ->
  backup_tree H cuts deref filter pf ptree paths packed
  = Ok (foldl send_new (mkBstate packed []) (plan_blobs H cuts filter pf ptree paths),
        plan_root H cuts filter pf ptree paths).
Proof.
  intros Hpf (Hlen & Hnd & Hall). unfold backup_tree, walk_fs.
  rewrite (walk_loop (fun e : fspath => e.1.2) _
    (fun e : fspath => plan e.1.1 ((ptree ≫= (fun id => pf !! id)) ≫= om_get e.1.2) e.2)).
  - simpl. rewrite backup_finalize_ok. f_equal. f_equal.
    unfold plan_blobs, plan_all, plan_items. rewrite map_app, concat_app, foldl_app. simpl.
    by rewrite app_nil_r.
  - intros e s t He Hnew. eapply Forall_forall in Hall as [_ Hok]; [|exact He].
    apply walk_entry_plan; [done|done| |done]. by apply ptree_sane.
  - done.
  - done.
  - done.
Qed.
End refine.

(** ** Sending only what is new *)

Lemma send_all bs s :
  exists new, foldl send_new s bs = mkBstate (list_to_set (map b_id new) ∪ bs_packed s) (bs_sent s ++ new) /\
  NoDup (map b_id new) /\ (forall b, b ∈ new -> b ∈ bs /\ b_id b ∉ bs_packed s) /\
  (forall b, b ∈ bs -> b_id b ∈ bs_packed s \/ b_id b ∈ map b_id new).
Proof.
  revert s. induction bs as [|b bs IH]; intros [pk sent]; simpl.
  - exists []. simpl. rewrite app_nil_r. split; [f_equal; set_solver|].
    split; [constructor|]. split; intros b Hb; by apply elem_of_nil in Hb.
  - unfold send_new at 2. simpl. destruct (decide (b_id b ∈ pk)) as [Hin|Hin].
    + destruct (IH (mkBstate pk sent)) as (new & E & Hnd & Hnew & Hall). simpl in *.
      exists new. split; [exact E|]. split; [done|]. split.
      * intros b' Hb'. destruct (Hnew _ Hb'). split; [by right|done].
      * intros b' [->|Hb']%elem_of_cons; [by left|]. by apply Hall.
    + destruct (IH (mkBstate ({[b_id b]} ∪ pk) (sent ++ [b]))) as (new & E & Hnd & Hnew & Hall). simpl in *.
      exists (b :: new). rewrite E. split; [f_equal; [set_solver|by rewrite <-app_assoc]|].
      simpl. split; [|split].
      * apply NoDup_cons. split; [|done]. intros (b' & Hb' & Hx)%elem_of_list_fmap.
        destruct (Hnew _ Hx) as [_ Hn]. apply Hn. rewrite Hb'. set_solver.
      * intros b' [->|Hb']%elem_of_cons; [split; [by left|done]|].
        destruct (Hnew _ Hb'). split; [by right|set_solver].
      * intros b' [->|Hb']%elem_of_cons; [right; by left|].
        destruct (Hall _ Hb') as [Hp|Hp]; [|right; by right].
        apply elem_of_union in Hp as [Hp|Hp]; [|by left].
        apply elem_of_singleton in Hp. right. rewrite Hp. by left.
Qed.
