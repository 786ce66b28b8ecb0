(** A backup's new tree is complete, whatever the parent's contents are. *)

From Verif Require Import Base OMap Formats FormatsFacts Hashing Pack Index Meta Forest ForestFacts
  FsTree FsSpec FsFacts BackupFacts.

Section complete.
Variables (H : bytes -> oid) (cuts : bytes -> list bytes) (filter : bytes -> bool) (deref : bool) (pf : forest).
Hypothesis Hlen : forall x, length (H x) = 28.
Variable st : store.
Hypothesis Hpf : forest_sane pf.
Hypothesis Hpfst : forall id t, pf !! id = Some t -> stored_as H st id t.
Local Set Default Proof Using "All".

Notation good nd is := (node_wf nd /\ kind_ok nd /\ Forall item_sane is /\ exists n, reads H st nd n).

Lemma plan_list_complete {A} (key : A -> bytes) (f : A -> option (node * list item)) (l : list A) :
  len_wf l -> Forall (fun a => text_wf (key a)) l ->
  Forall (fun a => match f a with Some (nd, is) => has_items H st is -> good nd is | None => True end) l ->
  has_items H st (plan_items (collect key f l)) ->
  Forall item_sane (plan_items (collect key f l)) /\
  stored_as H st (tree_id H (plan_tree (collect key f l))) (plan_tree (collect key f l)) /\
  exists es, Forall2 (fun (x : bytes * node) (y : bytes * fsnode) => x.1 = y.1 /\ reads H st x.2 y.2)
    (plan_tree (collect key f l)) es.
Proof.
  intros Hl Htx Hall Hi.
  assert (has_items H st (concat (map (fun x => x.2.2) (collect key f l))) ->
    Forall (fun kv : bytes * node => text_wf kv.1 /\ node_wf kv.2 /\ kind_ok kv.2 /\ exists n, reads H st kv.2 n)
      (map (fun x => (x.1, x.2.1)) (collect key f l)) /\
    Forall item_sane (concat (map (fun x => x.2.2) (collect key f l)))) as Hlist.
  { clear Hl Hi. induction l as [|a l IH]; simpl; [intros _; split_and!; constructor|].
    apply Forall_cons in Hall as [Ha Hall]. apply Forall_cons in Htx as [Hta Htx].
    destruct (f a) as [[nd is]|] eqn:E; simpl; [|by apply IH].
    intros [Hi Hi']%has_items_app. destruct (Ha Hi) as (Hw & Hk & Hsn & Hr).
    destruct (IH Htx Hall Hi') as (HA & HS). split; [constructor; auto|].
    apply Forall_app. auto. }
  apply has_items_app in Hi as [Hi Ht]. destruct (Hlist Hi) as (HA & HS).
  assert (Forall (fun kv : bytes * node => text_wf kv.1 /\ node_wf kv.2 /\ kind_ok kv.2 /\ exists n, reads H st kv.2 n)
    (plan_tree (collect key f l))) as HT.
  { apply Forall_forall. intros kv Hin%om_of_list_subset. by eapply Forall_forall in HA. }
  assert (tree_wf (plan_tree (collect key f l))) as Htwf.
  { unfold tree_wf. split_and!.
    - unfold len_wf, plan_tree in *. pose proof (om_of_list_length (map (fun x => (x.1, x.2.1)) (collect key f l))) as H1.
      rewrite map_length in H1. pose proof (collect_length key f l). lia.
    - eapply Forall_impl; [exact HT|]. naive_solver.
    - apply om_of_list_is_sorted. }
  split; [|split].
  - unfold plan_items. apply Forall_app. split; [done|]. constructor; [|constructor]. split; [done|].
    eapply Forall_impl; [exact HT|]. intros kv (_ & _ & Hk & _). exact Hk.
  - by apply has_items_tree.
  - clear -HT. induction HT as [|[nm nd] t (_ & _ & _ & n & Hn) HT IH]; [by exists []|].
    destruct IH as [es Hes]. exists ((nm, n) :: es). by constructor.
Qed.

Definition prev_reads (prev : option node) : Prop := forall p, prev = Some p -> exists n0, reads H st p n0.

Lemma sub_reads prev nm : prev_reads prev -> prev_reads (ptree_of pf prev ≫= om_get nm).
Proof.
  intros Hp p E. unfold ptree_of in E. destruct (previous_subtree prev ≫= _) as [t|] eqn:Et; [|done]. simpl in E.
  destruct (previous_subtree prev) as [id|] eqn:Ei; [|done]. simpl in Et.
  unfold previous_subtree in Ei. destruct prev as [q|]; [|done].
  destruct (Hp q eq_refl) as [n0 Hn]. destruct Hn as [m cs ps _|m tg|m id' t' es Ht HF]; simpl in Ei; try done.
  injection Ei as <-. assert (t' = t) as -> by (eapply stored_as_fun; eauto).
  destruct (Forall2_om_get _ _ _ _ _ HF E) as (n & _ & Hr). eauto.
Qed.

Lemma plan_complete n path prev :
  fs_ok cuts deref n -> prev_sane prev -> prev_reads prev ->
  match plan H cuts filter pf path prev n with
  | Some (nd, is) => has_items H st is -> good nd is
  | None => True
  end.
Proof.
  revert path prev. induction n as [m c|m es IH|m tg|m] using fsnode_ind'; intros path prev Hok Hprev Hh.
  - cbn [plan]. destruct (filter path) eqn:Hfil; simpl; [|done].
    simpl in Hok. destruct Hok as (Hk & Hm & Hsz & Hl).
    assert (has_items H st (map IChunk (cuts c)) ->
      good (mkNode (CFile (map H (cuts c))) m) (map IChunk (cuts c))) as Hchg.
    { intros Hi. split; [split; simpl; [|done]|split; [done|]].
      - split; [unfold len_wf in *; by rewrite map_length|].
        apply Forall_forall. intros i (x & -> & _)%elem_of_list_fmap. apply Hlen.
      - split; [clear; induction (cuts c); constructor; done|].
        eexists. constructor. by apply has_items_chunks. }
    destruct prev as [p|]; [|exact Hchg].
    destruct (looks_unchanged (Some p) m) eqn:Hun; [|exact Hchg].
    intros _. simpl in Hun. apply andb_true_iff in Hun as [Hun _]. apply andb_true_iff in Hun as [Hun _].
    apply bool_decide_eq_true in Hun. destruct (Hprev p eq_refl) as [_ [Hwf _]].
    destruct (Hh p eq_refl) as [n0 Hn]. destruct Hn as [m0 cs ps HF|m0 tg|m0 id' t' es Ht HF]; simpl in Hun; try done.
    split; [split; simpl; [exact Hwf|done]|]. split; [done|]. split; [constructor|]. simpl. eexists. by constructor.
  - cbn [plan]. destruct (filter path) eqn:Hfil; simpl; [|done].
    apply fs_ok_dir in Hok as (Hk & Hm & Hl & Hnd & Hall).
    set (f := fun e : bytes * fsnode => plan H cuts filter pf (join path e.1) (ptree_of pf prev ≫= om_get e.1) e.2).
    intros Hi. destruct (plan_list_complete fst f es) as (Hs & Hst & es' & HF); [done| | |done|].
    + eapply Forall_impl; [exact Hall|]. intros e [He _]. exact He.
    + apply Forall_forall. intros [nm n] Hin. eapply Forall_forall in IH; [|exact Hin].
      eapply Forall_forall in Hall as [_ Hok]; [|exact Hin].
      unfold f. simpl in *. apply IH; [done|apply (ptree_sane pf _ nm Hpf)|by apply sub_reads].
    + split; [split; simpl; [apply Hlen|done]|]. split; [done|]. split; [done|].
      eexists. eapply reads_dir; [exact Hst|exact HF].
  - cbn [plan]. destruct (filter path); simpl; [|done]. intros _.
    destruct Hok as (_ & Hk & Hm & Ht). split; [by split|]. split; [done|]. split; [constructor|]. eexists. constructor.
  - cbn [plan]. by destruct (filter path).
Qed.

Lemma plan_root_all ptree paths :
  paths_ok cuts deref paths -> (forall r, ptree = Some r -> exists es, reads_root H st r es) ->
  has_items H st (plan_all H cuts filter pf ptree paths) ->
  Forall item_sane (plan_all H cuts filter pf ptree paths) /\
  exists es, reads_root H st (plan_root H cuts filter pf ptree paths) es.
Proof.
  intros (Hl & Hnd & Hall) Hpar Hi.
  destruct (plan_list_complete (fun e : fspath => e.1.2)
    (fun e : fspath => plan H cuts filter pf e.1.1 ((ptree ≫= (fun id => pf !! id)) ≫= om_get e.1.2) e.2) paths)
    as (Hsane & Hroot & es & HF); [done| | |done|].
  - eapply Forall_impl; [exact Hall|]. intros e [He _]. exact He.
  - apply Forall_forall. intros e He. eapply Forall_forall in Hall as [_ Hoke]; [|exact He].
    apply plan_complete; [done|by apply ptree_sane|]. intros p Hp.
    destruct ptree as [r|]; [|done]. simpl in Hp. destruct (pf !! r) as [t|] eqn:Er; [|done]. simpl in Hp.
    destruct (Hpar r eq_refl) as (es & t0 & Ht0 & HF). assert (t0 = t) as -> by (eapply stored_as_fun; eauto).
    destruct (Forall2_om_get _ _ _ _ _ HF Hp) as (n & _ & Hr). eauto.
  - split; [exact Hsane|]. exists es. eexists. split; [exact Hroot|exact HF].
Qed.

Lemma plan_root_complete ptree paths :
  paths_ok cuts deref paths -> (forall r, ptree = Some r -> exists es, reads_root H st r es) ->
  has_items H st (plan_all H cuts filter pf ptree paths) ->
  exists es, reads_root H st (plan_root H cuts filter pf ptree paths) es.
Proof. intros. by apply plan_root_all. Qed.
End complete.
