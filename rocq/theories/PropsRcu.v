(** C67: what one thread publishes another can read, while it likes, and it is freed once. *)

From Verif Require Import Base Rcu RcuFacts.

(** ** What is claimed *)

Section spec.
Context {A : Type}.
(** The value published last. *)
Definition latest (v0 : A) (t : list (label A)) : A :=
  default v0 (last (omap (fun l => match l with Publish _ v => Some v | _ => None end) t)).
(** The boxes made, and those freed. *)
Definition made (t : list (label A)) : list nat := 0 :: omap (fun l => match l with Publish a _ => Some a | _ => None end) t.
Definition freed (t : list (label A)) : list nat := omap (fun l => match l with Destroy a | Dropped a => Some a | _ => None end) t.
Definition publishes (t : list (label A)) : Prop := exists a v, Publish a v ∈ t.
Definition is_dropped (t : list (label A)) : Prop := exists a, Dropped a ∈ t.
End spec.

Section proofs.
Context {A : Type}.
Implicit Types (s : rcu A) (t : list (label A)).
Local Set Default Proof Using "All".

Lemma latest_snoc v0 t l : latest v0 (t ++ [l]) = match l with Publish _ v => v | _ => latest v0 t end.
Proof.
  unfold latest. rewrite omap_app. destruct l; cbn; rewrite ?app_nil_r; try done. by rewrite last_snoc.
Qed.

Lemma runs_value v0 t s : rcu_runs v0 t s -> forall p, inner s = Some p -> heap s !! p = Some (latest v0 t).
Proof.
  intros H. induction H as [|t s l s' Hr IH Hs]; intros q Hq.
  - injection Hq as <-. apply lookup_singleton.
  - rewrite latest_snoc. pose proof (inv_runs _ _ _ Hr) as Hi.
    destruct Hs as [i v Hn Hc|i v a p Hc Ha Hp|i v Hc Hp|i p Hc|i Hn Hc|i p Hc Hp|i Hc Hp|i p Hc|i c Hc Hk|p d1 d2 Hd|p Hp Hc]; cbn in Hq |- *; try by apply IH.
    + injection Hq as <-. apply lookup_insert.
    + rewrite lookup_delete_ne; [by apply IH|]. intros ->. apply (ri_inner _ Hi) in Hq as (_ & Hq & _). apply Hq. rewrite Hd, map_app, elem_of_app. right. left.
    + done.
Qed.

(** The box of call [i] is in someone's hands who will not free it while [i] is there. *)
Definition kept s (i p : nat) : Prop :=
  (exists j, calls s !! j = Some (Replaced p)) \/ exists w, (p, w) ∈ deferred s /\ i ∈ w.

Lemma borrow_kept v0 t1 i t2 s :
  rcu_runs v0 (t1 ++ Borrow i :: t2) s -> Release i ∉ t2 ->
  exists p, calls s !! i = Some (Borrowed p) /\
    (heap s !! p = Some (latest v0 t1) /\ (inner s = Some p /\ ~ is_dropped t2 /\ ~ publishes t2 \/ kept s i p /\ publishes t2) \/
     p ∈ used s /\ heap s !! p = None /\ inner s = None /\ is_dropped t2 /\ ~ publishes t2).
Proof.
  revert s. induction t2 as [|l t2 IH] using rev_ind; intros s H Hn.
  - apply runs_snoc in H as (s1 & H1 & Hs). inversion Hs as [| | | | |i' p Hc Hp| | | | |]; subst. exists p. cbn.
    split; [apply lookup_insert|]. left. split; [by apply (runs_value _ _ _ H1)|]. left. split; [done|].
    split; [intros [? ?%elem_of_nil]; done|intros (? & ? & ?%elem_of_nil); done].
  - change (rcu_runs v0 (t1 ++ [Borrow i] ++ t2 ++ [l]) s) in H. rewrite !app_assoc in H. apply runs_snoc in H as (s1 & H & Hs). rewrite <-app_assoc in H.
    rewrite not_elem_of_app in Hn. destruct Hn as [Hn Hl]. rewrite elem_of_list_singleton in Hl.
    destruct (IH s1 H Hn) as (p & Hc & Hk). clear IH. pose proof (inv_runs _ _ _ H) as Hi.
    assert (is_dropped (t2 ++ [l]) <-> is_dropped t2 \/ exists a, l = Dropped a) as Ed.
    { unfold is_dropped. setoid_rewrite elem_of_app. setoid_rewrite elem_of_list_singleton. naive_solver. }
    assert (publishes (t2 ++ [l]) <-> publishes t2 \/ exists a v, l = Publish a v) as Ep.
    { unfold publishes. setoid_rewrite elem_of_app. setoid_rewrite elem_of_list_singleton. naive_solver. }
    exists p. rewrite Ed, Ep. clear Ed Ep.
    destruct Hs as [j v Hnn Hj|j v a q Hj Ha Hq|j v Hj Hq|j q Hj|j Hnn Hj|j q Hj Hq|j Hj Hq|j q Hj|j c Hj Hkk|q d1 d2 Hd|q Hq Hj]; cbn [calls heap used inner deferred set_call].
    + assert (j <> i) by (intros ->; by rewrite Hc in Hj). split; [by rewrite lookup_insert_ne|].
      destruct Hk as [[Hh [(?&?&?)|[Hk ?]]]|?]; [left; split; [done|left; naive_solver]|left; split; [done|right]|naive_solver].
      split; [|by left]. destruct Hk as [[j' Hj']|?]; [left; exists j'|by right]. cbn. rewrite lookup_insert_ne; [done|]. intros ->. by rewrite Hj in Hj'.
    + assert (j <> i) by (intros ->; by rewrite Hc in Hj). split; [by rewrite lookup_insert_ne|].
      destruct Hk as [[Hh Hk]|(_ & _ & E & _)]; [|by rewrite Hq in E]. left.
      split; [rewrite lookup_insert_ne; [done|intros ->; by apply Ha, (ri_used _ Hi); eauto]|]. right. split; [|right; eauto].
      destruct Hk as [(E & _)|[[[j' Hj']|?] _]].
      * rewrite Hq in E. injection E as ->. left. exists j. apply lookup_insert.
      * left. exists j'. cbn. rewrite lookup_insert_ne; [done|]. intros ->. by rewrite Hj in Hj'.
      * by right.
    + by destruct (ri_dropped _ Hi Hq _ _ Hj).
    + assert (j <> i) by (intros ->; by rewrite Hc in Hj). split; [by rewrite lookup_insert_ne|].
      destruct Hk as [[Hh [(?&?&?)|[Hk ?]]]|?]; [left; split; [done|left; naive_solver]|left; split; [done|right]|naive_solver].
      split; [|by left]. destruct Hk as [[j' Hj']|(w & Hw & ?)].
      * destruct (decide (j = j')) as [<-|Hne].
        -- rewrite Hj in Hj'. injection Hj' as ->. right. exists (dom (calls s1)). split; [left|]. apply elem_of_dom. eauto.
        -- left. exists j'. cbn. by rewrite lookup_insert_ne.
      * right. exists w. split; [by right|done].
    + assert (j <> i) by (intros ->; by rewrite Hc in Hj). split; [by rewrite lookup_insert_ne|].
      destruct Hk as [[Hh [(?&?&?)|[Hk ?]]]|?]; [left; split; [done|left; naive_solver]|left; split; [done|right]|naive_solver].
      split; [|by left]. destruct Hk as [[j' Hj']|?]; [left; exists j'|by right]. cbn. rewrite lookup_insert_ne; [done|]. intros ->. by rewrite Hj in Hj'.
    + assert (j <> i) by (intros ->; by rewrite Hc in Hj). split; [by rewrite lookup_insert_ne|].
      destruct Hk as [[Hh [(?&?&?)|[Hk ?]]]|?]; [left; split; [done|left; naive_solver]|left; split; [done|right]|naive_solver].
      split; [|by left]. destruct Hk as [[j' Hj']|?]; [left; exists j'|by right]. cbn. rewrite lookup_insert_ne; [done|]. intros ->. by rewrite Hj in Hj'.
    + by destruct (ri_dropped _ Hi Hq _ _ Hj).
    + split; [done|]. naive_solver.
    + assert (j <> i) as Hne by (intros ->; by apply Hl). split; [by rewrite lookup_delete_ne|].
      destruct Hk as [[Hh [(?&?&?)|[Hk ?]]]|?]; [left; split; [done|left; naive_solver]|left; split; [done|right]|naive_solver].
      split; [|by left]. destruct Hk as [[j' Hj']|(w & Hw & Hiw)].
      * left. exists j'. cbn. rewrite lookup_delete_ne; [done|]. intros ->. rewrite Hj in Hj'. injection Hj' as ->. by destruct Hkk as [|[]].
      * right. exists (w ∖ {[j]}). split; [|set_solver]. cbn. apply elem_of_list_fmap. exists (p, w). done.
    + split; [done|]. assert (forall x w, (x, w) ∈ deferred s1 <-> x = q /\ w = ∅ \/ (x, w) ∈ d1 ++ d2) as Hx.
      { intros x w. rewrite Hd, !elem_of_app, elem_of_cons. naive_solver. }
      assert (q ∈ map fst (deferred s1)) as Hqd by (rewrite Hd, map_app, elem_of_app; right; left).
      assert (p <> q \/ heap s1 !! p = None) as Hpq.
      { destruct Hk as [[Hh [(E&?&?)|[Hk ?]]]|?]; [left; intros ->|left; intros ->|by right; naive_solver].
        - by apply (ri_inner _ Hi) in E as (_ & ? & _).
        - destruct Hk as [[j' Hj']|(w & Hw & Hiw)]; [by apply (ri_replaced _ Hi) in Hj' as (_ & ? & _)|].
          pose proof (ri_nodup _ Hi) as Hnd. apply Hx in Hw as [[_ ->]|Hw]; [set_solver|].
          rewrite Hd, map_app in Hnd. cbn in Hnd. apply NoDup_app in Hnd as (_ & N1 & N2). apply NoDup_cons in N2 as [N2 _].
          apply elem_of_app in Hw as [Hw|Hw]; apply (elem_of_list_fmap_1 fst) in Hw; [apply (N1 _ Hw); left|by apply N2]. }
      assert (delete q (heap s1) !! p = heap s1 !! p) as ->.
      { destruct (decide (q = p)) as [->|?]; [|by rewrite lookup_delete_ne]. rewrite lookup_delete. naive_solver. }
      destruct Hk as [[Hh [(?&?&?)|[Hk ?]]]|?]; [left; split; [done|left; naive_solver]|left; split; [done|right]|naive_solver].
      split; [|by left]. destruct Hk as [?|(w & Hw & Hiw)]; [by left|]. right. exists w. split; [|done]. cbn. apply Hx in Hw as [[_ ->]|?]; [set_solver|done].
    + split; [done|]. destruct Hk as [[Hh [(E&?&?)|[Hk ?]]]|(_ & _ & E & _)]; [right| |by rewrite Hq in E].
      * rewrite Hq in E. injection E as ->. split; [apply (ri_used _ Hi); eauto|]. split; [apply lookup_delete|]. naive_solver.
      * left. split; [|right; split; [|by left]].
        -- rewrite lookup_delete_ne; [done|]. intros ->. apply (ri_inner _ Hi) in Hq as (_ & Hq1 & Hq2). destruct Hk as [[j' Hj']|(w & Hw & Hiw)].
           ++ by apply (Hq2 j').
           ++ apply Hq1. apply elem_of_list_fmap. exists (p, w). done.
        -- destruct Hk as [[j' Hj']|?]; [left; by exists j'|by right].
Qed.

(** C67: from when it is borrowed to when the borrow goes, what is read is the value
    that was the latest then, however many are published meanwhile and whatever is destroyed -- if the [Rcu] itself
    is not dropped meanwhile, or another value was published before that.

    Partial: it should not matter when the [Rcu] is dropped; see the refutation. *)
Theorem C67_borrowed_values_can_be_read_partial v0 t1 i t2 o s :
  rcu_runs v0 (t1 ++ [Borrow i] ++ t2 ++ [Read i o]) s -> Release i ∉ t2 -> ~ is_dropped t2 \/ publishes t2 ->
  o = Some (latest v0 t1).
Proof.
  intros H Hn Hd. rewrite !app_assoc in H. apply runs_snoc in H as (s1 & H & Hs). rewrite <-app_assoc in H.
  destruct (borrow_kept _ _ _ _ _ H Hn) as (p & Hc & Hk). inversion Hs; subst. simplify_eq. destruct Hk as [[Hh _]|(_ & _ & _ & ? & ?)]; [done|]. by destruct Hd.
Qed.

(** C67, refuted in full: a value borrowed and not replaced when the [Rcu] is dropped is always
    freed memory from then on, and safe code can read it. *)
Theorem C67_borrows_may_outlive_the_value_refuted v0 t1 i t2 o s :
  rcu_runs v0 (t1 ++ [Borrow i] ++ t2 ++ [Read i o]) s -> Release i ∉ t2 -> is_dropped t2 -> ~ publishes t2 -> o = None.
Proof.
  intros H Hn Hd Hp. rewrite !app_assoc in H. apply runs_snoc in H as (s1 & H & Hs). rewrite <-app_assoc in H.
  destruct (borrow_kept _ _ _ _ _ H Hn) as (p & Hc & Hk). inversion Hs; subst. simplify_eq.
  destruct Hk as [[Hh [(_ & ? & _)|[_ ?]]]|(_ & ? & _)]; done.
Qed.

Lemma runs_freed v0 t s : rcu_runs v0 t s ->
  NoDup (made t) /\ NoDup (freed t) /\ (forall p, p ∈ used s <-> p ∈ made t) /\ forall p, p ∈ freed t <-> p ∈ used s /\ heap s !! p = None.
Proof.
  assert (forall t l, made (t ++ [l]) = made t ++ match l with Publish a _ => [a] | _ => [] end) as Em.
  { intros t' l. unfold made. rewrite omap_app. by destruct l. }
  assert (forall t l, freed (t ++ [l]) = freed t ++ match l with Destroy a | Dropped a => [a] | _ => [] end) as Ef.
  { intros t' l. unfold freed. rewrite omap_app. by destruct l. }
  induction 1 as [|t s l s' Hr (IH1 & IH2 & IH3 & IH4) Hs].
  - cbn. split; [apply NoDup_singleton|]. split; [constructor|]. split; [intros p; set_solver|]. intros p. split; [by intros ?%elem_of_nil|].
    intros [->%elem_of_singleton E]. by rewrite lookup_singleton in E.
  - rewrite Em, Ef. clear Em Ef. pose proof (inv_runs _ _ _ Hr) as Hi.
    destruct Hs as [j v Hnn Hj|j v a q Hj Ha Hq|j v Hj Hq|j q Hj|j Hnn Hj|j q Hj Hq|j Hj Hq|j q Hj|j c Hj Hkk|q d1 d2 Hd|q Hq Hj];
      rewrite ?app_nil_r; cbn [heap used set_call]; try done.
    + assert (heap s !! a = None) as Hha. { destruct (heap s !! a) eqn:E; [|done]. exfalso. apply Ha, (ri_used _ Hi). eauto. }
      split; [|split; [done|split]].
      * apply NoDup_app. split; [done|]. split; [|apply NoDup_singleton]. intros x Hx ->%elem_of_list_singleton. by apply Ha, IH3.
      * intros p. rewrite elem_of_app, elem_of_list_singleton, <-IH3. set_solver.
      * intros p. rewrite IH4, elem_of_union, elem_of_singleton. split.
        -- intros [H1 H2]. split; [by right|]. rewrite lookup_insert_ne; [done|]. by intros ->.
        -- intros [[->|H1] H2]; [by rewrite lookup_insert in H2|]. split; [done|]. destruct (decide (a = p)) as [->|?]; [by rewrite lookup_insert in H2|].
           by rewrite lookup_insert_ne in H2.
    + assert (is_Some (heap s !! q)) as Hh by (apply (ri_deferred _ Hi); rewrite Hd, map_app, elem_of_app; right; left).
      split; [done|]. split; [|split; [done|]].
      * apply NoDup_app. split; [done|]. split; [|apply NoDup_singleton]. intros x Hx ->%elem_of_list_singleton. apply IH4 in Hx as [_ E]. rewrite E in Hh. by destruct Hh.
      * intros p. rewrite elem_of_app, elem_of_list_singleton, IH4. split.
        -- intros [[H1 H2]| ->]; [split; [done|]|split; [by apply (ri_used _ Hi)|apply lookup_delete]]. by rewrite lookup_delete_None; right.
        -- intros [H1 H2]. apply lookup_delete_None in H2 as [->|H2]; [by right|by left].
    + assert (is_Some (heap s !! q)) as Hh by (by apply (ri_inner _ Hi)).
      split; [done|]. split; [|split; [done|]].
      * apply NoDup_app. split; [done|]. split; [|apply NoDup_singleton]. intros x Hx ->%elem_of_list_singleton. apply IH4 in Hx as [_ E]. rewrite E in Hh. by destruct Hh.
      * intros p. rewrite elem_of_app, elem_of_list_singleton, IH4. split.
        -- intros [[H1 H2]| ->]; [split; [done|]|split; [by apply (ri_used _ Hi)|apply lookup_delete]]. by rewrite lookup_delete_None; right.
        -- intros [H1 H2]. apply lookup_delete_None in H2 as [->|H2]; [by right|by left].
Qed.

(** C67: no value is freed twice, and none that was never made. *)
Theorem C67_nothing_is_freed_twice v0 t s : rcu_runs v0 t s -> NoDup (freed t) /\ freed t ⊆ made t.
Proof.
  intros H. destruct (runs_freed _ _ _ H) as (_ & H2 & H3 & H4). split; [done|]. intros p [Hp _]%H4. by apply H3.
Qed.
(** C67: once the [Rcu] is dropped, its borrows are gone and nothing waits to be destroyed any more, every value
    ever published has been freed. *)
Theorem C67_everything_is_freed v0 t s :
  rcu_runs v0 t s -> is_dropped t -> calls s = ∅ -> deferred s = [] -> freed t ≡ₚ made t.
Proof.
  intros H Hd Hc Hw. destruct (runs_freed _ _ _ H) as (H1 & H2 & H3 & H4). apply NoDup_Permutation; [done|done|]. intros p. rewrite H4, H3.
  split; [by intros []|]. intros Hp. split; [done|]. destruct (heap s !! p) eqn:E; [|done]. exfalso.
  destruct (ri_owned _ (inv_runs _ _ _ H) p) as [Hi|[[j Hj]|Hin]]; [eauto| | |].
  - clear -H Hd Hi. revert p Hi. induction H as [|t s l s' Hr IH Hs]; intros p Hi; [destruct Hd as [? ?%elem_of_nil]; done|].
    destruct Hd as [a [Hd|<-%elem_of_list_singleton]%elem_of_app].
    + assert (forall q, inner s <> Some q) as Hno by (intros q Hq; by apply (IH (ex_intro _ a Hd) q)). destruct Hs; cbn in Hi; by eapply Hno.
    + inversion Hs; subst. done.
  - by rewrite Hc in Hj.
  - rewrite Hw in Hin. by apply elem_of_nil in Hin.
Qed.
(** C67: the assertions hold. *)
Theorem C67_no_assertion_fails v0 t s : rcu_runs v0 t s -> Panicked ∉ t.
Proof.
  induction 1 as [|t s l s' Hr IH Hs]; [by intros ?%elem_of_nil|]. intros [Hin|E%elem_of_list_singleton]%elem_of_app; [done|].
  pose proof (inv_runs _ _ _ Hr) as Hi. destruct Hs as [| |i v Hc Hp| | | |i Hc Hp| | | |]; try discriminate E; by destruct (ri_dropped _ Hi Hp _ _ Hc).
Qed.
End proofs.
Print Assumptions C67_borrowed_values_can_be_read_partial.
Print Assumptions C67_borrows_may_outlive_the_value_refuted.
Print Assumptions C67_nothing_is_freed_twice.
Print Assumptions C67_everything_is_freed.
Print Assumptions C67_no_assertion_fails.

(** ** Cases *)

Lemma rx_by {A} (v0 : A) t t' s l s' s'' : rcu_runs v0 t s -> rcu_step s l s' -> s'' = s' -> t' = t ++ [l] -> rcu_runs v0 t' s''.
Proof. intros H1 H2 -> ->. by eapply runs_step. Qed.

(** A value is borrowed, replaced, read, and destroyed when the borrow is gone; then the [Rcu] is dropped. *)
Definition rx_before : list (label nat) := [Quiet; Borrow 0; Quiet; Publish 1 20; Quiet; Release 1].
Lemma rx_runs : exists s, rcu_runs 10 rx_before s /\ heap s = {[0 := 10; 1 := 20]} /\ inner s = Some 1 /\ calls s = {[0 := Borrowed 0]} /\
  deferred s = [(0, {[0]})].
Proof.
  eexists. split.
  { unfold rx_before. change [Quiet; Borrow 0; Quiet; Publish 1 20; Quiet; Release 1] with (([] ++ [@Quiet nat]) ++ [Borrow 0] ++ [Quiet] ++ [Publish 1 20] ++ [Quiet] ++ [Release 1]).
    rewrite !app_assoc.
    eapply runs_step; [eapply runs_step; [eapply runs_step; [eapply runs_step; [eapply runs_step; [eapply runs_step; [apply runs_new|]|]|]|]|]|].
    - by apply (st_borrow _ 0).
    - by apply (st_load _ 0 0).
    - by apply (st_update _ 1 20).
    - apply (st_swap _ 1 20 1 0); [done| |done]. cbn. set_solver.
    - by apply (st_defer _ 1 0).
    - apply (st_release _ 1 Leaving); [done|by left]. }
  cbn. split; [apply insert_commute; lia|]. split; [done|]. split.
  - apply map_eq. intros j. destruct (decide (j = 0)), (decide (j = 1)); subst; by simplify_map_eq.
  - repeat f_equal. rewrite !dom_insert_L, dom_empty_L. set_solver.
Qed.
Example C67_inhabited : exists s, rcu_runs 10 ([Quiet] ++ [Borrow 0] ++ [Quiet; Publish 1 20; Quiet; Release 1] ++ [Read 0 (Some 10)]) s /\
  latest 10 [@Quiet nat] = 10 /\ Release 0 ∉ ([Quiet; Publish 1 20; Quiet; Release 1] : list (label nat)) /\
  ~ is_dropped ([Quiet; Publish 1 20; Quiet; Release 1] : list (label nat)).
Proof.
  destruct rx_runs as (s & H & Hh & Hi & Hc & Hd). exists s. split.
  { change (rcu_runs 10 (rx_before ++ [Read 0 (Some 10)]) s). assert (heap s !! 0 = Some 10) as <- by (rewrite Hh; reflexivity).
    eapply runs_step; [exact H|]. apply st_read. by rewrite Hc. }
  split; [done|]. split; [set_solver|]. intros [a Ha]. set_solver.
Qed.
Example C67_freed_inhabited : exists t s, rcu_runs 10 t s /\ is_dropped t /\ calls s = ∅ /\ deferred s = [] /\ freed t = [0; 1] /\ made t = [0; 1].
Proof.
  destruct rx_runs as (s & H & Hh & Hi & Hc & Hd). exists (((rx_before ++ [Release 0]) ++ [Destroy 0]) ++ [Dropped 1]). eexists. split.
  { eapply runs_step; [eapply runs_step; [eapply runs_step; [exact H|]|]|].
    - apply (st_release _ 0 (Borrowed 0)); [by rewrite Hc|right; by exists 0].
    - apply (st_destroy _ 0 [] []). cbn. rewrite Hd. cbn. repeat f_equal. set_solver.
    - apply (st_drop _ 1); [done|]. cbn. intros i c. rewrite Hc, delete_singleton. done. }
  cbn. split; [exists 1; set_solver|]. split; [by rewrite Hc, delete_singleton|]. done.
Qed.
(** The refuted case: borrowed, dropped, read. *)
Example C67_borrows_may_outlive_the_value_inhabited : exists s, rcu_runs 10 ([Quiet] ++ [Borrow 0] ++ [Dropped 0] ++ [Read 0 None]) s.
Proof.
  eexists. rewrite !app_assoc. eapply runs_step; [eapply runs_step; [eapply runs_step; [change [@Quiet nat] with ([] ++ [@Quiet nat]); eapply runs_step; [apply runs_new|]|]|]|].
  - by apply (st_borrow _ 0).
  - by apply (st_load _ 0 0).
  - apply (st_drop _ 0); [done|]. intros i c. cbn. rewrite insert_insert. intros [[<- <-]|[_ Hx]]%lookup_insert_Some; [by eexists|by rewrite lookup_empty in Hx].
  - match goal with |- rcu_step ?s _ _ => assert (heap s !! 0 = None) as <- by reflexivity end. by apply st_read.
Qed.
