(** Facts about Rcu.v. *)

From Verif Require Import Base Rcu.

Section facts.
Context {A : Type}.
Implicit Types (s : rcu A) (t : list (label A)).
Local Set Default Proof Using "All".

Record rcu_inv s : Prop := {
  ri_inner : forall p, inner s = Some p -> is_Some (heap s !! p) /\ p ∉ map fst (deferred s) /\ forall i, calls s !! i <> Some (Replaced p);
  ri_replaced : forall i p, calls s !! i = Some (Replaced p) -> is_Some (heap s !! p) /\ p ∉ map fst (deferred s) /\
    forall j, calls s !! j = Some (Replaced p) -> j = i;
  ri_nodup : NoDup (map fst (deferred s));
  ri_deferred : forall p, p ∈ map fst (deferred s) -> is_Some (heap s !! p);
  ri_used : forall p, is_Some (heap s !! p) -> p ∈ used s;
  ri_owned : forall p, is_Some (heap s !! p) -> inner s = Some p \/ (exists i, calls s !! i = Some (Replaced p)) \/ p ∈ map fst (deferred s);
  ri_dropped : inner s = None -> forall i c, calls s !! i = Some c -> exists q, c = Borrowed q;
}.

Lemma inv_new v : rcu_inv (new_rcu v).
Proof.
  split; cbn.
  - intros p [= <-]. split; [|split; [by intros ?%elem_of_nil|done]]. rewrite lookup_singleton. eauto.
  - done.
  - constructor.
  - by intros ? ?%elem_of_nil.
  - intros p [x [<- _]%lookup_singleton_Some]. set_solver.
  - intros p [x [<- _]%lookup_singleton_Some]. by left.
  - done.
Qed.

(** Calls that hold no box may change as they like. *)
Lemma inv_calls s (cs : gmap nat (call A)) :
  rcu_inv s -> (forall i p, cs !! i = Some (Replaced p) <-> calls s !! i = Some (Replaced p)) ->
  (inner s = None -> forall i c, cs !! i = Some c -> exists q, c = Borrowed q) ->
  rcu_inv (mkRcu (heap s) (used s) (inner s) cs (deferred s)).
Proof.
  intros [] Hr Hd. split; cbn; try done.
  - intros p E. destruct (ri_inner0 p E) as (H1 & H2 & H3). split; [done|]. split; [done|]. intros i ?%Hr. by apply (H3 i).
  - intros i p E%Hr. destruct (ri_replaced0 i p E) as (H1 & H2 & H3). split; [done|]. split; [done|]. intros j ?%Hr. by apply H3.
  - intros p Hp. destruct (ri_owned0 p Hp) as [?|[[i Hi]|?]]; [by left| |by right; right]. right. left. exists i. by apply Hr.
Qed.
Lemma insert_replaced (cs : gmap nat (call A)) (i : nat) (c : call A) (Hc : forall p, c <> Replaced p) (Ho : forall p, cs !! i <> Some (Replaced p)) j p :
  <[i := c]> cs !! j = Some (Replaced p) <-> cs !! j = Some (Replaced p).
Proof.
  destruct (decide (i = j)) as [<-|Hn]; [rewrite lookup_insert|by rewrite lookup_insert_ne].
  split; [intros [= E]; by destruct (Hc p)|intros E; by destruct (Ho p)].
Qed.
Lemma map_fst_waits (i : nat) (d : list (nat * gset nat)) : map fst (map (fun d => (d.1, d.2 ∖ {[i]})) d) = map fst d.
Proof. rewrite map_map. done. Qed.

Lemma inv_step s l s' : rcu_inv s -> rcu_step s l s' -> rcu_inv s'.
Proof.
  intros Hi Hs. destruct Hs as [i v Hn Hc|i v a p Hc Ha Hp|i v Hc Hp|i p Hc|i Hn Hc|i p Hc Hp|i Hc Hp|i p Hc|i c Hc Hk|p d1 d2 Hd|p Hp Hc].
  - apply inv_calls; [done| |by intros].
    apply insert_replaced; [done|]. intros p. by rewrite Hc.
  - destruct Hi. destruct (ri_inner0 p Hp) as (H1 & H2 & H3).
    assert (forall q, is_Some (heap s !! q) -> q <> a) as Hne by (intros q Hq ->; by apply Ha, ri_used0).
    split; cbn.
    + intros q [= <-]. split; [rewrite lookup_insert; eauto|]. split; [intros Hin%ri_deferred0; by apply (Hne a)|].
      intros j Hj. destruct (decide (i = j)) as [<-|Hij].
      * rewrite lookup_insert in Hj. injection Hj as ->. by apply (Hne a).
      * rewrite lookup_insert_ne in Hj by done. apply ri_replaced0 in Hj as [Hj _]. by apply (Hne a).
    + intros j q Hj. destruct (decide (i = j)) as [<-|Hij].
      * rewrite lookup_insert in Hj. injection Hj as <-. split; [rewrite lookup_insert_ne by (intros ->; by apply (Hne p)); done|]. split; [done|].
        intros j Hj. destruct (decide (i = j)) as [|Hij]; [done|]. rewrite lookup_insert_ne in Hj by done. by destruct (H3 j).
      * rewrite lookup_insert_ne in Hj by done. destruct (ri_replaced0 j q Hj) as (G1 & G2 & G3).
        split; [rewrite lookup_insert_ne by (intros ->; by apply (Hne q)); done|]. split; [done|].
        intros j' Hj'. destruct (decide (i = j')) as [<-|Hij'].
        -- rewrite lookup_insert in Hj'. injection Hj' as ->. by destruct (H3 j).
        -- rewrite lookup_insert_ne in Hj' by done. by apply G3.
    + done.
    + intros q Hq%ri_deferred0. rewrite lookup_insert_ne by (intros ->; by apply (Hne q)). done.
    + intros q Hq. destruct (decide (a = q)) as [<-|Hn]; [set_solver|]. rewrite lookup_insert_ne in Hq by done. apply ri_used0 in Hq. set_solver.
    + intros q Hq. destruct (decide (a = q)) as [<-|Hn]; [by left|]. rewrite lookup_insert_ne in Hq by done.
      destruct (ri_owned0 q Hq) as [E|[[j Hj]|?]]; [|right; left|by right; right].
      * rewrite Hp in E. injection E as <-. right. left. exists i. by rewrite lookup_insert.
      * exists j. rewrite lookup_insert_ne; [done|]. intros ->. by rewrite Hc in Hj.
    + done.
  - done.
  - destruct Hi. destruct (ri_replaced0 i p Hc) as (H1 & H2 & H3). split; cbn.
    + intros q Hq. destruct (ri_inner0 q Hq) as (G1 & G2 & G3). split; [done|]. split.
      * intros [->|?]%elem_of_cons; [by destruct (G3 i)|done].
      * intros j Hj. destruct (decide (i = j)) as [<-|Hn]; [by rewrite lookup_insert in Hj|]. rewrite lookup_insert_ne in Hj by done. by destruct (G3 j).
    + intros j q Hj. destruct (decide (i = j)) as [<-|Hn]; [by rewrite lookup_insert in Hj|]. rewrite lookup_insert_ne in Hj by done.
      destruct (ri_replaced0 j q Hj) as (G1 & G2 & G3). split; [done|]. split.
      * intros [->|?]%elem_of_cons; [by apply Hn, eq_sym, H3|done].
      * intros j' Hj'. destruct (decide (i = j')) as [<-|Hn']; [by rewrite lookup_insert in Hj'|]. rewrite lookup_insert_ne in Hj' by done. by apply G3.
    + by constructor.
    + intros q [->|?]%elem_of_cons; [done|]. by apply ri_deferred0.
    + done.
    + intros q Hq. destruct (ri_owned0 q Hq) as [E|[[j Hj]|?]]; [by left| |right; right; by right].
      destruct (decide (i = j)) as [<-|Hn].
      * rewrite Hc in Hj. injection Hj as ->. right. right. by left.
      * right. left. exists j. by rewrite lookup_insert_ne.
    + intros E. by destruct (ri_dropped0 E i _ Hc) as [q ?].
  - apply inv_calls; [done| |by intros].
    apply insert_replaced; [done|]. intros p. by rewrite Hc.
  - apply inv_calls; [done| |by rewrite Hp].
    apply insert_replaced; [done|]. intros q. by rewrite Hc.
  - done.
  - done.
  - assert (forall j p, delete i (calls s) !! j = Some (Replaced p) <-> calls s !! j = Some (Replaced p)) as Hr.
    { intros j p. destruct (decide (i = j)) as [<-|Hn]; [rewrite lookup_delete|by rewrite lookup_delete_ne].
      rewrite Hc. split; [done|]. intros [= ->]. by destruct Hk as [|[]]. }
    assert (inner s = None -> forall j c', delete i (calls s) !! j = Some c' -> exists q, c' = Borrowed q) as Hd.
    { intros E j c' [_ Hj]%lookup_delete_Some. by apply (ri_dropped _ Hi E j). }
    destruct (inv_calls s _ Hi Hr Hd). split; cbn in *; rewrite ?map_fst_waits; done.
  - destruct Hi. rewrite Hd, map_app in ri_nodup0. cbn in ri_nodup0.
    assert (p ∉ map fst (d1 ++ d2)) as Hpn.
    { apply NoDup_app in ri_nodup0 as (_ & N1 & N2). apply NoDup_cons in N2 as [N2 _]. rewrite map_app, elem_of_app. intros [H|H]; [|done].
      apply (N1 p H). by left. }
    assert (forall q, q ∈ map fst (deferred s) <-> q = p \/ q ∈ map fst (d1 ++ d2)) as Hq.
    { intros q. rewrite Hd, !map_app, !elem_of_app. cbn. rewrite elem_of_cons. tauto. }
    split; cbn.
    + intros q E. destruct (ri_inner0 q E) as (G1 & G2 & G3). rewrite Hq in G2. split; [|split; [tauto|done]].
      rewrite lookup_delete_ne by (intros ->; tauto). done.
    + intros i q E. destruct (ri_replaced0 i q E) as (G1 & G2 & G3). rewrite Hq in G2. split; [|split; [tauto|done]].
      rewrite lookup_delete_ne by (intros ->; tauto). done.
    + rewrite map_app. apply NoDup_app in ri_nodup0 as (N0 & N1 & N2). apply NoDup_cons in N2 as [N2 N3]. apply NoDup_app. split; [done|]. split; [|done].
      intros x Hx Hx'. apply (N1 x Hx). by right.
    + intros q Hin. rewrite lookup_delete_ne by (intros ->; done). apply ri_deferred0, Hq. by right.
    + intros q [x [_ Hx]%lookup_delete_Some]. apply ri_used0. eauto.
    + intros q [x [Hn Hx]%lookup_delete_Some]. destruct (ri_owned0 q) as [?|[?|Hin]]; [eauto|by left|by right; left|].
      right. right. apply Hq in Hin as [->|?]; done.
    + done.
  - destruct Hi. destruct (ri_inner0 p Hp) as (H1 & H2 & H3). split; cbn.
    + done.
    + intros i q E. by destruct (Hc i _ E).
    + done.
    + intros q Hq. rewrite lookup_delete_ne by (intros ->; done). by apply ri_deferred0.
    + intros q [x [_ Hx]%lookup_delete_Some]. apply ri_used0. eauto.
    + intros q [x [Hn Hx]%lookup_delete_Some]. destruct (ri_owned0 q) as [E|[?|?]]; [eauto| |by right; left|by right; right].
      rewrite Hp in E. injection E as ->. done.
    + intros _ i c Hi. by apply (Hc i).
Qed.

Lemma inv_runs v0 t s : rcu_runs v0 t s -> rcu_inv s.
Proof. induction 1; [apply inv_new|by eapply inv_step]. Qed.
Lemma runs_snoc v0 t l s' : rcu_runs v0 (t ++ [l]) s' -> exists s, rcu_runs v0 t s /\ rcu_step s l s'.
Proof.
  intros H. inversion H as [E|t' s l' s'' Hr Hs E]; [by destruct t|]. apply app_inj_tail in E as [-> ->]. eauto.
Qed.
Lemma runs_app v0 t1 t2 s : rcu_runs v0 (t1 ++ t2) s -> exists s1, rcu_runs v0 t1 s1.
Proof.
  revert s. induction t2 as [|l t2 IH] using rev_ind; intros s H; [rewrite app_nil_r in H; eauto|].
  rewrite app_assoc in H. apply runs_snoc in H as (s1 & H & _). by apply IH in H.
Qed.
End facts.
