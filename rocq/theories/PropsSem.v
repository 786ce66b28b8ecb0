(** The semaphore: C29 and C30. *)

From Verif Require Import Base Semaphore.

Definition all_takers : nat -> Prop := fun _ => True.

(** How many threads are in a given place. *)
Definition tally (t : tstate) (ts : list tstate) : nat := length (filter (fun t' => t' = t) ts).
Definition reaches (taker : nat -> Prop) (n : N) (threads : nat) (s : sem) : Prop :=
  rtc (sem_step taker) (sem_start n threads) s.

Lemma tally_insert t ts i u v : ts !! i = Some u ->
  tally t (<[i := v]> ts) + (if bool_decide (u = t) then 1 else 0) = tally t ts + (if bool_decide (v = t) then 1 else 0).
Proof.
  unfold tally. revert i. induction ts as [|x ts IH]; intros [|i] E; simpl in E; [done|done| |].
  - injection E as ->. cbn [insert list_insert]. rewrite !filter_cons.
    repeat case_decide; repeat case_bool_decide; try congruence; simpl; lia.
  - change (<[S i := v]> (x :: ts)) with (x :: <[i := v]> ts). rewrite !filter_cons. specialize (IH i E).
    repeat case_decide; cbn [length]; lia.
Qed.
Lemma tally_two t u ts : t <> u -> tally t ts + tally u ts <= length ts.
Proof.
  intros Hn. unfold tally. induction ts as [|x ts IH]; [done|]. rewrite !filter_cons.
  repeat case_decide; simpl; try lia. congruence.
Qed.
Lemma tally_three t u v ts : t <> u -> t <> v -> u <> v -> tally t ts + tally u ts + tally v ts <= length ts.
Proof.
  intros H1 H2 H3. unfold tally. induction ts as [|x ts IH]; [done|]. rewrite !filter_cons.
  repeat case_decide; simpl; try lia; congruence.
Qed.
Lemma tally_pos t ts : 0 < tally t ts <-> exists i, ts !! i = Some t.
Proof.
  unfold tally. rewrite <-elem_of_list_lookup. split.
  - destruct (filter _ ts) as [|x l] eqn:E; [simpl; lia|]. intros _. assert (x ∈ filter (fun t' => t' = t) ts) as Hx by (rewrite E; by left).
    apply elem_of_list_filter in Hx as [-> ?]. done.
  - intros Hin. assert (t ∈ filter (fun t' => t' = t) ts) as Hx by (by apply elem_of_list_filter). destruct (filter _ ts); [by apply elem_of_nil in Hx|simpl; lia].
Qed.
Lemma tally_start t n : t <> Idle -> tally t (replicate n Idle) = 0.
Proof. intros Hn. unfold tally. induction n as [|n IH]; [done|]. simpl. rewrite filter_cons, decide_False by done. exact IH. Qed.

Ltac tally_at t Hi := let E := fresh in pose proof (tally_insert t _ _ _ _ Hi) as E; simplify_eq/=.

(** The numbers of a step. *)
Definition even_permits (n : N) (s : sem) : Prop :=
  (s.1 + N.of_nat (tally Hold s.2) = n)%N /\ forall i p, s.2 !! i = Some (Try p) -> (0 < p)%N.

Lemma even_permits_step taker n s s' : (n < 2 ^ 32)%N -> even_permits n s -> sem_step taker s s' -> even_permits n s'.
Proof.
  intros Hn [He Hp] St. assert (forall i ts t i' p, s.2 = ts -> <[i := t]> ts !! i' = Some (Try p) -> (forall q, t = Try q -> (0 < q)%N) -> (0 < p)%N) as Hins.
  { intros i ts t i' p <- E Ht. destruct (decide (i = i')) as [->|Hne].
    - apply list_lookup_insert_Some in E as [(_ & -> & _)|(? & _)]; [by apply Ht|done].
    - rewrite list_lookup_insert_ne in E by done. by eapply Hp. }
  destruct St as [c ts i Hi _|c ts i Hi|c ts i p Hi|c ts i Hi|c ts i Hi|c ts i Hi|c ts i j Hi Hj|c ts i Hi Hf|c ts i j Hi Hj]; unfold even_permits in *; cbn [fst snd] in *.
  - pose proof (tally_insert Hold ts i Idle (Try 1) Hi) as E. rewrite !bool_decide_eq_false_2 in E by done. split; [lia|].
    intros i' p E'. eapply Hins; [done|exact E'|]. intros q Eq. injection Eq as <-. lia.
  - pose proof (tally_insert Hold ts i _ Hold Hi) as E. rewrite bool_decide_eq_false_2, bool_decide_eq_true_2 in E by done.
    pose proof (Hp i c Hi). split; [lia|]. intros i' p E'. eapply Hins; [done|exact E'|done].
  - split.
    + case_bool_decide as Ec; [pose proof (tally_insert Hold ts i _ Enter Hi) as E|pose proof (tally_insert Hold ts i _ (Try c) Hi) as E];
        rewrite !bool_decide_eq_false_2 in E by done; lia.
    + intros i' q E'. eapply Hins; [done|exact E'|]. intros q' Eq. case_bool_decide; [done|]. injection Eq as <-. lia.
  - split.
    + case_bool_decide as Ec; [pose proof (tally_insert Hold ts i _ Asleep Hi) as E|pose proof (tally_insert Hold ts i _ (Try 1) Hi) as E];
        rewrite !bool_decide_eq_false_2 in E by done; lia.
    + intros i' q E'. eapply Hins; [done|exact E'|]. intros q' Eq. case_bool_decide; [done|]. injection Eq as <-. lia.
  - pose proof (tally_insert Hold ts i _ (Try 1) Hi) as E. rewrite !bool_decide_eq_false_2 in E by done. split; [lia|].
    intros i' p E'. eapply Hins; [done|exact E'|]. intros q Eq. injection Eq as <-. lia.
  - assert (0 < tally Hold ts) as Hpos by (apply tally_pos; eauto).
    rewrite N.mod_small by lia. split.
    + case_bool_decide as Ec; [pose proof (tally_insert Hold ts i _ Waking Hi) as E|pose proof (tally_insert Hold ts i _ Idle Hi) as E];
        rewrite bool_decide_eq_true_2, bool_decide_eq_false_2 in E by done; lia.
    + intros i' q E'. eapply Hins; [done|exact E'|]. intros q' Eq. by case_bool_decide.
  - assert (i <> j) as Hij by congruence. pose proof (tally_insert Hold ts i _ Idle Hi) as E.
    assert (<[i := Idle]> ts !! j = Some Asleep) as Hj' by (by rewrite list_lookup_insert_ne).
    pose proof (tally_insert Hold _ j _ (Try 1) Hj') as E2. rewrite !bool_decide_eq_false_2 in E by done. rewrite !bool_decide_eq_false_2 in E2 by done.
    split; [lia|]. intros i' p E'. destruct (decide (j = i')) as [->|Hne].
    + apply list_lookup_insert_Some in E' as [(_ & Eq & _)|(? & _)]; [injection Eq as <-; lia|done].
    + rewrite list_lookup_insert_ne in E' by done. eapply Hins; [done|exact E'|done].
  - pose proof (tally_insert Hold ts i _ Idle Hi) as E. rewrite !bool_decide_eq_false_2 in E by done. split; [lia|].
    intros i' p E'. eapply Hins; [done|exact E'|done].
  - assert (i <> j) as Hij by congruence. pose proof (tally_insert Hold ts i _ Idle Hi) as E.
    assert (<[i := Idle]> ts !! j = Some Idle) as Hj' by (by rewrite list_lookup_insert_ne).
    pose proof (tally_insert Hold _ j _ Hold Hj') as E2. rewrite bool_decide_eq_true_2, bool_decide_eq_false_2 in E by done.
    rewrite bool_decide_eq_false_2, bool_decide_eq_true_2 in E2 by done.
    split; [lia|]. intros i' p E'. destruct (decide (j = i')) as [->|Hne].
    + apply list_lookup_insert_Some in E' as [(_ & Eq & _)|(? & _)]; done.
    + rewrite list_lookup_insert_ne in E' by done. eapply Hins; [done|exact E'|done].
Qed.
Lemma even_permits_reached taker n threads s : (n < 2 ^ 32)%N -> reaches taker n threads s -> even_permits n s.
Proof.
  intros Hn Hr. unfold reaches in Hr. apply (rtc_ind_r (R:=sem_step taker) (even_permits n) (sem_start n threads)); [| |exact Hr].
  - split; cbn [sem_start fst snd]; [rewrite tally_start by done; lia|]. intros i p E%lookup_replicate_1. by destruct E.
  - intros y z _ St Hy. by eapply even_permits_step.
Qed.

(** ** C29: never more holders than permits, and none is lost *)
Theorem C29_permits_are_conserved n threads c ts : (n < 2 ^ 32)%N -> reaches all_takers n threads (c, ts) ->
  N.of_nat (tally Hold ts) = (n - c)%N /\ (c <= n)%N /\ (N.of_nat (tally Hold ts) <= n)%N.
Proof. intros Hn Hr. destruct (even_permits_reached _ _ _ _ Hn Hr) as [He _]. simpl in He. lia. Qed.

(** A waiting thread that sees a free permit can take it: exclusion is not bought by
    locking everybody out. *)
Theorem C29_free_permit_can_be_taken n threads c ts i p : (n < 2 ^ 32)%N -> reaches all_takers n threads (c, ts) ->
  ts !! i = Some (Try p) -> (0 < c)%N ->
  exists ts', rtc (sem_step all_takers) (c, ts) ((c - 1)%N, ts') /\ ts' !! i = Some Hold.
Proof.
  intros Hn Hr Hi Hc. exists (<[i := Hold]> (<[i := Try c]> ts)). assert (i < length ts) as Hl by (by eapply lookup_lt_Some).
  split; [|by rewrite list_lookup_insert by (by rewrite insert_length)].
  eapply rtc_l; [eapply ss_cas_fail; exact Hi|]. rewrite bool_decide_eq_false_2 by lia.
  apply rtc_once, ss_cas. by apply list_lookup_insert.
Qed.

(** ** C30: nobody is left asleep *)

(** Everybody else has finished: no thread holds, releases or asks for a permit. *)
Definition quiet (s : sem) : Prop := Forall (fun t => t = Idle \/ t = Asleep) s.2.

(** A repeated release without a wake-up, with two permits and four threads. *)
Theorem C30_refuted : exists n threads c ts i,
  (0 < n < 2 ^ 32)%N /\ reaches all_takers n threads (c, ts) /\ quiet (c, ts) /\ (0 < c)%N /\ ts !! i = Some Asleep.
Proof.
  exists 2%N, 4, 2%N, [Idle; Idle; Idle; Asleep], 3. split; [done|]. split; [|split; [repeat (constructor; [by auto|]); constructor|done]].
  unfold reaches, sem_start. simpl replicate.
  assert (forall (s s' s'' : sem) , sem_step all_takers s s' -> rtc (sem_step all_takers) s' s'' -> rtc (sem_step all_takers) s s'') as L by (intros; by eapply rtc_l).
  (* threads 0 and 1 take both permits *)
  eapply L; [apply (ss_begin _ _ _ 0); done|cbn]. eapply L; [eapply (ss_cas_fail _ _ _ 0); done|cbn]. eapply L; [apply (ss_cas _ _ _ 0); done|cbn].
  eapply L; [apply (ss_begin _ _ _ 1); done|cbn]. eapply L; [apply (ss_cas _ _ _ 1); done|cbn].
  (* 2 and 3 go to sleep *)
  eapply L; [apply (ss_begin _ _ _ 2); done|cbn]. eapply L; [eapply (ss_cas_fail _ _ _ 2); done|cbn]. eapply L; [apply (ss_wait _ _ _ 2); done|cbn].
  eapply L; [apply (ss_begin _ _ _ 3); done|cbn]. eapply L; [eapply (ss_cas_fail _ _ _ 3); done|cbn]. eapply L; [apply (ss_wait _ _ _ 3); done|cbn].
  (* 0 releases and wakes 2; 1 releases without waking, before 2 gets in *)
  eapply L; [apply (ss_release _ _ _ 0); done|cbn]. eapply L; [apply (ss_wake _ _ _ 0 2); done|cbn].
  eapply L; [apply (ss_release _ _ _ 1); done|cbn].
  eapply L; [eapply (ss_cas_fail _ _ _ 2); done|cbn]. eapply L; [apply (ss_cas _ _ _ 2); done|cbn].
  eapply L; [apply (ss_release _ _ _ 2); done|cbn]. apply rtc_refl.
Qed.

(** When there is just one permit. *)
Definition looked_after (s : sem) : Prop :=
  (0 < s.1)%N -> (exists i, s.2 !! i = Some Asleep) -> exists i t, s.2 !! i = Some t /\ t <> Idle /\ t <> Asleep /\ t <> Hold.

Lemma list_insert_elsewhere (ts : list tstate) i j t u : ts !! i = Some t -> i <> j -> <[j := u]> ts !! i = Some t.
Proof. intros. by rewrite list_lookup_insert_ne. Qed.

Lemma looked_after_step taker s s' : even_permits 1 s -> looked_after s -> sem_step taker s s' -> looked_after s'.
Proof.
  intros [He Hp] HL St. unfold looked_after in *.
  destruct St as [c ts i Hi _|c ts i Hi|c ts i p Hi|c ts i Hi|c ts i Hi|c ts i Hi|c ts i j Hi Hj|c ts i Hi Hf|c ts i j Hi Hj]; cbn [fst snd] in *; intros Hc [z Hz].
  - exists i, (Try 1). split; [|done]. apply list_lookup_insert. by eapply lookup_lt_Some.
  - pose proof (Hp _ _ Hi). lia.
  - eexists i, _. split; [apply list_lookup_insert; by eapply lookup_lt_Some|]. by case_bool_decide.
  - eexists i, _. split; [apply list_lookup_insert; by eapply lookup_lt_Some|]. rewrite bool_decide_eq_false_2 by lia. done.
  - exists i, (Try 1). split; [|done]. apply list_lookup_insert. by eapply lookup_lt_Some.
  - assert (0 < tally Hold ts) as Hpos by (apply tally_pos; eauto).
    exists i, Waking. split; [|done]. rewrite bool_decide_eq_true_2 by lia. apply list_lookup_insert. by eapply lookup_lt_Some.
  - exists j, (Try 1). split; [|done]. apply list_lookup_insert. rewrite insert_length. by eapply lookup_lt_Some.
  - apply list_lookup_insert_Some in Hz as [(_ & ? & _)|(_ & Hz)]; [done|]. rewrite Forall_lookup in Hf. by destruct (Hf z Asleep Hz).
  - assert (0 < tally Hold ts) as Hpos by (apply tally_pos; eauto). lia.
Qed.

(** When at most one thread is ever asleep. *)
Definition woken (s : sem) : Prop := (0 < s.1)%N -> (exists i, s.2 !! i = Some Asleep) -> exists i, s.2 !! i = Some Waking.

Lemma woken_step taker s s' : even_permits (s.1 + N.of_nat (tally Hold s.2)) s -> tally Asleep s.2 <= 1 -> woken s -> sem_step taker s s' -> woken s'.
Proof.
  intros [_ Hp] H1 HL St. unfold woken in *.
  assert (forall ts i t u, s.2 = ts -> ts !! i = Some t -> t <> Waking -> u <> Asleep ->
    (exists z, <[i := u]> ts !! z = Some Asleep) -> (0 < s.1)%N -> exists z, <[i := u]> ts !! z = Some Waking) as Hgen.
  { intros ts i t u <- Hi Ht Hu [z Hz] Hc. apply list_lookup_insert_Some in Hz as [(_ & ? & _)|(_ & Hz)]; [done|].
    destruct (HL Hc) as [w Hw]; [eauto|]. exists w. apply list_insert_elsewhere; [done|]. congruence. }
  destruct St as [c ts i Hi _|c ts i Hi|c ts i p Hi|c ts i Hi|c ts i Hi|c ts i Hi|c ts i j Hi Hj|c ts i Hi Hf|c ts i j Hi Hj]; cbn [fst snd] in *; intros Hc Hz.
  - by eapply Hgen.
  - eapply Hgen; [done|exact Hi|done|done|done|]. lia.
  - eapply Hgen; [done|exact Hi|done| |exact Hz|done]. by case_bool_decide.
  - rewrite bool_decide_eq_false_2 in * by lia. by eapply Hgen.
  - by eapply Hgen.
  - case_bool_decide as Ec; [exists i; apply list_lookup_insert; by eapply lookup_lt_Some|]. eapply Hgen; [done|exact Hi|done|done|done|]. lia.
  - exfalso. destruct Hz as [z Hz]. assert (i <> j) as Hij by congruence.
    assert (<[i := Idle]> ts !! j = Some Asleep) as Hj' by (by rewrite list_lookup_insert_ne).
    pose proof (tally_insert Asleep ts i _ Idle Hi) as E. pose proof (tally_insert Asleep _ j _ (Try 1) Hj') as E2.
    rewrite !bool_decide_eq_false_2 in E by done. rewrite bool_decide_eq_true_2, bool_decide_eq_false_2 in E2 by done.
    assert (0 < tally Asleep (<[j := Try 1]> (<[i := Idle]> ts))) by (apply tally_pos; eauto). lia.
  - exfalso. destruct Hz as [z Hz]. apply list_lookup_insert_Some in Hz as [(_ & ? & _)|(_ & Hz)]; [done|].
    rewrite Forall_lookup in Hf. by destruct (Hf z Asleep Hz).
  - destruct Hz as [z Hz]. apply list_lookup_insert_Some in Hz as [(_ & ? & _)|(_ & Hz)]; [done|].
    apply list_lookup_insert_Some in Hz as [(_ & ? & _)|(_ & Hz)]; [done|]. destruct (HL Hc) as [w Hw]; [eauto|]. exists w.
    apply list_insert_elsewhere; [apply list_insert_elsewhere; [done|]|]; congruence.
Qed.

(** Partial: with one permit; or with at most one thread more than permits; or when
    one thread alone asks for permits, as in src/concurrently.rs. *)
Theorem C30_nobody_left_asleep_partial taker n threads c ts i :
  (0 < n < 2 ^ 32)%N -> reaches taker n threads (c, ts) -> quiet (c, ts) ->
  n = 1%N \/ (N.of_nat threads <= n + 1)%N \/ (exists boss, forall j, taker j -> j = boss) ->
  ts !! i <> Some Asleep.
Proof.
  intros Hn Hr Hq Hcase Hi.
  assert (even_permits n (c, ts)) as [He _] by (eapply even_permits_reached; [lia|done]). cbn [fst snd] in He.
  unfold quiet in Hq. cbn [snd] in Hq. rewrite Forall_lookup in Hq.
  assert (tally Hold ts = 0) as H0.
  { destruct (tally Hold ts) eqn:E; [done|]. destruct (proj1 (tally_pos Hold ts)) as [j Hj]; [lia|]. by destruct (Hq j Hold Hj). }
  assert (0 < c)%N as Hc by lia.
  assert (looked_after (c, ts) -> False) as Hlook.
  { intros HL. destruct (HL Hc) as (j & t & Hj & H1 & H2 & _); [by exists i|]. by destruct (Hq j t Hj). }
  assert (woken (c, ts) -> False) as Hwok.
  { intros HL. destruct (HL Hc) as (j & Hj); [by exists i|]. by destruct (Hq j _ Hj). }
  unfold reaches in Hr. destruct Hcase as [->|[Ht|[boss Hb]]].
  - apply Hlook. assert (even_permits 1 (c, ts) /\ looked_after (c, ts)) as [_ ?]; [|done].
    apply (rtc_ind_r (R:=sem_step taker) (fun s => even_permits 1 s /\ looked_after s) (sem_start 1 threads)); [| |exact Hr].
    + split; [by eapply (even_permits_reached taker), rtc_refl|]. intros _ [z Hz]. apply lookup_replicate_1 in Hz. by destruct Hz.
    + intros y z _ St [H1 H2]. split; [by eapply even_permits_step|by eapply looked_after_step].
  - apply Hwok. assert (even_permits n (c, ts) /\ length (c, ts).2 = threads /\ tally Asleep (c, ts).2 <= 1 /\ woken (c, ts)) as (_ & _ & _ & ?); [|done].
    apply (rtc_ind_r (R:=sem_step taker) (fun s : sem => even_permits n s /\ length s.2 = threads /\ tally Asleep s.2 <= 1 /\ woken s) (sem_start n threads)); [| |exact Hr].
    + split; [eapply (even_permits_reached taker), rtc_refl; lia|]. cbn [sem_start snd]. rewrite replicate_length, tally_start by done.
      split; [done|]. split; [lia|]. intros _ [z Hz]. apply lookup_replicate_1 in Hz. by destruct Hz.
    + intros y z _ St (H1 & H2 & H3 & H4). split; [eapply even_permits_step; [lia|done|done]|].
      assert (woken z) by (eapply woken_step; [|exact H3|done|done]; split; [done|apply H1]).
      split; [|split; [|done]].
      * destruct St; cbn [snd] in *; rewrite ?insert_length; done.
      * destruct H1 as [Hev _].
        destruct St as [c' ts' k Hk _|c' ts' k Hk|c' ts' k p Hk|c' ts' k Hk|c' ts' k Hk|c' ts' k Hk|c' ts' k j Hk Hj|c' ts' k Hk Hf|c' ts' k j Hk Hj]; cbn [fst snd] in *.
        -- pose proof (tally_insert Asleep _ k _ (Try 1) Hk) as E. rewrite !bool_decide_eq_false_2 in E by done. lia.
        -- pose proof (tally_insert Asleep _ k _ Hold Hk) as E. rewrite !bool_decide_eq_false_2 in E by done. lia.
        -- case_bool_decide; [pose proof (tally_insert Asleep _ k _ Enter Hk) as E|pose proof (tally_insert Asleep _ k _ (Try c') Hk) as E];
             rewrite !bool_decide_eq_false_2 in E by done; lia.
        -- case_bool_decide as Ec.
           ++ pose proof (tally_insert Asleep _ k _ Asleep Hk) as E. rewrite bool_decide_eq_false_2, bool_decide_eq_true_2 in E by done.
              pose proof (tally_three Hold Asleep Enter ts' ltac:(done) ltac:(done) ltac:(done)).
              assert (0 < tally Enter ts') by (apply tally_pos; eauto). lia.
           ++ pose proof (tally_insert Asleep _ k _ (Try 1) Hk) as E. rewrite !bool_decide_eq_false_2 in E by done. lia.
        -- pose proof (tally_insert Asleep _ k _ (Try 1) Hk) as E. rewrite bool_decide_eq_true_2, bool_decide_eq_false_2 in E by done. lia.
        -- case_bool_decide; [pose proof (tally_insert Asleep _ k _ Waking Hk) as E|pose proof (tally_insert Asleep _ k _ Idle Hk) as E];
             rewrite !bool_decide_eq_false_2 in E by done; lia.
        -- assert (k <> j) as Hij by congruence. assert (<[k := Idle]> ts' !! j = Some Asleep) as Hj' by (by rewrite list_lookup_insert_ne).
           pose proof (tally_insert Asleep ts' k _ Idle Hk) as E. pose proof (tally_insert Asleep _ j _ (Try 1) Hj') as E2.
           rewrite !bool_decide_eq_false_2 in E by done. rewrite bool_decide_eq_true_2, bool_decide_eq_false_2 in E2 by done. lia.
        -- pose proof (tally_insert Asleep _ k _ Idle Hk) as E. rewrite !bool_decide_eq_false_2 in E by done. lia.
        -- assert (k <> j) as Hij by congruence. assert (<[k := Idle]> ts' !! j = Some Idle) as Hj' by (by rewrite list_lookup_insert_ne).
           pose proof (tally_insert Asleep ts' k _ Idle Hk) as E. pose proof (tally_insert Asleep _ j _ Hold Hj') as E2.
           rewrite !bool_decide_eq_false_2 in E by done. rewrite !bool_decide_eq_false_2 in E2 by done. lia.
  - set (P := fun s : sem => even_permits n s /\ (forall j t, s.2 !! j = Some t -> t = Enter \/ t = Asleep \/ (exists p, t = Try p) -> j = boss) /\ woken s).
    assert (P (c, ts)) as (_ & _ & ?); [|by apply Hwok].
    apply (rtc_ind_r (R:=sem_step taker) P (sem_start n threads)); [| |exact Hr].
    + split; [eapply (even_permits_reached taker), rtc_refl; lia|]. split.
      * intros j t E. apply lookup_replicate_1 in E as [-> _]. naive_solver.
      * intros _ [z Hz]. apply lookup_replicate_1 in Hz. by destruct Hz.
    + intros y z _ St (H1 & H2 & H4). split; [eapply even_permits_step; [lia|done|done]|].
      assert (tally Asleep y.2 <= 1) as H3.
      { clear -H2. destruct y as [c' l]; cbn [snd] in *. assert (forall d, (forall j t, l !! j = Some t -> t = Enter \/ t = Asleep \/ (exists p, t = Try p) -> j + d = boss) -> tally Asleep l <= 1) as Hall.
        { clear. induction l as [|x l IH]; intros d Hd; [unfold tally; simpl; lia|]. unfold tally. rewrite filter_cons.
          destruct (decide (x = Asleep)) as [->|].
          - simpl. assert (tally Asleep l = 0) as E; [|unfold tally in E; lia]. destruct (tally Asleep l) eqn:E; [done|].
            destruct (proj1 (tally_pos Asleep l)) as [j Hj]; [lia|]. pose proof (Hd 0 Asleep eq_refl ltac:(auto)). pose proof (Hd (S j) Asleep Hj ltac:(auto)). lia.
          - apply (IH (S d)). intros j t Hj Ht. rewrite <-Nat.add_succ_comm. by apply (Hd (S j) t). }
        apply (Hall 0). intros j t Hj Ht. rewrite Nat.add_0_r. by eapply H2. }
      split; [|eapply woken_step; [|exact H3|done|done]; split; [done|apply H1]].
      intros j t Hj Ht.
      destruct St as [c' ts' k Hk Htk|c' ts' k Hk|c' ts' k p Hk|c' ts' k Hk|c' ts' k Hk|c' ts' k Hk|c' ts' k j' Hk Hj'|c' ts' k Hk Hf|c' ts' k j' Hk Hj']; cbn [fst snd] in *.
      all: assert (forall p, ts' !! k = Some (Try p) -> k = boss) as HT by (intros q Hq'; apply (H2 k (Try q) Hq'); right; right; by exists q).
      all: repeat match goal with H : <[_ := _]> _ !! _ = Some _ |- _ => apply list_lookup_insert_Some in H as [(-> & <- & _)|(? & H)] end.
      all: try (by apply (H2 j t)).
      all: try (by destruct Ht as [?|[?|[? ?]]]).
      * by apply Hb.
      * by eapply HT.
      * apply (H2 j Enter); [done|by left].
      * apply (H2 j Asleep); [done|right; by left].
      * case_bool_decide; by destruct Ht as [?|[?|[? ?]]].
      * apply (H2 j Asleep); [done|right; by left].
Qed.

(** The premises are met: one permit and three threads, one holding, one asleep, one
    between the two. *)
Example C29_C30_witness : reaches all_takers 1 3 (0%N, [Hold; Asleep; Enter]).
Proof.
  unfold reaches, sem_start. simpl replicate.
  assert (forall (s s' s'' : sem) , sem_step all_takers s s' -> rtc (sem_step all_takers) s' s'' -> rtc (sem_step all_takers) s s'') as L by (intros; by eapply rtc_l).
  eapply L; [apply (ss_begin _ _ _ 0); done|cbn]. eapply L; [apply (ss_cas _ _ _ 0); done|cbn].
  eapply L; [apply (ss_begin _ _ _ 1); done|cbn]. eapply L; [eapply (ss_cas_fail _ _ _ 1); done|cbn]. eapply L; [apply (ss_wait _ _ _ 1); done|cbn].
  eapply L; [apply (ss_begin _ _ _ 2); done|cbn]. eapply L; [eapply (ss_cas_fail _ _ _ 2); done|cbn]. apply rtc_refl.
Qed.
(** Two permits, one thread that asks and hands over: quiet at the end. *)
Example C30_witness_boss : exists ts, reaches (fun i => i = 0) 2 4 (2%N, ts) /\ quiet (2%N, ts) /\ reaches (fun i => i = 0) 2 4 (0%N, [Asleep; Hold; Hold; Idle]).
Proof.
  assert (forall (s s' s'' : sem) , sem_step (fun i => i = 0) s s' -> rtc (sem_step (fun i => i = 0)) s' s'' -> rtc (sem_step (fun i => i = 0)) s s'') as L by (intros; by eapply rtc_l).
  assert (reaches (fun i => i = 0) 2 4 (0%N, [Asleep; Hold; Hold; Idle])) as R.
  { unfold reaches, sem_start. simpl replicate.
    eapply L; [apply (ss_begin _ _ _ 0); done|cbn]. eapply L; [eapply (ss_cas_fail _ _ _ 0); done|cbn]. eapply L; [apply (ss_cas _ _ _ 0); done|cbn].
    eapply L; [apply (ss_move _ _ _ 0 1); done|cbn].
    eapply L; [apply (ss_begin _ _ _ 0); done|cbn]. eapply L; [apply (ss_cas _ _ _ 0); done|cbn]. eapply L; [apply (ss_move _ _ _ 0 2); done|cbn].
    eapply L; [apply (ss_begin _ _ _ 0); done|cbn]. eapply L; [eapply (ss_cas_fail _ _ _ 0); done|cbn]. eapply L; [apply (ss_wait _ _ _ 0); done|cbn].
    apply rtc_refl. }
  exists [Idle; Idle; Idle; Idle]. split; [|split; [repeat (constructor; [by auto|]); constructor|exact R]].
  unfold reaches in *. etrans; [exact R|].
  eapply L; [apply (ss_release _ _ _ 1); done|cbn]. eapply L; [apply (ss_wake _ _ _ 1 0); done|cbn]. eapply L; [apply (ss_cas _ _ _ 0); done|cbn].
  eapply L; [apply (ss_release _ _ _ 2); done|cbn]. eapply L; [apply (ss_wake_nobody _ _ _ 2); [done|repeat constructor; done]|cbn].
  eapply L; [apply (ss_release _ _ _ 0); done|cbn]. apply rtc_refl.
Qed.

Print Assumptions C29_permits_are_conserved.
Print Assumptions C29_free_permit_can_be_taken.
Print Assumptions C30_refuted.
Print Assumptions C30_nobody_left_asleep_partial.
