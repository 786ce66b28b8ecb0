(** What stays true while threads work (Parallel.v). *)

From Verif Require Import Base Parallel.

Lemma sum_insert {A} (f : A -> nat) l i x y : l !! i = Some x -> sum_list_with f (<[i := y]> l) + f x = sum_list_with f l + f y.
Proof.
  revert i. induction l as [|a l IH]; intros [|i] E; [done..| |].
  - injection E as ->. simpl. lia.
  - simpl in *. specialize (IH i E). lia.
Qed.
Lemma sum_app {A} (f : A -> nat) l l' : sum_list_with f (l ++ l') = sum_list_with f l + sum_list_with f l'.
Proof. induction l as [|a l IH]; simpl; lia. Qed.
Lemma sum_pos {A} (f : A -> nat) l : 0 < sum_list_with f l -> exists i x, l !! i = Some x /\ 0 < f x.
Proof.
  induction l as [|a l IH]; simpl; [lia|]. intros Hs. destruct (decide (0 < f a)); [by exists 0, a|].
  destruct IH as (i & x & E & Hx); [lia|]. by exists (Datatypes.S i), x.
Qed.
Lemma sum_elem {A} (f : A -> nat) l i x : l !! i = Some x -> f x <= sum_list_with f l.
Proof. revert i. induction l as [|a l IH]; intros [|i] E; simpl in *; [done..|injection E as ->; lia|]. specialize (IH i E). lia. Qed.

Section facts.
Context {T S : Type}.
Variable jobs : list (result T).
Variable add : T -> S -> result S.
Variable cpus : N.
Variable s0 : S.
Local Set Default Proof Using "All".
Notation step := (step jobs add).
Notation run := (run jobs add).

(** Permits. *)
Definition holds_one (t : thread) : nat := match t with TRun | TFail | TDone _ => 1 | _ => 0 end.
Definition boss_has (m : main) : nat := match m with MHave => 1 | _ => 0 end.
Definition in_loop (m : main) : bool := match m with MTry _ | MEnter | MAsleep | MHave => true | _ => false end.
Record fair (s : state S) : Prop := {
  fa_len : length (threads s) <= length jobs;
  fa_loop : in_loop (boss s) = true -> length (threads s) < length jobs;
  fa_end : boss s = MJoin \/ boss s = MReturned \/ boss s = MPanicked -> length (threads s) = length jobs;
  fa_word : boss s <> MGone -> (word s + N.of_nat (sum_list_with holds_one (threads s) + boss_has (boss s)) = cpus)%N;
  fa_try : forall p, boss s = MTry p -> (0 < p)%N;
  fa_asleep : boss s = MAsleep -> word s = 0%N \/ exists i p, threads s !! i = Some (TWake p) }.

Local Ltac fin := split; cbn [word boss threads shared in_loop boss_has]; rewrite ?insert_length, ?app_length; cbn [length]; try done;
  try match goal with |- forall p, _ = MTry p -> _ => intros ? Etry; first [discriminate|injection Etry as <-; lia] end;
  try match goal with F : _ <> MGone -> _ |- _ <> MGone -> _ => let Hm := fresh in intros Hm; specialize (F ltac:(done)); cbn [boss_has] in *; lia end;
  try (intros [Ex|[Ex|Ex]]; discriminate Ex); try (intros Ex; discriminate Ex); try (intros _; lia); try (intros _; by auto); try match goal with F : true = true -> _ < _ |- _ => specialize (F eq_refl); lia end; auto.

Lemma fair_step b s s' : (cpus < 2 ^ 32)%N -> fair s -> step b s s' -> fair s'.
Proof.
  intros Hc [F1 F2 F3 F4 F5 F6] Hs. inversion Hs; subst; clear Hs; cbn [word boss threads shared in_loop boss_has] in *.
  all: try match goal with E : ?l !! ?i = Some ?x |- context [<[?i := ?y]> ?l] => pose proof (sum_insert holds_one l i x y E) as Hsum; cbn [holds_one] in Hsum end.
  - fin.
  - fin.
  - specialize (F5 c eq_refl). fin. 
  - destruct (decide (c = 0%N)) as [Ec|Ec]; [rewrite (bool_decide_eq_true_2 _ Ec)|rewrite (bool_decide_eq_false_2 _ Ec)]; fin.
  - destruct (decide (c = 0%N)) as [Ec|Ec]; [rewrite (bool_decide_eq_true_2 _ Ec)|rewrite (bool_decide_eq_false_2 _ Ec)]; fin.
  - fin.
  - fin. rewrite sum_app. simpl. specialize (F4 ltac:(done)). lia.
  - fin. intros Hm. destruct (F6 Hm) as [?|(j & p & Hj)]; [by left|right]. exists j, p. rewrite list_lookup_insert_ne; [done|]. intros ->. congruence.
  - fin. intros Hm. destruct (F6 Hm) as [?|(j & p & Hj)]; [by left|right]. exists j, p. rewrite list_lookup_insert_ne; [done|]. intros ->. congruence.
  - fin. intros Hm. destruct (F6 Hm) as [?|(j & p & Hj)]; [by left|right]. exists j, p. rewrite list_lookup_insert_ne; [done|]. intros ->. congruence.
  - fin.
  - pose proof (sum_elem holds_one ts i _ H) as He. cbn [holds_one] in He. specialize (F4 H0).
    assert ((c + 1) mod 2 ^ 32 = c + 1)%N as -> by (apply N.mod_small; lia).
    split; cbn [word boss threads shared in_loop boss_has]; rewrite ?insert_length; try done.
    + intros _. revert Hsum. case_bool_decide; cbn [holds_one]; lia.
    + intros Hm. right. destruct (decide (c = 0%N)) as [Ec|Ec].
      * rewrite bool_decide_eq_true_2 by done. exists i, p. apply list_lookup_insert. by eapply lookup_lt_Some.
      * destruct (F6 Hm) as [?|(j & q & Hj)]; [done|]. exists j, q. rewrite list_lookup_insert_ne; [done|]. intros ->. congruence.
  - assert (in_loop (match m with MAsleep => MTry 1 | _ => m end) = in_loop m) as El by by destruct m.
    split; cbn [word boss threads shared in_loop boss_has]; rewrite ?insert_length; try done.
    + by rewrite El.
    + intros E. apply F3. by destruct m; naive_solver.
    + intros Hm. specialize (F4 H0). destruct m; cbn [boss_has] in *; try done; lia.
    + intros q E. destruct m; try done; try (by apply F5). injection E as <-. done.
    + intros E. by destruct m.
  - case_bool_decide; fin.
Qed.

(** What was done: in some order, each once. *)
Definition went_well (t : thread) : bool := match t with TDone false | TWake false | TExit false => true | _ => false end.
Definition added (d : list (nat * T)) : result S := foldl (fun a iv => let* s := a in add iv.2 s) (Ok s0) d.
Definition spoilt (r : result S) (i : nat) : Prop := exists v d s, jobs !! i = Some (Ok v) /\
  NoDup (i :: map fst d) /\ (forall j u, (j, u) ∈ d -> jobs !! j = Some (Ok u)) /\ added d = Ok s /\ add v s = r.
Definition failed (i : nat) : Prop := jobs !! i = Some Err \/ spoilt Err i.
Definition panics (i : nat) : Prop := jobs !! i = Some Panic \/ spoilt Panic i.
Record done_once (s : state S) : Prop := {
  do_log : exists d : list (nat * T), NoDup (map fst d) /\ added d = Ok (shared s) /\
    (forall i v, (i, v) ∈ d -> jobs !! i = Some (Ok v)) /\
    (forall i, (exists v, (i, v) ∈ d) <-> exists t, threads s !! i = Some t /\ went_well t = true);
  do_fail : forall i, threads s !! i = Some TFail -> failed i;
  do_panic : forall i t, threads s !! i = Some t -> t = TDone true \/ t = TWake true \/ t = TExit true -> panics i;
  do_gone : boss s = MGone -> exists i, failed i;
  do_returned : boss s = MReturned -> Forall (fun t => t = TExit false) (threads s);
  do_panicked : boss s = MPanicked -> exists i, panics i }.

Lemma done_step b s s' : done_once s -> step b s s' -> done_once s'.
Proof.
  intros [(d & D1 & D2 & D3 & D4) F P G R Q] Hs.
  assert (forall (ts : list thread) (i : nat) (t t' : thread), ts !! i = Some t -> went_well t' = went_well t ->
    forall j : nat, (exists x, ts !! j = Some x /\ went_well x = true) <-> (exists x, <[i := t']> ts !! j = Some x /\ went_well x = true)) as Hsame.
  { intros ts i t t' E Ew j. destruct (decide (i = j)) as [<-|Hne].
    - rewrite list_lookup_insert by by eapply lookup_lt_Some. rewrite E. naive_solver.
    - by rewrite list_lookup_insert_ne by done. }
  assert (forall i r, threads s !! i = Some TRun ->
    (jobs !! i = Some (match r with Ok _ => Err | Err => Err | Panic => Panic end) \/ exists v, jobs !! i = Some (Ok v) /\ add v (shared s) = r) ->
    jobs !! i = Some (match r with Ok _ => Err | Err => Err | Panic => Panic end) \/ spoilt r i) as Hspoil.
  { intros i r Hi [E|(v & Hv & Ha)]; [by left|right]. exists v, d, (shared s). split; [done|]. split; [|done]. constructor; [|done].
    intros Hj. change (map fst d) with (d.*1) in Hj. apply elem_of_list_fmap in Hj as ([j' v'] & Ej & Hj). cbn [fst] in Ej. subst j'.
    destruct (proj1 (D4 i)) as (x & Hx & Hw); [by eauto|]. rewrite Hi in Hx. by injection Hx as <-. }
  inversion Hs; subst; clear Hs; cbn [word boss threads shared] in *.
  - split; cbn [word boss threads shared]; try done. by exists d.
  - split; cbn [word boss threads shared]; try done. by exists d.
  - split; cbn [word boss threads shared]; try done. by exists d.
  - split; cbn [word boss threads shared]; try done; try by destruct (bool_decide (c = 0%N)). by exists d.
  - split; cbn [word boss threads shared]; try done; try by destruct (bool_decide (c = 0%N)). by exists d.
  - split; cbn [word boss threads shared]; try done. by exists d.
  - assert (forall j x, (ts ++ [TRun]) !! j = Some x -> ts !! j = Some x \/ x = TRun) as Hsnoc.
    { intros j x [Hx|[_ Hx]]%lookup_app_Some; [by left|right]. destruct (j - length ts) as [|[|?]]; simpl in Hx; congruence. }
    split; cbn [word boss threads shared]; try done.
    + exists d. split_and!; [done..|]. intros j. rewrite D4. split.
      * intros (x & Hx & Hw). exists x. split; [by apply lookup_app_l_Some|done].
      * intros (x & [Hx| ->]%Hsnoc & Hw); [eauto|done].
    + intros j [Hj|?]%Hsnoc; [auto|done].
    + intros j x [Hj| ->]%Hsnoc; [eauto|naive_solver].
  - split; cbn [word boss threads shared]; try done.
    + exists (d ++ [(i, v)]). split_and!.
      * rewrite map_app. apply NoDup_app. split; [done|]. split; [|apply NoDup_singleton]. intros j Hj Hij%elem_of_list_singleton. cbn [fst] in Hij. subst j.
        change (map fst d) with (d.*1) in Hj. apply elem_of_list_fmap in Hj as ([j' v'] & Ej & Hj). cbn [fst] in Ej. subst j'.
        destruct (proj1 (D4 i)) as (x & Hx & Hw); [by eauto|]. cbn [fst] in *. rewrite H in Hx. by injection Hx as <-.
      * unfold added in *. rewrite foldl_app, D2. simpl. done.
      * intros j u [Hj|[= -> ->]%elem_of_list_singleton]%elem_of_app; [auto|done].
      * intros j. destruct (decide (i = j)) as [<-|Hne].
        -- rewrite list_lookup_insert by by eapply lookup_lt_Some. split; [intros _; eauto|]. intros _. exists v. apply elem_of_app. right. by left.
        -- rewrite list_lookup_insert_ne by done. rewrite <-D4. split.
           ++ intros (u & [Hu|[= -> ->]%elem_of_list_singleton]%elem_of_app); [eauto|done].
           ++ intros (u & Hu). exists u. apply elem_of_app. by left.
    + intros j [(_ & ? & _)|(_ & Hj)]%list_lookup_insert_Some; [done|auto].
    + intros j x [(-> & <- & _)|(_ & Hj)]%list_lookup_insert_Some; [naive_solver|eauto].
    + intros E. specialize (R E). rewrite Forall_lookup in R. by specialize (R i _ H).
  - split; cbn [word boss threads shared]; try done.
    + exists d. split_and!; [done..|]. intros j. rewrite D4. by apply (Hsame _ _ _ _ H).
    + intros j [(-> & _ & _)|(_ & Hj)]%list_lookup_insert_Some; [|auto]. apply (Hspoil j Err H H0).
    + intros j x [(-> & <- & _)|(_ & Hj)]%list_lookup_insert_Some; [naive_solver|eauto].
    + intros E. specialize (R E). rewrite Forall_lookup in R. by specialize (R i _ H).
  - split; cbn [word boss threads shared]; try done.
    + exists d. split_and!; [done..|]. intros j. rewrite D4. by apply (Hsame _ _ _ _ H).
    + intros j [(_ & ? & _)|(_ & Hj)]%list_lookup_insert_Some; [done|auto].
    + intros j x [(-> & <- & _)|(_ & Hj)]%list_lookup_insert_Some; [|eauto]. intros _. apply (Hspoil j Panic H H0).
    + intros E. specialize (R E). rewrite Forall_lookup in R. by specialize (R i _ H).
  - split; cbn [word boss threads shared]; try done; [by exists d|]. intros _. eauto.
  - split; cbn [word boss threads shared]; try done.
    + exists d. split_and!; [done..|]. intros j. rewrite D4. apply (Hsame _ _ _ _ H). case_bool_decide; by destruct p.
    + intros j [(_ & E & _)|(_ & Hj)]%list_lookup_insert_Some; [|auto]. by case_bool_decide.
    + intros j x [(-> & <- & _)|(_ & Hj)]%list_lookup_insert_Some; [|eauto]. intros E. apply (P j _ H). destruct p; [by left|]. case_bool_decide; naive_solver.
    + intros E. specialize (R E). rewrite Forall_lookup in R. by specialize (R i _ H).
  - split; cbn [word boss threads shared]; try done.
    + exists d. split_and!; [done..|]. intros j. rewrite D4. apply (Hsame _ _ _ _ H). by destruct p.
    + intros j [(_ & E & _)|(_ & Hj)]%list_lookup_insert_Some; [done|auto].
    + intros j x [(-> & <- & _)|(_ & Hj)]%list_lookup_insert_Some; [|eauto]. intros E. apply (P j _ H). destruct p; naive_solver.
    + by destruct m.
    + intros E. assert (m = MReturned) as -> by by destruct m. specialize (R eq_refl). rewrite Forall_lookup in R. by specialize (R i _ H).
    + intros E. apply Q. by destruct m.
  - split; cbn [word boss threads shared]; try done.
    + by exists d.
    + by case_bool_decide.
    + case_bool_decide as E; [done|]. intros _. apply Forall_lookup. intros i t Ht. rewrite Forall_lookup in H.
      destruct (H i t Ht) as [[] ->]; [|done]. exfalso. apply E. apply elem_of_list_lookup. eauto.
    + case_bool_decide as E; [|done]. intros _. apply elem_of_list_lookup in E as [i Hi]. exists i. apply (P i _ Hi). auto.
Qed.

(** How much is still to do. *)
Definition thread_cost (t : thread) : nat := match t with TRun => 60 | TFail => 40 | TDone _ => 40 | TWake _ => 20 | TExit _ => 0 end.
Definition boss_cost (c : N) (m : main) : nat :=
  match m with
  | MNext => 5
  | MTry p => if bool_decide (c = 0%N) then 2 else if bool_decide (p = c) then 1 else 2
  | MEnter => if bool_decide (c = 0%N) then 1 else 3
  | MJoin => 1
  | _ => 0
  end.
Definition cost (s : state S) : nat :=
  match boss s with
  | MGone => 0
  | m => 100 * (length jobs - length (threads s)) + sum_list_with thread_cost (threads s) + boss_cost (word s) m
  end.

Lemma boss_cost_le c m : boss_cost c m <= 5.
Proof. destruct m; simpl; repeat case_bool_decide; lia. Qed.
Lemma cost_eq c m ts s : m <> MGone -> cost (mkState c m ts s) = 100 * (length jobs - length ts) + sum_list_with thread_cost ts + boss_cost c m.
Proof. by destruct m. Qed.

Lemma cost_step b s s' : fair s -> step b s s' -> cost s' + 1 <= cost s + (if b then 0 else 4).
Proof.
  intros [F1 F2 F3 F4 F5 F6] Hs. inversion Hs; subst; clear Hs; cbn [word boss threads shared] in *.
  all: try match goal with E : ?l !! ?i = Some ?x |- context [<[?i := ?y]> ?l] => pose proof (sum_insert thread_cost l i x y E) as Hsum; cbn [thread_cost] in Hsum end.
  - rewrite !cost_eq by done. pose proof (boss_cost_le c (MTry 1)). unfold boss_cost at 1. repeat case_bool_decide; simpl; lia.
  - rewrite !cost_eq by done. simpl. lia.
  - specialize (F5 c eq_refl). rewrite !cost_eq by done. simpl. rewrite bool_decide_eq_false_2 by lia. rewrite bool_decide_eq_true_2 by done. lia.
  - specialize (F5 p eq_refl). case_bool_decide as Ec.
    + subst c. rewrite !cost_eq by done. simpl. rewrite bool_decide_eq_false_2 by lia. simpl. lia.
    + rewrite !cost_eq by done. simpl. rewrite bool_decide_eq_false_2 by done. rewrite (bool_decide_eq_true_2 (c = c)) by done.
      case_bool_decide; simpl; lia.
  - case_bool_decide as Ec.
    + subst c. rewrite !cost_eq by done. simpl. lia.
    + rewrite !cost_eq by done. simpl. rewrite bool_decide_eq_false_2 by done. case_bool_decide; lia.
  - rewrite !cost_eq by done. simpl. repeat case_bool_decide; lia.
  - specialize (F2 eq_refl). rewrite !cost_eq by done. rewrite app_length, sum_app. simpl. lia.
  - rewrite !cost_eq by done. rewrite insert_length. lia.
  - rewrite !cost_eq by done. rewrite insert_length. lia.
  - rewrite !cost_eq by done. rewrite insert_length. lia.
  - rewrite (cost_eq c m) by done. unfold cost. cbn [boss]. pose proof (sum_elem thread_cost ts i _ H) as He. cbn [thread_cost] in He. lia.
  - rewrite !cost_eq by done. rewrite insert_length. pose proof (boss_cost_le ((c + 1) mod 2 ^ 32) m).
    assert (thread_cost (if bool_decide (c = 0%N) then TWake p else TExit p) <= 20) by (case_bool_decide; simpl; lia). lia.
  - rewrite !cost_eq by by destruct m. rewrite insert_length. pose proof (boss_cost_le c (match m with MAsleep => MTry 1 | _ => m end)). lia.
  - destruct (bool_decide (TExit true ∈ ts)); rewrite !cost_eq by done; cbn [boss_cost]; lia.
Qed.

(** Until the end something can be done. *)
Lemma thread_can c m ts s i t : length ts <= length jobs -> m <> MGone -> ts !! i = Some t -> (forall p, t <> TExit p) -> exists s', step true (mkState c m ts s) s'.
Proof.
  intros Hl Hm E Ht. destruct t as [| |p|p|p].
  - assert (is_Some (jobs !! i)) as [[v| |] Hj] by (apply lookup_lt_is_Some; apply lookup_lt_Some in E; lia).
    + destruct (add v s) as [s'| |] eqn:Ea.
      * eexists. by eapply st_ok.
      * eexists. eapply st_err; eauto.
      * eexists. eapply st_panic; eauto.
    + eexists. eapply st_err; eauto.
    + eexists. eapply st_panic; eauto.
  - eexists. by eapply st_exit.
  - eexists. by eapply st_release.
  - eexists. by eapply st_wake.
  - by destruct (Ht p).
Qed.

Lemma can_go_on s : (0 < cpus)%N -> fair s -> ~ final s -> exists s', step true s s'.
Proof.
  intros Hc [F1 F2 F3 F4 F5 F6] Hf. destruct s as [c m ts s]. cbn [word boss threads shared] in *. unfold final in Hf. cbn [boss] in Hf.
  destruct m as [|p| | | | | | |]; try (exfalso; by auto).
  - destruct (decide (length ts < length jobs)); eexists; [by apply st_next|apply st_last; lia].
  - destruct (decide (p = c)) as [->|Hne]; [eexists; apply st_cas|].
    pose proof (st_cas_fail jobs add c p ts s) as Hs. rewrite bool_decide_eq_false_2 in Hs by done. eauto.
  - eexists. apply st_wait.
  - destruct (F6 eq_refl) as [->|(i & p & Hi)].
    + specialize (F4 ltac:(done)). cbn [boss_has] in F4. destruct (sum_pos holds_one ts) as (i & t & Ht & Hh); [lia|].
      eapply thread_can; [done|done|exact Ht|]. intros p ->. simpl in Hh. lia.
    + eapply thread_can; [done|done|exact Hi|done].
  - eexists. apply st_spawn.
  - destruct (decide (Forall (fun t => thread_cost t = 0) ts)) as [Ha|Ha].
    + eexists. apply st_join. eapply Forall_impl; [exact Ha|]. intros [| |?|?|p] E; try done. by exists p.
    + apply not_Forall_Exists in Ha; [|intros ?; apply _]. apply Exists_exists in Ha as (t & Ht & Hn). apply elem_of_list_lookup in Ht as [i Hi].
      eapply thread_can; [done|done|exact Hi|]. intros p ->. by apply Hn.
Qed.

Lemma fair_begin : fair (begin cpus s0).
Proof. split; simpl; try done; try lia. naive_solver. Qed.
Lemma done_begin : done_once (begin cpus s0).
Proof.
  split; simpl; try done. exists []. split_and!; [constructor|done|by intros ? ? ?%elem_of_nil|].
  intros i. split; [by intros (v & ?%elem_of_nil)|]. by intros (t & ? & _).
Qed.
Lemma run_inv n m s : (cpus < 2 ^ 32)%N -> run n m (begin cpus s0) s -> fair s /\ done_once s /\ n + cost s <= cost (begin cpus s0) + 4 * m.
Proof.
  intros Hc Hr. remember (begin cpus s0) as b eqn:Eb. induction Hr as [s|n m l s s' s'' Hr IH Hs]; subst.
  - split; [apply fair_begin|]. split; [apply done_begin|]. lia.
  - destruct (IH eq_refl) as (F & D & C). split; [by eapply fair_step|]. split; [by eapply done_step|].
    pose proof (cost_step _ _ _ F Hs). destruct l; lia.
Qed.
End facts.
