(** C65: work shared out to threads is done once and in full, or the program ends with an error. *)

From Verif Require Import Base OMap Formats Hashing Pack Index IndexFacts PropsIndex Meta Forest Check Parallel ParallelFacts.

(** ** What the theorems say *)

(** The effects of some of the functions, one after the other. *)
Fixpoint in_sequence {T S} (add : T -> S -> result S) (vs : list T) (s : S) : result S :=
  match vs with
  | [] => Ok s
  | v :: vs' => let* s' := add v s in in_sequence add vs' s'
  end.

(** A state that can come up, with [cpus] permits. *)
Definition comes_up {T S} (jobs : list (result T)) (add : T -> S -> result S) (cpus : N) (s0 : S) (s : state S) : Prop :=
  exists n m, run jobs add n m (begin cpus s0) s.

(** Some function's effect goes wrong, with result [r], after those of some others. *)
Definition goes_wrong {T S} (jobs : list (result T)) (add : T -> S -> result S) (s0 : S) (r : result S) : Prop :=
  exists v before rest, jobs ≡ₚ Ok v :: map Ok before ++ rest /\ in_sequence add (before ++ [v]) s0 = r.

(** ** Lemmas *)

Lemma in_sequence_snoc {T S} (add : T -> S -> result S) vs v s : in_sequence add (vs ++ [v]) s = let* s' := in_sequence add vs s in add v s'.
Proof.
  revert s. induction vs as [|u vs IH]; intros s; simpl; [by destruct (add v s)|]. destruct (add u s); simpl; auto.
Qed.
Lemma picked {A} (jobs : list A) (d : list (nat * A)) : NoDup (map fst d) -> (forall i v, (i, v) ∈ d -> jobs !! i = Some v) ->
  exists rest, jobs ≡ₚ map snd d ++ rest.
Proof.
  intros Hnd Hd. enough (map snd d ⊆+ jobs) as Hs. { apply submseteq_Permutation in Hs as [rest Hs]. by exists rest. }
  assert (d ⊆+ imap (fun i v => (i, v)) jobs) as Hs.
  { apply NoDup_submseteq; [by apply (NoDup_fmap_1 fst)|]. intros [i v] Hi. apply elem_of_lookup_imap. exists i, v. split; [done|]. by apply Hd. }
  apply (fmap_submseteq snd) in Hs. enough (snd <$> imap (fun i v => (i, v)) jobs = jobs) as E by (rewrite E in Hs; done).
  rewrite fmap_imap. apply list_eq. intros i. rewrite list_lookup_imap. by destruct (jobs !! i).
Qed.

Lemma added_sequence {T S} (add : T -> S -> result S) s0 d : added add s0 d = in_sequence add (map snd d) s0.
Proof.
  unfold added. assert (forall a, foldl (fun a (iv : nat * T) => let* s := a in add iv.2 s) a d = let* s := a in in_sequence add (map snd d) s) as Hg; [|by rewrite Hg].
  induction d as [|[i v] d IH]; intros a; simpl; [by destruct a|]. rewrite IH. by destruct a.
Qed.

Lemma spoilt_wrong {T S} (jobs : list (result T)) (add : T -> S -> result S) s0 r i : spoilt jobs add s0 r i -> goes_wrong jobs add s0 r.
Proof.
  intros (v & d & s & Hv & Hnd & Hd & Hs & Ha).
  destruct (picked jobs ((i, Ok v) :: map (fun iv => (iv.1, Ok iv.2)) d)) as [rest Hrest].
  - simpl. rewrite map_map. done.
  - intros j u [[= -> ->]|Hj]%elem_of_cons; [done|]. apply elem_of_list_fmap in Hj as ([j' u'] & [= -> ->] & Hj). by apply Hd.
  - exists v, (map snd d), rest. split.
    + rewrite Hrest. simpl. by rewrite !map_map.
    + rewrite in_sequence_snoc, <-added_sequence, Hs. done.
Qed.

Lemma log_values {T} (jobs : list (result T)) (d : list (nat * T)) vs :
  NoDup (map fst d) -> (forall i v, (i, v) ∈ d -> jobs !! i = Some (Ok v)) -> (forall i, i < length jobs -> exists v, (i, v) ∈ d) ->
  jobs = map Ok vs -> map snd d ≡ₚ vs.
Proof.
  intros Hnd Hd Hall ->.
  assert (d ≡ₚ imap (fun i v => (i, v)) vs) as ->.
  { apply NoDup_Permutation.
    - by apply (NoDup_fmap_1 fst).
    - apply (NoDup_fmap_1 fst). rewrite fmap_imap. apply NoDup_alt. intros i j x. rewrite !list_lookup_imap. destruct (vs !! i), (vs !! j); simpl; congruence.
    - intros [i v]. rewrite elem_of_lookup_imap. split.
      + intros Hi. specialize (Hd i v Hi). change (map Ok vs) with (Ok <$> vs) in Hd. rewrite list_lookup_fmap in Hd. destruct (vs !! i) eqn:E; [|done].
        injection Hd as ->. eauto.
      + intros (j & u & [= -> ->] & Hj). destruct (Hall j) as [w Hw]; [rewrite map_length; by eapply lookup_lt_Some|].
        pose proof (Hd j w Hw) as E. change (map Ok vs) with (Ok <$> vs) in E. rewrite list_lookup_fmap, Hj in E. by injection E as <-. }
  clear. enough (map snd (imap (fun i v => (i, v)) vs) = vs) as -> by done. change (map snd) with (fmap (M:=list) (snd (A:=nat) (B:=T))).
  rewrite fmap_imap. apply list_eq. intros i. rewrite list_lookup_imap. by destruct (vs !! i).
Qed.

(** ** C65 *)

(** Never are more functions at work than there are permits.  When the call returns, every
    function went well and its effect was had once: what is shared is what doing one after
    the other gives, in some order. *)
Theorem C65_returning_means_all_done_once {T S} (jobs : list (result T)) add cpus (s0 : S) s :
  (cpus < 2 ^ 32)%N -> comes_up jobs add cpus s0 s ->
  (boss s <> MGone -> (N.of_nat (length (List.filter working (threads s))) <= cpus)%N) /\
  (boss s = MReturned -> exists vs order, jobs = map Ok vs /\ order ≡ₚ vs /\ in_sequence add order s0 = Ok (shared s)).
Proof.
  intros Hc (n & m & Hr). destruct (run_inv _ _ _ _ _ _ _ Hc Hr) as (F & D & _). split.
  - intros Hg. pose proof (fa_word _ _ _ F Hg) as Hw.
    assert (length (List.filter working (threads s)) <= sum_list_with holds_one (threads s)) as Hle; [|lia].
    clear. induction (threads s) as [|[| |?|?|?] ts IH]; simpl in *; lia.
  - intros Hret. pose proof (fa_end _ _ _ F ltac:(auto)) as Hl. pose proof (do_returned _ _ _ _ D Hret) as Hall. rewrite Forall_lookup in Hall.
    destruct (do_log _ _ _ _ D) as (d & D1 & D2 & D3 & D4). rewrite added_sequence in D2.
    assert (forall i, i < length jobs -> exists v, (i, v) ∈ d) as Hin.
    { intros i Hi. apply D4. destruct (lookup_lt_is_Some_2 (threads s) i) as [t Ht]; [lia|]. exists t. split; [done|]. by rewrite (Hall i t Ht). }
    assert (exists vs, jobs = map Ok vs) as [vs Evs].
    { assert (Forall (fun j => exists v, j = Ok v) jobs) as Hok.
      { apply Forall_lookup. intros i j Hj. destruct (Hin i) as [v Hv]; [by eapply lookup_lt_Some|]. rewrite (D3 _ _ Hv) in Hj. injection Hj as <-. eauto. }
      clear -Hok. induction Hok as [|? jobs [v ->] _ [vs ->]]; [by exists []|]. by exists (v :: vs). }
    exists vs, (map snd d). split; [done|]. split; [|done]. by apply (log_values jobs).
Qed.
Print Assumptions C65_returning_means_all_done_once.

(** A call ends otherwise only for a reason: the program is ended because a function failed,
    and the call panics because one panicked, in itself or where some of the others had
    had their effects. *)
Theorem C65_failures_have_a_reason {T S} (jobs : list (result T)) add cpus (s0 : S) s :
  (cpus < 2 ^ 32)%N -> comes_up jobs add cpus s0 s ->
  (boss s = MGone -> Err ∈ jobs \/ goes_wrong jobs add s0 Err) /\
  (boss s = MPanicked -> Panic ∈ jobs \/ goes_wrong jobs add s0 Panic).
Proof.
  intros Hc (n & m & Hr). destruct (run_inv _ _ _ _ _ _ _ Hc Hr) as (_ & D & _). split.
  - intros Hg. destruct (do_gone _ _ _ _ D Hg) as [i [Hi|Hi%spoilt_wrong]]; [left; by eapply elem_of_list_lookup_2|by right].
  - intros Hg. destruct (do_panicked _ _ _ _ D Hg) as [i [Hi|Hi%spoilt_wrong]]; [left; by eapply elem_of_list_lookup_2|by right].
Qed.
Print Assumptions C65_failures_have_a_reason.

(** Every call ends: the number of steps is bounded, but for those that the hardware or the
    system takes for no reason, and until the end there is always one to take.  Nobody sleeps
    for ever. *)
Theorem C65_calls_end {T S} (jobs : list (result T)) add cpus (s0 : S) n m s :
  (0 < cpus < 2 ^ 32)%N -> run jobs add n m (begin cpus s0) s ->
  n <= 100 * length jobs + 5 + 4 * m /\ (final s \/ exists s', step jobs add true s s').
Proof.
  intros [Hc1 Hc2] Hr. destruct (run_inv _ _ _ _ _ _ _ Hc2 Hr) as (F & _ & C). split.
  - unfold begin in C. rewrite cost_eq in C by done. cbn [length sum_list_with boss_cost] in C. rewrite Nat.sub_0_r in C. lia.
  - assert (final s \/ ~ final s) as [?|Hf]; [unfold final; destruct (boss s); naive_solver|by left|right]. by eapply can_go_on.
Qed.
Print Assumptions C65_calls_end.

(** [map_concurrently]: what is returned are the results, in some order. *)
Definition push {T} (v : T) (l : list T) : result (list T) := Ok (l ++ [v]).
Lemma push_sequence {T} (vs l : list T) : in_sequence push vs l = Ok (l ++ vs).
Proof. revert l. induction vs as [|v vs IH]; intros l; simpl; [by rewrite app_nil_r|]. rewrite IH. by rewrite <-app_assoc. Qed.
Theorem C65_mapping_gives_all_results {T} (jobs : list (result T)) cpus s :
  (cpus < 2 ^ 32)%N -> comes_up jobs push cpus [] s -> boss s = MReturned ->
  exists vs, jobs = map Ok vs /\ shared s ≡ₚ vs.
Proof.
  intros Hc Hr Hret. destruct (C65_returning_means_all_done_once jobs push cpus [] s Hc Hr) as [_ Hx].
  destruct (Hx Hret) as (vs & order & E & HP & Hs). rewrite push_sequence in Hs. injection Hs as <-. by exists vs.
Qed.
Print Assumptions C65_mapping_gives_all_results.

(** src/index.rs:207-237: loading the indexes that way gives what loading them one after the
    other gives. *)
Definition index_job (H : bytes -> oid) zdec (f : oid * bytes) : result (oid * index) :=
  let* ix := index_load H zdec f.1 (Some f.2) in Ok (f.1, ix).
Lemma index_jobs_loaded H zdec files vs : map (index_job H zdec) files = map Ok vs ->
  load_all (fun id f => index_load H zdec id (Some f)) files = Ok vs.
Proof.
  revert vs. induction files as [|[id f] files IH]; intros [|v vs] E; try done. simpl in E. injection E as E1 E2. simpl.
  unfold index_job in E1. cbn [fst snd] in E1. destruct (index_load H zdec id (Some f)) as [ix| |]; try done. injection E1 as <-. cbn [rbind].
  by rewrite (IH vs E2).
Qed.
Lemma index_loaded_jobs H zdec files vs : load_all (fun id f => index_load H zdec id (Some f)) files = Ok vs ->
  map (index_job H zdec) files = map Ok vs.
Proof.
  revert vs. induction files as [|[id f] files IH]; intros vs E; simpl in E; [by injection E as <-|].
  destruct (index_load H zdec id (Some f)) as [ix| |] eqn:Ei; try done. cbn [rbind] in E. destruct (load_all _ files) as [l| |]; try done.
  injection E as <-. simpl. unfold index_job at 1. cbn [fst snd]. rewrite Ei. cbn [rbind]. by rewrite (IH l).
Qed.
Lemma results_sequence vs rs : in_sequence (fun v rs => results_add rs v) vs rs = results_of rs vs.
Proof. revert rs. induction vs as [|v vs IH]; intros rs; simpl; [done|]. destruct (results_add rs v); simpl; auto. Qed.
Lemma results_app vs vs' rs : results_of rs (vs ++ vs') = let* rs' := results_of rs vs in results_of rs' vs'.
Proof. revert rs. induction vs as [|v vs IH]; intros rs; simpl; [done|]. destruct (results_add rs v); simpl; auto. Qed.
Theorem C65_loading_indexes H zdec files cpus s :
  (cpus < 2 ^ 32)%N -> comes_up (map (index_job H zdec) files) (fun v rs => results_add rs v) cpus (mkResults [] []) s ->
  let one_by_one := let* l := load_all (fun id f => index_load H zdec id (Some f)) files in build_master_index l in
  (boss s = MReturned -> one_by_one = Ok (master_of (shared s))) /\
  (boss s = MGone \/ boss s = MPanicked -> forall ix, one_by_one <> Ok ix).
Proof.
  intros Hc Hr one. split.
  - intros Hret. destruct (C65_returning_means_all_done_once _ _ cpus _ s Hc Hr) as [_ Hx]. destruct (Hx Hret) as (vs & order & E & HP & Hs).
    apply index_jobs_loaded in E. unfold one. rewrite E. cbn [rbind]. rewrite <-(C10_order_irrelevant _ _ HP). rewrite results_sequence in Hs.
    unfold build_master_index. by rewrite Hs.
  - intros Hend ix. unfold one. destruct (load_all _ files) as [vs| |] eqn:El; [|done..]. cbn [rbind]. intros Ex.
    apply index_loaded_jobs in El. destruct (C65_failures_have_a_reason _ _ cpus _ s Hc Hr) as [Hg Hp]. rewrite El in Hg, Hp.
    assert (exists r, (forall rs, r <> Ok rs) /\ (r ∈ map Ok vs \/ exists r', (forall rs, r' <> Ok rs) /\ goes_wrong (map Ok vs) (fun v rs => results_add rs v) (mkResults [] []) r'))
      as (r & Hr1 & [Hr2|(r' & Hr' & v & before & rest & HP & Hseq)]).
    { destruct Hend as [E|E]; [exists Err|exists Panic]; (split; [done|]); [destruct (Hg E) as [?|?]|destruct (Hp E) as [?|?]]; eauto.
      - right. by exists Err.
      - right. by exists Panic. }
    + apply elem_of_list_fmap in Hr2 as (y & -> & _). by apply (Hr1 y).
    + assert (exists rest', vs ≡ₚ (before ++ [v]) ++ rest') as [rest' HP'].
      { change (map Ok vs) with (Ok <$> vs) in HP. 
        assert (Forall (fun x => exists y, x = Ok y) (Ok v :: map Ok before ++ rest)) as HF.
        { rewrite <-HP. apply Forall_fmap, Forall_true. eauto. }
        apply Forall_cons in HF as [_ [_ HF]%Forall_app]. assert (exists ys, rest = map Ok ys) as [ys ->].
        { clear -HF. induction HF as [|? l [y ->] _ [ys ->]]; [by exists []|]. by exists (y :: ys). }
        exists ys. change (Ok v :: map Ok before ++ map Ok ys) with (map Ok (v :: before) ++ map Ok ys) in HP. rewrite <-map_app in HP.
        apply (Permutation_map (fun r : result (oid * index) => match r with Ok y => y | _ => v end)) in HP. change (Ok <$> vs) with (map (@Ok (oid * index)) vs) in HP.
        rewrite !map_map, !map_id in HP. rewrite HP. by rewrite <-(Permutation_cons_append before v). }
      unfold build_master_index in Ex. pose proof (C10_order_irrelevant _ _ HP') as E. unfold build_master_index in E. rewrite results_app in E. rewrite results_sequence in Hseq.
      rewrite Hseq in E. destruct r' as [x| |]; [by apply (Hr' x)|..]; simpl in E; rewrite E in Ex; done.
Qed.
Print Assumptions C65_loading_indexes.

(** *** A concrete case: three functions, two permits *)

(** The boss starts two, waits for a permit, is woken, starts the third; all end. *)
Definition ex_jobs : list (result nat) := [Ok 1; Ok 2; Ok 3].
Example C65_witness : exists n s, run ex_jobs push n 0 (begin 2 []) s /\ boss s = MReturned /\ shared s = [2; 1; 3].
Proof.
  assert (forall n m l s s' s'', step ex_jobs push l s s' -> run ex_jobs push n m s' s'' -> run ex_jobs push (n + 1) (m + (if l then 0 else 1)) s s'') as Hcons.
  { intros n m l s s' s'' Hs Hr. revert s Hs. induction Hr as [s'|n m l' s0 s1 s2 Hr IH Hs2]; intros s Hs.
    - rewrite (Nat.add_comm 0), (Nat.add_comm 0 (if l then 0 else 1)). apply (run_snoc _ _ 0 0 l s s s' (run_nil _ _ s) Hs).
    - replace (1 + n + 1) with (1 + (n + 1)) by lia. replace ((if l' then 0 else 1) + m + (if l then 0 else 1)) with ((if l' then 0 else 1) + (m + (if l then 0 else 1))) by lia.
      eapply run_snoc; [by apply IH|done]. }
  assert (forall n s s' s'', step ex_jobs push true s s' -> run ex_jobs push n 0 s' s'' -> run ex_jobs push (n + 1) 0 s s'') as Hgo.
  { intros n s s' s'' Hs Hr. exact (Hcons n 0 true s s' s'' Hs Hr). }
  eexists _, _. split.
  { eapply Hgo; [apply st_next; simpl; lia|].
    eapply Hgo; [exact (st_cas_fail _ _ 2 1 [] [])|]. eapply Hgo; [apply st_cas|]. eapply Hgo; [apply st_spawn|].
    eapply Hgo; [apply st_next; simpl; lia|]. eapply Hgo; [apply st_cas|]. eapply Hgo; [apply st_spawn|].
    eapply Hgo; [apply st_next; simpl; lia|]. eapply Hgo; [exact (st_cas_fail _ _ 0 1 _ _)|]. eapply Hgo; [apply st_wait|].
    cbn -[N.modulo N.add].
    eapply Hgo; [by apply (st_ok _ _ _ _ _ _ 1 2)|]. eapply Hgo; [by apply (st_release _ _ _ _ _ _ 1 false)|]. eapply Hgo; [by apply (st_wake _ _ _ _ _ _ 1 false)|].
    eapply Hgo; [apply st_cas|]. eapply Hgo; [apply st_spawn|]. eapply Hgo; [by apply st_last|].
    eapply Hgo; [by apply (st_ok _ _ _ _ _ _ 0 1)|]. eapply Hgo; [by apply (st_ok _ _ _ _ _ _ 2 3)|].
    eapply Hgo; [by apply (st_release _ _ _ _ _ _ 0 false)|]. eapply Hgo; [by apply (st_release _ _ _ _ _ _ 2 false)|].
    eapply Hgo; [by apply (st_wake _ _ _ _ _ _ 0 false)|].
    eapply Hgo; [apply st_join; repeat constructor; eauto|]. apply run_nil. }
  split; reflexivity.
Qed.
