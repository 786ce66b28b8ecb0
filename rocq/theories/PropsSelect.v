(** Choosing snapshots: C32, C33 and C34. *)

From Verif Require Import Base OMap Formats Hashing HashingFacts Repo RepoSpec Select Toy Pipeline Witness.

(** * What a name means, in words *)

(** [s] is LAST or HEAD, LAST~ or HEAD~, or one of them with a number of any length. *)
Definition says_last (s : bytes) (n : N) : Prop :=
  exists w r, (w = ascii_bytes "LAST" \/ w = ascii_bytes "HEAD") /\ s = w ++ r /\
    ((r = [] /\ n = 0%N) \/ (r = ascii_bytes "~" /\ n = 1%N) \/
     (exists ds, ds <> [] /\ Forall (fun b => is_digit b = true) ds /\ r = ascii_bytes "~" ++ ds /\ n = digits_value ds)).

(** Each snapshot of the list has its own id of 28 bytes. *)
Definition own_ids (snaps : list (snapshot * oid)) : Prop := NoDup (map snd snaps) /\ Forall (fun x : snapshot * oid => oid_wf x.2) snaps.

Lemma strip_prefix_spec p s r : strip_prefix p s = Some r <-> s = p ++ r.
Proof.
  revert s. induction p as [|a p IH]; intros s; simpl; [split; congruence|]. destruct s as [|b s]; [done|].
  case_bool_decide as E; [subst b; rewrite IH; split; congruence|]. split; [done|congruence].
Qed.
Lemma starts_with_spec p s : starts_with p s = true <-> p `prefix_of` s.
Proof.
  unfold starts_with, prefix. setoid_rewrite <-strip_prefix_spec. destruct (strip_prefix p s); naive_solver.
Qed.

Lemma parse_last_some s r : parse_last s = Some r ->
  exists n, says_last s n /\ r = (if (n <? 2 ^ 64)%N then Ok n else Panic).
Proof.
  unfold parse_last. intros E.
  assert (exists w rest, (w = ascii_bytes "LAST" \/ w = ascii_bytes "HEAD") /\ s = w ++ rest /\
    match strip_prefix (ascii_bytes "~") rest with
      | None => match rest with [] => Some (Ok 0%N) | _ :: _ => None end
      | Some [] => Some (Ok 1%N)
      | Some (d :: ds) =>
          if forallb is_digit (d :: ds)
          then Some (if (digits_value (d :: ds) <? 2 ^ 64)%N then Ok (digits_value (d :: ds)) else Panic)
          else None
      end = Some r) as (w & rest & Hw & -> & E').
  { destruct (strip_prefix (ascii_bytes "LAST") s) as [r1|] eqn:E1; [apply strip_prefix_spec in E1; eauto 6|].
    destruct (strip_prefix (ascii_bytes "HEAD") s) as [r1|] eqn:E2; [apply strip_prefix_spec in E2; eauto 6|done]. }
  clear E. destruct (strip_prefix (ascii_bytes "~") rest) as [[|d ds]|] eqn:E1.
  - apply strip_prefix_spec in E1. injection E' as <-. exists 1%N. split; [|done]. exists w, rest. split; [done|]. split; [done|].
    right. left. rewrite E1. done.
  - apply strip_prefix_spec in E1. destruct (forallb is_digit (d :: ds)) eqn:Ef; [|done]. injection E' as <-.
    exists (digits_value (d :: ds)). split; [|done]. exists w, rest. split; [done|]. split; [done|]. right. right. exists (d :: ds).
    split; [done|]. split; [|done]. apply Forall_forall. rewrite forallb_forall in Ef. intros b Hb%elem_of_list_In. by apply Ef.
  - destruct rest; [|done]. injection E' as <-. exists 0%N. split; [|done]. exists w, []. split; [done|]. split; [done|]. by left.
Qed.

Lemma parse_last_says s n : says_last s n -> parse_last s = Some (if (n <? 2 ^ 64)%N then Ok n else Panic).
Proof.
  intros (w & r & Hw & -> & Hr).
  assert (match strip_prefix (ascii_bytes "~") r with
      | None => match r with [] => Some (Ok 0%N) | _ :: _ => None end
      | Some [] => Some (Ok 1%N)
      | Some (d :: ds) =>
          if forallb is_digit (d :: ds)
          then Some (if (digits_value (d :: ds) <? 2 ^ 64)%N then Ok (digits_value (d :: ds)) else Panic)
          else None
      end = Some (if (n <? 2 ^ 64)%N then Ok n else Panic)) as E.
  { destruct Hr as [[-> ->]|[[-> ->]|(ds & Hne & Hd & -> & ->)]]; [done|done|].
    rewrite (proj2 (strip_prefix_spec _ _ ds)) by done. destruct ds as [|d ds]; [done|].
    assert (forallb is_digit (d :: ds) = true) as ->; [|done]. apply forallb_forall. intros b Hb%elem_of_list_In.
    rewrite Forall_forall in Hd. by apply Hd. }
  unfold parse_last. destruct Hw as [->| ->].
  - rewrite (proj2 (strip_prefix_spec _ _ r)) by done. exact E.
  - assert (strip_prefix (ascii_bytes "LAST") (ascii_bytes "HEAD" ++ r) = None) as -> by (destruct (strip_prefix _ _) eqn:Es; [apply strip_prefix_spec in Es; done|done]).
    rewrite (proj2 (strip_prefix_spec _ _ r)) by done. exact E.
Qed.
Lemma says_last_fun s n n' : says_last s n -> says_last s n' -> (n < 2 ^ 64)%N -> n = n'.
Proof.
  intros E1%parse_last_says E2%parse_last_says Hn. rewrite E1 in E2. rewrite (proj2 (N.ltb_lt _ _) Hn) in E2.
  destruct (n' <? 2 ^ 64)%N; congruence.
Qed.

Lemma unsym_upper s : mapM unsym (x4c :: s) = None /\ mapM unsym (x48 :: s) = None.
Proof. split; reflexivity. Qed.
Lemma says_last_no_id s n : says_last s n -> oid_parse s = None.
Proof.
  intros (w & r & [->| ->] & -> & _).
  - change (ascii_bytes "LAST" ++ r) with (x4c :: (ascii_bytes "AST" ++ r)). unfold oid_parse, base32_decode.
    by rewrite (proj1 (unsym_upper _)).
  - change (ascii_bytes "HEAD" ++ r) with (x48 :: (ascii_bytes "EAD" ++ r)). unfold oid_parse, base32_decode.
    by rewrite (proj2 (unsym_upper _)).
Qed.

(** * C32: naming a snapshot finds that snapshot or fails *)

(** LAST~n: the n-th from the end, if there is one. *)
Theorem C32_last_counts_from_the_newest snaps s n : says_last s n -> (n < 2 ^ 64)%N ->
  (forall x, find_snapshot snaps s = Ok x <-> exists old young, snaps = old ++ x :: young /\ N.of_nat (length young) = n) /\
  ((N.of_nat (length snaps) <= n)%N -> find_snapshot snaps s = Err).
Proof.
  intros Hs Hn. unfold find_snapshot. rewrite (says_last_no_id s n Hs), (parse_last_says s n Hs), (proj2 (N.ltb_lt _ _) Hn). cbn [rbind].
  assert (forall x, rev snaps !! N.to_nat n = Some x <-> exists old young, snaps = old ++ x :: young /\ N.of_nat (length young) = n) as Hl.
  { intros x. split.
    - intros E. exists (rev (drop (S (N.to_nat n)) (rev snaps))), (rev (take (N.to_nat n) (rev snaps))). split.
      + rewrite <-(rev_involutive snaps) at 1. rewrite <-(take_drop_middle _ _ _ E) at 1. rewrite rev_app_distr. simpl. by rewrite <-app_assoc.
      + rewrite rev_length, take_length. apply lookup_lt_Some in E. lia.
    - intros (old & young & -> & <-). rewrite rev_app_distr. simpl. rewrite <-app_assoc, Nat2N.id.
      rewrite lookup_app_r by (rewrite rev_length; lia). by rewrite rev_length, Nat.sub_diag. }
  split.
  - intros x. rewrite <-Hl. destruct (n <? N.of_nat (length snaps))%N eqn:En.
    + destruct (rev snaps !! N.to_nat n); simpl; naive_solver.
    + split; [done|]. intros E%lookup_lt_Some. rewrite rev_length in E. apply N.ltb_ge in En. lia.
  - intros Hle. by rewrite (proj2 (N.ltb_ge _ _) Hle).
Qed.

(** Any other text: the one snapshot whose printed id starts with it, if it has at
    least four characters and there is just one. *)
Theorem C32_prefix_names_the_only_match snaps s : own_ids snaps -> (forall n, ~ says_last s n) ->
  (forall x, find_snapshot snaps s = Ok x <->
     4 <= length s /\ x ∈ snaps /\ s `prefix_of` oid_print x.2 /\
     forall y, y ∈ snaps -> s `prefix_of` oid_print y.2 -> y = x) /\
  find_snapshot snaps s <> Panic.
Proof.
  intros [Hnd Hwf] Hnl. unfold find_snapshot.
  assert (forall x y, x ∈ snaps -> y ∈ snaps -> x.2 = y.2 -> x = y) as Hid.
  { intros x y [i Hi]%elem_of_list_lookup [j Hj]%elem_of_list_lookup E. rewrite NoDup_alt in Hnd.
    assert (i = j) as ->; [|congruence]. apply (Hnd i j x.2); change (map snd snaps) with (snd <$> snaps);
      rewrite list_lookup_fmap; [by rewrite Hi|by rewrite Hj, E]. }
  rewrite Forall_forall in Hwf. destruct (oid_parse s) as [id|] eqn:Eid.
  - apply oid_print_parse in Eid as [Es Hw].
    assert (forall y, y ∈ snaps -> s `prefix_of` oid_print y.2 -> y.2 = id) as Hpre.
    { intros y Hy Hp. assert (oid_print id = oid_print y.2) as E.
      { destruct Hp as [k Hk]. subst s. assert (length k = 0) as Hk0.
        { pose proof (f_equal length Hk) as El. rewrite app_length, !oid_print_length in El by auto. lia. }
        destruct k; [|done]. by rewrite app_nil_r in Hk. }
      pose proof (oid_parse_print id Hw) as E1. rewrite E, (oid_parse_print y.2) in E1 by auto. congruence. }
    split; [|by destruct (List.find _ _)]. intros x. split.
    + destruct (List.find _ _) as [z|] eqn:Ef; [|done]. intros E. injection E as ->. apply find_some in Ef as [Hin Ez].
      apply elem_of_list_In in Hin. apply bool_decide_eq_true in Ez. split; [rewrite <-Es, oid_print_length by done; lia|].
      split; [done|]. split; [by rewrite Ez, Es|]. intros y Hy Hp. apply Hid; [done..|]. rewrite Ez. by apply Hpre.
    + intros (_ & Hin & Hp & Huniq). destruct (List.find _ _) as [z|] eqn:Ef; simpl.
      * apply find_some in Ef as [Hz Ez]. apply elem_of_list_In in Hz. apply bool_decide_eq_true in Ez. f_equal. apply Hid; [done..|].
        rewrite Ez. symmetry. by apply Hpre.
      * exfalso. apply elem_of_list_In in Hin as Hin'. eapply find_none in Ef; [|exact Hin']. apply bool_decide_eq_false in Ef. apply Ef. by apply Hpre.
  - destruct (parse_last s) as [r|] eqn:Ep; [apply parse_last_some in Ep as (n & Hn & _); by destruct (Hnl n)|].
    destruct (Nat.ltb_spec (length s) 4) as [Hl|Hl]; [split; [|done]; intros x; split; [done|]; intros [? _]; lia|].
    assert (forall x, x ∈ List.filter (fun x : snapshot * oid => starts_with s (oid_print x.2)) snaps <-> x ∈ snaps /\ s `prefix_of` oid_print x.2) as Hf.
    { intros x. rewrite elem_of_list_In, filter_In, starts_with_spec, <-elem_of_list_In. done. }
    assert (NoDup (List.filter (fun x : snapshot * oid => starts_with s (oid_print x.2)) snaps)) as Hnf.
    { apply NoDup_ListNoDup, List.NoDup_filter, NoDup_ListNoDup. by apply (NoDup_fmap_1 snd). }
    destruct (List.filter _ _) as [|z [|z' l]] eqn:Ef.
    + split; [|done]. intros x. split; [done|]. intros (_ & H1 & H2 & _). exfalso. apply (not_elem_of_nil x). by apply Hf.
    + split; [|done]. intros x. split.
      * intros E. injection E as ->. destruct (proj1 (Hf x) ltac:(by left)) as [H1 H2]. split; [done|]. split; [done|]. split; [done|].
        intros y Hy Hp. apply elem_of_list_singleton. by apply Hf.
      * intros (_ & H1 & H2 & _). f_equal. symmetry. apply elem_of_list_singleton. by apply Hf.
    + split; [|done]. intros x. split; [done|]. intros (_ & H1 & H2 & Hu). exfalso. apply NoDup_cons in Hnf as [Hn _]. apply Hn.
      destruct (proj1 (Hf z) ltac:(by left)) as [A1 A2]. destruct (proj1 (Hf z') ltac:(right; by left)) as [B1 B2].
      rewrite (Hu z A1 A2), <-(Hu z' B1 B2). by left.
Qed.

(** The short name the program prints has 8 characters and names the snapshot,
    unless another one's id begins the same. *)
Theorem C32_short_name snaps x : own_ids snaps -> x ∈ snaps ->
  length (short_name x.2) = 8 /\ short_name x.2 `prefix_of` oid_print x.2 /\
  ((forall y, y ∈ snaps -> short_name x.2 `prefix_of` oid_print y.2 -> y = x) -> find_snapshot snaps (short_name x.2) = Ok x).
Proof.
  intros Ho Hx. assert (oid_wf x.2) as Hw by (destruct Ho as [_ Hf]; rewrite Forall_forall in Hf; by apply Hf).
  assert (length (short_name x.2) = 8) as Hl by (unfold short_name; rewrite take_length, oid_print_length by done; lia).
  assert (short_name x.2 `prefix_of` oid_print x.2) as Hp by (exists (drop 8 (oid_print x.2)); symmetry; apply take_drop).
  split; [done|]. split; [done|]. intros Hu. apply C32_prefix_names_the_only_match; [done| |split_and!; [lia|done..]].
  intros n Hs. assert (exists r, short_name x.2 = x4c :: r \/ short_name x.2 = x48 :: r) as [r Hr].
  { destruct Hs as (w & r & [->| ->] & -> & _); eexists; [left|right]; reflexivity. }
  assert (exists c rest, oid_print x.2 = c :: rest /\ (c = x4c \/ c = x48)) as (c & rest & E & Hc).
  { destruct Hp as [rest E]. destruct Hr as [Hr|Hr]; rewrite Hr in E; eauto 6. }
  pose proof (oid_parse_print x.2 Hw) as E2. rewrite E in E2. unfold oid_parse, base32_decode in E2.
  destruct Hc as [->| ->]; [rewrite (proj1 (unsym_upper _)) in E2|rewrite (proj2 (unsym_upper _)) in E2]; done.
Qed.

(** Partial: no text crashes the lookup, except a number that needs more than 64 bits. *)
Theorem C32_no_crash_partial snaps s : own_ids snaps ->
  find_snapshot snaps s = Panic <-> exists n, says_last s n /\ (2 ^ 64 <= n)%N.
Proof.
  intros Ho. split.
  - intros E. destruct (parse_last s) as [r|] eqn:Ep.
    + apply parse_last_some in Ep as (n & Hs & ->). exists n. split; [done|]. destruct (N.ltb_spec n (2 ^ 64)) as [Hn|Hn]; [|done].
      exfalso. destruct (C32_last_counts_from_the_newest snaps s n Hs Hn) as [H1 H2].
      destruct (N.le_gt_cases (N.of_nat (length snaps)) n) as [Hle|Hgt]; [rewrite H2 in E by done; discriminate|].
      assert (exists x, find_snapshot snaps s = Ok x) as [x Hx]; [|rewrite Hx in E; discriminate].
      destruct (lookup_lt_is_Some_2 (rev snaps) (N.to_nat n)) as [x Hx]; [rewrite rev_length; lia|]. exists x.
      unfold find_snapshot. rewrite (says_last_no_id s n Hs), (parse_last_says s n Hs), (proj2 (N.ltb_lt _ _) Hn). cbn [rbind].
      by rewrite (proj2 (N.ltb_lt _ _) Hgt), Hx.
    + exfalso. eapply C32_prefix_names_the_only_match; [exact Ho| |exact E].
      intros n Hs%parse_last_says. congruence.
  - intros (n & Hs & Hn). unfold find_snapshot. rewrite (says_last_no_id s n Hs), (parse_last_says s n Hs).
    by rewrite (proj2 (N.ltb_ge _ _) Hn).
Qed.

(** Three snapshots; two were taken at the same instant. *)
Definition snap_of (now : Z) (tree : byte) : snapshot * oid :=
  let sn := mkSnapshot now [] [] [] [] (replicate 28 tree) in (sn, snapshot_id quick_hash sn).
Definition ex_snaps : list (snapshot * oid) := [snap_of 1 x01; snap_of 2 x02; snap_of 2 x03; snap_of 5 x03].

Theorem C32_huge_number_refuted : exists snaps s, own_ids snaps /\ find_snapshot snaps s = Panic.
Proof.
  exists ex_snaps, (ascii_bytes "LAST~18446744073709551616"). split; [|vm_compute; reflexivity].
  apply (bool_decide_unpack _). vm_compute. exact I.
Qed.

Example C32_witness : own_ids ex_snaps /\
  find_snapshot ex_snaps (ascii_bytes "HEAD~3") = Ok (snap_of 1 x01) /\ says_last (ascii_bytes "HEAD~3") 3 /\
  find_snapshot ex_snaps (short_name (snap_of 2 x02).2) = Ok (snap_of 2 x02) /\
  find_snapshot ex_snaps (take 5 (oid_print (snap_of 2 x03).2)) = Ok (snap_of 2 x03) /\
  find_snapshot ex_snaps (take 3 (oid_print (snap_of 2 x03).2)) = Err.
Proof.
  split; [apply (bool_decide_unpack _); vm_compute; exact I|]. split; [vm_compute; reflexivity|]. split.
  - exists (ascii_bytes "HEAD"), (ascii_bytes "~3"). split; [by right|]. split; [done|]. right. right. exists (ascii_bytes "3").
    split; [done|]. split; [repeat constructor|]. done.
  - split; [vm_compute; reflexivity|]. split; vm_compute; reflexivity.
Qed.

(** * C33: a list of names *)

Definition by_time (a b : snapshot * oid) : Prop := (sn_time a.1 <= sn_time b.1)%Z.

Lemma insert_by_time_perm x l : insert_by_time x l ≡ₚ x :: l.
Proof. induction l as [|y l IH]; simpl; [done|]. destruct (_ <=? _)%Z; [done|]. rewrite IH. apply Permutation_swap. Qed.
Lemma sort_by_time_perm l : sort_by_time l ≡ₚ l.
Proof. induction l as [|x l IH]; simpl; [done|]. unfold sort_by_time in *. simpl. by rewrite insert_by_time_perm, IH. Qed.
Lemma insert_by_time_sorted x l : Sorted by_time l -> Sorted by_time (insert_by_time x l).
Proof.
  induction l as [|y l IH]; intros Hs; simpl; [by repeat constructor|].
  destruct (Z.leb_spec (sn_time x.1) (sn_time y.1)) as [Hl|Hl]; [constructor; [done|]; constructor; exact Hl|].
  inversion Hs as [|? ? Hs' Hh]; subst. constructor; [by apply IH|]. destruct l as [|z l]; simpl.
  - constructor. unfold by_time. lia.
  - inversion Hh; subst. destruct (_ <=? _)%Z; constructor; unfold by_time in *; [lia|done].
Qed.
Lemma sort_by_time_sorted l : Sorted by_time (sort_by_time l).
Proof. induction l as [|x l IH]; [constructor|]. by apply insert_by_time_sorted. Qed.
Global Instance by_time_trans : Transitive by_time.
Proof. intros a b c. unfold by_time. lia. Qed.

Lemma dedup_from_in x l y : (forall a b, a ∈ x :: l -> b ∈ x :: l -> a.2 = b.2 -> a = b) -> y ∈ dedup_from x l <-> y ∈ x :: l.
Proof.
  revert x. induction l as [|z l IH]; intros x Hid; simpl; [done|]. case_bool_decide as E.
  - rewrite IH by (intros a b Ha Hb; apply Hid; set_solver). assert (z = x) as -> by (apply Hid; set_solver). set_solver.
  - rewrite elem_of_cons, IH by (intros a b Ha Hb; apply Hid; set_solver). set_solver.
Qed.
Lemma dedup_from_sublist x l : dedup_from x l `sublist_of` x :: l.
Proof.
  revert x. induction l as [|z l IH]; intros x; simpl; [done|]. case_bool_decide; [|by constructor].
  transitivity (x :: l); [apply IH|]. constructor. by constructor.
Qed.
Lemma sublist_sorted (l l' : list (snapshot * oid)) : l `sublist_of` l' -> StronglySorted by_time l' -> StronglySorted by_time l.
Proof.
  induction 1 as [|x l l' Hs IH|x l l' Hs IH]; intros Hss; [done| |]; inversion Hss as [|? ? H1 H2]; subst; [|by apply IH].
  constructor; [by apply IH|]. rewrite Forall_forall in *. intros y Hy. apply H2. by eapply elem_of_submseteq, sublist_submseteq.
Qed.
Lemma dedup_from_nodup x l : StronglySorted by_time (x :: l) ->
  (forall a b, a ∈ x :: l -> b ∈ x :: l -> sn_time a.1 = sn_time b.1 -> a = b) -> NoDup (dedup_from x l).
Proof.
  revert x. induction l as [|z l IH]; intros x Hs Hd; simpl; [apply NoDup_singleton|].
  inversion Hs as [|? ? Hs' Hf]; subst. case_bool_decide as E.
  - apply IH; [|intros a b Ha Hb; apply Hd; set_solver]. inversion Hs'; subst. constructor; [done|]. by inversion Hf.
  - apply NoDup_cons. split; [|apply IH; [done|]; intros a b Ha Hb; apply Hd; set_solver].
    intros Hin. assert (x ∈ z :: l) as Hx by (eapply elem_of_submseteq; [exact Hin|apply sublist_submseteq, dedup_from_sublist]).
    apply E. f_equal. apply Hd; [set_solver..|]. rewrite Forall_forall in Hf. pose proof (Hf z ltac:(by left)) as H1.
    unfold by_time in H1. apply elem_of_cons in Hx as [->|Hx]; [done|]. inversion Hs' as [|? ? _ Hz]; subst.
    rewrite Forall_forall in Hz. pose proof (Hz x Hx) as H2. unfold by_time in H2. lia.
Qed.

Lemma find_all_ok snaps args l : find_all snaps args = Ok l -> Forall2 (fun a x => find_snapshot snaps a = Ok x) args l.
Proof.
  revert l. induction args as [|a args IH]; intros l E; simpl in E; [injection E as <-; constructor|].
  destruct (find_snapshot snaps a) eqn:Ea; simpl in E; [|done|done]. destruct (find_all snaps args); simpl in E; [|done|done].
  injection E as <-. constructor; [done|]. by apply IH.
Qed.
Lemma find_all_complete snaps args : (forall a, a ∈ args -> exists x, find_snapshot snaps a = Ok x) -> exists l, find_all snaps args = Ok l.
Proof.
  induction args as [|a args IH]; intros Hf; simpl; [by eexists|]. destruct (Hf a ltac:(by left)) as [x ->]. simpl.
  destruct IH as [l ->]; [set_solver|]. by eexists.
Qed.
Lemma find_snapshot_in snaps s x : find_snapshot snaps s = Ok x -> x ∈ snaps.
Proof.
  unfold find_snapshot. destruct (oid_parse s) as [id|].
  - destruct (List.find _ _) as [z|] eqn:Ef; [|done]. intros E. injection E as ->. apply elem_of_list_In. by eapply find_some.
  - destruct (parse_last s) as [[n| |]|]; simpl; [|done|done|].
    + destruct (n <? _)%N; [|done]. destruct (rev snaps !! N.to_nat n) as [z|] eqn:E; [|done]. intros Hz. injection Hz as ->.
      apply elem_of_list_lookup_2 in E. apply elem_of_list_In. rewrite in_rev. by apply elem_of_list_In.
    + destruct (Nat.ltb _ _); [done|]. destruct (List.filter _ _) as [|z [|? ?]] eqn:Ef; [done| |done]. intros E. injection E as ->.
      assert (In x [x]) as Hin by (by left). rewrite <-Ef in Hin. apply filter_In in Hin as [Hin _]. by apply elem_of_list_In.
Qed.
Lemma own_ids_inj snaps x y : own_ids snaps -> x ∈ snaps -> y ∈ snaps -> x.2 = y.2 -> x = y.
Proof.
  intros [Hnd _] [i Hi]%elem_of_list_lookup [j Hj]%elem_of_list_lookup E. rewrite NoDup_alt in Hnd.
  assert (i = j) as ->; [|congruence]. apply (Hnd i j x.2); change (map snd snaps) with (snd <$> snaps);
    rewrite list_lookup_fmap; [by rewrite Hi|by rewrite Hj, E].
Qed.

(** Partial: each once only if no two of the named snapshots were taken at the same instant. *)
Theorem C33_named_once_oldest_first_partial snaps args : own_ids snaps ->
  (forall l, from_args_list snaps args = Ok l ->
    (forall x, x ∈ l <-> exists a, a ∈ args /\ find_snapshot snaps a = Ok x) /\
    StronglySorted by_time l /\
    ((forall x y, x ∈ l -> y ∈ l -> sn_time x.1 = sn_time y.1 -> x = y) -> NoDup l)) /\
  ((exists l, from_args_list snaps args = Ok l) <-> forall a, a ∈ args -> exists x, find_snapshot snaps a = Ok x).
Proof.
  intros Ho. split.
  - intros l E. unfold from_args_list in E. destruct (find_all snaps args) as [fs| |] eqn:Ef; simpl in E; [|done|done]. injection E as <-.
    pose proof (find_all_ok _ _ _ Ef) as Hf.
    assert (forall x, x ∈ sort_by_time fs <-> exists a, a ∈ args /\ find_snapshot snaps a = Ok x) as Hin.
    { intros x. rewrite sort_by_time_perm. clear Ef. induction Hf as [|a y args fs Ha Hf IH]; [set_solver|].
      rewrite elem_of_cons, IH. split.
      - intros [->|(a' & ? & ?)]; [exists a|exists a']; set_solver.
      - intros (a' & [->|?]%elem_of_cons & E'); [left; congruence|right; eauto]. }
    assert (forall a b, a ∈ sort_by_time fs -> b ∈ sort_by_time fs -> a.2 = b.2 -> a = b) as Hid.
    { intros a b (? & _ & H1)%Hin (? & _ & H2)%Hin. apply find_snapshot_in in H1, H2. by apply (own_ids_inj snaps). }
    assert (StronglySorted by_time (sort_by_time fs)) as Hs by (apply Sorted_StronglySorted; [exact by_time_trans|apply sort_by_time_sorted]).
    assert (forall x, x ∈ dedup (sort_by_time fs) <-> x ∈ sort_by_time fs) as Hd.
    { intros x. destruct (sort_by_time fs) as [|y ys]; [done|]. by apply dedup_from_in. }
    split; [intros x; by rewrite Hd, Hin|]. split.
    + destruct (sort_by_time fs) as [|y ys]; [constructor|]. eapply sublist_sorted; [apply dedup_from_sublist|done].
    + intros Ht. setoid_rewrite Hd in Ht. destruct (sort_by_time fs) as [|y ys]; [constructor|]. by apply dedup_from_nodup.
  - split.
    + intros [l E]. unfold from_args_list in E. destruct (find_all snaps args) as [fs| |] eqn:Ef; simpl in E; [|done|done].
      apply find_all_ok in Ef. intros a Ha. clear E. induction Ef; set_solver.
    + intros Hf. destruct (find_all_complete _ _ Hf) as [l El]. unfold from_args_list. rewrite El. by eexists.
Qed.

Definition name_of (x : snapshot * oid) : bytes := oid_print x.2.

Theorem C33_refuted : exists snaps args l, own_ids snaps /\ from_args_list snaps args = Ok l /\ ~ NoDup l.
Proof.
  exists ex_snaps, [name_of (snap_of 2 x02); name_of (snap_of 2 x03); name_of (snap_of 2 x02)], [snap_of 2 x02; snap_of 2 x03; snap_of 2 x02].
  split; [apply (bool_decide_unpack _); vm_compute; exact I|]. split; [vm_compute; reflexivity|].
  intros Hn. apply NoDup_cons in Hn as [Hn _]. apply Hn. right. by left.
Qed.

Example C33_witness : own_ids ex_snaps /\
  from_args_list ex_snaps [ascii_bytes "LAST"; ascii_bytes "LAST~3"; ascii_bytes "HEAD~"; ascii_bytes "HEAD"] =
    Ok [snap_of 1 x01; snap_of 2 x03; snap_of 5 x03].
Proof. split; [apply (bool_decide_unpack _); vm_compute; exact I|vm_compute; reflexivity]. Qed.

(** * C34: forgetting duplicates *)

Lemma repeats_in prev l i : i ∈ repeats prev l -> i ∈ map snd l.
Proof.
  revert prev. induction l as [|[sn id] l IH]; intros prev; simpl; [by intros ?%elem_of_nil|].
  destruct prev as [t|]; [case_bool_decide|]; rewrite ?elem_of_cons; intros Hin; [destruct Hin; eauto|eauto|eauto].
Qed.
Lemma repeats_older prev l sn i : NoDup (map snd l) -> (sn, i) ∈ l -> i ∈ repeats prev l ->
  prev = Some (sn_tree sn) \/
  exists l1 l2 l3 sn' j, l = l1 ++ (sn', j) :: l2 ++ (sn, i) :: l3 /\ sn_tree sn' = sn_tree sn /\ j ∉ repeats prev l.
Proof.
  revert prev. induction l as [|[sn0 id0] l IH]; intros prev Hnd Hin; [by apply elem_of_nil in Hin|].
  cbn [map snd] in Hnd. apply NoDup_cons in Hnd as [Hni Hnd].
  assert (forall p, id0 ∉ repeats p l) as Hnr by (intros p Hp; by apply Hni, (repeats_in p)).
  assert ((sn, i) ∈ l -> i <> id0) as Hne.
  { intros Hl ->. apply Hni. change (map snd l) with (snd <$> l). apply elem_of_list_fmap. exists (sn, id0). done. }
  assert ((sn, i) ∈ l -> i ∈ repeats (Some (sn_tree sn0)) l -> 
     (repeats prev ((sn0, id0) :: l) = repeats (Some (sn_tree sn0)) l) ->
     exists l1 l2 l3 sn' j, (sn0, id0) :: l = l1 ++ (sn', j) :: l2 ++ (sn, i) :: l3 /\ sn_tree sn' = sn_tree sn /\ j ∉ repeats prev ((sn0, id0) :: l)) as Hkeep.
  { intros Hl Hr ->. destruct (IH (Some (sn_tree sn0)) Hnd Hl Hr) as [E|(l1 & l2 & l3 & sn' & j & -> & Et & Hj)].
    - injection E as E. apply elem_of_list_split in Hl as (l1 & l2 & ->). exists [], l1, l2, sn0, id0. done.
    - exists ((sn0, id0) :: l1), l2, l3, sn', j. done. }
  simpl. destruct prev as [t|].
  - case_bool_decide as Et.
    + intros Hr. apply elem_of_cons in Hin as [E|Hl]; [injection E as -> ->; left; by rewrite Et|].
      apply elem_of_cons in Hr as [->|Hr]; [by destruct (Hne Hl)|].
      destruct (IH (Some t) Hnd Hl Hr) as [E|(l1 & l2 & l3 & sn' & j & -> & Es & Hj)]; [by left|]. right.
      exists ((sn0, id0) :: l1), l2, l3, sn', j. split; [done|]. split; [done|]. apply not_elem_of_cons. split; [|done].
      intros ->. apply Hni. rewrite map_app. apply elem_of_app. right. by left.
    + intros Hr. right. apply elem_of_cons in Hin as [E|Hl]; [injection E as -> ->; by destruct (Hnr (Some (sn_tree sn0)))|].
      simpl in Hkeep. rewrite bool_decide_eq_false_2 in Hkeep by done. apply Hkeep; done.
  - intros Hr. right. apply elem_of_cons in Hin as [E|Hl]; [injection E as -> ->; by destruct (Hnr (Some (sn_tree sn0)))|].
    by apply Hkeep.
Qed.

Lemma forget_snaps H k ids i : k_snaps (apply_ops H k (map DelSnap ids)) !! i = if bool_decide (i ∈ ids) then None else k_snaps k !! i.
Proof.
  revert k. induction ids as [|j ids IH]; intros k; cbn [map]; [by rewrite bool_decide_eq_false_2 by apply not_elem_of_nil|].
  unfold apply_ops in *. cbn [foldl]. rewrite IH. cbn [apply_op k_snaps].
  destruct (decide (i = j)) as [->|Hn].
  - rewrite lookup_delete, (bool_decide_eq_true_2 (j ∈ j :: ids)) by (by left). by destruct (bool_decide _).
  - rewrite lookup_delete_ne by done. erewrite (bool_decide_ext (i ∈ j :: ids)); [done|]. rewrite elem_of_cons. naive_solver.
Qed.
Lemma forget_rest H k ids : k_packs (apply_ops H k (map DelSnap ids)) = k_packs k /\ k_indexes (apply_ops H k (map DelSnap ids)) = k_indexes k.
Proof. revert k. induction ids as [|j ids IH]; intros k; cbn [map]; [done|]. unfold apply_ops in *. cbn [foldl]. apply (IH (apply_op H k (DelSnap j))). Qed.

Lemma chronological_in k snaps sn i : chronological k snaps -> (sn, i) ∈ snaps <-> k_snaps k !! i = Some sn.
Proof.
  intros [Hp _]. rewrite <-Hp. rewrite elem_of_list_In, in_map_iff. split.
  - intros ([a b] & E & Hin). injection E as <- <-. by apply elem_of_map_to_list, elem_of_list_In.
  - intros E. exists (i, sn). split; [done|]. by apply elem_of_list_In, elem_of_map_to_list.
Qed.
Lemma chronological_nodup k snaps : chronological k snaps -> NoDup (map snd snaps).
Proof.
  intros [Hp _]. rewrite <-Hp, map_map. cbn [snd]. apply (NoDup_fst_map_to_list (k_snaps k)).
Qed.
Lemma chronological_older k l1 a l2 b l3 : chronological k (l1 ++ a :: l2 ++ b :: l3) -> (sn_time a.1 <= sn_time b.1)%Z.
Proof.
  intros [_ Hs]. apply Sorted_StronglySorted in Hs; [|intros x y z; lia].
  induction l1 as [|c l1 IH]; simpl in Hs; inversion Hs as [|? ? Hs' Hf]; subst; [|by apply IH].
  rewrite Forall_forall in Hf. apply Hf. apply elem_of_app. right. by left.
Qed.

(** [removed] are the snapshots whose removal took effect: all the program asked
    for, or fewer after an interruption or when the backend refuses some. *)
Theorem C34_duplicates_keep_an_older_one H k snaps removed :
  chronological k snaps -> (forall i, i ∈ removed -> i ∈ repeats None snaps) ->
  let k' := apply_ops H k (forget_ops false removed) in
  k_packs k' = k_packs k /\ k_indexes k' = k_indexes k /\
  (forall i sn, k_snaps k' !! i = Some sn -> k_snaps k !! i = Some sn) /\
  (forall i sn, k_snaps k !! i = Some sn -> k_snaps k' !! i = None ->
     exists j sn', k_snaps k' !! j = Some sn' /\ sn_tree sn' = sn_tree sn /\ (sn_time sn' <= sn_time sn)%Z) /\
  (forall i sn, k_snaps k !! i = Some sn -> exists j sn', k_snaps k' !! j = Some sn' /\ sn_tree sn' = sn_tree sn) /\
  (forall ids, apply_ops H k (forget_ops true ids) = k).
Proof.
  intros Hc Hr k'. unfold k', forget_ops.
  assert (forall i sn, k_snaps k !! i = Some sn -> k_snaps (apply_ops H k (map DelSnap removed)) !! i = None ->
     exists j sn', k_snaps (apply_ops H k (map DelSnap removed)) !! j = Some sn' /\ sn_tree sn' = sn_tree sn /\ (sn_time sn' <= sn_time sn)%Z) as Hold.
  { intros i sn Hi. rewrite forget_snaps. case_bool_decide as Hin; [|congruence]. intros _.
    destruct (repeats_older None snaps sn i) as [?|(l1 & l2 & l3 & sn' & j & El & Et & Hj)]; [by eapply chronological_nodup|
      by apply (chronological_in k)|by apply Hr|done|].
    exists j, sn'. split.
    - rewrite forget_snaps, bool_decide_eq_false_2 by (intros Hj'; by apply Hj, Hr). apply (chronological_in k snaps); [done|].
      rewrite El. apply elem_of_app. right. by left.
    - split; [done|]. rewrite El in Hc. by apply chronological_older in Hc. }
  destruct (forget_rest H k removed) as [Hp Hx]. split; [done|]. split; [done|]. split.
  - intros i sn. rewrite forget_snaps. by case_bool_decide.
  - split; [done|]. split; [|done]. intros i sn Hi. destruct (k_snaps (apply_ops H k (map DelSnap removed)) !! i) as [s|] eqn:E.
    + exists i, s. split; [done|]. rewrite forget_snaps in E. case_bool_decide; congruence.
    + destruct (Hold i sn Hi E) as (j & sn' & ? & ? & _). eauto.
Qed.

(** When it succeeds no two snapshots in a row have the same contents, and only
    the oldest of every run of equal ones is left. *)
Lemma repeats_kept prev l : NoDup (map snd l) ->
  let kept := List.filter (fun x : snapshot * oid => negb (bool_decide (x.2 ∈ repeats prev l))) l in
  Sorted (fun a b => sn_tree a.1 <> sn_tree b.1) kept /\
  (forall t, prev = Some t -> match kept with x :: _ => sn_tree x.1 <> t | [] => True end).
Proof.
  revert prev. induction l as [|[sn id] l IH]; intros prev Hnd; [split; [constructor|done]|].
  cbn [map snd] in Hnd. apply NoDup_cons in Hnd as [Hni Hnd].
  assert (forall p, id ∉ repeats p l) as Hnr by (intros p Hp; by apply Hni, (repeats_in p)).
  assert (forall t, Sorted (fun a b : snapshot * oid => sn_tree a.1 <> sn_tree b.1)
     (List.filter (fun x : snapshot * oid => negb (bool_decide (x.2 ∈ repeats (Some t) l))) l)) as Hs by (intros t; by apply IH).
  assert (forall f g : snapshot * oid -> bool, (forall x, x ∈ l -> f x = g x) -> List.filter f l = List.filter g l) as Hext.
  { intros f g Hfg. apply filter_ext_in. intros x Hx%elem_of_list_In. by apply Hfg. }
  assert (List.filter (fun x : snapshot * oid => negb (bool_decide (x.2 ∈ id :: repeats prev l))) l =
          List.filter (fun x : snapshot * oid => negb (bool_decide (x.2 ∈ repeats prev l))) l) as Hdrop.
  { apply Hext. intros x Hx. f_equal. apply bool_decide_ext. rewrite elem_of_cons. split; [|by right]. intros [E|?]; [|done].
    exfalso. apply Hni. rewrite <-E. change (map snd l) with (snd <$> l). apply elem_of_list_fmap. by exists x. }
  assert (repeats prev ((sn, id) :: l) = repeats (Some (sn_tree sn)) l -> (forall t, prev = Some t -> sn_tree sn <> t) ->
    let kept := List.filter (fun x : snapshot * oid => negb (bool_decide (x.2 ∈ repeats prev ((sn, id) :: l)))) ((sn, id) :: l) in
    Sorted (fun a b => sn_tree a.1 <> sn_tree b.1) kept /\
    (forall t, prev = Some t -> match kept with x :: _ => sn_tree x.1 <> t | [] => True end)) as Hkeep.
  { intros -> Hne. cbn [List.filter snd]. rewrite bool_decide_eq_false_2 by apply Hnr. cbn [negb]. split; [|done].
    constructor; [apply Hs|]. destruct (IH (Some (sn_tree sn)) Hnd) as [_ Hh]. specialize (Hh _ eq_refl). cbv zeta in Hh. clear Hdrop.
    revert Hh. set (F := List.filter _ l). destruct F as [|y ys]; constructor. simpl. congruence. }
  destruct prev as [t|]; [|by apply Hkeep]. simpl in Hkeep |- *. case_bool_decide as Et.
  - rewrite (bool_decide_eq_true_2 (id ∈ id :: _)) by (by left). cbn [negb]. rewrite Hdrop. by apply IH.
  - apply Hkeep; [done|]. congruence.
Qed.

Theorem C34_no_two_in_a_row_left H k snaps : chronological k snaps ->
  let k' := apply_ops H k (forget_ops false (repeats None snaps)) in
  exists left, chronological k' left /\ left `sublist_of` snaps /\ Sorted (fun a b => sn_tree a.1 <> sn_tree b.1) left.
Proof.
  intros Hc k'. exists (List.filter (fun x : snapshot * oid => negb (bool_decide (x.2 ∈ repeats None snaps))) snaps).
  pose proof (chronological_nodup k snaps Hc) as Hnd.
  assert (forall f : snapshot * oid -> bool, List.filter f snaps `sublist_of` snaps) as Hsub.
  { intros f. clear. induction snaps as [|x l IH]; simpl; [done|]. destruct (f x); by constructor. }
  split; [|split; [done|by apply repeats_kept]]. split.
  - apply NoDup_Permutation.
    + change (map ?f ?l) with (f <$> l). apply NoDup_fmap_2_strong; [|apply NoDup_map_to_list].
      intros [? ?] [? ?] _ _ E. simpl in E. congruence.
    + apply NoDup_ListNoDup, List.NoDup_filter, NoDup_ListNoDup. by apply (NoDup_fmap_1 snd).
    + intros [sn i]. rewrite !elem_of_list_In, filter_In, in_map_iff, <-elem_of_list_In, (chronological_in k) by done. cbn [snd].
      rewrite negb_true_iff, bool_decide_eq_false. split.
      * intros ([a b] & E & Hin). injection E as <- <-. apply elem_of_list_In, elem_of_map_to_list in Hin.
        unfold k', forget_ops in Hin. rewrite forget_snaps in Hin. case_bool_decide; naive_solver.
      * intros [E Hn]. exists (i, sn). split; [done|]. apply elem_of_list_In, elem_of_map_to_list.
        unfold k', forget_ops. by rewrite forget_snaps, bool_decide_eq_false_2.
  - destruct Hc as [_ Hs]. apply StronglySorted_Sorted. eapply (sublist_sorted _ snaps); [apply Hsub|].
    apply Sorted_StronglySorted; [exact by_time_trans|exact Hs].
Qed.

(** Naming snapshots to forget removes those and nothing else; names that are not
    found do not stop the rest. *)
Theorem C34_forget_removes_the_named H k snaps args ids good :
  forget_list snaps args = Ok (ids, good) ->
  let k' := apply_ops H k (forget_ops false ids) in
  k_packs k' = k_packs k /\ k_indexes k' = k_indexes k /\
  (good = true <-> forall a, a ∈ args -> exists x, find_snapshot snaps a = Ok x) /\
  forall i,
    ((exists a sn, a ∈ args /\ find_snapshot snaps a = Ok (sn, i)) -> k_snaps k' !! i = None) /\
    (~ (exists a sn, a ∈ args /\ find_snapshot snaps a = Ok (sn, i)) -> k_snaps k' !! i = k_snaps k !! i).
Proof.
  intros E k'. unfold k', forget_ops. destruct (forget_rest H k ids) as [-> ->]. split; [done|]. split; [done|].
  assert ((good = true <-> forall a, a ∈ args -> exists x, find_snapshot snaps a = Ok x) /\
    forall i, i ∈ ids <-> exists a sn, a ∈ args /\ find_snapshot snaps a = Ok (sn, i)) as [Hg Hi].
  { clear k'. revert ids good E. induction args as [|a args IH]; intros ids good E; simpl in E.
    - injection E as <- <-. split; [set_solver|]. intros i. set_solver.
    - destruct (find_snapshot snaps a) as [[sn j]| |] eqn:Ea; [| |done];
        destruct (forget_list snaps args) as [[ids' good']| |]; cbn [rbind fst snd] in E; try done; injection E as <- <-;
        destruct (IH ids' good' eq_refl) as [Hg Hi]; split.
      + rewrite Hg. split; [intros Hf b [->|Hb]%elem_of_cons; eauto|intros Hf b Hb; apply Hf; by right].
      + intros i. rewrite elem_of_cons, Hi. split.
        * intros [->|(b & s & Hb & Eb)]; [exists a, sn; split; [by left|done]|exists b, s; split; [by right|done]].
        * intros (b & s & [->|Hb]%elem_of_cons & Eb); [left; congruence|right; eauto].
      + split; [done|]. intros Hf. destruct (Hf a ltac:(by left)) as [x Hx]. congruence.
      + intros i. rewrite Hi. split.
        * intros (b & s & Hb & Eb). exists b, s. split; [by right|done].
        * intros (b & s & [->|Hb]%elem_of_cons & Eb); [congruence|eauto]. }
  split; [done|]. intros i. rewrite forget_snaps. split; intros Hn; case_bool_decide as Hb; try done.
  - by destruct Hb; apply Hi.
  - by destruct Hn; apply Hi.
Qed.

(** The snapshots of the running example, on a backend: the last repeats the one
    before it. *)
Definition ex_repo : backend := mkBackend ∅ ∅ (list_to_map (map (fun x : snapshot * oid => (x.2, x.1)) ex_snaps)).

Example C34_witness : chronological ex_repo ex_snaps /\ repeats None ex_snaps = [(snap_of 5 x03).2] /\
  forget_ids ex_snaps [ascii_bytes "DUPLICATES"] = Ok ([(snap_of 5 x03).2], true) /\
  forget_ids ex_snaps [ascii_bytes "LAST~1"; ascii_bytes "nosuch"; short_name (snap_of 1 x01).2] =
    Ok ([(snap_of 2 x03).2; (snap_of 1 x01).2], false).
Proof.
  assert (NoDup (map snd ex_snaps)) as Hn by (apply (bool_decide_unpack _); vm_compute; exact I).
  split; [|split_and!; vm_compute; reflexivity]. split; [|apply (bool_decide_unpack _); vm_compute; exact I].
  unfold ex_repo. cbn [k_snaps]. rewrite map_to_list_to_map.
  - by rewrite map_map, (map_ext _ id), map_id by (by intros []).
  - change (map ?f ?l) with (f <$> l). by rewrite <-list_fmap_compose.
Qed.

Print Assumptions C32_last_counts_from_the_newest.
Print Assumptions C32_prefix_names_the_only_match.
Print Assumptions C32_short_name.
Print Assumptions C32_no_crash_partial.
Print Assumptions C32_huge_number_refuted.
Print Assumptions C33_named_once_oldest_first_partial.
Print Assumptions C33_refuted.
Print Assumptions C34_duplicates_keep_an_older_one.
Print Assumptions C34_no_two_in_a_row_left.
Print Assumptions C34_forget_removes_the_named.
