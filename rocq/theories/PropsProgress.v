(** Property C49: progress output. *)

From Verif Require Import Base Formats Hashing Locations Progress.
From stdpp Require Import relations.

(** Line lengths are machine words. *)
Definition fits_word (l : list bytes) : Prop := (Z.of_nat (length l) < 2 ^ 64)%Z.

(** ** Proofs *)

Lemma tail_index (back : list bytes) w : w - 3 <= length back -> 3 < w -> fits_word back ->
  (((Z.of_nat (length back) - Z.of_nat w) mod 2 ^ 64 + 3) mod 2 ^ 64 = Z.of_nat (length back + 3 - w))%Z.
Proof.
  intros Hb Hw Hf. unfold fits_word in Hf. rewrite Z.add_mod_idemp_l by lia. rewrite Z.mod_small; lia.
Qed.

(** ** C49 *)

(** In release builds, whose arithmetic wraps: for every path that has a file name, every way to take
    texts apart into symbols, and every width, no crash; at most [w] symbols; a path
    that fits is shown in full; of one that does not, the end of the file name is
    shown, after three dots, on all of the width. *)
Theorem C49_shown_paths_fit_partial : forall graphemes p w f,
  file_name p = Some f -> fits_word (graphemes f) ->
  exists shown, truncate_path false graphemes p w = Ok shown /\ length shown <= w /\
    (3 < w -> length (graphemes p) <= w -> shown = graphemes p) /\
    (3 < w -> w < length (graphemes p) -> length shown = w /\
       exists front back, shown = front ++ dots ++ back /\ front `prefix_of` graphemes p /\ back `suffix_of` graphemes f /\
         (front = [] \/ back = graphemes f)).
Proof.
  intros graphemes p w f Hn Hf. unfold truncate_path. destruct (decide (w <= 3)) as [Hw|Hw].
  { rewrite bool_decide_eq_true_2 by done. exists (replicate w [dot]). split; [done|]. rewrite replicate_length. split; [done|]. split; lia. }
  rewrite bool_decide_eq_false_2 by done. destruct (decide (w < length (graphemes p))) as [Hlt|Hge].
  2: { rewrite bool_decide_eq_false_2 by done. exists (graphemes p). split; [done|]. split; [lia|]. split; [done|lia]. }
  rewrite bool_decide_eq_true_2 by done. rewrite Hn. destruct (decide (w - 3 <= length (graphemes f))) as [Hb|Hb].
  - rewrite bool_decide_eq_true_2 by done. unfold usize_sub, usize_add. cbn [andb rbind].
    rewrite tail_index by (done || lia). unfold slice_from. rewrite bool_decide_eq_true_2 by lia. cbn [rbind]. rewrite Nat2Z.id.
    eexists. split; [done|]. assert (length (dots ++ drop (length (graphemes f) + 3 - w) (graphemes f)) = w) as Hlen.
    { rewrite app_length, drop_length. cbn [dots length]. lia. }
    split; [lia|]. split; [lia|]. intros _ _. split; [done|]. exists [], (drop (length (graphemes f) + 3 - w) (graphemes f)).
    split; [done|]. split; [by exists (graphemes p)|]. split; [|by left]. exists (take (length (graphemes f) + 3 - w) (graphemes f)). by rewrite take_drop.
  - rewrite bool_decide_eq_false_2 by done. unfold slice_to. rewrite bool_decide_eq_true_2 by lia. cbn [rbind]. rewrite Nat2Z.id.
    eexists. split; [done|].
    assert (length (take (w - length (graphemes f) - 3) (graphemes p) ++ dots ++ graphemes f) = w) as Hlen.
    { rewrite !app_length, take_length. cbn [dots length]. lia. }
    split; [lia|]. split; [lia|]. intros _ _. split; [done|]. eexists _, _. split; [done|]. split; [|split; [|by right]].
    + exists (drop (w - length (graphemes f) - 3) (graphemes p)). by rewrite take_drop.
    + by exists [].
Qed.
Print Assumptions C49_shown_paths_fit_partial.

(** With checked arithmetic it is the same, except that names of nearly the width of the
    line crash: [back.len() - w + 3] goes below zero on the way. *)
Theorem C49_shown_paths_fit_checked_partial : forall graphemes p w f,
  file_name p = Some f -> fits_word (graphemes f) ->
  let n := length (graphemes f) in
  (Z.of_nat (n - w + 3) < 2 ^ 64)%Z ->
  (3 < w /\ w < length (graphemes p) /\ w - 3 <= n < w -> truncate_path true graphemes p w = Panic) /\
  (~ (3 < w /\ w < length (graphemes p) /\ w - 3 <= n < w) -> truncate_path true graphemes p w = truncate_path false graphemes p w).
Proof.
  intros graphemes p w f Hn Hf n Hs. subst n. unfold truncate_path. rewrite Hn. unfold usize_sub. split.
  - intros (H1 & H2 & H3 & H4). rewrite bool_decide_eq_false_2 by lia. rewrite bool_decide_eq_true_2 by done.
    rewrite bool_decide_eq_true_2 by done. rewrite bool_decide_eq_true_2 by done. done.
  - intros Hno. destruct (decide (w <= 3)); [by rewrite !bool_decide_eq_true_2 by done|]. rewrite !(bool_decide_eq_false_2 (w <= 3)) by done.
    destruct (decide (w < length (graphemes p))); [|by rewrite !(bool_decide_eq_false_2 (w < length (graphemes p))) by done].
    rewrite !(bool_decide_eq_true_2 (w < length (graphemes p))) by done.
    destruct (decide (w - 3 <= length (graphemes f))); [|by rewrite !(bool_decide_eq_false_2 (w - 3 <= length (graphemes f))) by done].
    rewrite !(bool_decide_eq_true_2 (w - 3 <= length (graphemes f))) by done.
    rewrite (bool_decide_eq_false_2 (length (graphemes f) < w)) by lia. cbn [andb rbind].
    unfold usize_add. unfold fits_word in Hf. rewrite (Z.mod_small (Z.of_nat (length (graphemes f)) - Z.of_nat w)) by lia.
    rewrite bool_decide_eq_false_2 by lia. done.
Qed.
Print Assumptions C49_shown_paths_fit_checked_partial.

(** Symbols of one byte each, to have examples. *)
Definition one_each (x : bytes) : list bytes := map (fun b => [b]) x.
Definition pg_path : bytes := ascii_bytes "/home/me/photos/holiday.jpeg".

(** A debug build crashes on this ordinary path, on a terminal of 14 columns. *)
Theorem C49_refuted_checked_arithmetic : file_name pg_path = Some (ascii_bytes "holiday.jpeg") /\
  truncate_path true one_each pg_path 14 = Panic.
Proof. split; by vm_compute. Qed.
Print Assumptions C49_refuted_checked_arithmetic.
(** A long path without a file name crashes in any build.  (Backup makes its paths
    canonical, so that they have one.) *)
Theorem C49_refuted_no_file_name : exists p, file_name p = None /\ truncate_path false one_each p 8 = Panic.
Proof. exists (ascii_bytes "/home/me/.."). split; by vm_compute. Qed.
Print Assumptions C49_refuted_no_file_name.

Example C49_witness :
  file_name pg_path = Some (ascii_bytes "holiday.jpeg") /\ fits_word (one_each (ascii_bytes "holiday.jpeg")) /\
  map (fun w => option_map (@concat _) match truncate_path false one_each pg_path w with Ok l => Some l | _ => None end) [2; 10; 14; 20; 80] =
  [Some (ascii_bytes ".."); Some (ascii_bytes "...ay.jpeg"); Some (ascii_bytes "...oliday.jpeg"); Some (ascii_bytes "/home...holiday.jpeg"); Some pg_path].
Proof. split; [by vm_compute|]. split; [by vm_compute|]. by vm_compute. Qed.

(** The spinner never reaches its unreachable case. *)
Theorem C49_spinner_is_total : forall i, is_Some (spinner i).
Proof.
  intros i. unfold spinner. assert (i mod 4 < 4)%N by (apply N.mod_lt; lia).
  destruct (i mod 4)%N as [|[[]|[]|]] eqn:E; try lia; eauto.
  all: try (destruct p; lia).
Qed.
Print Assumptions C49_spinner_is_total.

(** However the threads are scheduled: when the drawing thread has returned without an
    error it has drawn after the work was finished, so that the final numbers are
    shown; and once the work is finished it has at most two rounds to go. *)
Lemma pstep_rounds s : rtc pstep pstart s ->
  (forall i, ps_drawer s = Drawing i true -> ps_flag s = true) /\
  (ps_drawer s = Returned true -> exists i, last (ps_drawn s) = Some (i, true)).
Proof.
  intros Hr.
  assert (forall a b, rtc pstep a b -> 
    (forall i, ps_drawer a = Drawing i true -> ps_flag a = true) /\ (ps_drawer a = Returned true -> exists i, last (ps_drawn a) = Some (i, true)) ->
    (forall i, ps_drawer b = Drawing i true -> ps_flag b = true) /\ (ps_drawer b = Returned true -> exists i, last (ps_drawn b) = Some (i, true))) as Hgo.
  { induction 1 as [a|a b c Hab _ IH]; [done|]. intros [H1 H2]. apply IH. clear IH. destruct Hab; cbn in *.
    - split; [by destruct last|]. destruct last; [|done]. intros _. exists i. rewrite last_snoc. by rewrite (H1 i eq_refl).
    - done.
    - done.
    - done.
    - split; [|done]. done. }
  by eapply Hgo; [exact Hr|].
Qed.
Theorem C49_final_numbers_are_drawn : forall s, rtc pstep pstart s -> ps_drawer s = Returned true ->
  exists i, last (ps_drawn s) = Some (i, true).
Proof. intros s Hr. by apply pstep_rounds. Qed.
Print Assumptions C49_final_numbers_are_drawn.
Theorem C49_drawing_stops : forall n s s', ps_flag s = true -> nsteps pstep n s s' ->
  n <= 3 /\ ((forall s'', ~ pstep s' s'') -> exists ok, ps_drawer s' = Returned ok).
Proof.
  intros n s s' Hf Hn.
  set (m := fun s : pstate => match ps_drawer s with Drawing _ true => 1 | Drawing _ false => 3 | Looking _ => 2 | Returned _ => 0 end).
  assert (forall n a b, nsteps pstep n a b -> ps_flag a = true -> ps_flag b = true /\ n + m b <= m a) as Hgo.
  { clear. induction 1 as [a|n a b c Hab _ IH]; [done|]. intros Hf.
    assert (ps_flag b = true /\ m b < m a) as [Hb Hm]; [|destruct (IH Hb); split; [done|lia]].
    destruct Hab; cbn in Hf |- *; subst; try (split; [done|]); unfold m; cbn; try (destruct last; lia); try lia. }
  destruct (Hgo n s s' Hn Hf) as [Hf' Hm]. split.
  - assert (m s <= 3) by (unfold m; destruct (ps_drawer s) as [? []| |]; lia). lia.
  - intros Hstuck. destruct s' as [f d l]. cbn in *. destruct d as [i b|i|ok]; [..|eauto]; exfalso; eapply Hstuck; [apply p_draw|]. rewrite Hf'. apply p_see.
Qed.
Print Assumptions C49_drawing_stops.
