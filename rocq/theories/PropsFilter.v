(** C43: filtered repositories give back the original bytes. *)

From Verif Require Import Base Formats Filtered.

(** ** What the machine of pipes keeps true *)
Definition pinv (x : bytes) (prog : program) (p : piping) : Prop :=
  (pi_copy p = Closed true \/ pi_copy p = Finished true -> pi_fed p = x)
  /\ (forall out ok, pi_child p = Exited out ok -> exists eof, prog (pi_fed p) eof out ok).
Lemma pinv_start x prog : pinv x prog pipe_start.
Proof. split; cbn; [intros [E|E]; discriminate|done]. Qed.
Lemma pinv_step x prog p p' : pipe_step x prog p p' -> pinv x prog p -> pinv x prog p'.
Proof.
  intros Hs [Hc He]. inversion Hs; subst; cbn in *; split; cbn; try done.
  - intros [E|E]; discriminate.
  - intros [E|E]; discriminate.
  - intros [E|E]; [discriminate|]. injection E as ->. by apply Hc; left.
  - intros o k' [= <- <-]. eauto.
Qed.
Lemma pinv_steps x prog p p' : rtc (pipe_step x prog) p p' -> pinv x prog p -> pinv x prog p'.
Proof. induction 1; eauto using pinv_step. Qed.

Lemma written_grows x prog p p' : pipe_step x prog p p' -> exists more, written (pi_child p') = written (pi_child p) ++ more.
Proof. destruct 1; cbn; try (by exists []; rewrite app_nil_r). by eexists. Qed.

Lemma consume_sound y unfilter u r : consume y unfilter u r -> forall o, r = Ok o ->
  pinv y unfilter (ur_pipe u) -> ur_given u <= length (written (pi_child (ur_pipe u))) ->
  exists eof, unfilter y eof (take (ur_given u) (written (pi_child (ur_pipe u))) ++ o) true.
Proof.
  induction 1 as [p p' g h r Hs _ IH|u n b u' r Hn Hr Hb _ IH|u n u' Hn Hr|u n u' Hn Hr|u n u' Hn Hr]; intros o Ho Hi Hg; try done.
  - destruct (written_grows _ _ _ _ Hs) as [more Hm]. cbn in *.
    destruct (IH o Ho) as [eof He]; [eauto using pinv_step|rewrite Hm, app_length; lia|].
    rewrite Hm, take_app_le in He by done. eauto.
  - destruct r as [rest| |]; try done. cbn in Ho. injection Ho as <-.
    inversion Hr as [p g h n' k Hk Hkn Hlen|a t out ok h n']; subst; cbn in *.
    + destruct (IH rest eq_refl Hi) as [eof He]; [done|].
      exists eof. rewrite app_assoc. 
      enough (take g (written (pi_child p)) ++ take k (drop g (written (pi_child p))) = take (g + k) (written (pi_child p))) as -> by done.
      rewrite <- (take_drop g (take (g + k) _)), take_take, Nat.min_l by lia. f_equal.
      rewrite take_drop_commute. done.
    + repeat case_match; congruence.
  - injection Ho as <-. inversion Hr as [p g h n' k Hk Hkn Hlen Hu Hn' He|a t out ok h n' Hu Hn' He]; subst; cbn in *.
    + exfalso. apply (f_equal (@length _)) in He. rewrite take_length, drop_length in He. cbn in He. lia.
    + destruct ok, h, t as [|[]|[]]; try done.
      destruct Hi as [Hc Hx]. cbn in *. destruct (Hx out true eq_refl) as [eof He1].
      exists eof. rewrite take_ge, app_nil_r by done. rewrite <- (Hc (or_intror eq_refl)). done.
Qed.

(** ** C43

    [filter] and [unfilter] invert each other: whatever [filter] makes of [x], if
    successful, [unfilter] makes [x] of it, if successful. *)
Definition inverts (filter unfilter : program) : Prop :=
  forall (x : bytes) eof (y : bytes) eof' (o : bytes), filter x eof y true -> unfilter y eof' o true -> o = x.

Theorem C43_reading_returns_what_was_written (filter unfilter : program) (name x : bytes) (st st' : fstored) (o : bytes) :
  inverts filter unfilter -> fwrite filter name x st (Ok tt) st' -> fread unfilter name st' (Ok o) -> o = x.
Proof.
  intros Hinv Hw [?|(y & Hy & Hc)]; [done|].
  inversion Hw as [| | |p out Hp Ht Hx]; subst. rewrite lookup_insert in Hy. injection Hy as <-.
  apply pinv_steps in Hp; [|apply pinv_start]. destruct Hp as [Hfed Hex].
  destruct (Hex _ _ Hx) as [eof Hf]. rewrite (Hfed (or_intror Ht)) in Hf.
  destruct (consume_sound _ _ _ _ Hc o eq_refl) as [eof' Hu]; [apply pinv_start|cbn; lia|].
  cbn in Hu. eauto.
Qed.
Print Assumptions C43_reading_returns_what_was_written.

(** Whatever happens to the programs, the pipes or the repository behind: a write that is
    reported as failed leaves everything as it was, one that is not has stored what the
    program made of all of the bytes, and nothing else has changed. *)
Theorem C43_failed_filters_leave_nothing (filter : program) (name x : bytes) (st st' : fstored) r :
  fwrite filter name x st r st' ->
  (r = Err /\ st' = st)
  \/ (r = Ok tt /\ exists y eof, filter x eof y true /\ st' = <[name := y]> st).
Proof.
  destruct 1 as [| | |p out Hp Ht Hx]; [by left..|right].
  apply pinv_steps in Hp; [|apply pinv_start]. destruct Hp as [Hfed Hex].
  destruct (Hex _ _ Hx) as [eof Hf]. rewrite (Hfed (or_intror Ht)) in Hf. eauto 10.
Qed.
Print Assumptions C43_failed_filters_leave_nothing.

(** In particular if the program only ever fails on these bytes. *)
Theorem C43_failing_filter (filter : program) (name x : bytes) (st st' : fstored) r :
  (forall eof y, ~ filter x eof y true) -> fwrite filter name x st r st' -> r = Err /\ st' = st.
Proof.
  intros Hf Hw. apply C43_failed_filters_leave_nothing in Hw as [?|(_ & y & eof & Hy & _)]; [done|].
  by destruct (Hf eof y).
Qed.
Print Assumptions C43_failing_filter.

(** An [unfilter] that fails on the file, or a file that cannot be read to its end, is
    not taken for the end of the data. *)
Theorem C43_failing_unfilter (unfilter : program) (name : bytes) (st : fstored) (y o : bytes) :
  st !! name = Some y -> fread unfilter name st (Ok o) -> exists eof, unfilter y eof o true.
Proof.
  intros Hy [?|(y' & Hy' & Hc)]; [done|]. assert (y' = y) as -> by congruence.
  destruct (consume_sound _ _ _ _ Hc o eq_refl) as [eof Hu]; [apply pinv_start|cbn; lia|eauto].
Qed.
Print Assumptions C43_failing_unfilter.

(** Both commands or neither; and what [init] writes is read back. *)
Theorem C43_one_command_is_rejected {A} (c : config_file A) :
  match read_config c with
  | Ok c' => co_same c' = cf_same c
      /\ (co_filter c' = None /\ cf_filter c = None /\ cf_unfilter c = None
          \/ exists f u, co_filter c' = Some (f, u) /\ cf_filter c = Some f /\ cf_unfilter c = Some u)
  | Err => (cf_filter c = None /\ cf_unfilter c <> None) \/ (cf_filter c <> None /\ cf_unfilter c = None)
  | Panic => False
  end.
Proof. unfold read_config. destruct (cf_filter c) eqn:E1, (cf_unfilter c) eqn:E2; cbn; naive_solver. Qed.
Print Assumptions C43_one_command_is_rejected.
Theorem C43_written_configurations_are_read {A} (c : configuration A) : read_config (write_config c) = Ok c.
Proof. destruct c as [a [[f u]|]]; done. Qed.
Print Assumptions C43_written_configurations_are_read.

(** ** Reading may panic

    Whatever the file and the program, when all goes well: the program may have ended
    before the thread that fed it has, and line 62 is an assertion. *)
Lemma consume_steps y unfilter p p' g h r : rtc (pipe_step y unfilter) p p' ->
  consume y unfilter (mkUnfilterRead p' g h) r -> consume y unfilter (mkUnfilterRead p g h) r.
Proof. induction 1; eauto using consume_step. Qed.
Lemma all_fed y (unfilter : program) o : unfilter y true o true ->
  rtc (pipe_step y unfilter) pipe_start (mkPiping y (Closed true) (Exited o true)).
Proof.
  intros Hu. eapply rtc_l; [apply (pipe_feed _ _ [] y []); by rewrite app_nil_r|].
  eapply rtc_l; [apply pipe_close|]. eapply rtc_l; [apply (pipe_emit _ _ _ _ [] o)|].
  eapply rtc_l; [by apply pipe_exit|]. apply rtc_refl.
Qed.
Lemma consume_all y unfilter p g h r out ok : pi_child p = Exited out ok -> g <= length out ->
  consume y unfilter (mkUnfilterRead p (length out) h) r ->
  consume y unfilter (mkUnfilterRead p g h) (let* rest := r in Ok (drop g out ++ rest)).
Proof.
  intros Hp Hg Hc. destruct (decide (g = length out)) as [->|Hne].
  { rewrite drop_ge by done. destruct r; done. }
  assert (drop g out <> []) as Hd.
  { intros E. apply (f_equal (@length _)) in E. rewrite drop_length in E. cbn in E. lia. }
  apply (consume_some _ _ _ (length out) (drop g out) (mkUnfilterRead p (length out) h)); [lia| |done|done].
  pose proof (uread_some p g h (length out) (length out - g)) as Hr. rewrite Hp in Hr. cbn in Hr.
  replace (g + (length out - g)) with (length out) in Hr by lia.
  rewrite take_ge in Hr by (rewrite drop_length; lia). apply Hr; lia.
Qed.

Theorem C43_refuted_reading_may_panic (unfilter : program) (name : bytes) (st : fstored) (y o : bytes) :
  st !! name = Some y -> unfilter y true o true -> fread unfilter name st Panic.
Proof.
  intros Hy Hu. right. exists y. split; [done|].
  eapply consume_steps; [by apply all_fed|].
  apply (consume_all y unfilter (mkPiping y (Closed true) (Exited o true)) 0 true Panic o true eq_refl); [lia|].
  eapply (consume_panic _ _ _ 1); [lia|]. apply (uread_end y (Closed true) o true true).
Qed.
Print Assumptions C43_refuted_reading_may_panic.

(** If the thread has ended in time, all is well: the premises of the theorems above can be
    met whatever the programs. *)
Theorem C43_reading_may_succeed (filter unfilter : program) (name x y : bytes) (st : fstored) :
  filter x true y true -> unfilter y true x true ->
  fwrite filter name x st (Ok tt) (<[name := y]> st) /\ fread unfilter name (<[name := y]> st) (Ok x).
Proof.
  intros Hf Hu. split.
  - apply (fwrite_done _ _ _ _ (mkPiping x (Finished true) (Exited y true))); [|done..].
    eapply rtc_r; [by apply all_fed|]. apply pipe_finish.
  - right. exists y. rewrite lookup_insert. split; [done|].
    eapply consume_steps; [eapply rtc_r; [by apply all_fed|apply pipe_finish]|].
    pose proof (consume_all y unfilter (mkPiping y (Finished true) (Exited x true)) 0 true (Ok []) x true eq_refl) as Hc.
    cbn in Hc. rewrite app_nil_r in Hc. apply Hc; [lia|].
    eapply (consume_end _ _ _ 1); [lia|]. apply (uread_end y (Finished true) x true true).
Qed.
Print Assumptions C43_reading_may_succeed.

(** Reading on after the end panics. *)
Theorem C43_refuted_reading_on u n u' n' r u'' : 0 < n' ->
  uread u n (Ok []) u' -> uread u' n' r u'' -> r = Panic.
Proof.
  intros Hn H1 H2. inversion H1 as [p g h ? k Hk Hkn Hlen Hu Hm E|a t out ok h ? Hu Hm E]; subst.
  - exfalso. apply (f_equal (@length _)) in E. rewrite take_length, drop_length in E. cbn in E. lia.
  - destruct ok; [|done]. inversion H2; subst; [cbn in *; lia|done].
Qed.
Print Assumptions C43_refuted_reading_on.

(** ** A case: [rev] inverts itself; [head] is no inverse, and a failing program none *)
Definition rev_program : program := fun x eof y ok => eof = true /\ y = rev x /\ ok = true.
Definition cut_program : program := fun x eof y ok => y = take 1 x /\ ok = true.
Definition fail_program : program := fun x eof y ok => ok = false.
Example C43_witness :
  inverts rev_program rev_program
  /\ ~ inverts rev_program cut_program
  /\ (exists st' : fstored, fwrite rev_program [x61] [x62; x63] ∅ (Ok tt) st' /\ st' !! [x61] = Some [x63; x62]
      /\ fread rev_program [x61] st' (Ok [x62; x63]) /\ fread fail_program [x61] st' Err)
  /\ (forall st' : fstored, ~ fwrite fail_program [x61] [x62; x63] ∅ (Ok tt) st').
Proof.
  split; [|split; [|split]].
  - intros x eof y eof' o (_ & -> & _) (_ & -> & _). apply rev_involutive.
  - intros H. assert (([x63] : bytes) = [x62; x63]) as E; [|done].
    apply (H [x62; x63] true [x63; x62] true); done.
  - exists (<[[x61] := [x63; x62]]> ∅).
    destruct (C43_reading_may_succeed rev_program rev_program [x61] [x62; x63] [x63; x62] ∅) as [Hw Hr]; [done..|].
    split; [done|]. split; [apply lookup_insert|]. split; [done|].
    right. exists [x63; x62]. rewrite lookup_insert. split; [done|].
    eapply (consume_steps _ _ _ (mkPiping [] Feeding (Exited [] false))); [apply rtc_once, pipe_exit; done|].
    eapply (consume_err _ _ _ 1); [lia|]. apply (uread_end [] Feeding [] false true).
  - intros st' Hw. apply C43_failing_filter in Hw as [? _]; [done|]. by intros eof y.
Qed.
