(** C66: an error ends the filter programs too, and nothing else. *)

From Verif Require Import Base Children.

(** ** What the theorems say *)

(** The program lets go of a process without killing it: an error while writing. *)
Definition let_go (hs : list happening) (p : N) : Prop := exists i, HLeft i p ∈ hs.
(** Process ids that this program's processes had are not given out again. *)
Definition no_reuse (hs : list happening) : Prop :=
  forall hs1 h hs2, hs = hs1 ++ h :: hs2 -> forall i p, h = HSpawn i p \/ h = HStranger p -> forall j, HSpawn j p ∉ hs1.

(** ** What stays true *)

Definition owner (ph : phase) : option N := match ph with CSpawned p | CHeld p | CReaped p => Some p | _ => None end.
Record proper (hs : list happening) (w : world) : Prop := {
  pr_mine : forall i p, phases w !! i = Some (CSpawned p) \/ phases w !! i = Some (CHeld p) -> exists r, procs w !! p = Some (Ours r);
  pr_reaped : forall i p, phases w !! i = Some (CReaped p) -> procs w !! p = None;
  pr_used : forall i ph p, phases w !! i = Some ph -> owner ph = Some p -> exists j, HSpawn j p ∈ hs;
  pr_procs : forall p r, procs w !! p = Some (Ours r) -> exists j, HSpawn j p ∈ hs;
  pr_apart : forall i j ph ph' p, phases w !! i = Some ph -> phases w !! j = Some ph' -> owner ph = Some p -> owner ph' = Some p -> i = j;
  pr_children : forall p, p ∈ children w <-> exists i, phases w !! i = Some (CHeld p) \/ phases w !! i = Some (CReaped p);
  pr_running : forall p, procs w !! p = Some (Ours true) -> let_go hs p \/ exists i, phases w !! i = Some (CSpawned p) \/ phases w !! i = Some (CHeld p);
  pr_taken : forall i l ps, phases w !! i = Some (CFatal l ps) -> (forall p, p ∈ l -> p ∈ ps \/ p ∈ map fst (asked w)) /\ (forall p, p ∈ ps -> p ∈ children w);
  pr_exiting : forall i l, phases w !! i = Some (CExiting l) -> forall p, p ∈ l -> p ∈ map fst (asked w);
  pr_asked : forall p t, (p, t) ∈ asked w -> t <> Some Stranger }.

Lemma no_reuse_app hs h : no_reuse (hs ++ [h]) -> no_reuse hs.
Proof. intros Hn hs1 h' hs2 -> i p Hh j. apply (Hn hs1 h' (hs2 ++ [h]) ltac:(by rewrite <-app_assoc) i p Hh j). Qed.
Lemma no_reuse_last hs h : no_reuse (hs ++ [h]) -> forall i p, h = HSpawn i p \/ h = HStranger p -> forall j, HSpawn j p ∉ hs.
Proof. intros Hn i p Hh j. by apply (Hn hs h [] eq_refl i p Hh j). Qed.

Lemma insert_phase (l : list phase) i ph j x : <[i := ph]> l !! j = Some x -> j = i /\ x = ph \/ j <> i /\ l !! j = Some x.
Proof. intros [(-> & <- & _)|(Hne & E)]%list_lookup_insert_Some; [by left|by right]. Qed.

Lemma proper_procs hs h w ps : proper hs w ->
  (forall p r, procs w !! p = Some (Ours r) -> exists r', ps !! p = Some (Ours r')) ->
  (forall p, ps !! p = Some (Ours true) -> procs w !! p = Some (Ours true)) ->
  (forall p r, ps !! p = Some (Ours r) -> exists r', procs w !! p = Some (Ours r')) ->
  (forall p, procs w !! p = None -> ps !! p = None \/ forall j, HSpawn j p ∉ hs) ->
  proper (hs ++ [h]) (set_procs ps w).
Proof.
  intros [P1 P2 P3 P4 P5 P6 P7 P8 P9 P10] H1 H2 H3 H4. split; cbn [set_procs procs phases children asked].
  - intros i p Hi. destruct (P1 i p Hi) as [r Hr]. eauto.
  - intros i p Hi. destruct (H4 p (P2 i p Hi)) as [?|Hn]; [done|]. exfalso. destruct (P3 i _ p Hi eq_refl) as [j Hj]. by apply (Hn j).
  - intros i ph p Hi Ho. destruct (P3 i ph p Hi Ho) as [j Hj]. exists j. apply elem_of_app. by left.
  - intros p r Hp. destruct (H3 p r Hp) as [r' Hp']. destruct (P4 p r' Hp') as [j Hj]. exists j. apply elem_of_app. by left.
  - done.
  - done.
  - intros p Hp. destruct (P7 p (H2 p Hp)) as [[i Hi]|?]; [|by right]. left. exists i. apply elem_of_app. by left.
  - done.
  - done.
  - done.
Qed.

Lemma proper_step hs h w w' : no_reuse (hs ++ [h]) -> proper hs w -> happens_in h w w' -> proper (hs ++ [h]) w'.
Proof.
  intros Hn P Hs. pose proof (no_reuse_last _ _ Hn) as Hnew. destruct Hs as [w i p Hi Hp|w i p Hi Hu|w i p Hi Hp|w i p Hi Hu|w i p Hi Hu|w i p Hi Hu|w p Hp|w p Hp|w p Hp|w i l Hi Hu Hl|w i l p ps Hi|w i l Hi|w i l Hi].
  7:{ apply proper_procs; [done|..].
      - intros q r Hq. destruct (decide (q = p)) as [->|Hne]; [rewrite lookup_insert; eauto|rewrite lookup_insert_ne by done; eauto].
      - intros q [[_ ?]|[_ Hq]]%lookup_insert_Some; done.
      - intros q r [[<- _]|[_ Hq]]%lookup_insert_Some; eauto.
      - intros q Hq. left. rewrite lookup_insert_ne; [done|]. intros ->. congruence. }
  7:{ apply proper_procs; [done|..].
      - intros q r Hq. rewrite lookup_insert_ne by (intros ->; congruence). eauto.
      - intros q [[_ ?]|[_ Hq]]%lookup_insert_Some; done.
      - intros q r [[_ ?]|[_ Hq]]%lookup_insert_Some; [done|eauto].
      - intros q Hq. destruct (decide (q = p)) as [->|Hne]; [right; apply (Hnew 0 p); by right|left; by rewrite lookup_insert_ne]. }
  7:{ apply proper_procs; [done|..].
      - intros q r Hq. rewrite lookup_delete_ne by (intros ->; congruence). eauto.
      - intros q [_ Hq]%lookup_delete_Some. done.
      - intros q r [_ Hq]%lookup_delete_Some. eauto.
      - intros q Hq. left. destruct (decide (q = p)) as [->|Hne]; [apply lookup_delete|by rewrite lookup_delete_ne]. }
  all: destruct P as [P1 P2 P3 P4 P5 P6 P7 P8 P9 P10].
  all: assert (forall q, (exists j, HSpawn j q ∈ hs) -> exists j, HSpawn j q ∈ hs ++ [h]) as Hgrow || idtac.
  all: assert (forall q h', (exists j, HSpawn j q ∈ hs) -> exists j, HSpawn j q ∈ hs ++ [h']) as Hg by (intros q h' [j Hj]; exists j; apply elem_of_app; by left).
  all: assert (forall q h', let_go hs q -> let_go (hs ++ [h']) q) as Hlg by (intros q h' [j Hj]; exists j; apply elem_of_app; by left).
  all: unfold set_procs, set_phase, set_children; cbn [procs phases children asked ended].
  all: pose proof (lookup_lt_Some _ _ _ Hi) as Hlt.
  - (* spawn *)
    assert (forall j ph, phases w !! j = Some ph -> owner ph <> Some p) as Hfree.
    { intros j ph Hj Ho. destruct (P3 j ph p Hj Ho) as [x Hx]. apply (Hnew i p ltac:(by left) x Hx). }
    split; cbn [procs phases children asked ended].
    + intros j q [Hj|Hj]; apply insert_phase in Hj as [(-> & E)|(_ & Hj)]; try done.
      * injection E as ->. rewrite lookup_insert. eauto.
      * rewrite lookup_insert_ne; [eauto|]. intros ->. by apply (Hfree j _ Hj).
      * rewrite lookup_insert_ne; [eauto|]. intros ->. by apply (Hfree j _ Hj).
    + intros j q Hj. apply insert_phase in Hj as [(-> & E)|(_ & Hj)]; [done|]. rewrite lookup_insert_ne; [eauto|]. intros ->. by apply (Hfree j _ Hj).
    + intros j ph q Hj Ho. apply insert_phase in Hj as [(-> & ->)|(_ & Hj)]; [|eauto]. injection Ho as ->. exists i. apply elem_of_app. right. by left.
    + intros q r [[<- _]|[_ Hq]]%lookup_insert_Some; [|eauto]. exists i. apply elem_of_app. right. by left.
    + intros j j' ph ph' q Hj Hj' Ho Ho'. apply insert_phase in Hj as [(-> & ->)|(Hne & Hj)], Hj' as [(-> & ->)|(Hne' & Hj')]; try done.
      * injection Ho as ->. by destruct (Hfree j' _ Hj').
      * injection Ho' as ->. by destruct (Hfree j _ Hj).
      * eauto.
    + intros q. rewrite P6. split; intros [j Hj]; exists j.
      * rewrite list_lookup_insert_ne; [done|]. intros ->. rewrite Hi in Hj. naive_solver.
      * destruct Hj as [Hj|Hj]; apply insert_phase in Hj as [(_ & ?)|(_ & Hj)]; try done; auto.
    + intros q [[<- _]|[_ Hq]]%lookup_insert_Some.
      * right. exists i. left. by apply list_lookup_insert.
      * destruct (P7 q Hq) as [?|[j Hj]]; [by left; apply Hlg|right]. exists j. rewrite list_lookup_insert_ne; [done|]. intros ->. rewrite Hi in Hj. naive_solver.
    + intros j l ps Hj. apply insert_phase in Hj as [(_ & ?)|(_ & Hj)]; [done|eauto].
    + intros j l Hj. apply insert_phase in Hj as [(_ & ?)|(_ & Hj)]; [done|eauto].
    + done.
  - (* register *)
    split; cbn [procs phases children asked ended].
    + intros j q [Hj|Hj]; apply insert_phase in Hj as [(-> & E)|(_ & Hj)]; try done; [eauto| |eauto]. injection E as ->. eauto.
    + intros j q Hj. apply insert_phase in Hj as [(-> & E)|(_ & Hj)]; [done|eauto].
    + intros j ph q Hj Ho. apply insert_phase in Hj as [(-> & ->)|(_ & Hj)]; [|eauto]. injection Ho as ->. apply Hg. by apply (P3 i (CSpawned q)).
    + eauto.
    + intros j j' ph ph' q Hj Hj' Ho Ho'. apply insert_phase in Hj as [(-> & ->)|(Hne & Hj)], Hj' as [(-> & ->)|(Hne' & Hj')]; try done.
      * by apply (P5 i j' (CSpawned p) ph' q).
      * by apply (P5 j i ph (CSpawned p) q).
      * eauto.
    + intros q. rewrite elem_of_union, elem_of_singleton, P6. split.
      * intros [->|[j Hj]]; [exists i; left; by apply list_lookup_insert|]. exists j. rewrite list_lookup_insert_ne; [done|]. intros ->. rewrite Hi in Hj. naive_solver.
      * intros [j [Hj|Hj]]; apply insert_phase in Hj as [(_ & E)|(_ & Hj)]; try done; [injection E as ->; by left|right; eauto..].
    + intros q Hq. destruct (P7 q Hq) as [?|[j Hj]]; [by left; apply Hlg|right]. destruct (decide (j = i)) as [->|Hne].
      * exists i. right. rewrite Hi in Hj. destruct Hj as [[= ->]|?]; [by apply list_lookup_insert|done].
      * exists j. by rewrite list_lookup_insert_ne.
    + intros j l ps Hj. apply insert_phase in Hj as [(_ & ?)|(_ & Hj)]; [done|]. specialize (Hu j _ Hj). done.
    + intros j l Hj. apply insert_phase in Hj as [(_ & ?)|(_ & Hj)]; [done|eauto].
    + done.
  - (* reap *)
    split; cbn [procs phases children asked ended].
    + intros j q [Hj|Hj]; apply insert_phase in Hj as [(-> & E)|(Hne & Hj)]; try done;
        (rewrite lookup_delete_ne; [eauto|]; intros ->; apply Hne; symmetry; eapply P5; [exact Hi|exact Hj|done|done]).
    + intros j q Hj. apply insert_phase in Hj as [(-> & E)|(_ & Hj)]; [injection E as ->; apply lookup_delete|].
      destruct (decide (q = p)) as [->|]; [apply lookup_delete|]. rewrite lookup_delete_ne by done. eauto.
    + intros j ph q Hj Ho. apply insert_phase in Hj as [(-> & ->)|(_ & Hj)]; [|eauto]. injection Ho as ->. apply Hg. by apply (P3 i (CHeld q)).
    + intros q r [_ Hq]%lookup_delete_Some. eauto.
    + intros j j' ph ph' q Hj Hj' Ho Ho'. apply insert_phase in Hj as [(-> & ->)|(Hne & Hj)], Hj' as [(-> & ->)|(Hne' & Hj')]; try done.
      * by apply (P5 i j' (CHeld p) ph' q).
      * by apply (P5 j i ph (CHeld p) q).
      * eauto.
    + intros q. rewrite P6. split; intros [j Hj].
      * destruct (decide (j = i)) as [->|Hne].
        -- rewrite Hi in Hj. destruct Hj as [[= ->]|?]; [|done]. exists i. right. by apply list_lookup_insert.
        -- exists j. by rewrite list_lookup_insert_ne.
      * destruct Hj as [Hj|Hj]; apply insert_phase in Hj as [(-> & E)|(_ & Hj)]; try done; [eauto| |eauto]. injection E as ->. eauto.
    + intros q [Hne Hq]%lookup_delete_Some. destruct (P7 q Hq) as [?|[j Hj]]; [by left; apply Hlg|right].
      exists j. rewrite list_lookup_insert_ne; [done|]. intros ->. rewrite Hi in Hj. destruct Hj as [?|[= ->]]; done.
    + intros j l ps Hj. apply insert_phase in Hj as [(_ & ?)|(_ & Hj)]; [done|eauto].
    + intros j l Hj. apply insert_phase in Hj as [(_ & ?)|(_ & Hj)]; [done|eauto].
    + done.
  - (* forget *)
    split; cbn [procs phases children asked ended].
    + intros j q [Hj|Hj]; apply insert_phase in Hj as [(-> & E)|(Hne & Hj)]; try done; eauto.
    + intros j q Hj. apply insert_phase in Hj as [(-> & E)|(_ & Hj)]; [done|eauto].
    + intros j ph q Hj Ho. apply insert_phase in Hj as [(-> & ->)|(_ & Hj)]; [done|eauto].
    + eauto.
    + intros j j' ph ph' q Hj Hj' Ho Ho'. apply insert_phase in Hj as [(-> & ->)|(Hne & Hj)], Hj' as [(-> & ->)|(Hne' & Hj')]; try done. eauto.
    + intros q. rewrite elem_of_difference, elem_of_singleton, P6. split.
      * intros [[j Hj] Hne]. exists j. rewrite list_lookup_insert_ne; [done|]. intros ->. rewrite Hi in Hj. destruct Hj as [?|[= ->]]; done.
      * intros [j [Hj|Hj]]; apply insert_phase in Hj as [(_ & E)|(Hne & Hj)]; try done; (split; [eauto|]; intros ->; apply Hne; eapply P5; [exact Hj|exact Hi|done|done]).
    + intros q Hq. destruct (P7 q Hq) as [?|[j Hj]]; [by left; apply Hlg|right]. exists j. rewrite list_lookup_insert_ne; [done|]. intros ->. rewrite Hi in Hj. naive_solver.
    + intros j l ps Hj. apply insert_phase in Hj as [(_ & ?)|(_ & Hj)]; [done|]. specialize (Hu j _ Hj). done.
    + intros j l Hj. apply insert_phase in Hj as [(_ & ?)|(_ & Hj)]; [done|eauto].
    + done.
  - (* killed *)
    split; cbn [procs phases children asked ended].
    + intros j q [Hj|Hj]; apply insert_phase in Hj as [(-> & E)|(Hne & Hj)]; try done;
        (destruct (decide (q = p)) as [->|]; [rewrite lookup_insert; eauto|rewrite lookup_insert_ne by done; eauto]).
    + intros j q Hj. apply insert_phase in Hj as [(-> & E)|(Hne & Hj)]; [done|]. rewrite lookup_insert_ne; [eauto|]. intros ->. apply Hne.
      eapply P5; [exact Hj|exact Hi|done|done].
    + intros j ph q Hj Ho. apply insert_phase in Hj as [(-> & ->)|(_ & Hj)]; [done|eauto].
    + intros q r [[<- _]|[_ Hq]]%lookup_insert_Some; [apply Hg; by apply (P3 i (CHeld p))|eauto].
    + intros j j' ph ph' q Hj Hj' Ho Ho'. apply insert_phase in Hj as [(-> & ->)|(Hne & Hj)], Hj' as [(-> & ->)|(Hne' & Hj')]; try done. eauto.
    + intros q. rewrite elem_of_difference, elem_of_singleton, P6. split.
      * intros [[j Hj] Hne]. exists j. rewrite list_lookup_insert_ne; [done|]. intros ->. rewrite Hi in Hj. destruct Hj as [[= ->]|?]; done.
      * intros [j [Hj|Hj]]; apply insert_phase in Hj as [(_ & E)|(Hne & Hj)]; try done; (split; [eauto|]; intros ->; apply Hne; eapply P5; [exact Hj|exact Hi|done|done]).
    + intros q [[_ ?]|[Hne Hq]]%lookup_insert_Some; [done|]. destruct (P7 q Hq) as [?|[j Hj]]; [by left; apply Hlg|right]. exists j. rewrite list_lookup_insert_ne; [done|]. intros ->. rewrite Hi in Hj. naive_solver.
    + intros j l ps Hj. apply insert_phase in Hj as [(_ & ?)|(_ & Hj)]; [done|]. specialize (Hu j _ Hj). done.
    + intros j l Hj. apply insert_phase in Hj as [(_ & ?)|(_ & Hj)]; [done|eauto].
    + done.
  - (* left *)
    split; cbn [procs phases children asked ended].
    + intros j q [Hj|Hj]; apply insert_phase in Hj as [(-> & E)|(Hne & Hj)]; try done; eauto.
    + intros j q Hj. apply insert_phase in Hj as [(-> & E)|(Hne & Hj)]; [done|eauto].
    + intros j ph q Hj Ho. apply insert_phase in Hj as [(-> & ->)|(_ & Hj)]; [done|eauto].
    + eauto.
    + intros j j' ph ph' q Hj Hj' Ho Ho'. apply insert_phase in Hj as [(-> & ->)|(Hne & Hj)], Hj' as [(-> & ->)|(Hne' & Hj')]; try done. eauto.
    + intros q. rewrite elem_of_difference, elem_of_singleton, P6. split.
      * intros [[j Hj] Hne]. exists j. rewrite list_lookup_insert_ne; [done|]. intros ->. rewrite Hi in Hj. destruct Hj as [[= ->]|?]; done.
      * intros [j [Hj|Hj]]; apply insert_phase in Hj as [(_ & E)|(Hne & Hj)]; try done; (split; [eauto|]; intros ->; apply Hne; eapply P5; [exact Hj|exact Hi|done|done]).
    + intros q Hq. destruct (decide (q = p)) as [->|Hne]; [left; exists i; apply elem_of_app; right; by left|].
      destruct (P7 q Hq) as [?|[j Hj]]; [by left; apply Hlg|right]. exists j. rewrite list_lookup_insert_ne; [done|]. intros ->. rewrite Hi in Hj. naive_solver.
    + intros j l ps Hj. apply insert_phase in Hj as [(_ & ?)|(_ & Hj)]; [done|]. specialize (Hu j _ Hj). done.
    + intros j l Hj. apply insert_phase in Hj as [(_ & ?)|(_ & Hj)]; [done|eauto].
    + done.
  - (* fatal *)
    split; cbn [procs phases children asked ended].
    + intros j q [Hj|Hj]; apply insert_phase in Hj as [(-> & E)|(Hne & Hj)]; try done; eauto.
    + intros j q Hj. apply insert_phase in Hj as [(-> & E)|(Hne & Hj)]; [done|eauto].
    + intros j ph q Hj Ho. apply insert_phase in Hj as [(-> & ->)|(_ & Hj)]; [done|eauto].
    + eauto.
    + intros j j' ph ph' q Hj Hj' Ho Ho'. apply insert_phase in Hj as [(-> & ->)|(Hne & Hj)], Hj' as [(-> & ->)|(Hne' & Hj')]; try done. eauto.
    + intros q. rewrite P6. split; intros [j Hj]; exists j.
      * rewrite list_lookup_insert_ne; [done|]. intros ->. rewrite Hi in Hj. naive_solver.
      * destruct Hj as [Hj|Hj]; apply insert_phase in Hj as [(_ & ?)|(_ & Hj)]; try done; auto.
    + intros q Hq. destruct (P7 q Hq) as [?|[j Hj]]; [by left; apply Hlg|right]. exists j. rewrite list_lookup_insert_ne; [done|]. intros ->. rewrite Hi in Hj. naive_solver.
    + intros j l' ps Hj. apply insert_phase in Hj as [(_ & E)|(_ & Hj)]; [|specialize (Hu j _ Hj); done]. injection E as -> ->. split; [auto|].
      intros q Hq. rewrite Hl in Hq. by apply elem_of_elements in Hq.
    + intros j l' Hj. apply insert_phase in Hj as [(_ & ?)|(_ & Hj)]; [done|eauto].
    + done.
  - (* ask *)
    assert (p ∈ children w) as Hpc by (apply (P8 i l (p :: ps) Hi); by left).
    assert (forall q, q ∈ map fst (asked w) -> q ∈ map fst (asked w ++ [(p, procs w !! p)])) as Hmore.
    { intros q Hq. rewrite map_app. apply elem_of_app. by left. }
    split; cbn [procs phases children asked ended].
    + intros j q [Hj|Hj]; apply insert_phase in Hj as [(-> & E)|(Hne & Hj)]; try done; eauto.
    + intros j q Hj. apply insert_phase in Hj as [(-> & E)|(Hne & Hj)]; [done|eauto].
    + intros j ph q Hj Ho. apply insert_phase in Hj as [(-> & ->)|(_ & Hj)]; [done|eauto].
    + eauto.
    + intros j j' ph ph' q Hj Hj' Ho Ho'. apply insert_phase in Hj as [(-> & ->)|(Hne & Hj)], Hj' as [(-> & ->)|(Hne' & Hj')]; try done. eauto.
    + intros q. rewrite P6. split; intros [j Hj]; exists j.
      * rewrite list_lookup_insert_ne; [done|]. intros ->. rewrite Hi in Hj. naive_solver.
      * destruct Hj as [Hj|Hj]; apply insert_phase in Hj as [(_ & ?)|(_ & Hj)]; try done; auto.
    + intros q Hq. destruct (P7 q Hq) as [?|[j Hj]]; [by left; apply Hlg|right]. exists j. rewrite list_lookup_insert_ne; [done|]. intros ->. rewrite Hi in Hj. naive_solver.
    + intros j l' ps' Hj. apply insert_phase in Hj as [(_ & E)|(_ & Hj)].
      * injection E as -> ->. destruct (P8 i l (p :: ps) Hi) as [A B]. split; [|intros; apply B; by right].
        intros q Hq. destruct (A q Hq) as [[->|?]%elem_of_cons|?]; [right|by left|right; by apply Hmore]. rewrite map_app. apply elem_of_app. right. by left.
      * destruct (P8 j l' ps' Hj) as [A B]. split; [|done]. intros q Hq. destruct (A q Hq); [by left|right; by apply Hmore].
    + intros j l' Hj. apply insert_phase in Hj as [(_ & ?)|(_ & Hj)]; [done|]. intros q Hq. apply Hmore. eauto.
    + intros q t [Hq|[= -> ->]%elem_of_list_singleton]%elem_of_app; [eauto|]. apply P6 in Hpc as [j [Hj|Hj]].
      * destruct (P1 j p ltac:(by right)) as [r ->]. done.
      * by rewrite (P2 j p Hj).
  - (* unlock *)
    split; cbn [procs phases children asked ended].
    + intros j q [Hj|Hj]; apply insert_phase in Hj as [(-> & E)|(Hne & Hj)]; try done; eauto.
    + intros j q Hj. apply insert_phase in Hj as [(-> & E)|(Hne & Hj)]; [done|eauto].
    + intros j ph q Hj Ho. apply insert_phase in Hj as [(-> & ->)|(_ & Hj)]; [done|eauto].
    + eauto.
    + intros j j' ph ph' q Hj Hj' Ho Ho'. apply insert_phase in Hj as [(-> & ->)|(Hne & Hj)], Hj' as [(-> & ->)|(Hne' & Hj')]; try done. eauto.
    + intros q. rewrite P6. split; intros [j Hj]; exists j.
      * rewrite list_lookup_insert_ne; [done|]. intros ->. rewrite Hi in Hj. naive_solver.
      * destruct Hj as [Hj|Hj]; apply insert_phase in Hj as [(_ & ?)|(_ & Hj)]; try done; auto.
    + intros q Hq. destruct (P7 q Hq) as [?|[j Hj]]; [by left; apply Hlg|right]. exists j. rewrite list_lookup_insert_ne; [done|]. intros ->. rewrite Hi in Hj. naive_solver.
    + intros j l' ps' Hj. apply insert_phase in Hj as [(_ & ?)|(_ & Hj)]; [done|eauto].
    + intros j l' Hj. apply insert_phase in Hj as [(_ & E)|(_ & Hj)]; [|eauto]. injection E as ->. intros q Hq.
      destruct (P8 i l [] Hi) as [A _]. destruct (A q Hq) as [?%elem_of_nil|?]; done.
    + done.
  - (* exit *)
    split; cbn [procs phases children asked ended]; eauto. intros q Hq. destruct (P7 q Hq); [by left; apply Hlg|by right].
Qed.

Lemma proper_fresh others n : proper [] (fresh_world others n).
Proof.
  assert (forall i ph, phases (fresh_world others n) !! i = Some ph -> ph = CNone) as Hn by (intros i ph [-> _]%lookup_replicate; done).
  split; cbn [fresh_world procs children asked].
  - intros i p [Hi|Hi]; by apply Hn in Hi.
  - intros i p Hi. by apply Hn in Hi.
  - intros i ph p Hi Ho. apply Hn in Hi as ->. done.
  - intros p r [_ Hp]%lookup_gset_to_gmap_Some. done.
  - intros i j ph ph' p Hi _ Ho. apply Hn in Hi as ->. done.
  - intros p. split; [intros Hp; by apply elem_of_empty in Hp|]. intros [i [Hi|Hi]]; by apply Hn in Hi.
  - intros p [_ Hp]%lookup_gset_to_gmap_Some. done.
  - intros i l ps Hi. by apply Hn in Hi.
  - intros i l Hi. by apply Hn in Hi.
  - intros p t Hp. by apply elem_of_nil in Hp.
Qed.
Lemma proper_on hs0 hs w w' : goes_on hs w w' -> no_reuse (hs0 ++ hs) -> proper hs0 w -> proper (hs0 ++ hs) w'.
Proof.
  induction 1 as [w|hs h w w' w'' Hgo IH Hend Hs]; intros Hn P; [by rewrite app_nil_r|]. rewrite app_assoc in *.
  eapply proper_step; [done| |done]. apply IH; [by eapply no_reuse_app|done].
Qed.

Lemma fatal_step i l h w w' : happens_in h w w' -> (exists ps, phases w !! i = Some (CFatal l ps)) \/ phases w !! i = Some (CExiting l) ->
  (exists ps, phases w' !! i = Some (CFatal l ps)) \/ phases w' !! i = Some (CExiting l).
Proof.
  intros Hs Hl. destruct Hs as [w j p Hi Hp|w j p Hi Hu|w j p Hi Hp|w j p Hi Hu|w j p Hi Hu|w j p Hi Hu|w p Hp|w p Hp|w p Hp|w j l' Hi Hu Hl'|w j l' p ps Hi|w j l' Hi|w j l' Hi];
    unfold set_procs, set_phase, set_children; cbn [phases]; try done.
  all: pose proof (lookup_lt_Some _ _ _ Hi) as Hlt.
  all: destruct (decide (i = j)) as [->|Hne]; [|by rewrite !list_lookup_insert_ne by done].
  all: rewrite list_lookup_insert by done; rewrite Hi in Hl; destruct Hl as [[ps' [=]]|[=]]; subst; eauto.
Qed.
Lemma fatal_on i l hs w w' : goes_on hs w w' -> (exists ps, phases w !! i = Some (CFatal l ps)) \/ phases w !! i = Some (CExiting l) ->
  (exists ps, phases w' !! i = Some (CFatal l ps)) \/ phases w' !! i = Some (CExiting l).
Proof. induction 1 as [w|hs h w w' w'' Hgo IH Hend Hs]; [done|]. intros Hl. eapply fatal_step; [done|auto]. Qed.

(** ** C66 *)

(** C66: by the time the program ends because of an error, it has asked every filter program
    that was running when the error was met to end -- except those just started and
    not entered in the list yet, and those an earlier error let go of.

    Partial: see the refutations below for the exceptions. *)
Theorem C66_an_error_ends_the_programs_partial others n hs w0 i w1 hs' w2 w3 :
  goes_on hs (fresh_world others n) w0 -> ended w0 = false -> happens_in (HFatal i) w0 w1 ->
  goes_on hs' w1 w2 -> ended w2 = false -> happens_in (HExit i) w2 w3 ->
  no_reuse (hs ++ [HFatal i] ++ hs') ->
  forall p, procs w0 !! p = Some (Ours true) ->
  p ∈ map fst (asked w3) \/ let_go hs p \/ exists j, phases w0 !! j = Some (CSpawned p).
Proof.
  intros Hgo He0 Hf Hgo' He2 Hx Hn p Hp.
  assert (no_reuse (hs ++ [HFatal i])) as Hn1.
  { intros hs1 h hs2 E. apply (Hn hs1 h (hs2 ++ hs')). rewrite app_assoc, E. by rewrite <-app_assoc. }
  assert (proper hs w0) as P0.
  { apply (proper_on [] hs _ _ Hgo (no_reuse_app _ _ Hn1) (proper_fresh others n)). }
  pose proof (proper_step _ _ _ _ Hn1 P0 Hf) as P1. rewrite app_assoc in Hn.
  pose proof (proper_on _ _ _ _ Hgo' Hn P1) as P2.
  destruct (pr_running _ _ P0 p Hp) as [?|[j [Hj|Hj]]]; [by right; left|right; right; eauto|left].
  inversion Hf as [| | | | | | | | |? ? l Hi Hu Hl E1 E2| | |]; subst.
  assert (p ∈ l) as Hin.
  { rewrite Hl. apply elem_of_elements. apply (pr_children _ _ P0). eauto. }
  pose proof (fatal_on i l _ _ _ Hgo') as Hk. unfold set_phase in Hk. cbn [phases] in Hk.
  rewrite list_lookup_insert in Hk by (by eapply lookup_lt_Some). specialize (Hk ltac:(left; eauto)).
  inversion Hx as [| | | | | | | | | | | |? ? l' Hi' E1 E2]; subst. cbn [asked]. destruct Hk as [[ps Hk]|Hk]; [congruence|].
  by apply (pr_exiting _ _ P2 i l Hk).
Qed.
Print Assumptions C66_an_error_ends_the_programs_partial.

(** C66: no other process is asked to end, as long as the ids of ended filter programs are
    not given out again. *)
Theorem C66_nothing_else_is_ended_partial others n hs w :
  goes_on hs (fresh_world others n) w -> no_reuse hs ->
  forall p what, (p, what) ∈ asked w -> what = None \/ exists running, what = Some (Ours running).
Proof.
  intros Hgo Hn p t Ht. pose proof (proper_on [] hs _ _ Hgo Hn (proper_fresh others n)) as P.
  pose proof (pr_asked _ _ P p t Ht) as Hs. destruct t as [[r|]|]; [right; eauto|done|by left].
Qed.
Print Assumptions C66_nothing_else_is_ended_partial.

(** C66: a filter program that has been waited for, or killed, is not left in the list: once no
    thread is at work the list is empty. *)
Theorem C66_finished_programs_are_forgotten others n hs w :
  goes_on hs (fresh_world others n) w -> no_reuse hs ->
  (forall i ph, phases w !! i = Some ph -> ph = CNone) ->
  children w = ∅ /\ forall p, procs w !! p = Some (Ours true) -> let_go hs p.
Proof.
  intros Hgo Hn Hi. pose proof (proper_on [] hs _ _ Hgo Hn (proper_fresh others n)) as P. split.
  - apply set_eq. intros p. split; [|intros Hp; by apply elem_of_empty in Hp]. intros [i [Hp|Hp]]%(pr_children _ _ P); by apply Hi in Hp.
  - intros p Hp. destruct (pr_running _ _ P p Hp) as [?|[i [H|H]]]; [done|by apply Hi in H..].
Qed.
Print Assumptions C66_finished_programs_are_forgotten.

(** ** Cases *)

(** The steps, worked out. *)
Definition freeb (w : world) : bool := forallb (fun p => negb (in_fatal p)) (phases w).
Lemma unlocked_ok w : freeb w = true -> unlocked w.
Proof.
  intros H i p Hp. unfold freeb in H. rewrite forallb_forall in H. specialize (H p). apply elem_of_list_lookup_2, elem_of_list_In in Hp.
  specialize (H Hp). by destruct (in_fatal p).
Qed.
Definition perform (h : happening) (w : world) : option world :=
  match h with
  | HSpawn i p => match phases w !! i, procs w !! p with Some CNone, None => Some (set_procs (<[p := Ours true]> (procs w)) (set_phase i (CSpawned p) w)) | _, _ => None end
  | HRegister i => match phases w !! i, freeb w with Some (CSpawned p), true => Some (set_children ({[p]} ∪ children w) (set_phase i (CHeld p) w)) | _, _ => None end
  | HReap i => match phases w !! i with
    | Some (CHeld p) => match procs w !! p with Some (Ours false) => Some (set_procs (delete p (procs w)) (set_phase i (CReaped p) w)) | _ => None end
    | _ => None end
  | HForget i => match phases w !! i, freeb w with Some (CReaped p), true => Some (set_children (children w ∖ {[p]}) (set_phase i CNone w)) | _, _ => None end
  | HKilled i p => match phases w !! i, freeb w with
    | Some (CHeld q), true => if decide (q = p) then Some (set_procs (<[p := Ours false]> (procs w)) (set_children (children w ∖ {[p]}) (set_phase i CNone w))) else None
    | _, _ => None end
  | HLeft i p => match phases w !! i, freeb w with
    | Some (CHeld q), true => if decide (q = p) then Some (set_children (children w ∖ {[p]}) (set_phase i CNone w)) else None
    | _, _ => None end
  | HEnds p => match procs w !! p with Some (Ours true) => Some (set_procs (<[p := Ours false]> (procs w)) w) | _ => None end
  | HStranger p => match procs w !! p with None => Some (set_procs (<[p := Stranger]> (procs w)) w) | _ => None end
  | HStrangerEnds p => match procs w !! p with Some Stranger => Some (set_procs (delete p (procs w)) w) | _ => None end
  | HFatal i => match phases w !! i, freeb w with
    | Some CNone, true => Some (set_phase i (CFatal (elements (children w)) (elements (children w))) w) | _, _ => None end
  | HAsk i p => match phases w !! i with
    | Some (CFatal l (q :: ps)) => if decide (q = p) then
        Some (mkWorld (procs w) (children w) (<[i := CFatal l ps]> (phases w)) (asked w ++ [(p, procs w !! p)]) (ended w)) else None
    | _ => None end
  | HUnlock i => match phases w !! i with Some (CFatal l []) => Some (set_phase i (CExiting l) w) | _ => None end
  | HExit i => match phases w !! i with Some (CExiting l) => Some (mkWorld (procs w) (children w) (phases w) (asked w) true) | _ => None end
  end.
Lemma perform_ok h w w' : perform h w = Some w' -> happens_in h w w'.
Proof.
  destruct h; cbn [perform]; intros E; repeat case_match; try done; simplify_eq;
    econstructor; eauto using unlocked_ok.
Qed.
Fixpoint perform_all (hs : list happening) (w : world) : option world :=
  match hs with
  | [] => Some w
  | h :: hs => if ended w then None else match perform h w with Some w' => perform_all hs w' | None => None end
  end.
Lemma go_cons hs h w w' w'' : ended w = false -> happens_in h w w' -> goes_on hs w' w'' -> goes_on (h :: hs) w w''.
Proof.
  intros He Hs Hgo. revert He Hs. induction Hgo as [w'|hs h' w' v v' Hgo IH He' Hs']; intros He Hs.
  - exact (go_snoc [] h w w w' (go_nil w) He Hs).
  - exact (go_snoc (h :: hs) h' w v v' (IH He Hs) He' Hs').
Qed.
Lemma perform_all_ok hs : forall w w', perform_all hs w = Some w' -> goes_on hs w w'.
Proof.
  induction hs as [|h hs IH]; intros w w' E; cbn [perform_all] in E; [injection E as ->; apply go_nil|].
  destruct (ended w) eqn:He; [done|]. destruct (perform h w) as [v|] eqn:Ev; [|done]. eapply go_cons; [done|by apply perform_ok|auto].
Qed.
Definition ends_up (hs : list happening) (w : world) (ok : world -> bool) : bool := match perform_all hs w with Some w' => ok w' | None => false end.
Lemma ends_up_ok hs w ok : ends_up hs w ok = true -> exists w', goes_on hs w w' /\ ok w' = true.
Proof. unfold ends_up. destruct (perform_all hs w) as [w'|] eqn:E; [|done]. intros H. exists w'. split; [by apply perform_all_ok|done]. Qed.

Global Instance proc_eq_dec : EqDecision proc.
Proof. solve_decision. Defined.
Global Instance phase_eq_dec : EqDecision phase.
Proof. solve_decision. Defined.
Definition isb {A} `{EqDecision A} (x y : A) : bool := bool_decide (x = y).
Lemma isb_ok {A} `{EqDecision A} (x y : A) : isb x y = true -> x = y.
Proof. unfold isb. by intros ?%bool_decide_eq_true. Qed.
Fixpoint no_reuseb (used : list N) (hs : list happening) : bool :=
  match hs with
  | [] => true
  | HSpawn _ p :: rest => negb (bool_decide (p ∈ used)) && no_reuseb (p :: used) rest
  | HStranger p :: rest => negb (bool_decide (p ∈ used)) && no_reuseb used rest
  | _ :: rest => no_reuseb used rest
  end.
Lemma no_reuseb_ok hs : no_reuseb [] hs = true -> no_reuse hs.
Proof.
  assert (forall used, no_reuseb used hs = true -> forall hs1 h hs2, hs = hs1 ++ h :: hs2 -> forall i p, h = HSpawn i p \/ h = HStranger p ->
    p ∉ used /\ forall j, HSpawn j p ∉ hs1) as H; [|intros E hs1 h hs2 Eh i p Hh; by apply (H [] E hs1 h hs2 Eh i p Hh)].
  induction hs as [|x hs IH]; intros used E hs1 h hs2 Eh i p Hh; [by destruct hs1|].
  destruct hs1 as [|y hs1]; injection Eh as -> ->.
  - split; [|intros j Hj; by apply elem_of_nil in Hj]. destruct Hh as [-> | ->]; cbn in E; apply andb_true_iff in E as [E _];
      apply negb_true_iff, bool_decide_eq_false in E; done.
  - assert (forall used', no_reuseb used' (hs1 ++ h :: hs2) = true -> (forall q, q ∈ used -> q ∈ used') -> (forall j q, y = HSpawn j q -> q ∈ used') ->
      p ∉ used /\ forall j, HSpawn j p ∉ y :: hs1) as H.
    { intros used' E' Hsub Hy. destruct (IH used' E' hs1 h hs2 eq_refl i p Hh) as [A B]. split; [auto|].
      intros j [<-|Hj]%elem_of_cons; [apply A; by eapply Hy|by apply (B j)]. }
    destruct y; cbn in E; try (apply (H used); [done|done|intros; done]).
    + apply andb_true_iff in E as [_ E]. apply (H _ E); [intros; by right|]. intros ? ? [= -> ->]. by left.
    + apply andb_true_iff in E as [_ E]. apply (H _ E); [done|done].
Qed.


(** Two filter programs are running; a third one has ended and been forgotten. An
    error asks both to end. *)
Definition ex_before : list happening :=
  [HSpawn 0 7%N; HRegister 0; HSpawn 1 8%N; HRegister 1; HEnds 7%N; HReap 0; HForget 0; HSpawn 0 9%N; HRegister 0].
Example C66_an_error_ends_the_programs_inhabited : exists w0 w1 w2 w3 hs',
  goes_on ex_before (fresh_world {[3%N]} 3) w0 /\ happens_in (HFatal 2) w0 w1 /\ goes_on hs' w1 w2 /\ happens_in (HExit 2) w2 w3 /\
  no_reuse (ex_before ++ [HFatal 2] ++ hs') /\ ended w0 = false /\ ended w2 = false /\
  procs w0 !! 8%N = Some (Ours true) /\ procs w0 !! 9%N = Some (Ours true) /\ map fst (asked w3) = [9%N; 8%N].
Proof.
  assert (match perform_all ex_before (fresh_world {[3%N]} 3) with
    | Some w0 => match perform (HFatal 2) w0 with
      | Some w1 => match perform_all [HAsk 2 9%N; HAsk 2 8%N; HUnlock 2] w1 with
        | Some w2 => match perform (HExit 2) w2 with
          | Some w3 => negb (ended w0) && (negb (ended w2) && (isb (procs w0 !! 8%N) (Some (Ours true)) && (isb (procs w0 !! 9%N) (Some (Ours true)) && isb (map fst (asked w3)) [9%N; 8%N])))
          | None => false end | None => false end | None => false end | None => false end = true) as H by (vm_compute; reflexivity).
  destruct (perform_all ex_before (fresh_world {[3%N]} 3)) as [w0|] eqn:E0; [|done].
  destruct (perform (HFatal 2) w0) as [w1|] eqn:E1; [|done]. destruct (perform_all [HAsk 2 9%N; HAsk 2 8%N; HUnlock 2] w1) as [w2|] eqn:E2; [|done].
  destruct (perform (HExit 2) w2) as [w3|] eqn:E3; [|done].
  apply andb_true_iff in H as [H1 H]. apply andb_true_iff in H as [H2 H]. apply andb_true_iff in H as [H3 H]. apply andb_true_iff in H as [H4 H5].
  exists w0, w1, w2, w3, [HAsk 2 9%N; HAsk 2 8%N; HUnlock 2].
  split; [by apply perform_all_ok|]. split; [by apply perform_ok|]. split; [by apply perform_all_ok|]. split; [by apply perform_ok|].
  split; [apply no_reuseb_ok; vm_compute; reflexivity|].
  split; [by apply negb_true_iff|]. split; [by apply negb_true_iff|]. split; [by apply isb_ok|]. split; [by apply isb_ok|by apply isb_ok].
Qed.

(** Once nobody is at work the list is empty. *)
Example C66_finished_programs_are_forgotten_inhabited : exists w,
  goes_on [HSpawn 0 7%N; HRegister 0; HSpawn 1 8%N; HRegister 1; HEnds 7%N; HReap 0; HForget 0; HKilled 1 8%N] (fresh_world {[3%N]} 2) w /\
  (forall i ph, phases w !! i = Some ph -> ph = CNone) /\ procs w !! 8%N = Some (Ours false).
Proof.
  edestruct (ends_up_ok [HSpawn 0 7%N; HRegister 0; HSpawn 1 8%N; HRegister 1; HEnds 7%N; HReap 0; HForget 0; HKilled 1 8%N] (fresh_world {[3%N]} 2)
    (fun w => isb (phases w) [CNone; CNone] && isb (procs w !! 8%N) (Some (Ours false)))) as (w & Hgo & H); [vm_compute; reflexivity|].
  apply andb_true_iff in H as [H1 H2]. exists w. split; [done|]. split; [|by apply isb_ok]. apply isb_ok in H1. rewrite H1.
  intros i ph [->|[->|Hi%elem_of_nil]%elem_of_cons]%elem_of_list_lookup_2%elem_of_cons; done.
Qed.

(** C66, refuted in full: a filter program that has been started and is not in the list
    yet is not asked to end, and goes on running after the program has ended. *)
Theorem C66_programs_may_outlive_the_error_refuted : exists hs others w p,
  goes_on hs (fresh_world others 2) w /\ no_reuse hs /\ ended w = true /\ (forall q, ~ let_go hs q) /\
  procs w !! p = Some (Ours true) /\ p ∉ map fst (asked w).
Proof.
  edestruct (ends_up_ok [HSpawn 0 7%N; HFatal 1; HUnlock 1; HExit 1] (fresh_world ∅ 2)
    (fun w => ended w && (isb (procs w !! 7%N) (Some (Ours true)) && isb (asked w) []))) as (w & Hgo & H); [vm_compute; reflexivity|].
  apply andb_true_iff in H as [H1 H]. apply andb_true_iff in H as [H2 H3]. exists [HSpawn 0 7%N; HFatal 1; HUnlock 1; HExit 1], ∅, w, 7%N.
  split; [done|]. split; [apply no_reuseb_ok; vm_compute; reflexivity|]. split; [done|]. split; [|split; [by apply isb_ok|]].
  - intros q [i Hi]. repeat (apply elem_of_cons in Hi as [?|Hi]; [done|]). by apply elem_of_nil in Hi.
  - apply isb_ok in H3. rewrite H3. apply not_elem_of_nil.
Qed.
Print Assumptions C66_programs_may_outlive_the_error_refuted.

(** ... even one entered in the list, if that happens after the list was gone
    through and before the program ends. *)
Theorem C66_late_programs_may_outlive_the_error_refuted : exists hs others w p,
  goes_on hs (fresh_world others 2) w /\ no_reuse hs /\ ended w = true /\ procs w !! p = Some (Ours true) /\
  p ∈ children w /\ p ∉ map fst (asked w).
Proof.
  edestruct (ends_up_ok [HFatal 1; HUnlock 1; HSpawn 0 7%N; HRegister 0; HExit 1] (fresh_world ∅ 2)
    (fun w => ended w && (isb (procs w !! 7%N) (Some (Ours true)) && (bool_decide (7%N ∈ children w) && isb (asked w) [])))) as (w & Hgo & H); [vm_compute; reflexivity|].
  apply andb_true_iff in H as [H1 H]. apply andb_true_iff in H as [H2 H]. apply andb_true_iff in H as [H3 H4].
  exists [HFatal 1; HUnlock 1; HSpawn 0 7%N; HRegister 0; HExit 1], ∅, w, 7%N.
  split; [done|]. split; [apply no_reuseb_ok; vm_compute; reflexivity|]. split; [done|]. split; [by apply isb_ok|]. split; [by apply bool_decide_eq_true in H3|].
  apply isb_ok in H4. rewrite H4. apply not_elem_of_nil.
Qed.
Print Assumptions C66_late_programs_may_outlive_the_error_refuted.

(** C66, refuted in full: a write that fails lets go of its filter program without
    ending it, and the error that then ends the program doesn't either. *)
Theorem C66_failed_writes_leave_their_program_refuted : exists hs others w p i,
  goes_on hs (fresh_world others 1) w /\ no_reuse hs /\ ended w = true /\ HRegister i ∈ hs /\ HLeft i p ∈ hs /\
  procs w !! p = Some (Ours true) /\ p ∉ map fst (asked w).
Proof.
  edestruct (ends_up_ok [HSpawn 0 7%N; HRegister 0; HLeft 0 7%N; HFatal 0; HUnlock 0; HExit 0] (fresh_world ∅ 1)
    (fun w => ended w && (isb (procs w !! 7%N) (Some (Ours true)) && isb (asked w) []))) as (w & Hgo & H); [vm_compute; reflexivity|].
  apply andb_true_iff in H as [H1 H]. apply andb_true_iff in H as [H2 H3].
  exists [HSpawn 0 7%N; HRegister 0; HLeft 0 7%N; HFatal 0; HUnlock 0; HExit 0], ∅, w, 7%N, 0.
  split; [done|]. split; [apply no_reuseb_ok; vm_compute; reflexivity|]. split; [done|].
  split; [by right; left|]. split; [by right; right; left|]. split; [by apply isb_ok|]. apply isb_ok in H3. rewrite H3. apply not_elem_of_nil.
Qed.
Print Assumptions C66_failed_writes_leave_their_program_refuted.

(** C66, refuted in full: a filter program that has ended and been waited for stays in the
    list for a while. If another process gets its id by then, that one is asked to end. *)
Theorem C66_strangers_may_be_ended_refuted : exists hs others w p,
  goes_on hs (fresh_world others 2) w /\ (p, Some Stranger) ∈ asked w.
Proof.
  edestruct (ends_up_ok [HSpawn 0 7%N; HRegister 0; HEnds 7%N; HReap 0; HStranger 7%N; HFatal 1; HAsk 1 7%N] (fresh_world ∅ 2)
    (fun w => isb (asked w) [(7%N, Some Stranger)])) as (w & Hgo & H); [vm_compute; reflexivity|].
  exists [HSpawn 0 7%N; HRegister 0; HEnds 7%N; HReap 0; HStranger 7%N; HFatal 1; HAsk 1 7%N], ∅, w, 7%N. split; [done|].
  apply isb_ok in H. rewrite H. by left.
Qed.
Print Assumptions C66_strangers_may_be_ended_refuted.

(** ... and if a new filter program of another thread gets it, that one is taken out
    of the list by the thread that had the first, and is then not asked to end. *)
Theorem C66_recycled_programs_may_outlive_the_error_refuted : exists hs others w p,
  goes_on hs (fresh_world others 3) w /\ ended w = true /\ (forall q, ~ let_go hs q) /\
  phases w !! 1 = Some (CHeld p) /\ procs w !! p = Some (Ours true) /\ p ∉ map fst (asked w).
Proof.
  edestruct (ends_up_ok [HSpawn 0 7%N; HRegister 0; HEnds 7%N; HReap 0; HSpawn 1 7%N; HRegister 1; HForget 0; HFatal 2; HUnlock 2; HExit 2] (fresh_world ∅ 3)
    (fun w => ended w && (isb (procs w !! 7%N) (Some (Ours true)) && (isb (phases w !! 1) (Some (CHeld 7%N)) && isb (asked w) [])))) as (w & Hgo & H); [vm_compute; reflexivity|].
  apply andb_true_iff in H as [H1 H]. apply andb_true_iff in H as [H2 H]. apply andb_true_iff in H as [H3 H4].
  exists [HSpawn 0 7%N; HRegister 0; HEnds 7%N; HReap 0; HSpawn 1 7%N; HRegister 1; HForget 0; HFatal 2; HUnlock 2; HExit 2], ∅, w, 7%N.
  split; [done|]. split; [done|]. split; [|split; [by apply isb_ok|split; [by apply isb_ok|]]].
  - intros q [i Hi]. repeat (apply elem_of_cons in Hi as [?|Hi]; [done|]). by apply elem_of_nil in Hi.
  - apply isb_ok in H4. rewrite H4. apply not_elem_of_nil.
Qed.
Print Assumptions C66_recycled_programs_may_outlive_the_error_refuted.
