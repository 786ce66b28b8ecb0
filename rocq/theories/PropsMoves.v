(** Property C41: files appear at their names complete or not at all. *)

From Verif Require Import Base Formats Hashing Locations PropsLocations FileMoves.

(** ** What the theorems speak about *)

(** What others may do meanwhile: anything that leaves alone the names [ps] and the
    files that are, or will be, under them. *)
Definition foreign (ps : list bytes) (n : positive) (s s' : fsys) : Prop :=
  (forall p, p ∈ ps -> names s' !! p = names s !! p /\ forall m, names s !! p = Some m -> files s' !! m = files s !! m) /\
  files s' !! n = files s !! n.

(** Some of our calls have been made, in order, others' doings in between. *)
Inductive steps (ps : list bytes) (n : positive) : fsys -> list call -> fsys -> Prop :=
| steps_none s : steps ps n s [] s
| steps_ours s c cs s' : steps ps n (exec s c) cs s' -> steps ps n s (c :: cs) s'
| steps_others s s1 cs s' : foreign ps n s s1 -> steps ps n s1 cs s' -> steps ps n s cs s'.

(** [s'] is the state when the process is stopped somewhere in [script]. *)
Definition stopped_in (ps : list bytes) (n : positive) (script : list call) (s s' : fsys) : Prop :=
  exists cs rest, script = cs ++ rest /\ steps ps n s cs s'.

(** The temporary file is new. *)
Definition fresh (s : fsys) (tmp : bytes) (n : positive) : Prop :=
  names s !! tmp = None /\ files s !! n = None /\ forall p, names s !! p <> Some n.

(** ** Proofs *)

Lemma foreign_content ps n s s' p : foreign ps n s s' -> p ∈ ps -> content s' p = content s p.
Proof.
  intros [Hf _] Hp. destruct (Hf p Hp) as [E1 E2]. unfold content. rewrite E1.
  destruct (names s !! p) as [m|]; [|done]. cbn [mbind option_bind]. by rewrite E2.
Qed.

Lemma steps_app ps n s cs1 cs2 s' : steps ps n s (cs1 ++ cs2) s' ->
  exists s1, steps ps n s cs1 s1 /\ steps ps n s1 cs2 s'.
Proof.
  revert s. induction cs1 as [|c cs1 IH]; intros s Hs; [exists s; split; [constructor|done]|].
  cbn [app] in Hs. remember (c :: cs1 ++ cs2) as l eqn:El. induction Hs as [s|s c' cs s' Hs _|s s1 cs s' Hf Hs IHs]; [done| |].
  - injection El as -> ->. destruct (IH _ Hs) as (s1 & H1 & H2). exists s1. split; [by constructor|done].
  - destruct (IHs IH El) as (s2 & H1 & H2). exists s2. split; [by eapply steps_others|done].
Qed.

Section copy.
Variables (ps : list bytes) (tmp to : bytes) (n : positive) (xs : list bytes) (s0 : fsys).
Hypothesis Hps : tmp ∈ ps /\ to ∈ ps.
Hypothesis Hne : tmp <> to.
Local Set Default Proof Using "All".

(** The other names among [ps] keep their content. *)
Definition rest_kept (s : fsys) : Prop := forall p, p ∈ ps -> p <> tmp -> p <> to -> content s p = content s0 p /\ names s !! p = names s0 !! p.
(** No other name leads to the new file. *)
Definition private (s : fsys) : Prop := forall p, p ∈ ps -> p <> tmp -> p <> to -> names s !! p <> Some n.

Definition before (s : fsys) : Prop :=
  names s !! tmp = None /\ names s !! to <> Some n /\ content s to = content s0 to /\ rest_kept s /\ private s.
Definition during (x : bytes) (s : fsys) : Prop :=
  names s !! tmp = Some n /\ f_bytes <$> files s !! n = Some x /\ names s !! to <> Some n /\
  content s to = content s0 to /\ rest_kept s /\ private s.
Definition after (s : fsys) : Prop :=
  names s !! tmp = None /\ names s !! to = Some n /\ f_bytes <$> files s !! n = Some (concat xs) /\ rest_kept s /\ private s.

Lemma rest_foreign s s' : foreign ps n s s' -> rest_kept s -> private s -> rest_kept s' /\ private s'.
Proof.
  intros Hf Hr Hp. split.
  - intros p Hin H1 H2. rewrite (foreign_content _ _ _ _ _ Hf Hin). destruct Hf as [Hf _]. destruct (Hf p Hin) as [-> _]. auto.
  - intros p Hin H1 H2. destruct Hf as [Hf _]. destruct (Hf p Hin) as [-> _]. auto.
Qed.

Lemma before_foreign s s' : foreign ps n s s' -> before s -> before s'.
Proof.
  intros Hf (H1 & H2 & H3 & H4 & H5). destruct Hps as [Ht Hto]. destruct (rest_foreign s s' Hf H4 H5) as [H6 H7].
  pose proof (foreign_content _ _ _ _ _ Hf Hto) as Ec. destruct Hf as [Hf _].
  destruct (Hf _ Ht) as [E1 _], (Hf _ Hto) as [E2 _]. unfold before. rewrite E1, E2, Ec. auto 10.
Qed.
Lemma during_foreign x s s' : foreign ps n s s' -> during x s -> during x s'.
Proof.
  intros Hf (H1 & H1' & H2 & H3 & H4 & H5). destruct Hps as [Ht Hto]. destruct (rest_foreign s s' Hf H4 H5) as [H6 H7].
  pose proof (foreign_content _ _ _ _ _ Hf Hto) as Ec. destruct Hf as [Hf En].
  destruct (Hf _ Ht) as [E1 _], (Hf _ Hto) as [E2 _]. unfold during. rewrite E1, E2, Ec, En. auto 10.
Qed.
Lemma after_foreign s s' : foreign ps n s s' -> after s -> after s'.
Proof.
  intros Hf (H1 & H2 & H3 & H4 & H5). destruct Hps as [Ht Hto]. destruct (rest_foreign s s' Hf H4 H5) as [H6 H7].
  destruct Hf as [Hf En].
  destruct (Hf _ Ht) as [E1 _], (Hf _ Hto) as [E2 _]. unfold after. rewrite E1, E2, En. auto 10.
Qed.

Lemma content_frame s s' p : names s' !! p = names s !! p -> names s !! p <> Some n ->
  (forall m, m <> n -> files s' !! m = files s !! m) -> content s' p = content s p.
Proof.
  intros E Hn Hf. unfold content. rewrite E. destruct (names s !! p) as [m|]; [|done]. cbn [mbind option_bind].
  rewrite Hf by congruence. done.
Qed.

Lemma create_step s : before s -> during [] (exec s (Create tmp n)).
Proof.
  intros (H1 & H2 & H3 & H4 & H5). unfold during. cbn [exec names files].
  assert (forall p, p <> tmp -> names s !! p <> Some n -> content (exec s (Create tmp n)) p = content s p) as Hfr.
  { intros p Hp Hn. apply content_frame; cbn [exec names files]; [by rewrite lookup_insert_ne|done|].
    intros m Hm. by rewrite lookup_insert_ne. }
  split; [by rewrite lookup_insert|]. split; [by rewrite lookup_insert|]. split; [by rewrite lookup_insert_ne|].
  split; [by rewrite <- H3; apply Hfr|]. split.
  - intros p Hin Ha Hb. destruct (H4 p Hin Ha Hb) as [<- <-]. split; [apply Hfr; [done|by apply H5]|].
    cbn [exec names]. by rewrite lookup_insert_ne.
  - intros p Hin Ha Hb. cbn [exec names]. rewrite lookup_insert_ne by done. by apply H5.
Qed.

Lemma write_step x y s : during x s -> during (x ++ y) (exec s (Write n y)).
Proof.
  intros (H1 & H1' & H2 & H3 & H4 & H5). unfold during. cbn [exec names files].
  assert (forall p, names s !! p <> Some n -> content (exec s (Write n y)) p = content s p) as Hfr.
  { intros p Hn. apply content_frame; cbn [exec names files]; [done|done|]. intros m Hm. by rewrite lookup_alter_ne. }
  split; [done|]. split.
  { rewrite lookup_alter. destruct (files s !! n) as [f|]; [|done]. cbn in *. by injection H1' as ->. }
  split; [done|]. split; [by rewrite <- H3; apply Hfr|]. split; [|done].
  intros p Hin Ha Hb. destruct (H4 p Hin Ha Hb) as [<- <-]. split; [apply Hfr; by apply H5|done].
Qed.

Lemma rename_step s : during (concat xs) s -> after (exec s (Rename tmp to)).
Proof.
  intros (H1 & H1' & H2 & H3 & H4 & H5). unfold after. cbn [exec]. rewrite H1. cbn [names files].
  split; [by rewrite lookup_insert_ne, lookup_delete|]. split; [by rewrite lookup_insert|]. split; [done|].
  assert (forall p, p <> tmp -> p <> to -> <[to := n]> (delete tmp (names s)) !! p = names s !! p) as Hn.
  { intros p Ha Hb. by rewrite lookup_insert_ne, lookup_delete_ne. }
  split.
  - intros p Hin Ha Hb. destruct (H4 p Hin Ha Hb) as [E1 E2]. cbn [names]. rewrite Hn by done. split; [|done].
    rewrite <- E1. unfold content. cbn [names files]. by rewrite Hn.
  - intros p Hin Ha Hb. cbn [names]. rewrite Hn by done. by apply H5.
Qed.

Lemma unlink_step x s : during x s -> before (exec s (Unlink tmp)).
Proof.
  intros (H1 & H1' & H2 & H3 & H4 & H5). unfold before. cbn [exec names].
  assert (forall p, p <> tmp -> content (exec s (Unlink tmp)) p = content s p) as Hfr.
  { intros p Ha. unfold content. cbn [exec names files]. by rewrite lookup_delete_ne. }
  split; [by rewrite lookup_delete|]. split; [by rewrite lookup_delete_ne|]. split; [by rewrite <- H3; apply Hfr|].
  split.
  - intros p Hin Ha Hb. destruct (H4 p Hin Ha Hb) as [<- <-]. split; [by apply Hfr|]. cbn [exec names]. by rewrite lookup_delete_ne.
  - intros p Hin Ha Hb. cbn [exec names]. rewrite lookup_delete_ne by done. by apply H5.
Qed.

Lemma sync_step s : after s -> after (exec s (Sync n)).
Proof.
  intros (H1 & H2 & H3 & H4 & H5). unfold after. cbn [exec names files].
  split; [done|]. split; [done|]. split.
  { rewrite lookup_alter. destruct (files s !! n) as [f|]; [|done]. done. }
  split; [|done]. intros p Hin Ha Hb. destruct (H4 p Hin Ha Hb) as [<- <-]. split; [|done].
  apply content_frame; cbn [exec names files]; [done|by apply H5|]. intros m Hm. by rewrite lookup_alter_ne.
Qed.

(** One call in a run, others' doings around it. *)
Lemma steps_nil_inv (P : fsys -> Prop) s s' : (forall a b, foreign ps n a b -> P a -> P b) -> P s -> steps ps n s [] s' -> P s'.
Proof.
  intros HP Hs Hst. remember [] as l eqn:El. induction Hst as [s|s c cs s' _ _|s s1 cs s' Hf Hst IH]; [done|done|].
  apply IH; [|done]. by eapply HP.
Qed.
Lemma steps_cons_inv (P Q : fsys -> Prop) c cs s s' :
  (forall a b, foreign ps n a b -> P a -> P b) -> (forall a, P a -> Q (exec a c)) -> P s ->
  steps ps n s (c :: cs) s' -> exists s1, Q s1 /\ steps ps n s1 cs s'.
Proof.
  intros HP HQ Hs Hst. remember (c :: cs) as l eqn:El. induction Hst as [s|s c' cs' s' Hst _|s s1 cs' s' Hf Hst IH]; [done| |].
  - injection El as -> ->. exists (exec s c). auto.
  - apply IH; [|done]. by eapply HP.
Qed.

Lemma writes_inv ys x s s' : during x s -> steps ps n s (map (Write n) ys) s' -> during (x ++ concat ys) s'.
Proof.
  revert x s. induction ys as [|y ys IH]; intros x s Hs Hst; cbn [map concat] in *.
  - rewrite app_nil_r. eapply steps_nil_inv; [|exact Hs|exact Hst]. intros a b. by apply during_foreign.
  - eapply (steps_cons_inv (during x) (during (x ++ y))) in Hst as (s1 & H1 & Hst); [|intros a b; by apply during_foreign|by apply write_step|done].
    rewrite app_assoc. by eapply IH.
Qed.

(** Any prefix of a list of writes followed by other calls. *)
Lemma writes_prefix ys tl cs rest x s s' :
  map (Write n) ys ++ tl = cs ++ rest -> during x s -> steps ps n s cs s' ->
  (exists z, during z s') \/
  exists cs' s1, cs' `prefix_of` tl /\ during (x ++ concat ys) s1 /\ steps ps n s1 cs' s' /\ cs = map (Write n) ys ++ cs'.
Proof.
  revert cs x s. induction ys as [|y ys IH]; intros cs x s E Hs Hst; cbn [map concat app] in *.
  - right. exists cs, s. rewrite app_nil_r. split; [by exists rest|done].
  - destruct cs as [|c cs].
    + left. exists x. eapply steps_nil_inv; [|exact Hs|exact Hst]. intros a b. by apply during_foreign.
    + cbn [app] in E. injection E as <- E.
      eapply (steps_cons_inv (during x) (during (x ++ y))) in Hst as (s1 & H1 & Hst); [|intros a b; by apply during_foreign|by apply write_step|done].
      destruct (IH cs (x ++ y) s1 E H1 Hst) as [?|(cs' & s2 & Hp & Hd & Hst' & ->)]; [by left|right].
      exists cs', s2. rewrite app_assoc. auto.
Qed.

Definition outcome (s : fsys) : Prop :=
  (content s to = content s0 to \/ content s to = Some (concat xs)) /\ rest_kept s /\ private s.

Lemma before_outcome s : before s -> outcome s.
Proof. intros (H1 & H2 & H3 & H4 & H5). split; [by left|done]. Qed.
Lemma during_outcome x s : during x s -> outcome s.
Proof. intros (H1 & H1' & H2 & H3 & H4 & H5). split; [by left|done]. Qed.
Lemma after_content s : after s -> content s to = Some (concat xs).
Proof.
  intros (H1 & H2 & H3 & H4 & H5). unfold content. rewrite H2. cbn [mbind option_bind]. done.
Qed.
Lemma after_outcome s : after s -> outcome s.
Proof. intros Ha. split; [right; by apply after_content|]. by destruct Ha as (_ & _ & _ & ? & ?). Qed.

(** Stopped anywhere in a copy. *)
Lemma copy_stopped e cs rest s s' : (safe_copy tmp n xs to e).1 = cs ++ rest -> before s -> steps ps n s cs s' ->
  outcome s' /\ (rest = [] -> match e with Works | SyncFails => after s' | _ => before s' end).
Proof.
  intros E Hb Hst.
  assert (exists ys tl, (safe_copy tmp n xs to e).1 = Create tmp n :: map (Write n) ys ++ tl /\
    ((ys = xs /\ (tl = [Rename tmp to; Sync n] /\ e = Works \/ tl = [Rename tmp to] /\ e = SyncFails)) \/
     (tl = [Unlink tmp] /\ (e = RenameFails \/ exists k, e = CopyFails k)))) as (ys & tl & Es & Htl).
  { clear. destruct e as [|k| |]; cbn [safe_copy fst]; eauto 12. }
  rewrite Es in E. clear Es. destruct cs as [|c cs].
  - cbn [app] in E. split; [|intros ->; done].
    apply before_outcome. eapply steps_nil_inv; [|exact Hb|exact Hst]. intros a b. by apply before_foreign.
  - cbn [app] in E. injection E as <- E.
    eapply (steps_cons_inv before (during [])) in Hst as (s1 & H1 & Hst); [|intros a b; by apply before_foreign|by apply create_step|done].
    assert (rest = [] -> cs = map (Write n) ys ++ tl) as Hfull by (intros ->; by rewrite app_nil_r in E).
    destruct (writes_prefix ys tl cs rest [] s1 s' E H1 Hst) as [(z & Hz)|(cs' & s2 & Hp & Hd & Hst' & Ecs)].
    + split; [by eapply during_outcome|]. intros Hr. exfalso. specialize (Hfull Hr). subst cs.
      (* after all of it the temporary name is gone *)
      apply steps_app in Hst as (s2 & Hw & Ht). apply writes_inv with (x := []) in Hw; [|done]. cbn [app] in Hw.
      destruct Htl as [[-> [[-> _]|[-> _]]]|[-> _]].
      * eapply (steps_cons_inv (during (concat xs)) after) in Ht as (s3 & H3 & Ht); [|intros a b; by apply during_foreign|by apply rename_step|done].
        eapply (steps_cons_inv after after) in Ht as (s4 & H4 & Ht); [|intros a b; by apply after_foreign|by apply sync_step|done].
        eapply (steps_nil_inv after) in Ht; [|intros a b; by apply after_foreign|done].
        destruct Ht as (Hn & _), Hz as (Hn' & _). congruence.
      * eapply (steps_cons_inv (during (concat xs)) after) in Ht as (s3 & H3 & Ht); [|intros a b; by apply during_foreign|by apply rename_step|done].
        eapply (steps_nil_inv after) in Ht; [|intros a b; by apply after_foreign|done].
        destruct Ht as (Hn & _), Hz as (Hn' & _). congruence.
      * eapply (steps_cons_inv (during (concat ys)) before) in Ht as (s3 & H3 & Ht); [|intros a b; by apply during_foreign|by apply unlink_step|done].
        eapply (steps_nil_inv before) in Ht; [|intros a b; by apply before_foreign|done].
        destruct Ht as (Hn & _), Hz as (Hn' & _). congruence.
    + cbn [app] in Hd.
      assert (rest = [] -> cs' = tl) as Hfull' by (intros Hr; specialize (Hfull Hr); rewrite Ecs in Hfull; by apply app_inv_head in Hfull).
      clear Hfull. destruct Hp as [tl' Etl].
      destruct cs' as [|c cs'].
      { assert (during (concat ys) s') as Hd'. { eapply steps_nil_inv; [|exact Hd|exact Hst']. intros a b. by apply during_foreign. }
        split; [by eapply during_outcome|]. intros Hr. specialize (Hfull' Hr). exfalso. destruct Htl as [[_ [[? _]|[? _]]]|[? _]]; congruence. }
      destruct Htl as [[-> [[-> ->]|[-> ->]]]|[-> He]]; cbn [app] in Etl.
      * injection Etl as <- Etl.
        eapply (steps_cons_inv (during (concat xs)) after) in Hst' as (s3 & H3 & Ht); [|intros a b; by apply during_foreign|by apply rename_step|done].
        assert (after s'); [|split; [by apply after_outcome|done]].
        destruct cs' as [|c cs']; [by eapply (steps_nil_inv after) in Ht; [|intros a b; by apply after_foreign|done]|].
        cbn [app] in Etl. injection Etl as <- Etl. apply eq_sym, app_eq_nil in Etl as [-> _].
        eapply (steps_cons_inv after after) in Ht as (s4 & H4 & Ht); [|intros a b; by apply after_foreign|by apply sync_step|done].
        by eapply (steps_nil_inv after) in Ht; [|intros a b; by apply after_foreign|done].
      * injection Etl as <- Etl. apply eq_sym, app_eq_nil in Etl as [-> _].
        eapply (steps_cons_inv (during (concat xs)) after) in Hst' as (s3 & H3 & Ht); [|intros a b; by apply during_foreign|by apply rename_step|done].
        assert (after s'); [|split; [by apply after_outcome|done]].
        by eapply (steps_nil_inv after) in Ht; [|intros a b; by apply after_foreign|done].
      * injection Etl as <- Etl. apply eq_sym, app_eq_nil in Etl as [-> _].
        eapply (steps_cons_inv (during (concat ys)) before) in Hst' as (s3 & H3 & Ht); [|intros a b; by apply during_foreign|by apply unlink_step|done].
        assert (before s') as Hb'. { by eapply (steps_nil_inv before) in Ht; [|intros a b; by apply before_foreign|done]. }
        split; [by apply before_outcome|]. intros _. by destruct He as [->|[k ->]].
Qed.
End copy.

(** ** C41 *)

(** Copying: wherever the process is stopped, whatever fails and whatever others do
    meanwhile to other files, the name has what it had or all of the new content.
    When the copy reports success it has the new content.  When the copy failed
    before the rename it has what it had, and the temporary name is gone. *)
Theorem C41_copies_appear_whole : forall ps tmp to n xs e s s',
  tmp <> to -> tmp ∈ ps -> to ∈ ps -> fresh s tmp n ->
  let '(script, r) := safe_copy tmp n xs to e in
  (stopped_in ps n script s s' -> content s' to = content s to \/ content s' to = Some (concat xs)) /\
  (steps ps n s script s' ->
     (r = Ok tt -> content s' to = Some (concat xs)) /\
     (e <> Works -> e <> SyncFails -> r = Err /\ content s' to = content s to) /\
     names s' !! tmp = None).
Proof.
  intros ps tmp to n xs e s s' Hne Ht Hto (F1 & F2 & F3).
  assert (before ps tmp to n s s) as Hb.
  { split; [done|]. split; [apply F3|]. split; [done|]. split; [done|]. intros p _ _ _. apply F3. }
  pose proof (copy_stopped ps tmp to n xs s (conj Ht Hto) Hne e) as Hc.
  destruct (safe_copy tmp n xs to e) as [script r] eqn:Es. cbn [fst] in Hc. split.
  - intros (cs & rest & E & Hst). destruct (Hc cs rest s s' E Hb Hst) as [(Ho & _) _]. done.
  - intros Hst. destruct (Hc script [] s s') as [_ Hfin]; [by rewrite app_nil_r|done|done|]. specialize (Hfin eq_refl).
    destruct e as [|k| |]; cbn [safe_copy] in Es; injection Es as <- <-.
    + split; [intros _; eapply (after_content ps tmp to n xs s (conj Ht Hto) Hne); exact Hfin|]. split; [done|]. by destruct Hfin.
    + destruct Hfin as (? & _ & ? & _). done.
    + destruct Hfin as (? & _ & ? & _). done.
    + split; [done|]. split; [done|]. by destruct Hfin.
Qed.
Print Assumptions C41_copies_appear_whole.

(** Moving a file with content [x], on one file system or across: wherever the
    process is stopped, the destination has what it had or all of [x], and all of [x]
    is at the source or at the destination. *)
Theorem C41_moves_lose_nothing : forall ps from tmp to n xs across other e unlinks s s' x,
  tmp <> to -> from <> to -> from <> tmp -> from ∈ ps -> tmp ∈ ps -> to ∈ ps -> fresh s tmp n ->
  content s from = Some x -> concat xs = x ->
  let '(script, r) := move_opened from tmp n xs to across other e unlinks in
  (stopped_in ps n script s s' ->
     (content s' to = content s to \/ content s' to = Some x) /\
     (content s' from = Some x \/ content s' to = Some x)) /\
  (steps ps n s script s' -> r = Ok tt -> content s' to = Some x /\ content s' from = None).
Proof.
  intros ps from tmp to n xs across other e unlinks s s' x Hne H1 H2 Hfp Htp Htop (F1 & F2 & F3) Hx Hxs.
  assert (before ps tmp to n s s) as Hb.
  { split; [done|]. split; [apply F3|]. split; [done|]. split; [done|]. intros p _ _ _. apply F3. }
  pose proof (copy_stopped ps tmp to n xs s (conj Htp Htop) Hne e) as Hc.
  assert (forall a b, foreign ps n a b -> content a to = content s to /\ content a from = Some x ->
    content b to = content s to /\ content b from = Some x) as Hidle.
  { intros a b Hf [Ha Hb']. by rewrite !(foreign_content _ _ _ _ _ Hf) by done. }
  unfold move_opened. destruct other.
  { split; [|done]. intros (cs & rest & E & Hst). apply eq_sym, app_eq_nil in E as [-> ->].
    destruct (steps_nil_inv ps tmp to n xs s (conj Htp Htop) Hne _ s s' Hidle (conj eq_refl Hx) Hst) as [E1 E2]. auto. }
  destruct across.
  - (* by copying *)
    assert (forall t, outcome ps tmp to n xs s t ->
      (content t to = content s to \/ content t to = Some x) /\ (content t from = Some x \/ content t to = Some x)) as Hout.
    { intros t (Ho & Hr & _). split; [by rewrite <- Hxs|]. left. destruct (Hr from Hfp H2 H1) as [-> _]. done. }
    destruct (safe_copy tmp n xs to e) as [script r] eqn:Es. cbn [fst] in Hc.
    destruct r as [[]| |].
    + assert (forall t, steps ps n s script t -> after ps tmp to n xs s t) as Hfin.
      { intros t Hst. destruct (Hc script [] s t) as [_ Hf]; [by rewrite app_nil_r|done|done|]. specialize (Hf eq_refl).
        destruct e; cbn [safe_copy] in Es; first [done | by injection Es]. }
      assert (forall t, after ps tmp to n xs s t -> content t to = Some x) as Hac.
      { intros t Ha. rewrite (after_content ps tmp to n xs s (conj Htp Htop) Hne t Ha). by rewrite Hxs. }
      assert (forall t t', after ps tmp to n xs s t -> steps ps n t [Unlink from] t' -> content t' to = Some x /\ content t' from = None) as Hlast.
      { intros t t' Ha Hst.
        eapply (steps_cons_inv ps tmp to n xs s (conj Htp Htop) Hne (after ps tmp to n xs s)
          (fun u => content u to = Some x /\ content u from = None)) in Hst as (s1 & Hs1 & Hst);
          [|intros a b; by apply after_foreign| |done].
        - eapply (steps_nil_inv ps tmp to n xs s (conj Htp Htop) Hne (fun u => content u to = Some x /\ content u from = None)); [|exact Hs1|exact Hst].
          intros a b Hf [Ea Eb]. by rewrite !(foreign_content _ _ _ _ _ Hf) by done.
        - intros a Haa. unfold content at 1 2. cbn [exec names files].
          rewrite lookup_delete_ne, lookup_delete by done. split; [|done]. by apply Hac. }
      destruct unlinks; cbn [fst snd]; split.
      * intros (cs & rest & E & Hst). apply app_eq_inv in E as [(k & E1 & E2)|(k & E1 & E2)].
        -- subst script. destruct (Hc cs k s s') as [Ho _]; [done|done|done|]. by apply Hout.
        -- subst cs. apply steps_app in Hst as (s1 & Hst1 & Hst2). specialize (Hfin s1 Hst1).
           destruct k as [|c k].
           ++ assert (after ps tmp to n xs s s') as Ha.
              { refine (steps_nil_inv ps tmp to n xs s (conj Htp Htop) Hne (after ps tmp to n xs s) s1 s' _ Hfin Hst2).
                intros a b. by apply after_foreign. }
              split; right; by apply Hac.
           ++ cbn [app] in E2. injection E2 as <- E2. apply eq_sym, app_eq_nil in E2 as [-> _].
              destruct (Hlast s1 s' Hfin Hst2) as [? _]. split; by right.
      * intros Hst _. apply steps_app in Hst as (s1 & Hst1 & Hst2). eapply Hlast; [|exact Hst2]. by apply Hfin.
      * intros (cs & rest & E & Hst). destruct (Hc cs rest s s') as [Ho _]; [done|done|done|]. by apply Hout.
      * done.
    + split; [|done]. intros (cs & rest & E & Hst). destruct (Hc cs rest s s') as [Ho _]; [done|done|done|]. by apply Hout.
    + by destruct e.
  - (* by renaming *)
    assert (forall t, content t to = content s to /\ content t from = Some x /\ (exists m, names t !! from = Some m) ->
      let u := exec t (Rename from to) in content u to = Some x /\ content u from = None) as Hren.
    { intros t (_ & E2 & m & Em). cbn [exec]. rewrite Em. unfold content in E2 |- *. rewrite Em in E2. cbn [names files].
      rewrite lookup_insert, lookup_insert_ne, lookup_delete by done. done. }
    set (P := fun t : fsys => content t to = content s to /\ content t from = Some x /\ exists m, names t !! from = Some m).
    assert (forall a b, foreign ps n a b -> P a -> P b) as HP.
    { intros a b Hf (E1 & E2 & m & Em). unfold P. rewrite !(foreign_content _ _ _ _ _ Hf) by done.
      destruct Hf as [Hf _]. destruct (Hf from Hfp) as [-> _]. eauto. }
    assert (P s) as Hs.
    { split; [done|]. split; [done|]. unfold content in Hx. destruct (names s !! from) as [m|]; [by exists m|done]. }
    assert (forall t, steps ps n s [Rename from to] t -> content t to = Some x /\ content t from = None) as Hall.
    { intros t Hst. eapply (steps_cons_inv ps tmp to n xs s (conj Htp Htop) Hne P
        (fun u => content u to = Some x /\ content u from = None)) in Hst as (s1 & Hs1 & Hst); [|exact HP|exact Hren|done].
      eapply (steps_nil_inv ps tmp to n xs s (conj Htp Htop) Hne (fun u => content u to = Some x /\ content u from = None)); [|exact Hs1|exact Hst].
      intros a b Hf [Ea Eb]. by rewrite !(foreign_content _ _ _ _ _ Hf) by done. }
    split; [|intros Hst _; by apply Hall].
    intros (cs & rest & E & Hst). destruct cs as [|c cs].
    + destruct (steps_nil_inv ps tmp to n xs s (conj Htp Htop) Hne P s s' HP Hs Hst) as (E1 & E2 & _). auto.
    + cbn [app] in E. injection E as <- E. apply eq_sym, app_eq_nil in E as [-> _]. destruct (Hall s' Hst) as [? _]. auto.
Qed.
Print Assumptions C41_moves_lose_nothing.

(** What a directory walk of the repository finds. *)
Definition shown (s : fsys) : gmap bytes bytes := omap (fun m => f_bytes <$> files s !! m) (names s).

Lemma temp_name_extension k i rand : oid_wf i -> plain rand -> extension (temp_name (location k i) rand) = Some (ascii_bytes "part").
Proof.
  intros Hi Hr. unfold extension, temp_name. rewrite location_eq.
  set (w := object_name k i ++ dot :: rand ++ dot :: ascii_bytes "part").
  assert (plain (ascii_bytes "part")) as Hpart. { repeat constructor; done. }
  assert (Forall (fun b => b <> slash) w) as Hw.
  { unfold w. destruct (object_name_facts k i Hi) as (Ha & _). apply Forall_app. split; [exact Ha|]. constructor; [done|].
    apply Forall_app. split; [eapply Forall_impl; [exact Hr|]; by intros ? []|]. constructor; [done|].
    eapply Forall_impl; [exact Hpart|]; by intros ? []. }
  assert (file_name (prefix_of k ++ w) = Some w) as Hf.
  { assert (length w >= 3) as Hl. { unfold w. rewrite !app_length. cbn [length]. rewrite !app_length. cbn. lia. }
    assert (exists d, prefix_of k = d ++ [slash] /\ Forall (fun b => b <> slash) d) as (d & Ed & Hd).
    { destruct k; [exists (ascii_bytes "packs")|exists (ascii_bytes "indexes")|exists (ascii_bytes "snapshots")]; (split; [done|]); repeat constructor; done. }
    rewrite Ed, <- app_assoc. cbn [app]. apply file_name_in; [done|done|..]; intros E; rewrite E in Hl; cbn in Hl; lia. }
  replace ((prefix_of k ++ object_name k i) ++ dot :: rand ++ dot :: ascii_bytes "part") with (prefix_of k ++ w)
    by (unfold w; by rewrite <- app_assoc).
  rewrite Hf. cbn [mbind option_bind compose]. unfold stem_ext, w.
  replace (object_name k i ++ dot :: rand ++ dot :: ascii_bytes "part") with ((object_name k i ++ dot :: rand) ++ dot :: ascii_bytes "part")
    by (by rewrite <- app_assoc).
  rewrite rsplit_app by (eapply Forall_impl; [exact Hpart|]; by intros ? []).
  destruct (object_name k i ++ dot :: rand) eqn:E; [by apply app_eq_nil in E as [_ ?]|done].
Qed.

(** While an object is being stored in a repository on a file system, a listing never
    shows an incomplete file under any of the names in play. *)
Theorem C41_listings_show_whole_files : forall ps k i rand n xs e s s' prefix p,
  oid_wf i -> plain rand ->
  let to := location k i in let tmp := temp_name to rand in
  tmp ∈ ps -> to ∈ ps -> fresh s tmp n ->
  stopped_in ps n (safe_copy tmp n xs to e).1 s s' ->
  p ∈ be_list (shown s') prefix -> p = tmp \/ p = to ->
  p = to /\ (content s' to = content s to \/ content s' to = Some (concat xs)).
Proof.
  intros ps k i rand n xs e s s' prefix p Hi Hr to tmp Ht Hto Hfr Hst Hp Hpp.
  pose proof (temp_name_extension k i rand Hi Hr) as Hext.
  assert (tmp <> to) as Hne. { eapply location_not_part; [exact Hi|exact Hext]. }
  split.
  - destruct Hpp as [->|]; [|done]. unfold be_list in Hp. apply elem_of_list_filter in Hp as [[_ Hx] _]. by destruct Hx.
  - pose proof (C41_copies_appear_whole ps tmp to n xs e s s' Hne Ht Hto Hfr) as Hc.
    destruct (safe_copy tmp n xs to e) as [script r]. by apply Hc.
Qed.
Print Assumptions C41_listings_show_whole_files.

(** ** When the machine stops *)

(** A copy that reported success survives. *)
Theorem C41_finished_copies_survive_power_loss : forall ps tmp to n xs s s' s'',
  tmp <> to -> tmp ∈ ps -> to ∈ ps -> fresh s tmp n ->
  steps ps n s (safe_copy tmp n xs to Works).1 s' -> power_loss s' s'' -> content s'' to = Some (concat xs).
Proof.
  intros ps tmp to n xs s s' s'' Hne Ht Hto (F1 & F2 & F3) Hst [Hn Hpl].
  assert (before ps tmp to n s s) as Hb.
  { split; [done|]. split; [apply F3|]. split; [done|]. split; [done|]. intros p _ _ _. apply F3. }
  cbn [safe_copy fst] in Hst.
  replace (Create tmp n :: map (Write n) xs ++ [Rename tmp to; Sync n])
    with ((Create tmp n :: map (Write n) xs ++ [Rename tmp to]) ++ [Sync n]) in Hst by (cbn [app]; by rewrite <- app_assoc).
  apply steps_app in Hst as (s1 & Hst1 & Hst2).
  destruct (copy_stopped ps tmp to n xs s (conj Ht Hto) Hne SyncFails _ [] s s1 (eq_sym (app_nil_r _)) Hb Hst1) as [_ Ha].
  specialize (Ha eq_refl).
  set (Q := fun t : fsys => names t !! to = Some n /\ files t !! n = Some (mkFile (concat xs) true)).
  assert (forall a b, foreign ps n a b -> Q a -> Q b) as HQ.
  { intros a b [Hf En] [E1 E2]. unfold Q. rewrite En. destruct (Hf to Hto) as [-> _]. done. }
  eapply (steps_cons_inv ps tmp to n xs s (conj Ht Hto) Hne (after ps tmp to n xs s) Q) in Hst2 as (s2 & H2 & Hst2);
    [|intros a b; by apply after_foreign| |done].
  - apply (steps_nil_inv ps tmp to n xs s (conj Ht Hto) Hne Q) in Hst2 as [E1 E2]; [|done|done].
    unfold content. rewrite Hn, E1. cbn [mbind option_bind]. specialize (Hpl n). rewrite E2 in Hpl.
    destruct (files s'' !! n) as [f|]; [|done]. cbn [f_synced] in Hpl. by subst f.
  - intros a (A1 & A2 & A3 & _). unfold Q. cbn [exec names files]. split; [done|]. rewrite lookup_alter.
    destruct (files a !! n) as [f|]; [|done]. cbn in *. by injection A3 as ->.
Qed.
Print Assumptions C41_finished_copies_survive_power_loss.

(** Files that are synced before they are renamed into place, as packs, indexes and
    snapshots are (src/pack.rs:287, src/index.rs:185, src/snapshot.rs:141), are whole at
    one name or the other even when the machine stops at any point. *)
Theorem C41_synced_moves_survive_power_loss : forall ps from to m s s' s'' x tmp n xs e u,
  from <> to -> from ∈ ps -> to ∈ ps ->
  names s !! from = Some m -> files s !! m = Some (mkFile x true) ->
  (forall m', names s !! to = Some m' -> exists y, files s !! m' = Some (mkFile y true)) ->
  stopped_in ps n (move_opened from tmp n xs to false false e u).1 s s' -> power_loss s' s'' ->
  (content s'' to = content s to \/ content s'' to = Some x) /\
  (content s'' from = Some x \/ content s'' to = Some x).
Proof.
  intros ps from to m s s' s'' x tmp n xs e u Hne Hf Ht Hm Hx Hold (cs & rest & E & Hst) [Hn Hpl]. cbn [move_opened fst] in E.
  set (P := fun t : fsys => names t !! from = Some m /\ files t !! m = Some (mkFile x true) /\ names t !! to = names s !! to /\
    forall m', names s !! to = Some m' -> files t !! m' = files s !! m').
  set (Q := fun t : fsys => names t !! to = Some m /\ files t !! m = Some (mkFile x true)).
  assert (forall a b, foreign ps n a b -> P a -> P b) as HP.
  { intros a b [Hab _] (E1 & E2 & E3 & E4). destruct (Hab from Hf) as [F1 F2], (Hab to Ht) as [G1 G2]. unfold P.
    rewrite F1, G1, (F2 _ E1). split; [done|]. split; [done|]. split; [done|]. intros m' Em'. rewrite <- (E4 m' Em').
    apply G2. by rewrite E3. }
  assert (forall a b, foreign ps n a b -> Q a -> Q b) as HQ.
  { intros a b [Hab _] (E1 & E2). destruct (Hab to Ht) as [G1 G2]. unfold Q. rewrite G1, (G2 _ E1). done. }
  assert (P s) as HPs. { done. }
  assert (forall k y, files s' !! k = Some (mkFile y true) -> files s'' !! k = Some (mkFile y true)) as Hkeep.
  { intros k y Ek. specialize (Hpl k). rewrite Ek in Hpl. destruct (files s'' !! k) as [f|]; [|done]. cbn [f_synced] in Hpl. by subst f. }
  assert (forall (R : fsys -> Prop) a b, (forall a b, foreign ps n a b -> R a -> R b) -> R a -> steps ps n a [] b -> R b) as Hnil.
  { intros R a b HR Ha Hs. remember [] as l eqn:El. induction Hs as [a|a c l b _ _|a a1 l b Hab Hs IH]; [done|done|].
    by apply IH; eauto. }
  destruct cs as [|c cs].
  - destruct (Hnil P s s' HP HPs Hst) as (E1 & E2 & E3 & E4). split; [left|left].
    + unfold content. rewrite Hn, E3. destruct (names s !! to) as [m'|]; [|done]. cbn [mbind option_bind].
      destruct (Hold m' eq_refl) as [y Ey]. rewrite Ey. specialize (E4 m' eq_refl). rewrite Ey in E4. by rewrite (Hkeep m' y E4).
    + unfold content. rewrite Hn, E1. cbn [mbind option_bind]. by rewrite (Hkeep m x E2).
  - cbn [app] in E. injection E as <- E. apply eq_sym, app_eq_nil in E as [-> _].
    assert (Q s') as [E1 E2].
    { clear Hpl Hkeep Hn. remember [Rename from to] as l eqn:El. revert HPs.
      assert (forall t, steps ps n t l s' -> P t -> Q s') as Hgo.
      { intros t Hs. induction Hs as [a|a c l b Hs _|a a1 l b Hab Hs IH]; intros Ha; [done| |].
        - injection El as -> ->. apply (Hnil Q (exec a (Rename from to)) b HQ); [|done].
          destruct Ha as (E1 & E2 & _). cbn [exec]. rewrite E1. split; cbn [names files]; [by rewrite lookup_insert|done].
        - apply IH; [done|done|by eapply HP]. }
      by apply Hgo. }
    assert (content s'' to = Some x); [|auto].
    unfold content. rewrite Hn, E1. cbn [mbind option_bind]. by rewrite (Hkeep m x E2).
Qed.
Print Assumptions C41_synced_moves_survive_power_loss.

(** But a copy is renamed into place before it is synced (src/file_util.rs:134-140): when
    the machine stops in between, the name can be there with part of the content. *)
Definition mv_bytes : bytes := ascii_bytes "all of it".
Definition mv_to : bytes := ascii_bytes "packs/p.pack".
Definition mv_tmp : bytes := temp_name mv_to (ascii_bytes "a1b2").
Theorem C41_refuted_copies_are_whole_after_power_loss :
  exists ps tmp to n xs s s' s'', tmp <> to /\ tmp ∈ ps /\ to ∈ ps /\ fresh s tmp n /\
    stopped_in ps n (safe_copy tmp n xs to Works).1 s s' /\ power_loss s' s'' /\
    content s to = None /\ concat xs <> [] /\ content s'' to = Some [].
Proof.
  exists [mv_tmp; mv_to], mv_tmp, mv_to, 1%positive, [mv_bytes], (mkFsys ∅ ∅).
  exists (execs (mkFsys ∅ ∅) [Create mv_tmp 1; Write 1 mv_bytes; Rename mv_tmp mv_to]).
  exists (mkFsys {[mv_to := 1%positive]} {[1%positive := mkFile [] false]}).
  split; [done|]. split; [left|]. split; [right; left|]. split; [done|]. split.
  { exists [Create mv_tmp 1; Write 1 mv_bytes; Rename mv_tmp mv_to], [Sync 1]. split; [done|]. repeat constructor. }
  split; [|done].
  split.
  { cbn [execs foldl exec files names]. rewrite lookup_insert. cbn [names]. by rewrite delete_insert. }
  intros n. destruct (decide (n = 1%positive)) as [->|Hn]; [vm_compute; by exists 0|].
  cbn [execs foldl exec files names]. rewrite lookup_insert. cbn [files].
  rewrite lookup_alter_ne, lookup_insert_ne, lookup_singleton_ne by done. by rewrite lookup_empty.
Qed.
Print Assumptions C41_refuted_copies_are_whole_after_power_loss.

(** A pack moved over from another file system, in two writes, over an old file; the hypotheses hold. *)
Definition mv_from : bytes := ascii_bytes "wip/p.pack".
Definition mv_start : fsys :=
  mkFsys {[mv_from := 7%positive; mv_to := 8%positive]}
    {[7%positive := mkFile mv_bytes true; 8%positive := mkFile (ascii_bytes "old") true]}.
Definition mv_pieces : list bytes := [ascii_bytes "all "; ascii_bytes "of it"].
Example C41_witness :
  fresh mv_start mv_tmp 9 /\ mv_tmp <> mv_to /\ mv_from <> mv_to /\ mv_from <> mv_tmp /\
  content mv_start mv_from = Some mv_bytes /\ concat mv_pieces = mv_bytes /\ content mv_start mv_to = Some (ascii_bytes "old") /\
  let '(script, r) := move_opened mv_from mv_tmp 9 mv_pieces mv_to true false Works true in
  r = Ok tt /\ length script = 6 /\
  map (fun k => content (execs mv_start (take k script)) mv_to) (seq 0 7) =
    [Some (ascii_bytes "old"); Some (ascii_bytes "old"); Some (ascii_bytes "old"); Some (ascii_bytes "old");
     Some mv_bytes; Some mv_bytes; Some mv_bytes] /\
  map (fun k => content (execs mv_start (take k script)) mv_from) (seq 0 7) =
    [Some mv_bytes; Some mv_bytes; Some mv_bytes; Some mv_bytes; Some mv_bytes; Some mv_bytes; None] /\
  map (fun k => content (execs mv_start (take k script)) mv_tmp) (seq 0 7) =
    [None; Some []; Some (ascii_bytes "all "); Some mv_bytes; None; None; None].
Proof.
  split; [|vm_compute; repeat split; by intros ?].
  split; [done|]. split; [done|]. intros p Hp. unfold mv_start in Hp. cbn [names] in Hp.
  apply lookup_insert_Some in Hp as [[_ Hp]|[_ Hp]]; [done|]. by apply lookup_singleton_Some in Hp as [_ Hp].
Qed.
