(** An interrupted restore: the changes of each comparison, and all of them together. *)

From Verif Require Import Base OMap Formats FormatsFacts Hashing Pack Index IndexFacts Meta Forest ForestFacts FsTree FsSpec FsFacts BackupFacts
  Pipeline PipelineFacts Repo RepoSpec RepoFacts RewriteFacts PublishFacts PlanFacts CommandFacts
  History PruneFacts ReadFacts HistoryFacts
  Browse BrowseSpec BrowseFacts DiffFacts BrowseRepo ReadBack
  Times Restore RestoreSpec RestoreFacts RestoreSteps RestoreForest RestoreRun Interrupt InterruptSpec InterruptFacts.

(** ** The changes are those that are made *)

Section refine.
Local Set Default Proof Using "All".
Variable clock : nat -> Z.
Variable fresh : nat -> kind -> posix.
Variable args : restore_args.
Variable pm : gmap bytes loc.
Variable read : oid -> result bytes.
Variable fo2 : forest.
Variable fuel : nat.
Notation run := (perform_all clock fresh).

Lemma run_app o1 o2 w w1 w2 : run o1 w = Ok w1 -> run o2 w1 = Ok w2 -> run (o1 ++ o2) w = Ok w2.
Proof. intros E1 E2. unfold perform_all in *. by rewrite rfold_app, E1. Qed.

Lemma metadata_refines n l w w' : set_metadata clock args n l w = Ok w' -> exists o, metadata_ops args n l = Ok o /\ run o w = Ok w'.
Proof.
  unfold set_metadata, metadata_ops. intros E. destruct (if r_times args then restore_times _ _ _ _ else _) as [w1| |] eqn:E1; try done. cbn in E.
  assert (exists o1, (if r_times args then times_ops (n_meta n) l else Ok []) = Ok o1 /\ run o1 w = Ok w1) as (o1 & -> & Eo1).
  { destruct (r_times args); [|exists []; by injection E1 as <-]. unfold restore_times in E1. unfold times_ops.
    destruct (meta_mtime (n_meta n)) as [mt|], (meta_atime (n_meta n)) as [at_|]; try (exists []; by injection E1 as <-).
    all: destruct (ensure _) as [[]| |]; try done; cbn in E1 |- *; eexists; (split; [done|]); cbn; by rewrite E1. }
  cbn. destruct (r_permissions args); [|exists o1; by injection E as <-]. destruct (node_kind n) as [k| |]; try done. cbn in E |- *.
  case_bool_decide; [exists o1; by injection E as <-|]. destruct (n_meta n) as [p|]; [|done]. eexists. split; [done|]. eapply run_app; [exact Eo1|]. cbn. by rewrite E.
Qed.

Lemma fill_refines cs l w w' : fill_file clock read cs l w = Ok w' -> exists o, fill_ops read cs l = Ok o /\ run o w = Ok w'.
Proof.
  intros E. assert (exists ps, Forall2 (fun c p => read c = Ok p) cs ps /\ run (map (fun p => OpAppend p l) ps) w = Ok w') as (ps & HF & Er).
  { revert w E. induction cs as [|c cs IH]; intros w E; [exists []; by split; [constructor|]|]. unfold fill_file in E. cbn in E. destruct (read c) as [b| |] eqn:Eb; try done. cbn in E.
    destruct (append_file clock b l w) as [w1| |] eqn:E1; try done. cbn in E. destruct (IH w1 E) as (ps & HF & Er). exists (b :: ps). split; [by constructor|]. cbn. by rewrite E1. }
  exists (map (fun p => OpAppend p l) ps). split; [|done]. clear Er E. unfold fill_ops.
  assert (forall acc, rfold (fun c ops => let* b := read c in Ok (ops ++ [OpAppend b l])) cs acc = Ok (acc ++ map (fun p => OpAppend p l) ps)) as Hgen; [|apply Hgen].
  induction HF as [|c p cs ps Hc _ IH]; intros acc; [by rewrite app_nil_r|]. cbn. rewrite Hc. cbn. rewrite IH. by rewrite <-app_assoc.
Qed.

Lemma write_refines n cs l w w' : (let* w1 := create_file clock fresh l w in let* w2 := fill_file clock read cs l w1 in set_metadata clock args n l w2) = Ok w' ->
  exists o, (let* o1 := fill_ops read cs l in let* o2 := metadata_ops args n l in Ok (OpCreate l :: o1 ++ o2)) = Ok o /\ run o w = Ok w'.
Proof.
  intros E. destruct (create_file clock fresh l w) as [w1| |] eqn:E1; try done. cbn in E. destruct (fill_file clock read cs l w1) as [w2| |] eqn:E2; try done. cbn in E.
  destruct (fill_refines _ _ _ _ E2) as (o1 & -> & R1). destruct (metadata_refines _ _ _ _ E) as (o2 & -> & R2). eexists. split; [done|]. cbn. rewrite E1. by eapply run_app.
Qed.

Lemma add_refines d : forall n l w w', add_node clock fresh args read fo2 d n l w = Some (Ok w') ->
  exists o, add_ops args read fo2 d n l = Some (Ok o) /\ run o w = Ok w'.
Proof.
  induction d as [|d IH]; intros n l w w' E; cbn [add_node add_ops] in E |- *; destruct (n_contents n) as [cs|sub|tg]; try done.
  all: try (injection E as E; destruct (write_refines _ _ _ _ _ E) as (o & Eo & R); exists o; by split; [f_equal|]).
  all: try (injection E as E; eexists; split; [done|]; cbn; by rewrite E).
  destruct (create_dir clock fresh l w) as [w1| |] eqn:E1; try done. destruct (fo2 !! sub) as [t|]; [|done].
  destruct (ofold _ t w1) as [[w2| |]|] eqn:E2; try done. injection E as E.
  assert (forall t acc wa, run acc w = Ok wa -> ofold (fun (e : bytes * node) w => add_node clock fresh args read fo2 d e.2 (l ++ [e.1]) w) t wa = Some (Ok w2) ->
    exists o1, ofold (fun (e : bytes * node) ops => match add_ops args read fo2 d e.2 (l ++ [e.1]) with Some (Ok o) => Some (Ok (ops ++ o)) | other => other end) t acc = Some (Ok o1) /\ run o1 w = Ok w2) as Hgen.
  { clear E2. intros u. induction u as [|[y nd] u IHu]; intros acc wa Ra Eu; [injection Eu as <-; by exists acc|]. cbn in Eu |- *.
    destruct (add_node clock fresh args read fo2 d nd (l ++ [y]) wa) as [[wb| |]|] eqn:Ea; try done. destruct (IH _ _ _ _ Ea) as (oy & -> & Ry).
    eapply IHu; [|exact Eu]. by eapply run_app. }
  destruct (Hgen t [OpMkdir l] w1) as (o1 & -> & R1); [cbn; by rewrite E1|done|]. destruct (metadata_refines _ _ _ _ E) as (o2 & -> & R2).
  eexists. split; [done|]. by eapply run_app.
Qed.

Lemma remove_refines n l w w' : remove_node clock n l w = Ok w' -> exists o, remove_ops n l = Ok o /\ run o w = Ok w'.
Proof.
  unfold remove_node, remove_ops. intros E. destruct (node_kind n) as [k| |]; try done. cbn in E |- *. eexists. split; [done|].
  case_bool_decide; cbn; by rewrite E.
Qed.

Lemma event_refines p e w w' : restore_cb clock fresh args pm read fo2 fuel p e w = Ok w' ->
  exists o, event_ops args pm read fo2 fuel p e = Ok o /\ run o w = Ok w'.
Proof.
  destruct e as [n|n|n1 n2|n1 n2|n|n1 n2]; cbn [restore_cb event_ops]; intros E.
  all: try (injection E as <-; by exists []).
  all: try (destruct (translate pm p) as [l| |]; try done; cbn [rbind] in E |- *; destruct (r_dry_run args); [injection E as <-; by exists []|]).
  - destruct (add_node clock fresh args read fo2 fuel n l w) as [[w1| |]|] eqn:E1; try done. injection E as ->. destruct (add_refines _ _ _ _ _ E1) as (o & -> & R). by exists o.
  - destruct (negb (r_delete args)); [injection E as <-; by exists []|]. destruct (translate pm p) as [l| |]; try done; cbn [rbind] in E |- *.
    destruct (r_dry_run args); [injection E as <-; by exists []|]. by apply remove_refines.
  - unfold change_node_contents in E. unfold change_ops. destruct (n_contents n2) as [cs|sub|tg]; try done; [by apply write_refines|].
    destruct (remove_file clock l w) as [w1| |] eqn:E1; try done. cbn in E. eexists. split; [done|]. cbn. rewrite E1. cbn. by rewrite E.
  - by apply metadata_refines.
  - destruct (translate pm p) as [l| |]; try done; cbn [rbind] in E |- *.
    assert ((if r_dry_run args then Ok w else let* w1 := remove_node clock n1 l w in or_panic (add_node clock fresh args read fo2 fuel n2 l w1)) = Ok w' ->
      exists o, (if r_dry_run args then Ok [] else let* o1 := remove_ops n1 l in let* o2 := or_panic (add_ops args read fo2 fuel n2 l) in Ok (o1 ++ o2)) = Ok o /\ run o w = Ok w') as Hboth.
    { clear E. intros E. destruct (r_dry_run args); [injection E as <-; by exists []|]. destruct (remove_node clock n1 l w) as [w1| |] eqn:E1; try done. cbn in E.
      destruct (remove_refines _ _ _ _ E1) as (o1 & -> & R1). destruct (add_node clock fresh args read fo2 fuel n2 l w1) as [[w2| |]|] eqn:E2; try done. injection E as ->.
      destruct (add_refines _ _ _ _ _ E2) as (o2 & -> & R2). eexists. split; [done|]. by eapply run_app. }
    destruct (n_contents n1), (r_delete args); try (by apply Hboth). destruct (n_contents n2); try done; injection E as <-; by exists [].
Qed.

Lemma events_refine evs acc w0 w w' : run acc w0 = Ok w -> run_events (restore_cb clock fresh args pm read fo2 fuel) evs w = Ok w' ->
  exists ops, run_events (fun p e ops => let* o := event_ops args pm read fo2 fuel p e in Ok (ops ++ o)) evs acc = Ok ops /\ run ops w0 = Ok w'.
Proof.
  revert acc w. induction evs as [|[p e] evs IH]; intros acc w Ra E; [injection E as <-; by exists acc|]. cbn in E |- *.
  destruct (restore_cb clock fresh args pm read fo2 fuel p e w) as [w1| |] eqn:E1; try done. cbn in E. destruct (event_refines _ _ _ _ E1) as (o & -> & R). cbn.
  eapply IH; [|exact E]. by eapply run_app.
Qed.
End refine.

(** ** What they keep *)

Section events.
Local Set Default Proof Using "All".
Variable clock : nat -> Z.
Variable fresh : nat -> kind -> posix.
Hypothesis Hfresh : forall n, p_size (fresh n KFile) = Some 0%N.
Variable args : restore_args.
Variable T : list (bytes * loc).
Variables es before : list (bytes * fsnode).
Hypothesis Hplace : forall x l, (x, l) ∈ T -> l <> [].
Hypothesis Hapart : forall x l y l', (x, l) ∈ T -> (y, l') ∈ T -> x <> y -> ~ l `prefix_of` l'.
Hypothesis Hone : forall x l l', (x, l) ∈ T -> (x, l') ∈ T -> l = l'.
Variable pm : gmap bytes loc.
Variable read : oid -> result bytes.
Variables fo1 fo2 : forest.
Variables id1 root : oid.
Variable fuel : nat.
Hypothesis Hsort2 : map_Forall (fun _ (t : tree) => om_sorted t) fo2.
Hypothesis Hpm : forall x l, (x, l) ∈ T -> pm !! x = Some l.
Hypothesis Hshows : forall x l q, (x, l) ∈ T -> shows read (node_at fo1 id1 (x :: q)) (ent before (l ++ q)).
Hypothesis Hsaves : forall q, saves read (node_at fo2 root q) (ent es q).
Hypothesis Hspecial : forall x l q m, (x, l) ∈ T -> ent before (l ++ q) = Some (TOther, m) -> r_delete args = false /\ ent es (x :: q) = None.
Hypothesis Hkinds : forall p n, node_at fo1 id1 p = Some n -> node_kind n = Ok (contents_kind (n_contents n)).

Notation I := (inv args T es before).
Notation way := (way args es before).

Lemma clear_above x l q : (x, l) ∈ T -> comparable fo1 fo2 id1 root (x :: q) ->
  (forall m s, ent before (l ++ q) = Some (TDir, m) -> ent es (x :: q) = Some s -> s.1 = TDir \/ r_delete args = true) -> ~ way x l q.
Proof.
  intros Hin Hc Hhere [Hd (r & m & s & [r' ->] & Eb & Es & Hs)]. destruct (decide (r' = [])) as [->|Hr].
  - rewrite app_nil_r in *. destruct (Hhere m s Eb Es); [done|congruence].
  - destruct (Hc (x :: r) r') as [_ [d (n & En & Ec)]]; [done|done|done|]. pose proof (Hsaves (x :: r)) as Hsv. rewrite En, Es in Hsv. destruct Hsv as [_ Hsv]. rewrite Ec in Hsv. by destruct s as [[]].
Qed.

Lemma saved_below x q n r : node_at fo2 root (x :: q) = Some n -> saves read (node_sub fo2 n r) (ent es (x :: q ++ r)).
Proof.
  intros En. pose proof (Hsaves (x :: q ++ r)) as Hs. unfold node_at in *. destruct (fo2 !! root) as [t|]; [|done]. cbn [mbind option_bind] in *.
  destruct (om_get x t) as [n0|]; [|done]. cbn [mbind option_bind] in *. by rewrite (node_sub_app _ _ _ _ _ En) in Hs.
Qed.

Lemma remove_keeps n x l q o (w : fsworld) bt bm : I w.2 -> (x, l) ∈ T -> ~ way x l q -> ent before (l ++ q) = Some (bt, bm) ->
  match ent es (x :: q) with None => r_delete args = true | Some (st, _) => (bt = TDir -> r_delete args = true) /\ ~ same_kind bt st end ->
  remove_ops n (l ++ q) = Ok o -> keeps clock fresh args T es before o w.
Proof.
  intros Hi Hin Hnw Eb Hok E. destruct (may_go clock fresh Hfresh args T es before Hplace Hapart Hone x l q bt bm Hin Hnw Eb Hok) as [Hon Hnw'].
  assert (forall dir r w w', I w.2 -> perform clock fresh (part_removed r dir (l ++ q)) w = Ok w' -> I w'.2) as Hrm.
  { intros dir r w0 w1 Hi0 E0. unfold part_removed in E0. rewrite <-app_assoc in E0.
    assert (forall f, (forall o o', f o = Ok o' -> is_Some o /\ o' = None) -> change clock true f (l ++ (q ++ r)) w0 = Ok w1 -> I w1.2) as Hf.
    { intros f Hf Ec. eapply (remove_inv clock fresh Hfresh args T es before Hplace Hapart Hone f x l (q ++ r) w0 w1); try done.
      - intros r2. rewrite <-app_assoc. apply Hon.
      - intros r2. rewrite <-app_assoc. apply Hnw'. }
    destruct dir; cbn in E0; (eapply Hf; [|exact E0]); intros [[]|] o'; try done; intros [= <-]; eauto. }
  unfold remove_ops in E. destruct (node_kind n) as [k| |]; try done. cbn in E. injection E as <-.
  apply keeps_cons; try done.
  - intros part w2 Ht Ep. case_bool_decide; inversion Ht as [|rs loc]; subst. clear Ht.
    revert w Hi Ep. induction rs as [|[r dir] rs IH]; intros w Hi Ep; [by injection Ep as <-|]. cbn in Ep.
    destruct (perform clock fresh (part_removed r dir (l ++ q)) w) as [w1| |] eqn:E1; try done. cbn in Ep. eapply IH; [|exact Ep]. by eapply Hrm.
  - intros w1 E1. apply keeps_nil; try done. specialize (Hrm (bool_decide (k = KDirectory)) [] w w1 Hi). unfold part_removed in Hrm. rewrite !app_nil_r in Hrm. by apply Hrm.
Qed.

Lemma event_keeps p e o (w : fsworld) x q l : p = x :: q -> (x, l) ∈ T -> comparable fo1 fo2 id1 root p ->
  verdict (node_at fo1 id1 p) (node_at fo2 root p) = Some e -> event_ops args pm read fo2 fuel p e = Ok o -> I w.2 ->
  keeps clock fresh args T es before o w.
Proof.
  intros -> Hin Hc Hv E Hi.
  pose proof (Hshows x l q Hin) as Hsh. pose proof (Hsaves (x :: q)) as Hsv.
  assert (translate pm (x :: q) = Ok (l ++ q)) as Htr by (cbn; by rewrite (Hpm x l Hin)).
  assert (keeps clock fresh args T es before [] w) as Hnil by by apply keeps_nil.
  destruct (node_at fo1 id1 (x :: q)) as [n1|] eqn:E1, (node_at fo2 root (x :: q)) as [n2|] eqn:E2; try done.
  - pose proof (Hkinds _ _ E1) as Hk1.
    destruct (ent before (l ++ q)) as [[bt bm]|] eqn:Eb; [|done]. destruct Hsh as (Em1 & Hmo & Hsh). cbn [fst snd] in Em1, Hmo, Hsh.
    destruct (ent es (x :: q)) as [[st sm]|] eqn:Es; [|done]. destruct Hsv as [Em2 Hsv]. cbn [fst snd] in Em2, Hsv.
    assert ((bt = TDir -> st = TDir \/ r_delete args = true) -> ~ way x l q) as Hnw.
    { intros Hb. apply clear_above; [done|done|]. intros m s Eb' Es'. rewrite Eb in Eb'. rewrite Es in Es'. injection Eb' as -> ->. injection Es' as <-. by apply Hb. }
    assert (bt = st -> metadata_ops args n2 (l ++ q) = Ok o -> keeps clock fresh args T es before o w) as Hmeta.
    { intros Heq Eo. eapply metadata_keeps; try done; [apply Hnw; intros ->; by left|]. intros c Ec. cbn in Ec. left. exists bm. by rewrite Eb, Heq, Ec. }
    assert (e = TypeChanged n1 n2 -> ~ same_kind bt st -> keeps clock fresh args T es before o w) as Htype.
    { intros -> Hkd. cbn [event_ops] in E. rewrite Htr in E. cbn [rbind] in E.
      assert ((bt = TDir -> r_delete args = true) ->
        (if r_dry_run args then Ok [] else let* o1 := remove_ops n1 (l ++ q) in let* o2 := or_panic (add_ops args read fo2 fuel n2 (l ++ q)) in Ok (o1 ++ o2)) = Ok o ->
        keeps clock fresh args T es before o w) as Hdo.
      { intros Hdel E'. assert (~ way x l q) as Hnw' by (apply Hnw; intros ?; right; auto).
        destruct (r_dry_run args); [by injection E' as <-|]. destruct (remove_ops n1 (l ++ q)) as [o1| |] eqn:Eo1; try done. cbn [rbind] in E'.
        destruct (add_ops args read fo2 fuel n2 (l ++ q)) as [[o2| |]|] eqn:Eo2; try done. cbn in E'. injection E' as <-.
        assert (match ent es (x :: q) with None => r_delete args = true | Some (st, _) => (bt = TDir -> r_delete args = true) /\ ~ same_kind bt st end) as Hgo by by rewrite Es.
        apply keeps_app; try done.
        - by eapply remove_keeps.
        - intros w1 _ Hi1. eapply (add_keeps clock fresh Hfresh args T es before Hplace Hapart Hone read fo2 fuel n2 x l q); try done.
          + intros r. by apply saved_below.
          + by apply (may_go clock fresh Hfresh args T es before Hplace Hapart Hone x l q bt bm). }
      destruct (n_contents n1) eqn:En1, (r_delete args) eqn:Ed; try (apply Hdo; [|done]; intros ->; done).
      destruct (n_contents n2); try done; by injection E as <-. }
    unfold verdict in Hv.
    destruct (n_contents n1) as [cs1|d1|t1] eqn:En1, (n_contents n2) as [cs2|d2|t2] eqn:En2; destruct bt as [bc| |bl|], st as [sc| |sl|]; try done.
    all: try (rewrite bool_decide_eq_false_2 in Hv by done; injection Hv as <-; apply Htype; [done|intros []]).
    + (* files *) rewrite bool_decide_eq_true_2 in Hv by done. injection Hv as <-. case_bool_decide as Hcs; cbn [negb] in *.
      * injection Hcs as ->. case_bool_decide as Hms; cbn [negb] in *; cbn [event_ops] in E; [by injection E as <-|]. rewrite Htr in E. cbn [rbind] in E.
        destruct (r_dry_run args); [by injection E as <-|]. apply Hmeta; [|done]. destruct Hsv as (ps & HF & ->). by rewrite (Hsh ps HF).
      * cbn [event_ops] in E. rewrite Htr in E. cbn [rbind] in E. destruct (r_dry_run args); [by injection E as <-|]. unfold change_ops in E. rewrite En2 in E.
        destruct (fill_ops read cs2 (l ++ q)) as [o1| |] eqn:Eo1; try done. cbn [rbind] in E. destruct (metadata_ops args n2 (l ++ q)) as [o2| |] eqn:Eo2; try done. injection E as <-.
        destruct Hsv as (ps & HF & ->). eapply write_keeps; try done; [by rewrite Em2|]. by apply Hnw.
    + (* directories *) destruct (bool_decide (n_meta n1 = n_meta n2)) eqn:Hms;
        [destruct (bool_decide (d1 = d2)); [|done]; injection Hv as <-; cbn [event_ops] in E; by injection E as <-|]. injection Hv as <-.
      cbn [event_ops] in E. rewrite Htr in E. cbn [rbind] in E. destruct (r_dry_run args); [by injection E as <-|]. by apply Hmeta.
    + (* links *) subst bl sl. rewrite bool_decide_eq_true_2 in Hv by done. injection Hv as <-. case_bool_decide as Hcs; cbn [negb] in *.
      * injection Hcs as ->. case_bool_decide as Hms; cbn [negb] in *; cbn [event_ops] in E; [by injection E as <-|]. rewrite Htr in E. cbn [rbind] in E.
        destruct (r_dry_run args); [by injection E as <-|]. by apply Hmeta.
      * cbn [event_ops] in E. rewrite Htr in E. cbn [rbind] in E. destruct (r_dry_run args); [by injection E as <-|]. unfold change_ops in E. rewrite En2 in E. injection E as <-.
        assert (~ way x l q) as Hnw' by by apply Hnw.
        assert (match ent es (x :: q) with None => r_delete args = true | Some (st, _) => (TLink t1 = TDir -> r_delete args = true) /\ ~ same_kind (TLink t1) st end) as Hgo by (rewrite Es; split; [done|intros []]).
        change [OpRm (l ++ q); OpLink t2 (l ++ q)] with ([OpRm (l ++ q)] ++ [OpLink t2 (l ++ q)]). apply keeps_app; try done.
        -- eapply (remove_keeps n1 x l q); try done. unfold remove_ops. by rewrite Hk1.
        -- intros w1 _ Hi1. apply keeps_cons; try done; [intros part w2 Ht; by inversion Ht|]. intros w2 Ew2. apply keeps_nil; try done. by eapply link_inv.
  - (* removed *) injection Hv as <-. cbn [event_ops] in E. destruct (negb (r_delete args)) eqn:Ed; [by injection E as <-|]. rewrite Htr in E. cbn [rbind] in E.
    destruct (r_dry_run args); [by injection E as <-|]. apply negb_false_iff in Ed. destruct (ent before (l ++ q)) as [[bt bm]|] eqn:Eb; [|done].
    eapply (remove_keeps n1 x l q); try done; [intros [? _]; congruence|]. destruct (ent es (x :: q)); [done|exact Ed].
  - (* added *) injection Hv as <-. cbn [event_ops] in E. rewrite Htr in E. cbn [rbind] in E. destruct (r_dry_run args); [by injection E as <-|].
    destruct (add_ops args read fo2 fuel n2 (l ++ q)) as [[o2| |]|] eqn:Eo2; try done. injection E as ->.
    assert (forall r, ent before (l ++ q ++ r) = None) as Hb.
    { assert (ent before (l ++ q) = None) as Hb0.
      { destruct (ent before (l ++ q)) as [[bt bm]|] eqn:Eb; [|done]. cbn in Hsh. subst bt. destruct (Hspecial x l q bm Hin Eb) as [_ Hno]. by rewrite Hno in Hsv. }
      intros r. destruct (decide (r = [])) as [->|Hr]; [by rewrite app_nil_r|]. rewrite app_assoc. apply ent_below; [|by intros m; rewrite Hb0|done].
      intros [-> _]%app_eq_nil. by destruct (Hplace x []). }
    eapply (add_keeps clock fresh Hfresh args T es before Hplace Hapart Hone read fo2 fuel n2 x l q); try done.
    + intros r. by apply saved_below.
    + intros r [Hd (r' & m & s & [r2 Er] & Hw)]. destruct (prefix_weak_total r' q (q ++ r)) as [Hp|[r3 ->]]; [by exists r2|by apply prefix_app_r| |].
      * eapply (clear_above x l q); [done|done| |split; [done|exists r', m, s; by split]]. intros m' s' Eb'. pose proof (Hb []) as Hb0. rewrite app_nil_r in Hb0. by rewrite Hb0 in Eb'.
      * rewrite Hb in Hw. by destruct Hw.
Qed.

Lemma events_keep evs : (forall p e, (p, e) ∈ evs -> exists x q l, p = x :: q /\ (x, l) ∈ T /\ comparable fo1 fo2 id1 root p /\
    verdict (node_at fo1 id1 p) (node_at fo2 root p) = Some e) ->
  forall acc w ops, keeps clock fresh args T es before acc w ->
  run_events (fun p e ops => let* o := event_ops args pm read fo2 fuel p e in Ok (ops ++ o)) evs acc = Ok ops -> keeps clock fresh args T es before ops w.
Proof.
  induction evs as [|[p e] evs IH]; intros Hev acc w ops Hk E; [by injection E as <-|]. cbn in E. destruct (event_ops args pm read fo2 fuel p e) as [o| |] eqn:Eo; try done. cbn in E.
  eapply IH; [intros p' e' Hin; apply Hev; by right| |exact E]. apply keeps_app; try done. intros w1 _ Hi1. destruct (Hev p e) as (x & q & l & -> & Hin & Hc & Hv); [by left|].
  by eapply event_keeps.
Qed.
End events.

(** If a comparison gets to its end with some callback, it does so when the events are only noted. *)
Section notes.
Local Set Default Proof Using "All".
Variables fo1 fo2 : forest.
Context {St : Type}.
Variable cb : list bytes -> event -> St -> result St.

Lemma compare_nodes_notes rec1 rec2 n1 n2 p s s' s0 :
  (forall d1 d2 p s s' s0, rec1 d1 d2 p s = Some (Ok s') -> exists s1, rec2 d1 d2 p s0 = Some (Ok s1)) ->
  compare_nodes_with cb rec1 n1 n2 p s = Some (Ok s') -> exists s1, compare_nodes_with note rec2 n1 n2 p s0 = Some (Ok s1).
Proof.
  intros Hrec E. unfold compare_nodes_with in *. destruct (node_kind n1) as [k1| |]; [|done|done]. destruct (node_kind n2) as [k2| |]; [|done|done].
  assert (forall e, exists s1, Some (note p e s0) = Some (Ok s1)) as Hone by (intros e; by eexists).
  destruct (n_contents n1) as [cs1|d1|t1]; destruct (n_contents n2) as [cs2|d2|t2];
    try (destruct (bool_decide (k1 = k2)); [|by apply Hone]; destruct (negb (bool_decide (_ = _))); [by apply Hone|]; destruct (negb (bool_decide (n_meta n1 = n_meta n2))); by apply Hone).
  destruct (bool_decide (d1 = d2)).
  - destruct (bool_decide (n_meta n1 = n_meta n2)); by eexists.
  - destruct (rec1 d1 d2 p s) as [[s2| |]|] eqn:Er; try done. destruct (Hrec _ _ _ _ _ s0 Er) as [s1 ->]. destruct (bool_decide (n_meta n1 = n_meta n2)); by eexists.
Qed.

Lemma compare_trees_notes fuel : forall id1 id2 p s s' s0, compare_trees fo1 fo2 cb fuel id1 id2 p s = Some (Ok s') ->
  exists s1, compare_trees fo1 fo2 note fuel id1 id2 p s0 = Some (Ok s1).
Proof.
  induction fuel as [|fuel IH]; intros id1 id2 p s s' s0 E; [done|]. cbn [compare_trees] in *.
  destruct (fo1 !! id1) as [t1|]; [|done]. destruct (fo2 !! id2) as [t2|]; [|done].
  revert s s0 E. generalize (os_of_list (map fst t1 ++ map fst t2)) as xs. induction xs as [|x xs IHx]; intros s s0 E; cbn [ofold] in *; [by eexists|].
  destruct (om_get x t1) as [n1|], (om_get x t2) as [n2|]; [| | |done].
  - destruct (compare_nodes_with cb _ n1 n2 (p ++ [x]) s) as [[s2| |]|] eqn:En; try done.
    destruct (compare_nodes_notes _ (compare_trees fo1 fo2 note fuel) _ _ _ _ _ s0 IH En) as [s1 ->]. by eapply IHx.
  - destruct (cb (p ++ [x]) (Removed n1) s) as [s2| |]; try done. by eapply IHx.
  - destruct (cb (p ++ [x]) (Added n2) s) as [s2| |]; try done. by eapply IHx.
Qed.
End notes.

(** ** The whole restore *)

Section repo.
Local Set Default Proof Using "All".
Variables (H : bytes -> oid) (cuts : bytes -> list bytes) (U : blob -> Prop).
Hypothesis HU : universe H U.
Hypothesis Hlen : forall x, length (H x) = 28.
Hypothesis Hcuts : forall x, concat (cuts x) = x.
Variables (k : backend) (ix : index) (bmap : gmap oid oid).
Hypothesis Hk : in_order H U k.
Hypothesis Eix : master k = Ok ix.
Hypothesis Ebm : blob_to_pack_map ix = Ok bmap.
Variables (resolves : list bytes -> bool) (clock : nat -> Z) (fresh : nat -> kind -> posix).
Hypothesis Hfresh : forall n, p_size (fresh n KFile) = Some 0%N.
Variables (args : restore_args) (output : option (list bytes)) (sn : snapshot) (es : list (bytes * fsnode)) (w : fsworld).
Hypothesis Hr : restores H k sn es.
Hypothesis Hdry : r_dry_run args = false.
Hypothesis Hcr : can_restore cuts resolves args output sn es w.2.

Notation T := (targets sn output).

Lemma interrupted_keeps load_fuel fo2 fuel w' : load_forest H k bmap load_fuel (sn_tree sn) = Some (Ok fo2) -> Forall U (made_there H cuts fo2 sn output w.2) ->
  restore H cuts resolves clock fresh k bmap load_fuel fuel args output sn w = Some (Ok w') ->
  exists ops, restore_changes H cuts resolves k bmap load_fuel fuel args output sn w.2 = Some (Ok ops) /\ perform_all clock fresh ops w = Ok w' /\
    forall mid, interrupted clock fresh ops w mid -> inv args T es w.2 mid.2.
Proof.
  intros Efo HUs Ew. pose proof (in_order_structured H U k Hk) as Hst.
  assert (loaded fo2 load_fuel (sn_tree sn)) as Hl2.
  { pose proof Efo as E. unfold load_forest in E. destruct (forest_from_root _ _ _ _) as [[[c f]| |]|] eqn:Ef; try done. injection E as ->.
    eapply forest_from_root_loaded; [|exact Ef]. apply (read_tree_mono H U HU k Hst ix bmap Eix Ebm). }
  assert (forall id t, fo2 !! id = Some t -> stored_as H (repo_store k) id t) as Hfo by apply (load_forest_ok H U HU k Hst ix bmap Eix Ebm _ _ _ Efo).
  pose proof (stored_made H cuts U HU Hlen Hcuts k ix bmap Hk Eix Ebm resolves clock fresh args output sn es w Hr Hdry Hcr fo2 Hfo) as Hm2.
  pose proof (forest_of_tree H U HU Hlen k ix bmap Hk Eix Ebm fo2 Hfo) as Hs2.
  assert (forall i p, read_chunk k bmap i = Ok p <-> repo_store k !! i = Some (Chunk, p)) as Hrc by (intros i p; apply (read_chunk_spec H U HU k Hst ix bmap Eix Ebm)).
  assert (forall q, saves (read_chunk k bmap) (node_at fo2 (sn_tree sn) q) (ent es q)) as Hagree.
  { intros q. pose proof (forest_agrees H U HU Hlen k ix bmap Hk Eix Ebm fo2 _ _ _ Hfo Hl2 Hr q) as Ha. unfold ent. destruct (node_at fo2 (sn_tree sn) q) as [nd|], (fs_at es q) as [n|]; try done.
    cbn in Ha |- *. destruct Ha as [m cs ps HF|m tg|m id u es' Hs' HF]; [|done|done]. split; [done|]. cbn. exists ps. split; [|done]. eapply Forall2_impl; [exact HF|]. intros c p Hc. by apply Hrc. }
  assert (forall i p, read_chunk k bmap i = Ok p -> exists b, U b /\ b_id b = i /\ b_bytes b = p) as Hread.
  { intros i p Hi. apply Hrc in Hi. apply (repo_store_lookup H U HU) in Hi; [|apply Hst]. exists (mkBlob Chunk i p). split; [|done].
    pose proof (live_blobs_U H U HU k (st_packs _ _ _ Hst)) as HF. rewrite Forall_forall in HF. by apply HF. }
  assert (forest_sane fo2) as Hsane2 by (intros i t Hi; apply (Hm2 _ _ Hi)).
  destruct (load_fs_tree_ok H cuts U (read_chunk k bmap) fo2 sn HU Hlen Hcuts Hread Hsane2 resolves args output es w.2 Hcr Hagree HUs) as (id1 & fo1 & pm & t1 & E1 & Ht1 & [d1 Hl1] & Hm1 & Hpm & Hn1 & Hsh).
  assert (exists t2, fo2 !! sn_tree sn = Some t2) as [t2 Ht2].
  { clear -Hl2. destruct load_fuel; [done|]. destruct Hl2 as (t & ? & _). by exists t. }
  assert (same_ids fo1 fo2) as Hsame.
  { intros i u1 u2 H1 H2. destruct (Hm1 _ _ H1) as (-> & S1 & U1). destruct (Hm2 _ _ H2) as (Ei & S2 & U2).
    apply (tree_in_inj H cuts U (read_chunk k bmap) fo2 HU Hcuts Hread); [apply S1|apply S2|done|done|done]. }
  assert (map_Forall (fun _ (t : tree) => om_sorted t /\ Forall (fun e : bytes * node => meta_kind (n_meta e.2) = contents_kind (n_contents e.2)) t) fo1) as Hsa1.
  { intros i t Hi. destruct (Hm1 _ _ Hi) as (_ & S1 & _). split; [apply S1|apply S1]. }
  assert (map_Forall (fun _ (t : tree) => om_sorted t /\ Forall (fun e : bytes * node => meta_kind (n_meta e.2) = contents_kind (n_contents e.2)) t) fo2) as Hsa2.
  { intros i t Hi. destruct (Hm2 _ _ Hi) as (_ & S1 & _). split; [apply S1|apply S1]. }
  destruct (targets_place H cuts U HU Hlen Hcuts k ix bmap Hk Eix Ebm resolves clock fresh args output sn es w Hr Hdry Hcr) as [Hpl Hapart].
  assert (forall x l, (x, l) ∈ T -> l <> []) as Hplace by (intros x l Hin; by apply (Hpl x l)).
  assert (forall x l l', (x, l) ∈ T -> (x, l') ∈ T -> l = l') as Hone.
  { intros x l l' H1 H2. pose proof (cr_distinct _ _ _ _ _ _ _ Hcr) as Hnd. apply (elem_of_list_to_map (M := gmap bytes)) in H1, H2; [|done|done]. congruence. }
  unfold restore in Ew. unfold restore_changes. rewrite Efo, E1 in Ew. rewrite Efo, E1.
  destruct (compare_trees_notes fo1 fo2 _ fuel _ _ _ _ _ [] Ew) as [s1 En].
  destruct (compare_trees_report fo1 fo2 Hsa1 Hsa2 Hsame _ _ _ _ _ _ _ _ Hl1 Hl2 En) as (evs & Es1 & Hrep).
  destruct (compare_trees_runs fo1 fo2 (restore_cb clock fresh args pm (read_chunk k bmap) fo2 fuel) _ _ _ _ _ _ En) as (evs1 & Ee1 & Hrun1).
  destruct (compare_trees_runs fo1 fo2 (fun p e ops => let* o := event_ops args pm (read_chunk k bmap) fo2 fuel p e in Ok (ops ++ o)) _ _ _ _ _ _ En) as (evs2 & Ee2 & Hrun2).
  cbn [app] in *. assert (at_path [] evs = evs) as Eat.
  { unfold at_path. cbn [app]. clear. induction evs as [|[p e] evs IH]; [done|]. cbn. by rewrite IH. }
  assert (s1 = evs) as Es by (rewrite Es1; exact Eat). rewrite Es in Ee1, Ee2. subst evs1 evs2. clear Es Eat Es1.
  rewrite Hrun1 in Ew. injection Ew as Ew. rewrite Hrun2.
  destruct (events_refine clock fresh args pm (read_chunk k bmap) fo2 fuel evs [] w w w' eq_refl Ew) as (ops & Eops & Rops). rewrite Eops.
  exists ops. split; [done|]. split; [done|].
  assert (forall i t, fo1 !! i = Some t -> om_sorted t) as Hso1 by (intros i t Hi; apply (Hsa1 _ _ Hi)).
  assert (keeps clock fresh args T es w.2 ops w) as Hkeeps; [|exact Hkeeps].
  eapply (events_keep clock fresh Hfresh args T es w.2 Hplace Hapart Hone pm (read_chunk k bmap) fo1 fo2 id1 (sn_tree sn) fuel); try done.
  - intros i t Hi. by apply (Hsa2 _ _ Hi).
  - intros x l q m Hin Ee. by eapply (cr_special _ _ _ _ _ _ _ Hcr).
  - intros p n Ep. assert (meta_kind (n_meta n) = contents_kind (n_contents n)) as Hkn; [|by apply (node_kind_ok fo1 fo2)].
    assert (forall q n0 n, node_sub fo1 n0 q = Some n -> meta_kind (n_meta n0) = contents_kind (n_contents n0) -> meta_kind (n_meta n) = contents_kind (n_contents n)) as Hsub.
    { clear -Hsa1. induction q as [|x q IH]; intros n0 n E Hn0; [by injection E as <-|]. cbn [node_sub] in E. destruct (n_contents n0) as [|d|]; try done.
      destruct (fo1 !! d) as [t|] eqn:Ed; [|done]. cbn [mbind option_bind] in E. destruct (om_get x t) as [n2|] eqn:Ex; [|done]. cbn [mbind option_bind] in E.
      eapply IH; [exact E|]. destruct (Hsa1 _ _ Ed) as [_ HF]. rewrite Forall_forall in HF. by apply (HF (x, n2)), om_get_in. }
    destruct p as [|x q]; [done|]. cbn [node_at] in Ep. rewrite Ht1 in Ep. cbn [mbind option_bind] in Ep. destruct (om_get x t1) as [n0|] eqn:Ex; [|done]. cbn [mbind option_bind] in Ep.
    eapply Hsub; [exact Ep|]. destruct (Hsa1 _ _ Ht1) as [_ HF]. rewrite Forall_forall in HF. by apply (HF (x, n0)), om_get_in.
  - intros p e Hin. destruct Hrep as (_ & Hrep & _). destruct (Hrep p e Hin) as (Hp & Hc & Hv). destruct p as [|x q]; [done|].
    assert (x ∈ map fst T) as Hx.
    { unfold node_at in Hv. rewrite Ht1, Ht2 in Hv. cbn [mbind option_bind] in Hv. destruct (om_get x t1) as [n1|] eqn:Ex1.
      - apply Hn1. apply om_get_in in Ex1. change (map ?f ?l) with (f <$> l). apply elem_of_list_fmap. by exists (x, n1).
      - destruct (om_get x t2) as [n2|] eqn:Ex2; [|done]. pose proof (Hagree [x]) as Hx. cbn [node_at] in Hx. rewrite Ht2 in Hx. cbn [mbind option_bind] in Hx. rewrite Ex2 in Hx.
        cbn [mbind option_bind node_sub] in Hx. unfold ent in Hx. cbn [fs_at] in Hx. destruct (om_get x es) as [n|] eqn:Ey; [|done]. by apply (cr_tops _ _ _ _ _ _ _ Hcr x n). }
    change (map ?f ?l) with (f <$> l) in Hx. apply elem_of_list_fmap in Hx as ([y l] & -> & Hy). by exists y, q, l.
  - apply keeps_nil; try done. split; [apply (cr_sorted _ _ _ _ _ _ _ Hcr)|]. split; [apply frame_refl|]. intros x l q Hin. split; [|done].
    destruct (ent w.2 (l ++ q)) as [[t m]|] eqn:Ee.
    + split; [by eapply (cr_unix _ _ _ _ _ _ _ Hcr)|]. left. exists m. by split; [|left].
    + split; [by left|]. done.
Qed.
End repo.

(** ** Running it again *)

Lemma again_args args before saved q (mid : list bytes -> option thing_meta) after :
  (forall q, on_the_way args (before q) (saved q) (mid q)) ->
  (forall q, r_delete args = false -> in_the_way before saved q -> mid q = before q) ->
  comes_out args mid saved q after -> comes_out args before saved q after.
Proof.
  intros Hon Hway [H1 H2]. split; [done|]. intros Hd. destruct (H2 Hd) as [H3 H4]. split.
  - intros Hw. rewrite <-(Hway q Hd Hw). apply H3. destruct Hw as (r & m & s & Hp & Eb & Hs). exists r, m, s. split; [done|]. split; [|done].
    rewrite Hway; [done|done|]. exists r, m, s. by split.
  - intros Hnw. assert (~ in_the_way mid saved q) as Hnw'.
    { intros (r & m & s & Hp & Em & Es & Hs). pose proof (Hon r) as Ho. rewrite Em in Ho. destruct Ho as [_ [(m1 & Eb & _)|(s' & Es' & Hwr)]].
      - apply Hnw. exists r, m1, s. by split.
      - rewrite Es in Es'. injection Es' as <-. unfold written in Hwr. destruct s as [[] ?]; cbn in *; try done. by destruct Hwr as (? & ? & _). }
    specialize (H4 Hnw'). destruct (saved q) as [s|] eqn:Es; [done|]. eapply left_alone_trans; [|exact H4].
    pose proof (Hon q) as Ho. rewrite Es in Ho. destruct (mid q) as [g|].
    + destruct Ho as [_ [(m1 & -> & Hu)|(s & ? & _)]]; [|done]. cbn. split; [done|]. destruct Hu as [<-|[[Ht Hmo]|(s & ? & _)]]; [done| |done].
      split; [by rewrite Hmo|]. by rewrite Ht.
    + destruct Ho as [[->|[?|?]] _]; [done|congruence|done].
Qed.

Lemma inv_can_restore cuts resolves resolves2 args output sn es (before mid : list (bytes * fsnode)) :
  can_restore cuts resolves args output sn es before -> inv args (targets sn output) es before mid ->
  (* sizes are those of the contents *)
  (forall q c m, ent es q = Some (TFile c, m) -> meta_size m = Some (N.of_nat (length c))) ->
  (* the targets that must exist stay *)
  (forall x l, (x, l) ∈ targets sn output -> output = None \/ length (targets sn output) = 1 ->
     exists t m t' m', ent before l = Some (t, m) /\ ent es [x] = Some (t', m') /\ same_kind t t') ->
  (forall x l t m, (x, l) ∈ targets sn output -> ent mid l = Some (TLink t, m) -> resolves2 l = true) ->
  (forall x l n, (x, l) ∈ targets sn output -> fs_at mid l = Some n -> fs_ok cuts false n) ->
  can_restore cuts resolves2 args output sn es mid.
Proof.
  intros Hcr (Hs & Hf & Hall) Hsz Htop Hres Hok.
  assert (forall x l, (x, l) ∈ targets sn output -> output = None \/ length (targets sn output) = 1 -> exists t m, ent mid l = Some (t, m) /\ t <> TOther) as Hstay.
  { intros x l Hin Hc. destruct (Htop x l Hin Hc) as (t & m & t' & m' & Eb & Es & Hk). destruct (Hall x l [] Hin) as [Ho _]. rewrite !app_nil_r in Ho. rewrite Eb, Es in Ho.
    destruct (ent mid l) as [[t2 m2]|] eqn:Em; [|by destruct (proj2 Ho t m t' m')]. exists t2, m2. split; [done|]. intros ->.
    destruct Ho as [_ [(m1 & [= ->] & _)|(s & [= <-] & Hw)]]; [done|]. unfold written in Hw. cbn in Hw. destruct t'; try done. by destruct Hw as (? & ? & _). }
  split.
  - apply (cr_named _ _ _ _ _ _ _ Hcr).
  - apply (cr_distinct _ _ _ _ _ _ _ Hcr).
  - apply (cr_few _ _ _ _ _ _ _ Hcr).
  - apply (cr_text _ _ _ _ _ _ _ Hcr).
  - apply (cr_tops _ _ _ _ _ _ _ Hcr).
  - pose proof (cr_place _ _ _ _ _ _ _ Hcr) as Hp. destruct output as [to|].
    + destruct (targets sn (Some to)) as [|[x l] [|e2 r]] eqn:ET.
      * destruct Hp as [Hd _]. split; [|intros x l t m Hin; by apply not_elem_of_nil in Hin]. eapply dir_at_alone; [|exact Hd]. apply Hf. intros L HL. by apply not_elem_of_nil in HL.
      * assert (l = to) as ->.
        { revert ET. unfold targets. clear. destruct (omap _ _) as [|[x' l'] [|]]; try done. by intros [= -> ->]. }
        destruct (Hstay x to) as (t & m & ? & ?); [by left|by right|]. by exists t, m.
      * destruct Hp as [Hd _]. split; [|intros x' l' t m Hin; by apply (Hres x' l' t m)]. eapply dir_at_alone; [|exact Hd]. apply Hf.
        assert (forall e, e ∈ targets sn (Some to) -> e.2 = to ++ [e.1]) as HT.
        { intros e He. unfold targets in *. destruct (omap _ _) as [|[a b] [|c d]]; try done. change (map ?f ?l) with (f <$> l) in He. by apply elem_of_list_fmap in He as ([y l'] & -> & _). }
        intros L HL Hpre. change (map ?f ?l) with (f <$> l) in HL. apply elem_of_list_fmap in HL as (e & -> & He). rewrite <-ET in He. rewrite (HT e He) in Hpre.
        apply prefix_length in Hpre. rewrite app_length in Hpre. cbn in Hpre. lia.
    + intros x l Hin. destruct (Hstay x l Hin) as (t & m & -> & _); [by left|]. split; [by eexists|]. by apply Hp.
  - done.
  - done.
  - intros x l q t m Hin Ee. destruct (Hall x l q Hin) as [Ho _]. rewrite Ee in Ho. apply Ho.
  - apply (cr_saved_unix _ _ _ _ _ _ _ Hcr).
  - apply (cr_times _ _ _ _ _ _ _ Hcr).
  - intros x l q m0 c0 m c Hin Es Em Hmt Hms. destruct (Hall x l q Hin) as [Ho _]. rewrite Em, Es in Ho. destruct Ho as [_ [(m1 & Eb & Hu)|(s & [= <-] & Hw)]]; cbn in *.
    + destruct Hu as [->|[[? _]|(s & [= <-] & Hc)]]; [|done|by injection (Hc c0 eq_refl)]. by eapply (cr_honest _ _ _ _ _ _ _ Hcr x l q m0 c0 m1 c).
    + destruct Hw as (c' & [= <-] & [c2 Hc2] & Hsz'). change (om_get x es ≫= _) with (fs_at es (x :: q)) in Es. rewrite (Hsz (x :: q) c0 m0 Es) in Hms. rewrite Hsz' in Hms. injection Hms as Hms.
      subst c0. rewrite app_length in Hms. destruct c2; [by rewrite app_nil_r|cbn in Hms; lia].
  - intros x l q m Hin Em. destruct (Hall x l q Hin) as [Ho _]. rewrite Em in Ho. destruct Ho as [_ [(m1 & Eb & _)|(s & Es & Hw)]].
    + by eapply (cr_special _ _ _ _ _ _ _ Hcr).
    + unfold written in Hw. destruct s as [[] ?]; cbn in Hw; try done. by destruct Hw as (? & ? & _).
Qed.
