From Verif Require Import Base OMap Formats Hashing Meta Forest ForestFacts FsTree FsSpec FsFacts PruneFacts Browse BrowseSpec BrowseFacts.

Lemma loaded_at fo k id p n d : map_Forall (fun _ (t : tree) => om_sorted t) fo ->
  loaded fo k id -> node_at fo id p = Some n -> n_contents n = CDir d -> loaded fo k d.
Proof.
  intros Hs. revert k id. induction p as [|x p IH]; intros k id; [done|]. destruct k as [|k]; [done|]. intros (t & Ht & L) E C.
  cbn [node_at] in E. rewrite Ht in E. cbn in E. destruct (om_get x t) as [m|] eqn:G; [|done]. cbn in E.
  apply om_get_elem in G; [|by eapply Hs]. destruct p as [|y p].
  - injection E as ->. eapply loaded_mono; [apply L; by eapply node_subtree_in|lia].
  - destruct (n_contents m) as [cs|d'|tg] eqn:Cm; [cbn in E; by rewrite Cm in E| |cbn in E; by rewrite Cm in E].
    rewrite (node_sub_into _ _ d') in E by done. eapply loaded_mono; [eapply IH; [apply L; by eapply node_subtree_in|done|done]|lia].
Qed.

(** ** From events to lines *)

Section lines.
Local Set Default Proof Using "All".
Variables fo1 fo2 : forest.
Hypothesis Hsane1 : map_Forall (fun _ (t : tree) => om_sorted t /\ Forall (fun e : bytes * node => meta_kind (n_meta e.2) = contents_kind (n_contents e.2)) t) fo1.
Hypothesis Hsane2 : map_Forall (fun _ (t : tree) => om_sorted t /\ Forall (fun e : bytes * node => meta_kind (n_meta e.2) = contents_kind (n_contents e.2)) t) fo2.
Hypothesis Hsame : same_ids fo1 fo2.
Variable fuel : nat.
Variable show_meta : bool.
Variables id1 id2 : oid.
Hypothesis L1 : loaded fo1 fuel id1.
Hypothesis L2 : loaded fo2 fuel id2.

Let Hsort1 : map_Forall (fun _ (t : tree) => om_sorted t) fo1.
Proof. intros i t E. by destruct (Hsane1 i t E). Qed.
Let Hsort2 : map_Forall (fun _ (t : tree) => om_sorted t) fo2.
Proof. intros i t E. by destruct (Hsane2 i t E). Qed.

Lemma compare_trees_total {St} (cb : list bytes -> event -> St -> result St) k i1 i2 p s :
  (forall p e s, exists s', cb p e s = Ok s') -> loaded fo1 k i1 -> loaded fo2 k i2 ->
  exists s', compare_trees fo1 fo2 cb k i1 i2 p s = Some (Ok s').
Proof.
  intros Hcb. revert i1 i2 p s. induction k as [|k IH]; intros i1 i2 p s; [done|]. intros (t1 & H1 & M1) (t2 & H2 & M2).
  cbn [compare_trees]. rewrite H1, H2. destruct (Hsane1 _ _ H1) as [S1 K1]. destruct (Hsane2 _ _ H2) as [S2 K2]. rewrite Forall_forall in K1, K2.
  apply ofold_total. intros x s' Hx.
  assert (forall e, exists s'', Some (cb (p ++ [x]) e s') = Some (Ok s'')) as Hone by (intros e; destruct (Hcb (p ++ [x]) e s') as [s'' ->]; eauto).
  destruct (om_get x t1) as [n1|] eqn:G1, (om_get x t2) as [n2|] eqn:G2; [| | |].
  - apply om_get_elem in G1; [|done]. apply om_get_elem in G2; [|done]. unfold compare_nodes_with, node_kind.
    pose proof (K1 _ G1) as E1. pose proof (K2 _ G2) as E2. cbn [snd] in E1, E2. rewrite E1, E2, !bool_decide_eq_true_2 by done. cbn [rassert rbind].
    assert (forall c1 c2 : contents, exists s'', Some
            (if bool_decide (contents_kind c1 = contents_kind c2) then
              if negb (bool_decide (c1 = c2)) then cb (p ++ [x]) (Changed n1 n2) s'
              else if negb (bool_decide (n_meta n1 = n_meta n2)) then cb (p ++ [x]) (MetaChanged n1 n2) s'
              else cb (p ++ [x]) (Unchanged n2) s'
            else cb (p ++ [x]) (TypeChanged n1 n2) s') = Some (Ok s'')) as Hleaf.
    { intros c1 c2. repeat case_bool_decide; cbn [negb]; apply Hone. }
    destruct (n_contents n1) as [cs1|d1|tg1] eqn:C1, (n_contents n2) as [cs2|d2|tg2] eqn:C2; try apply Hleaf.
    assert (exists s2, (if bool_decide (d1 = d2) then Some (Ok s') else compare_trees fo1 fo2 cb k d1 d2 (p ++ [x]) s') = Some (Ok s2)) as [s2 ->].
    { clear Hleaf. case_bool_decide; [by eexists|]. apply IH; [apply M1|apply M2]; by eapply node_subtree_in. }
    assert (exists s3, (if bool_decide (n_meta n1 = n_meta n2) then Ok s2 else cb (p ++ [x]) (MetaChanged n1 n2) s2) = Ok s3) as [s3 ->].
    { clear Hleaf. case_bool_decide; [by eexists|apply Hcb]. }
    cbn [rbind]. destruct (bool_decide (d1 = d2) && bool_decide (n_meta n1 = n_meta n2)); [|by eexists].
    destruct (Hcb (p ++ [x]) (Unchanged n1) s3) as [s4 ->]. by eexists.
  - apply Hone.
  - apply Hone.
  - exfalso. rewrite elem_of_names, elem_of_app in Hx. destruct Hx as [Hx|Hx]; apply om_get_names in Hx as [n Hn]; try done; congruence.
Qed.

(** The lines for one event. *)
Definition has_line (p : list bytes) (e : event) (l : line) : Prop :=
  let '(pre, r, m) := l in
  match e with
  | Added n => pre = ascii_bytes "+ " /\ exists q, r = p ++ q /\ node_sub fo2 n q = Some m
  | Removed n => pre = ascii_bytes "- " /\ exists q, r = p ++ q /\ node_sub fo1 n q = Some m
  | Changed n1 n2 => r = p /\
      match n_contents n1 with
      | CSymlink _ => (pre = ascii_bytes "- " /\ m = n1) \/ (pre = ascii_bytes "+ " /\ m = n2)
      | _ => pre = ascii_bytes "C " /\ m = n1
      end
  | MetaChanged n1 n2 => show_meta = true /\ r = p /\ m = n2 /\
      exists c, meta_diff_char (n_meta n1) (n_meta n2) = Some c /\ pre = mark_char c ++ ascii_bytes " "
  | Unchanged _ => False
  | TypeChanged n1 n2 =>
      (pre = ascii_bytes "- " /\ exists q, r = p ++ q /\ node_sub fo1 n1 q = Some m) \/
      (pre = ascii_bytes "+ " /\ exists q, r = p ++ q /\ node_sub fo2 n2 q = Some m)
  end.

Lemma print_node_lines fo pre p n s (Hs : map_Forall (fun _ (t : tree) => om_sorted t) fo) :
  (forall d, n_contents n = CDir d -> loaded fo fuel d) ->
  exists b, print_node fo fuel pre p n s = Some (Ok (s ++ b)) /\ NoDup b /\
    forall pre' r m, (pre', r, m) ∈ b <-> pre' = pre /\ exists q, r = p ++ q /\ node_sub fo n q = Some m.
Proof.
  intros Hl. unfold print_node, walk_node, walk_node_with.
  assert (forall sub, NoDup (map fst sub) -> (forall q m, (q, m) ∈ sub <-> node_sub fo n q = Some m) ->
    NoDup (map (fun y : list bytes * node => (pre, p ++ y.1, y.2)) sub) /\
    forall pre' r m, (pre', r, m) ∈ map (fun y : list bytes * node => (pre, p ++ y.1, y.2)) sub <-> pre' = pre /\ exists q, r = p ++ q /\ node_sub fo n q = Some m) as Hput.
  { intros sub Hnd Hsub. split.
    - change (map ?f ?l) with (f <$> l). apply NoDup_fmap_2; [|by eapply NoDup_fmap_1]. intros [q1 m1] [q2 m2] E. cbn in E. injection E as E ->. apply app_inv_head in E. by subst.
    - intros pre' r m. change (map ?f ?l) with (f <$> l). rewrite elem_of_list_fmap. split.
      + intros ([q m'] & E & Hin). cbn in E. injection E as -> -> ->. split; [done|]. exists q. split; [done|]. by apply Hsub.
      + intros (-> & q & -> & Hq). exists (q, m). split; [done|]. by apply Hsub. }
  assert (forall (Hd : forall d, n_contents n <> CDir d), exists b, Some (Ok (see pre p n s)) = Some (Ok (s ++ b)) /\ NoDup b /\
    forall pre' r m, (pre', r, m) ∈ b <-> pre' = pre /\ exists q, r = p ++ q /\ node_sub fo n q = Some m) as Hleaf.
  { intros Hd. destruct (Hput [([], n)]) as [H1 H2]; [apply NoDup_singleton| |].
    - intros q m. rewrite elem_of_list_singleton, (node_sub_leaf _ Hs pre) by done. naive_solver.
    - cbn [map fst snd] in H1, H2. rewrite app_nil_r in H1, H2. exists [(pre, p, n)]. done. }
  destruct (n_contents n) as [cs|d|tg] eqn:C; [by apply Hleaf| |by apply Hleaf].
  destruct (walk_tree_total fo Hs pre (see pre) fuel p d (see pre p n s) (Hl _ eq_refl)) as [s' E].
  destruct (walk_tree_lists fo Hs pre _ _ _ _ _ E) as (l & -> & H1 & H2 & H3). rewrite E. exists ((pre, p, n) :: lines_at pre p l).
  split; [unfold see; by rewrite <-app_assoc|].
  destruct (Hput (([], n) :: l)) as [G1 G2].
  - cbn [map fst]. apply NoDup_cons. split; [|done]. intros Hin. change (map fst l) with (fst <$> l) in Hin.
    apply elem_of_list_fmap in Hin as ([q m] & E' & Hin). simpl in E'. subst q. apply H2 in Hin. done.
  - intros q m. rewrite elem_of_cons, H2. destruct q as [|y q].
    + cbn. naive_solver.
    + rewrite (node_sub_into _ _ d) by done. naive_solver.
  - cbn [map fst snd] in G1, G2. rewrite app_nil_r in G1, G2. done.
Qed.

Lemma print_diff_lines p e s : verdict (node_at fo1 id1 p) (node_at fo2 id2 p) = Some e ->
  exists b, print_diff fo1 fo2 fuel show_meta p e s = Ok (s ++ b) /\ NoDup b /\ forall x, x ∈ b <-> has_line p e x.
Proof.
  intros Hv.
  assert (forall n, node_at fo1 id1 p = Some n -> forall d, n_contents n = CDir d -> loaded fo1 fuel d) as N1 by (intros; by eapply loaded_at).
  assert (forall n, node_at fo2 id2 p = Some n -> forall d, n_contents n = CDir d -> loaded fo2 fuel d) as N2 by (intros; by eapply loaded_at).
  destruct (node_at fo1 id1 p) as [n1|] eqn:E1, (node_at fo2 id2 p) as [n2|] eqn:E2; [| | |done].
  2: { injection Hv as <-. unfold print_diff. destruct (print_node_lines fo1 (ascii_bytes "- ") p n1 s Hsort1 (N1 _ eq_refl)) as (b & -> & Hb & Hin).
    exists b. split; [done|]. split; [done|]. intros [[pre r] m]. by rewrite Hin. }
  2: { injection Hv as <-. unfold print_diff. destruct (print_node_lines fo2 (ascii_bytes "+ ") p n2 s Hsort2 (N2 _ eq_refl)) as (b & -> & Hb & Hin).
    exists b. split; [done|]. split; [done|]. intros [[pre r] m]. by rewrite Hin. }
  assert (forall n n', exists b, print_diff fo1 fo2 fuel show_meta p (Changed n n') s = Ok (s ++ b) /\ NoDup b /\ forall x, x ∈ b <-> has_line p (Changed n n') x) as Hchanged.
  { intros n n'. unfold print_diff, has_line, see. destruct (n_contents n).
    - exists [(ascii_bytes "C ", p, n)]. split; [done|]. split; [apply NoDup_singleton|]. intros [[pre r] m]. rewrite elem_of_list_singleton. naive_solver.
    - exists [(ascii_bytes "C ", p, n)]. split; [done|]. split; [apply NoDup_singleton|]. intros [[pre r] m]. rewrite elem_of_list_singleton. naive_solver.
    - exists [(ascii_bytes "- ", p, n); (ascii_bytes "+ ", p, n')]. split; [by rewrite <-app_assoc|]. split.
      + apply NoDup_cons. split; [rewrite elem_of_list_singleton; done|apply NoDup_singleton].
      + intros [[pre r] m]. rewrite !elem_of_cons, elem_of_nil. naive_solver. }
  assert (forall n n', n_meta n <> n_meta n' -> exists b, print_diff fo1 fo2 fuel show_meta p (MetaChanged n n') s = Ok (s ++ b) /\ NoDup b /\ forall x, x ∈ b <-> has_line p (MetaChanged n n') x) as Hmeta.
  { intros n n' Hne. unfold print_diff, has_line, see. destruct show_meta.
    - destruct (meta_diff_char (n_meta n) (n_meta n')) as [c|] eqn:Ec; [|unfold meta_diff_char in Ec; by case_decide].
      exists [(mark_char c ++ ascii_bytes " ", p, n')]. split; [done|]. split; [apply NoDup_singleton|]. intros [[pre r] m]. rewrite elem_of_list_singleton. naive_solver.
    - exists []. rewrite app_nil_r. split; [done|]. split; [constructor|]. intros [[pre r] m]. rewrite elem_of_nil. naive_solver. }
  assert (forall n, exists b, print_diff fo1 fo2 fuel show_meta p (Unchanged n) s = Ok (s ++ b) /\ NoDup b /\ forall x, x ∈ b <-> has_line p (Unchanged n) x) as Hun.
  { intros n. exists []. rewrite app_nil_r. split; [done|]. split; [constructor|]. intros [[pre r] m]. by rewrite elem_of_nil. }
  assert (exists b, print_diff fo1 fo2 fuel show_meta p (TypeChanged n1 n2) s = Ok (s ++ b) /\ NoDup b /\ forall x, x ∈ b <-> has_line p (TypeChanged n1 n2) x) as Htype.
  { unfold print_diff. destruct (print_node_lines fo1 (ascii_bytes "- ") p n1 s Hsort1 (N1 _ eq_refl)) as (b & -> & Hb & Hin).
    cbn [or_panic rbind]. destruct (print_node_lines fo2 (ascii_bytes "+ ") p n2 (s ++ b) Hsort2 (N2 _ eq_refl)) as (b2 & -> & Hb2 & Hin2).
    exists (b ++ b2). split; [by rewrite app_assoc|]. split.
    - apply NoDup_app. split; [done|]. split; [|done]. intros [[pre r] m] [-> _]%Hin [E _]%Hin2. done.
    - intros [[pre r] m]. by rewrite elem_of_app, Hin, Hin2. }
  unfold verdict in Hv. destruct (n_contents n1) as [cs1|d1|t1] eqn:C1, (n_contents n2) as [cs2|d2|t2] eqn:C2.
  5: { destruct (bool_decide_reflect (n_meta n1 = n_meta n2)); [|injection Hv as <-; by apply Hmeta]. case_bool_decide; [injection Hv as <-; apply Hun|done]. }
  all: apply (inj Some) in Hv; subst e.
  all: match goal with |- context[bool_decide (contents_kind ?a = contents_kind ?b)] => destruct (bool_decide_reflect (contents_kind a = contents_kind b)) end; [|apply Htype].
  all: match goal with |- context[negb (bool_decide ?P)] => destruct (bool_decide_reflect P) end; cbn [negb]; [|apply Hchanged].
  all: destruct (bool_decide_reflect (n_meta n1 = n_meta n2)); cbn [negb]; [apply Hun|by apply Hmeta].
Qed.

Lemma has_line_below p e r pre m : has_line p e (pre, r, m) -> exists q, r = p ++ q.
Proof.
  unfold has_line. destruct e as [n|n|n n'|n n'|n|n n']; intros Hl; [naive_solver|naive_solver| | |done|naive_solver].
  - destruct Hl as [-> _]. exists []. by rewrite app_nil_r.
  - destruct Hl as [_ [-> _]]. exists []. by rewrite app_nil_r.
Qed.
Lemma has_line_dirs p e x : (exists d, is_dir (node_at fo1 id1 p) d) -> (exists d, is_dir (node_at fo2 id2 p) d) ->
  verdict (node_at fo1 id1 p) (node_at fo2 id2 p) = Some e -> has_line p e x -> x.1.2 = p.
Proof.
  intros (d1 & n1 & -> & C1) (d2 & n2 & -> & C2) Hv. unfold verdict in Hv. rewrite C1, C2 in Hv. destruct x as [[pre r] m].
  destruct (bool_decide (n_meta n1 = n_meta n2)); [destruct (bool_decide (d1 = d2)); [|done]|]; injection Hv as <-; cbn; [done|]. naive_solver.
Qed.

Lemma has_line_one p e p' e' x : p <> [] -> p' <> [] -> comparable fo1 fo2 id1 id2 p -> comparable fo1 fo2 id1 id2 p' ->
  verdict (node_at fo1 id1 p) (node_at fo2 id2 p) = Some e -> verdict (node_at fo1 id1 p') (node_at fo2 id2 p') = Some e' ->
  has_line p e x -> has_line p' e' x -> p = p'.
Proof.
  intros Hp Hp' Hc Hc' Hv Hv' Hx Hx'. destruct x as [[pre r] m].
  destruct (has_line_below _ _ _ _ _ Hx) as [q Eq]. destruct (has_line_below _ _ _ _ _ Hx') as [q' Eq'].
  assert (forall (p p' : list bytes) q q', p ++ q = p' ++ q' -> (exists z, p' = p ++ z) \/ (exists z, p = p' ++ z)) as Hcmp.
  { clear. induction p as [|a p IH]; intros p' q q' E; [left; by exists p'|]. destruct p' as [|b p']; [right; by exists (a :: p)|].
    cbn in E. injection E as -> E. destruct (IH _ _ _ E) as [[z ->]|[z ->]]; [left|right]; by exists z. }
  assert (p ++ q = p' ++ q') as E by congruence. destruct (Hcmp _ _ _ _ E) as [[z Ez]|[z Ez]]; (destruct z as [|z0 z]; [rewrite app_nil_r in Ez; congruence|]).
  - destruct (Hc' p (z0 :: z) Ez Hp ltac:(done)) as [D1 D2]. pose proof (has_line_dirs _ _ _ D1 D2 Hv Hx) as Er. cbn in Er. rewrite Er, Ez in Eq'.
    exfalso. apply (f_equal length) in Eq'. rewrite !app_length in Eq'. cbn in Eq'. lia.
  - destruct (Hc p' (z0 :: z) Ez Hp' ltac:(done)) as [D1 D2]. pose proof (has_line_dirs _ _ _ D1 D2 Hv' Hx') as Er. cbn in Er. rewrite Er, Ez in Eq.
    exfalso. apply (f_equal length) in Eq. rewrite !app_length in Eq. cbn in Eq. lia.
Qed.

Lemma run_lines l s : NoDup (map fst l) ->
  (forall p e, (p, e) ∈ l -> p <> [] /\ comparable fo1 fo2 id1 id2 p /\ verdict (node_at fo1 id1 p) (node_at fo2 id2 p) = Some e) ->
  exists b, run_events (print_diff fo1 fo2 fuel show_meta) l s = Ok (s ++ b) /\ NoDup b /\
    forall x, x ∈ b <-> exists p e, (p, e) ∈ l /\ has_line p e x.
Proof.
  revert s. induction l as [|[p e] l IH]; intros s Hnd Hl.
  { exists []. rewrite app_nil_r. split; [done|]. split; [constructor|]. intros x. rewrite elem_of_nil. split; [done|]. intros (p & e & Hin & _). by apply elem_of_nil in Hin. }
  cbn [map fst] in Hnd. apply NoDup_cons in Hnd as [Hp Hnd]. destruct (Hl p e) as (Hne & Hc & Hv); [by left|].
  destruct (print_diff_lines p e s Hv) as (b & Eb & Hb & Hinb).
  destruct (IH (s ++ b) Hnd) as (b' & Eb' & Hb' & Hinb'); [intros; apply Hl; by right|].
  exists (b ++ b'). split; [|split].
  - unfold run_events in *. cbn [rfold fst snd]. rewrite Eb. cbn [rbind]. rewrite Eb'. by rewrite app_assoc.
  - apply NoDup_app. split; [done|]. split; [|done]. intros x Hx Hx'. apply Hinb in Hx. apply Hinb' in Hx' as (p' & e' & Hin & Hx').
    destruct (Hl p' e') as (Hne' & Hc' & Hv'); [by right|]. assert (p = p') as <- by (by eapply has_line_one).
    apply Hp. change (map fst l) with (fst <$> l). apply elem_of_list_fmap. by exists (p, e').
  - intros x. rewrite elem_of_app, Hinb, Hinb'. split.
    + intros [Hx|(p' & e' & Hin & Hx)]; [exists p, e|exists p', e']; (split; [|done]); [by left|by right].
    + intros (p' & e' & [E|Hin]%elem_of_cons & Hx); [injection E as -> ->; by left|right; eauto].
Qed.

(** Which lines that makes. *)
Lemma node_at_app fo id p q n : p <> [] -> node_at fo id p = Some n -> node_at fo id (p ++ q) = node_sub fo n q.
Proof.
  destruct p as [|x p]; [done|]. intros _ E. cbn [node_at app] in *. destruct (fo !! id ≫= om_get x) as [m|]; [|done]. cbn in *. by apply node_sub_app.
Qed.
Lemma node_at_app_none fo id p q : p <> [] -> node_at fo id p = None -> node_at fo id (p ++ q) = None.
Proof.
  destruct p as [|x p]; [done|]. intros _ E. cbn [node_at app] in *. destruct (fo !! id ≫= om_get x) as [m|]; [|done]. cbn in *.
  destruct (node_sub fo m (p ++ q)) as [k|] eqn:Ek; [|done]. apply node_sub_prefix in Ek as (k' & E' & _). congruence.
Qed.
Lemma node_at_prefix fo id p q n : p <> [] -> node_at fo id (p ++ q) = Some n -> exists m, node_at fo id p = Some m /\ node_sub fo m q = Some n.
Proof.
  intros Hp E. destruct (node_at fo id p) as [m|] eqn:Em; [|rewrite (node_at_app_none _ _ _ _ Hp Em) in E; done].
  exists m. split; [done|]. by rewrite (node_at_app _ _ _ _ _ Hp Em) in E.
Qed.
Lemma node_sub_below fo m q n : q <> [] -> node_sub fo m q = Some n -> exists d, n_contents m = CDir d.
Proof. destruct q as [|x q]; [done|]. intros _. cbn [node_sub]. destruct (n_contents m); [done|eauto|done]. Qed.

Lemma both_comparable p n1 n2 : node_at fo1 id1 p = Some n1 -> node_at fo2 id2 p = Some n2 -> comparable fo1 fo2 id1 id2 p.
Proof.
  intros E1 E2 q r -> Hq Hr. apply node_at_prefix in E1 as (m1 & E1 & S1); [|done]. apply node_at_prefix in E2 as (m2 & E2 & S2); [|done].
  split.
  - destruct (node_sub_below _ _ _ _ Hr S1) as [d Hd]. exists d, m1. done.
  - destruct (node_sub_below _ _ _ _ Hr S2) as [d Hd]. exists d, m2. done.
Qed.

(** How far down the two sides can be compared. *)
Lemma comparable_prefix r i1 i2 k1 k2 : r <> [] -> loaded fo1 k1 i1 -> loaded fo2 k2 i2 -> exists p q, r = p ++ q /\ p <> [] /\ comparable fo1 fo2 i1 i2 p /\
  (q = [] \/ ~ ((exists d, is_dir (node_at fo1 i1 p) d) /\ (exists d, is_dir (node_at fo2 i2 p) d))).
Proof.
  revert i1 i2 k1 k2. induction r as [|x r IH]; intros i1 i2 k1 k2 Hr M1 M2; [done|]. destruct r as [|y r].
  { exists [x], []. split; [done|]. split; [done|]. split; [by apply comparable_one|by left]. }
  destruct k1 as [|k1]; [done|]. destruct k2 as [|k2]; [done|]. destruct M1 as (t1 & H1 & M1). destruct M2 as (t2 & H2 & M2).
  assert (forall fo i t, fo !! i = Some t -> node_at fo i [x] = om_get x t) as Hone.
  { intros fo i t E. cbn [node_at]. rewrite E. cbn. by destruct (om_get x t). }
  assert ((exists n1 n2 d1 d2, om_get x t1 = Some n1 /\ om_get x t2 = Some n2 /\ n_contents n1 = CDir d1 /\ n_contents n2 = CDir d2) \/
     ~ ((exists d, is_dir (node_at fo1 i1 [x]) d) /\ (exists d, is_dir (node_at fo2 i2 [x]) d))) as [(n1 & n2 & d1 & d2 & G1 & G2 & C1 & C2)|Hno].
  { rewrite (Hone _ _ _ H1), (Hone _ _ _ H2). destruct (om_get x t1) as [n1|]; [|right; intros [(d & ? & E & _) _]; done].
    destruct (om_get x t2) as [n2|]; [|right; intros [_ (d & ? & E & _)]; done].
    destruct (n_contents n1) eqn:C1; [right; intros [(d & ? & E & E') _]; congruence| |right; intros [(d & ? & E & E') _]; congruence].
    destruct (n_contents n2) eqn:C2; [right; intros [_ (d & ? & E & E')]; congruence| |right; intros [_ (d & ? & E & E')]; congruence].
    left. eauto 10. }
  - apply om_get_elem in G1 as I1; [|by eapply Hsort1]. apply om_get_elem in G2 as I2; [|by eapply Hsort2].
    destruct (IH d1 d2 k1 k2 ltac:(done) ltac:(apply M1; by eapply node_subtree_in) ltac:(apply M2; by eapply node_subtree_in)) as (p & q & E & Hp & Hc & Hq).
    exists (x :: p), q. rewrite E. split; [done|]. split; [done|]. split.
    + eapply (comparable_step fo1 fo2); eauto 12.
    + destruct Hq as [Hq|Hq]; [by left|right].
      assert (node_at fo1 i1 (x :: p) = node_at fo1 d1 p) as ->.
      { cbn [node_at]. rewrite H1. cbn [mbind option_bind]. rewrite G1. cbn [mbind option_bind]. by apply node_sub_into. }
      assert (node_at fo2 i2 (x :: p) = node_at fo2 d2 p) as ->.
      { cbn [node_at]. rewrite H2. cbn [mbind option_bind]. rewrite G2. cbn [mbind option_bind]. by apply node_sub_into. }
      done.
  - exists [x], (y :: r). split; [done|]. split; [done|]. split; [by apply comparable_one|by right].
Qed.

Lemma kind_dir n : kind_of n = KDirectory <-> exists d, n_contents n = CDir d.
Proof. unfold kind_of. destruct (n_contents n); cbn; naive_solver. Qed.

(** The event of a path that both sides have. *)
Lemma verdict_both a b e : verdict (Some a) (Some b) = Some e ->
  (kind_of a <> kind_of b /\ e = TypeChanged a b) \/
  (kind_of a = kind_of b /\ kind_of a <> KDirectory /\ n_contents a <> n_contents b /\ e = Changed a b) \/
  (~ differs a b /\ n_meta a <> n_meta b /\ e = MetaChanged a b) \/
  (exists n, e = Unchanged n).
Proof.
  unfold verdict, differs, kind_of. intros Hv.
  destruct (n_contents a) as [cs1|d1|t1] eqn:C1, (n_contents b) as [cs2|d2|t2] eqn:C2; cbn [contents_kind] in *.
  5: { destruct (bool_decide_reflect (n_meta a = n_meta b)); [case_bool_decide; [|done]|]; injection Hv as <-; [by eauto|]. right; right; left. naive_solver. }
  all: apply (inj Some) in Hv; subst e.
  all: match goal with |- context[bool_decide (?a = ?b :> kind)] => destruct (bool_decide_reflect (a = b :> kind)); try done end.
  all: try (by left).
  all: match goal with |- context[bool_decide (?a = ?b :> contents)] => destruct (bool_decide_reflect (a = b :> contents)) end; cbn [negb].
  all: try (right; left; done).
  all: destruct (bool_decide_reflect (n_meta a = n_meta b)); cbn [negb]; [by eauto|]; right; right; left; naive_solver.
Qed.
Lemma verdict_type a b : kind_of a <> kind_of b -> verdict (Some a) (Some b) = Some (TypeChanged a b).
Proof.
  unfold verdict, kind_of. intros Hk. destruct (n_contents a), (n_contents b); cbn in *; try done.
Qed.
Lemma verdict_changed a b : kind_of a = kind_of b -> kind_of a <> KDirectory -> n_contents a <> n_contents b -> verdict (Some a) (Some b) = Some (Changed a b).
Proof.
  unfold verdict, kind_of. intros Hk Hd Hc. destruct (n_contents a), (n_contents b); cbn [contents_kind] in *; try done; rewrite bool_decide_eq_true_2, bool_decide_eq_false_2 by done; done.
Qed.
Lemma verdict_meta a b : ~ differs a b -> n_meta a <> n_meta b -> verdict (Some a) (Some b) = Some (MetaChanged a b).
Proof.
  unfold verdict, differs, kind_of. intros Hd Hm. destruct (n_contents a) as [c|c|c] eqn:C1, (n_contents b) as [c'|c'|c'] eqn:C2; cbn [contents_kind] in *; try (by destruct Hd; left).
  - rewrite bool_decide_eq_true_2 by done. rewrite (bool_decide_eq_true_2 (CFile c = CFile c')); [by rewrite bool_decide_eq_false_2|].
    destruct (decide (CFile c = CFile c')); [done|]. destruct Hd. by right.
  - by rewrite bool_decide_eq_false_2.
  - rewrite bool_decide_eq_true_2 by done. rewrite (bool_decide_eq_true_2 (CSymlink c = CSymlink c')); [by rewrite bool_decide_eq_false_2|].
    destruct (decide (CSymlink c = CSymlink c')); [done|]. destruct Hd. by right.
Qed.

Lemma lines_belong l pre r m : report fo1 fo2 id1 id2 l ->
  (exists p e, (p, e) ∈ l /\ has_line p e (pre, r, m)) <-> belongs show_meta (node_at fo1 id1 r) (node_at fo2 id2 r) pre m.
Proof.
  intros (Hnd & Hsound & Hcomp). split.
  - intros (p & e & Hin & Hl). destruct (Hsound _ _ Hin) as (Hp & Hc & Hv).
    destruct (node_at fo1 id1 p) as [n1|] eqn:E1, (node_at fo2 id2 p) as [n2|] eqn:E2; [| | |done].
    + apply verdict_both in Hv as [[Hk ->]|[(Hk & Hd & Hcn & ->)|[(Hd & Hm & ->)|[n ->]]]]; [| | |done].
      * cbn in Hl. destruct Hl as [[-> (q & -> & Hq)]|[-> (q & -> & Hq)]].
        -- right; left. split; [done|]. rewrite (node_at_app _ _ _ _ _ Hp E1), (node_at_app _ _ _ _ _ Hp E2). split; [done|]. destruct q as [|y q].
           ++ cbn [node_sub] in *. injection Hq as <-. left. by intros Hk'.
           ++ apply node_sub_below in Hq as Hd; [|done]. destruct (node_sub fo2 n2 (y :: q)) as [k|] eqn:Ek; [|done]. apply node_sub_below in Ek; [|done].
              apply kind_dir in Hd. apply kind_dir in Ek. congruence.
        -- left. split; [done|]. rewrite (node_at_app _ _ _ _ _ Hp E1), (node_at_app _ _ _ _ _ Hp E2). split; [done|]. destruct q as [|y q].
           ++ cbn [node_sub] in *. injection Hq as <-. by left.
           ++ apply node_sub_below in Hq as Hd; [|done]. destruct (node_sub fo1 n1 (y :: q)) as [k|] eqn:Ek; [|done]. apply node_sub_below in Ek; [|done].
              apply kind_dir in Hd. apply kind_dir in Ek. congruence.
      * cbn in Hl. destruct Hl as [-> Hl]. rewrite E1, E2. destruct (n_contents n1) as [cs|d|tg] eqn:C1.
        -- destruct Hl as [-> ->]. right; right; left. split; [done|]. exists n2. split; [done|]. split; [done|]. unfold kind_of in *. rewrite C1 in *. done.
        -- destruct Hd. unfold kind_of. by rewrite C1.
        -- assert (kind_of n1 = KSymlink) as K1 by (unfold kind_of; by rewrite C1). rewrite <-C1 in Hcn.
           destruct Hl as [[-> ->]|[-> ->]]; [right; left|left]; (split; [done|]; split; [done|]); right; (split; [congruence|]); [by apply not_eq_sym|done].
      * cbn in Hl. destruct Hl as (Hs & -> & -> & c & Hcd & ->). right; right; right. split; [done|]. rewrite E1, E2. exists n1, c. done.
    + injection Hv as <-. cbn in Hl. destruct Hl as [-> (q & -> & Hq)]. right; left. split; [done|].
      rewrite (node_at_app _ _ _ _ _ Hp E1), (node_at_app_none _ _ _ _ Hp E2). done.
    + injection Hv as <-. cbn in Hl. destruct Hl as [-> (q & -> & Hq)]. left. split; [done|].
      rewrite (node_at_app _ _ _ _ _ Hp E2), (node_at_app_none _ _ _ _ Hp E1). done.
  - assert (forall o n, node_at o n [] = None) as Hnil by done.
    intros [[-> [E2 Hp]]|[[-> [E1 Hp]]|[[-> (n2 & E1 & E2 & K1 & K2 & Hne)]|[Hs (n1 & c & E1 & E2 & Hd & Hc & ->)]]]].
    + destruct (decide (r = [])) as [->|Hr]; [done|]. destruct (comparable_prefix r id1 id2 _ _ Hr L1 L2) as (p & q & -> & Hpn & Hcm & Hq).
      apply node_at_prefix in E2 as (n2 & E2 & S2); [|done]. destruct (node_at fo1 id1 p) as [n1|] eqn:E1.
      * assert (kind_of n1 <> kind_of n2 \/ (kind_of n1 = KSymlink /\ n_contents n1 <> n_contents n2 /\ q = [])) as [Hk|(Hk & Hcn & ->)].
        { destruct q as [|y q].
          - cbn in S2. injection S2 as ->. rewrite app_nil_r, E1 in Hp. naive_solver.
          - left. destruct Hq as [|Hq]; [done|]. apply node_sub_below in S2 as D2; [|done]. intros Hk. apply Hq. apply kind_dir in D2 as K2. rewrite <-Hk in K2. apply kind_dir in K2 as [d1 D1].
            destruct D2 as [d2 D2]. split; [exists d1, n1|exists d2, n2]; done. }
        -- exists p, (TypeChanged n1 n2). split.
           ++ apply Hcomp; [done|rewrite E1, E2; by apply verdict_type|done].
           ++ right. split; [done|]. by exists q.
        -- destruct (decide (kind_of n1 = kind_of n2)) as [Hkk|Hkk].
           ++ exists p, (Changed n1 n2). split.
              ** apply Hcomp; [done|rewrite E1, E2; apply verdict_changed; [done|rewrite Hk; done|done]|done].
              ** split; [by rewrite app_nil_r|]. unfold kind_of in Hk. destruct (n_contents n1); try done. right. split; [done|]. cbn in S2. congruence.
           ++ exists p, (TypeChanged n1 n2). split.
              ** apply Hcomp; [done|rewrite E1, E2; by apply verdict_type|done].
              ** right. split; [done|]. by exists [].
      * exists p, (Added n2). split; [|split; [done|by exists q]]. apply Hcomp; [done|by rewrite E1, E2|done].
    + destruct (decide (r = [])) as [->|Hr]; [done|]. destruct (comparable_prefix r id1 id2 _ _ Hr L1 L2) as (p & q & -> & Hpn & Hcm & Hq).
      apply node_at_prefix in E1 as (n1 & E1 & S1); [|done]. destruct (node_at fo2 id2 p) as [n2|] eqn:E2.
      * assert (kind_of n1 <> kind_of n2 \/ (kind_of n2 = KSymlink /\ n_contents n1 <> n_contents n2 /\ q = [])) as [Hk|(Hk & Hcn & ->)].
        { destruct q as [|y q].
          - cbn in S1. injection S1 as ->. rewrite app_nil_r, E2 in Hp. destruct Hp as [Hp|[Hp Hp']]; [left; by apply not_eq_sym|right]. split; [done|]. split; [by apply not_eq_sym|done].
          - left. destruct Hq as [|Hq]; [done|]. apply node_sub_below in S1 as D1; [|done]. intros Hk. apply Hq. apply kind_dir in D1 as K1. rewrite Hk in K1. apply kind_dir in K1 as [d2 D2].
            destruct D1 as [d1 D1]. split; [exists d1, n1|exists d2, n2]; done. }
        -- exists p, (TypeChanged n1 n2). split.
           ++ apply Hcomp; [done|rewrite E1, E2; by apply verdict_type|done].
           ++ left. split; [done|]. by exists q.
        -- destruct (decide (kind_of n1 = kind_of n2)) as [Hkk|Hkk].
           ++ exists p, (Changed n1 n2). split.
              ** apply Hcomp; [done|rewrite E1, E2; apply verdict_changed; [done|rewrite Hkk, Hk; done|done]|done].
              ** split; [by rewrite app_nil_r|]. rewrite <-Hkk in Hk. unfold kind_of in Hk. destruct (n_contents n1); try done. left. split; [done|]. cbn in S1. congruence.
           ++ exists p, (TypeChanged n1 n2). split.
              ** apply Hcomp; [done|rewrite E1, E2; by apply verdict_type|done].
              ** left. split; [done|]. by exists [].
      * exists p, (Removed n1). split; [|split; [done|by exists q]]. apply Hcomp; [done|by rewrite E1, E2|done].
    + exists r, (Changed m n2). split.
      * apply Hcomp; [by eapply both_comparable|rewrite E1, E2; apply verdict_changed; [congruence|rewrite K1; done|done]|done].
      * split; [done|]. unfold kind_of in K1. by destruct (n_contents m).
    + exists r, (MetaChanged n1 m). split.
      * apply Hcomp; [by eapply both_comparable|rewrite E1, E2; apply verdict_meta; [done|]|done].
        intros E. unfold meta_diff_char in Hc. by rewrite decide_True in Hc.
      * split; [done|]. split; [done|]. split; [done|]. by exists c.
Qed.

Lemma diff_lines : exists ls, diff fo1 fo2 fuel show_meta id1 id2 = Some (Ok ls) /\ NoDup ls /\
  forall pre p n, (pre, p, n) ∈ ls <-> belongs show_meta (node_at fo1 id1 p) (node_at fo2 id2 p) pre n.
Proof.
  unfold diff. destruct (compare_trees_total note fuel id1 id2 [] [] ltac:(by eexists) L1 L2) as [s E].
  destruct (compare_trees_report fo1 fo2 Hsane1 Hsane2 Hsame _ _ _ _ _ _ _ _ L1 L2 E) as (l & Es & Hr).
  destruct (compare_trees_runs fo1 fo2 (print_diff fo1 fo2 fuel show_meta) _ _ _ _ _ _ E) as (l' & Es' & Hrun).
  assert (l' = l) as ->.
  { cbn [app] in Es, Es'. subst s. rewrite <-Es'. unfold at_path. rewrite <-map_id. apply map_ext. by intros []. }
  destruct Hr as (Hnd & Hsound & Hcomp).
  destruct (run_lines l [] Hnd Hsound) as (b & Eb & Hb & Hin). exists b. split; [by rewrite Hrun, Eb|]. split; [done|].
  intros pre p n. rewrite Hin. by apply lines_belong.
Qed.
End lines.
