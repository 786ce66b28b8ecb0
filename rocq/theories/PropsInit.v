(** Setting up a repository: C61. *)

From Coq Require Import String.
From Verif Require Import Base Formats Filtered Init.

(** ** Specification *)

(** Whatever is somewhere is in a directory. *)
Definition tree_like (f : files) : Prop := forall p e, f !! p = Some e -> p <> [] -> f !! removelast p = Some PDir.

(** Where a repository can be set up: in a place where nothing is yet, or (for
    directories) in an empty directory. *)
Definition free (f : files) (repo : location) (k : backend_kind) : Prop :=
  (f !! repo = None /\ f !! removelast repo = Some PDir) \/
  (f !! repo = Some PDir /\ (forall x, f !! (repo ++ [x]) = None) /\ exists b, k = Filesystem b).

(** The filter gives back the text it is tested with. *)
Definition passes (sh : bytes -> bytes -> option bytes) (a : init_args) : Prop :=
  forall r, ia_gpg a = Some r -> exists x,
    sh (ascii_bytes "gpg --encrypt --quiet --recipient " ++ r) plaintext = Some x /\ sh (ascii_bytes "gpg --decrypt --quiet") x = Some plaintext.

(** The configuration asked for. *)
Definition asked (a : init_args) : configuration settings_of :=
  mkConfiguration (match ia_pack_size a with Some n => n | None => 100000000%N end, ia_kind a)
    (match ia_gpg a with
     | Some r => Some (ascii_bytes "gpg --encrypt --quiet --recipient " ++ r, ascii_bytes "gpg --decrypt --quiet")
     | None => None
     end).

(** ** Facts *)

Lemma entries_below_nil f p : entries_below f p = [] <-> forall x, f !! (p ++ [x]) = None.
Proof.
  unfold entries_below. split.
  - intros E x. destruct (f !! (p ++ [x])) as [e|] eqn:Ef; [exfalso|done].
    assert (In (p ++ [x], e) (List.filter (fun e : location * place => bool_decide (below p e.1)) (map_to_list f))) as Hin; [|by rewrite E in Hin].
    apply filter_In. split; [by apply elem_of_list_In, elem_of_map_to_list|]. apply bool_decide_eq_true. by exists x.
  - intros Hn. destruct (List.filter _ _) as [|[q e] l] eqn:E; [done|exfalso].
    assert (In (q, e) ((q, e) :: l)) as Hin by (by left). rewrite <-E in Hin. apply filter_In in Hin as [Hq Hb].
    apply elem_of_list_In, elem_of_map_to_list in Hq. apply bool_decide_eq_true in Hb as [x Ex]. simpl in Ex. subst q. by rewrite Hn in Hq.
Qed.

Lemma removelast_snoc {A} (p : list A) x : removelast (p ++ [x]) = p.
Proof. rewrite removelast_app by done. simpl. by rewrite app_nil_r. Qed.
Lemma nothing_below f p x : tree_like f -> f !! p <> Some PDir -> f !! (p ++ [x]) = None.
Proof.
  intros Ht Hp. destruct (f !! (p ++ [x])) as [e|] eqn:E; [|done]. assert (p ++ [x] <> []) as Hn by (by destruct p).
  pose proof (Ht _ _ E Hn) as E'. by rewrite removelast_snoc in E'.
Qed.
Lemma apply_fsops_app f os os' : apply_fsops f (os ++ os') = (let* f' := apply_fsops f os in apply_fsops f' os').
Proof. revert f. induction os as [|o os IH]; intros f; simpl; [done|]. destruct (apply_fsop f o); simpl; [apply IH|done..]. Qed.
Lemma apply_appends f p a pieces : f !! p = Some (PFile a) -> apply_fsops f (map (IAppend p) pieces) = Ok (<[p := PFile (a ++ concat pieces)]> f).
Proof.
  revert f a. induction pieces as [|b pieces IH]; intros f a Hp; simpl; [by rewrite app_nil_r, insert_id|].
  rewrite Hp. simpl. rewrite (IH _ (a ++ b)) by (by rewrite lookup_insert). by rewrite insert_insert, app_assoc.
Qed.

(** What the steps may touch: nothing that was there. *)
Definition news (f : files) (o : fsop) : Prop := match o with IAppend p _ => f !! p = None | _ => True end.
Definition at_op (o : fsop) : location := match o with IMkdir p | ICreate p | IAppend p _ => p end.
Lemma apply_keeps f0 f os f' : f0 ⊆ f -> Forall (news f0) os -> apply_fsops f os = Ok f' -> f0 ⊆ f'.
Proof.
  revert f. induction os as [|o os IH]; intros f Hf Hn; simpl; [intros E; by injection E as <-|]. apply Forall_cons in Hn as [Ho Hn].
  destruct (apply_fsop f o) as [f1| |] eqn:E; try done. apply IH; [|done]. destruct o as [p|p|p b]; simpl in *.
  - destruct (f !! p) eqn:E1; [done|]. destruct (f !! removelast p) as [[]|]; try done. injection E as <-. etrans; [exact Hf|]. by apply insert_subseteq.
  - destruct (f !! p) eqn:E1; [done|]. destruct (f !! removelast p) as [[]|]; try done. injection E as <-. etrans; [exact Hf|]. by apply insert_subseteq.
  - destruct (f !! p) as [[|a|]|] eqn:E1; try done. injection E as <-. apply map_subseteq_spec. intros q e Hq.
    destruct (decide (q = p)) as [->|Hne]; [congruence|]. rewrite lookup_insert_ne by done. by eapply lookup_weaken.
Qed.
Lemma apply_elsewhere f os f' q : (forall o, o ∈ os -> at_op o <> q) -> apply_fsops f os = Ok f' -> f' !! q = f !! q.
Proof.
  revert f. induction os as [|o os IH]; intros f Hn; simpl; [intros E; by injection E as <-|].
  destruct (apply_fsop f o) as [f1| |] eqn:E; try done. intros Ha. rewrite (IH f1); [|intros o' Ho'; apply Hn; by right|done].
  assert (at_op o <> q) as Hne by (apply Hn; by left). destruct o as [p|p|p b]; simpl in *.
  - destruct (f !! p) eqn:E1; [done|]. destruct (f !! removelast p) as [[]|]; try done. injection E as <-. by rewrite lookup_insert_ne.
  - destruct (f !! p) eqn:E1; [done|]. destruct (f !! removelast p) as [[]|]; try done. injection E as <-. by rewrite lookup_insert_ne.
  - destruct (f !! p) as [[|a|]|] eqn:E1; try done. injection E as <-. by rewrite lookup_insert_ne.
Qed.

Lemma init_configuration_spec sh a : 
  (passes sh a -> init_configuration sh a = Ok (asked a)) /\ (forall c, init_configuration sh a = Ok c -> passes sh a /\ c = asked a).
Proof.
  unfold init_configuration, asked, passes, gpg_filter.
  generalize (ascii_bytes "gpg --encrypt --quiet --recipient ") (ascii_bytes "gpg --decrypt --quiet"). intros enc dec.
  unfold default_pack_size, round_trip_filter_test. generalize plaintext. intros pt.
  destruct (ia_gpg a) as [r|], (ia_pack_size a) as [n|]; cbn [fmap option_fmap option_map rbind default from_option]; split; try done.
  all: try (intros Hp; destruct (Hp r eq_refl) as (x & E1 & E2); rewrite E1; cbn [of_option rbind]; rewrite E2; cbn [of_option rbind];
    by rewrite bool_decide_eq_true_2 by done).
  all: try (intros c E; injection E as <-; by split).
  all: intros c; destruct (sh _ pt) as [x|] eqn:E1; cbn [of_option rbind]; [|done]; destruct (sh _ x) as [y|] eqn:E2; cbn [of_option rbind]; [|done];
    case_bool_decide as Hy; cbn [rbind]; [|done]; intros E; injection E as <-; (split; [|done]); intros r' E; injection E as <-; exists x; by subst y.
Qed.

Lemma below_ne (p : location) x : p ++ [x] <> p.
Proof. intros E. apply (f_equal List.length) in E. rewrite app_length in E. simpl in E. lia. Qed.
Lemma below_inj (p : location) x y : x <> y -> p ++ [x] <> p ++ [y].
Proof. intros Hn E. apply app_inv_head in E. congruence. Qed.

(** All of a directory's set-up, from an empty one. *)
Definition made (f : files) (repo : location) (text : bytes) : files :=
  <[repo ++ [ascii_bytes "config.toml"] := PFile text]>
  (<[repo ++ [ascii_bytes "snapshots"] := PDir]> (<[repo ++ [ascii_bytes "indexes"] := PDir]> (<[repo ++ [ascii_bytes "packs"] := PDir]> f))).
Ltac ne := first [apply below_ne | apply not_eq_sym, below_ne | apply below_inj; vm_compute; congruence].
Lemma make_directory f repo pieces : f !! repo = Some PDir -> (forall x, f !! (repo ++ [x]) = None) ->
  apply_fsops f (map IMkdir (subdirs repo) ++ ICreate (config_at repo) :: map (IAppend (config_at repo)) pieces) = Ok (made f repo (concat pieces)).
Proof.
  intros Hd Hn. unfold subdirs, config_at. cbn [map app apply_fsops apply_fsop]. rewrite !removelast_snoc, Hn, Hd. cbn [rbind].
  rewrite lookup_insert_ne by ne. rewrite Hn. rewrite lookup_insert_ne by ne. rewrite Hd. cbn [rbind].
  rewrite !lookup_insert_ne by ne. rewrite Hn, Hd. cbn [rbind].
  rewrite !lookup_insert_ne by ne. rewrite Hn, Hd. cbn [rbind].
  rewrite (apply_appends _ _ []) by apply lookup_insert. rewrite insert_insert. done.
Qed.

(** The steps, and what they are about. *)
Lemma init_ops_at f repo k pieces os o : init_ops f repo k pieces = Ok os -> o ∈ os -> at_op o = repo \/ exists x, at_op o = repo ++ [x].
Proof.
  intros E Ho. assert (forall o, o ∈ map IMkdir (subdirs repo) ++ ICreate (config_at repo) :: map (IAppend (config_at repo)) pieces -> exists x, at_op o = repo ++ [x]) as Hd.
  { clear. intros o Ho. apply elem_of_list_In, in_app_iff in Ho as [Ho|[<-|Ho]].
    - apply in_map_iff in Ho as (p & <- & Hp). unfold subdirs in Hp. apply in_map_iff in Hp as (x & <- & _). by exists x.
    - by eexists.
    - apply in_map_iff in Ho as (b & <- & _). by eexists. }
  destruct k as [b|? ? ? ?]; unfold init_ops in E.
  - destruct (f !! repo) as [[| |]|]; cbn [rbind] in E; try done.
    + case_bool_decide; cbn [rbind] in E; [|done]. injection E as <-. right. by apply Hd.
    + injection E as <-. apply elem_of_cons in Ho as [->|Ho]; [by left|right; by apply Hd].
  - injection E as <-. left. apply elem_of_list_In in Ho as [<-|Ho]; [done|]. by apply in_map_iff in Ho as (b & <- & _).
Qed.
Lemma init_ops_news f repo k pieces os : tree_like f -> init_ops f repo k pieces = Ok os ->
  Forall (news f) os \/ exists p e os', os = ICreate p :: os' /\ f !! p = Some e.
Proof.
  intros Ht E.
  assert ((forall x, f !! (repo ++ [x]) = None) -> Forall (news f) (map IMkdir (subdirs repo) ++ ICreate (config_at repo) :: map (IAppend (config_at repo)) pieces)) as Hd.
  { intros Hn. apply Forall_app. split; [by apply Forall_map, Forall_true|]. constructor; [done|]. apply Forall_map, Forall_true. intros b. apply Hn. }
  destruct k as [b|? ? ? ?]; unfold init_ops in E.
  - left. destruct (f !! repo) as [[| |]|] eqn:Er; cbn [rbind] in E; try done.
    + case_bool_decide as Hb; cbn [rbind] in E; [|done]. injection E as <-. apply Hd. by apply entries_below_nil.
    + injection E as <-. constructor; [done|]. apply Hd. intros x. apply nothing_below; [done|congruence].
  - injection E as <-. destruct (f !! repo) as [e|] eqn:Er; [right; by exists repo, e, (map (IAppend repo) pieces)|left].
    constructor; [done|]. by apply Forall_map, Forall_true.
Qed.

(** * C61: setting up a repository *)

(** Wherever it is stopped, init has left alone everything that was there, and it
    has made nothing but the repository and what is right below it. *)
Theorem C61_init_changes_nothing sh print f repo a f' :
  tree_like f -> init_stopped sh print f repo a f' ->
  (forall q e, f !! q = Some e -> f' !! q = Some e) /\
  (forall q, q <> repo -> (forall x, q <> repo ++ [x]) -> f' !! q = f !! q).
Proof.
  intros Ht (pieces & os & n & (c & text & _ & _ & _ & Eo) & Ha). split.
  - intros q e Hq. destruct (init_ops_news f repo _ pieces os Ht Eo) as [Hn|(p & e' & os' & -> & Hp)].
    + apply (lookup_weaken f f'); [done|]. eapply (apply_keeps f f); [done|by apply Forall_take|exact Ha].
    + destruct n as [|n]; [by injection Ha as <-|]. simpl in Ha. by rewrite Hp in Ha.
  - intros q Hq Hx. eapply apply_elsewhere; [|exact Ha]. intros o Ho.
    assert (o ∈ os) as Ho'. { apply elem_of_take in Ho as (i & Hi & _). by eapply elem_of_list_lookup_2. }
    destruct (init_ops_at _ _ _ _ _ o Eo Ho') as [->|[x ->]]; [done|]. intros E. by apply (Hx x).
Qed.

(** Where there is something already, it does nothing. *)
Theorem C61_init_refuses sh print f repo a f' :
  tree_like f -> ~ free f repo (ia_kind a) -> init_stopped sh print f repo a f' -> f' = f /\ ~ init_done sh print f repo a f'.
Proof.
  intros Ht Hfree Hs.
  assert (forall pieces os o os', init_ops f repo (ia_kind a) pieces = Ok os -> os = o :: os' -> apply_fsop f o = Err) as Hfirst.
  { intros pieces os o os' Eo ->. destruct (ia_kind a) as [b|? ? ? ?] eqn:Ek; unfold init_ops in Eo.
    - destruct (f !! repo) as [[| |]|] eqn:Er; cbn [rbind] in Eo; try done.
      + case_bool_decide as Hb; cbn [rbind] in Eo; [|done]. exfalso. apply Hfree. right. split; [done|]. split; [by apply entries_below_nil|by exists b].
      + injection Eo as <- _. simpl. rewrite Er. destruct (f !! removelast repo) as [[| |]|] eqn:Ep; try done. exfalso. apply Hfree. by left.
    - injection Eo as <- _. simpl. destruct (f !! repo) as [e|] eqn:Er; [done|]. destruct (f !! removelast repo) as [[| |]|] eqn:Ep; try done. exfalso. apply Hfree. by left. }
  split.
  - destruct Hs as (pieces & os & n & (c & text & _ & _ & _ & Eo) & Ha). destruct n as [|n]; [by injection Ha as <-|].
    destruct os as [|o os]; [by injection Ha as <-|]. simpl in Ha. by rewrite (Hfirst _ _ _ _ Eo eq_refl) in Ha.
  - intros (pieces & os & (c & text & _ & _ & _ & Eo) & Ha). destruct os as [|o os].
    + destruct (ia_kind a); unfold init_ops in Eo; [|done]. destruct (f !! repo) as [[| |]|]; cbn [rbind] in Eo; try done.
      by case_bool_decide.
    + simpl in Ha. by rewrite (Hfirst _ _ _ _ Eo eq_refl) in Ha.
Qed.

(** A filter that does not give back the text it is tested with is refused before
    anything is done. *)
Theorem C61_filters_are_tested sh print f repo a pieces os : init sh print f repo a pieces os -> passes sh a.
Proof. intros (c & text & Ec & _). by apply (init_configuration_spec sh a) in Ec as [? _]. Qed.

(** Where a repository can be set up, init succeeds, however the text of its
    configuration is written; and then it opens, as asked for, and is empty. *)
Theorem C61_init_makes_a_repository sh print parse f repo a text pieces :
  tree_like f -> free f repo (ia_kind a) -> passes sh a ->
  print (write_config (asked a)) = Ok text -> parse text = Ok (write_config (asked a)) -> concat pieces = text ->
  exists f', init_done sh print f repo a f' /\ (exists os, init sh print f repo a pieces os /\ apply_fsops f os = Ok f') /\
    open_repository parse f' repo =
      Ok (asked a, match ia_kind a, ia_gpg a with Filesystem false, None => false | _, _ => true end) /\
    (forall b, ia_kind a = Filesystem b -> forall d, d ∈ [ascii_bytes "packs"; ascii_bytes "indexes"; ascii_bytes "snapshots"] ->
       f' !! (repo ++ [d]) = Some PDir /\ forall x, f' !! (repo ++ [d] ++ [x]) = None).
Proof.
  intros Ht Hfree Hp Epr Epa Hpc.
  assert (exists f' os, init_ops f repo (ia_kind a) pieces = Ok os /\ apply_fsops f os = Ok f' /\
    match ia_kind a with
    | Filesystem _ => exists f1, f' = made f1 repo text /\ f1 !! repo = Some PDir /\ (forall q, repo <> q -> f1 !! q = f !! q) /\ (forall x, f !! (repo ++ [x]) = None)
    | Backblaze _ _ _ _ => f' = <[repo := PFile text]> f
    end) as (f' & os & Eo & Ea & Hf').
  { destruct (ia_kind a) as [b|k1 k2 k3 k4] eqn:Ek.
    - assert (forall x, f !! (repo ++ [x]) = None) as Hn.
      { destruct Hfree as [[Er _]|(_ & Hn & _)]; [|done]. intros x. apply nothing_below; [done|congruence]. }
      destruct Hfree as [[Er Epd]|(Er & _ & _)].
      + exists (made (<[repo := PDir]> f) repo text). eexists. split; [unfold init_ops; rewrite Er; reflexivity|]. split.
        * cbn [app apply_fsops apply_fsop]. rewrite Er, Epd. cbn [rbind]. rewrite make_directory; [by rewrite Hpc|apply lookup_insert|].
          intros x. rewrite lookup_insert_ne; [apply Hn|]. apply not_eq_sym, below_ne.
        * exists (<[repo := PDir]> f). split; [done|]. split; [apply lookup_insert|]. split; [|done]. intros q Hq. by rewrite lookup_insert_ne.
      + exists (made f repo text). eexists. split.
        { unfold init_ops. rewrite Er. rewrite bool_decide_eq_true_2 by (by apply entries_below_nil). reflexivity. }
        split; [cbn [app]; rewrite make_directory by done; by rewrite Hpc|]. by exists f.
    - destruct Hfree as [[Er Epd]|(_ & _ & b & E)]; [|done]. exists (<[repo := PFile text]> f). eexists. split; [reflexivity|]. split; [|done].
      cbn [apply_fsops apply_fsop]. rewrite Er, Epd. cbn [rbind]. rewrite (apply_appends _ _ []) by apply lookup_insert. rewrite insert_insert. cbn [app]. by rewrite Hpc. }
  assert (init sh print f repo a pieces os) as Hi.
  { exists (asked a), text. split; [by apply (init_configuration_spec sh a)|]. done. }
  exists f'. split; [by exists pieces, os|]. split; [by exists os|].
  assert (read_config (write_config (asked a)) = Ok (asked a)) as Erc.
  { unfold write_config, read_config, asked. by destruct (ia_gpg a). }
  destruct (ia_kind a) as [b|k1 k2 k3 k4] eqn:Ek.
  - destruct Hf' as (f1 & -> & Er & Hout & Hn).
    assert (made f1 repo text !! repo = Some PDir) as E0. { unfold made. by rewrite !lookup_insert_ne by ne. }
    assert (made f1 repo text !! config_at repo = Some (PFile text)) as E1 by (apply lookup_insert).
    assert (forall d, d ∈ [ascii_bytes "packs"; ascii_bytes "indexes"; ascii_bytes "snapshots"] -> made f1 repo text !! (repo ++ [d]) = Some PDir) as E2.
    { intros d Hd. unfold made. apply elem_of_list_In in Hd as [<-|[<-|[<-|[]]]]; rewrite ?lookup_insert_ne by ne; apply lookup_insert. }
    split.
    + unfold open_repository. rewrite E0, E1. cbn [rbind]. rewrite Epa. cbn [rbind]. rewrite Erc. cbn [rbind].
      assert ((co_same (asked a)).2 = Filesystem b) as -> by (unfold asked; done). unfold open_directory.
      assert (forallb (fun p => match made f1 repo text !! p with Some _ => true | None => false end) (repo :: subdirs repo) = true) as ->.
      { apply forallb_forall. intros p [<-|Hp']; [by rewrite E0|]. unfold subdirs in Hp'. apply in_map_iff in Hp' as (d & <- & Hd%elem_of_list_In). by rewrite (E2 d Hd). }
      cbn [rbind]. unfold asked. cbn [co_filter]. by destruct b, (ia_gpg a).
    + intros b' Eb d Hd. split; [by apply E2|]. intros x. rewrite app_assoc. unfold made.
      assert (forall y, repo ++ [y] <> (repo ++ [d]) ++ [x]) as Hne. { intros y E. apply (f_equal List.length) in E. rewrite !app_length in E. simpl in E. lia. }
      rewrite !lookup_insert_ne by apply Hne.
      assert (repo <> (repo ++ [d]) ++ [x]) as Hne'. { intros E. apply (f_equal List.length) in E. rewrite !app_length in E. simpl in E. lia. }
      rewrite Hout by done. apply nothing_below; [done|]. by rewrite Hn.
  - subst f'. split; [|done]. unfold open_repository. rewrite lookup_insert. cbn [rbind]. rewrite Epa. cbn [rbind]. rewrite Erc. cbn [rbind].
    assert ((co_same (asked a)).2 = Backblaze k1 k2 k3 k4) as -> by (unfold asked; done). done.
Qed.

(** Wherever it is stopped, what opens then has a configuration read from some first
    part of the text that was to be written.  Missing: that only the whole text can be
    read, which is up to the crate [toml] and what the configuration is. *)
Theorem C61_stopped_init_partial sh print parse f repo a f' c k :
  tree_like f -> free f repo (ia_kind a) -> init_stopped sh print f repo a f' -> open_repository parse f' repo = Ok (c, k) ->
  exists text t, print (write_config (asked a)) = Ok text /\ t `prefix_of` text /\
    (let* cf := parse t in read_config cf) = Ok c.
Proof.
  intros Ht Hfree (pieces & os & n & (c0 & text & Ec & Epr & Epc & Eo) & Ha) Hopen.
  apply (init_configuration_spec sh a) in Ec as [_ ->].
  assert (exists t, t `prefix_of` text /\ (f' !! repo = Some (PFile t) \/ f' !! repo = Some PDir /\ f' !! config_at repo = Some (PFile t))) as (t & Hpre & Hat).
  2: { exists text, t. split; [done|]. split; [done|]. unfold open_repository in Hopen.
    assert (exists r, (let* cf := parse t in let* c := read_config cf in r c) = Ok (c, k) /\ forall c' k', r c' = Ok k' -> k'.1 = c') as (r & Er & Hr).
    { destruct Hat as [E|[E1 E2]]; [rewrite E in Hopen|rewrite E1, E2 in Hopen]; cbn [rbind] in Hopen; eexists; (split; [exact Hopen|]);
        intros c' k'; cbn beta; (destruct (co_same c').2; [destruct (open_directory f' repo); cbn [rbind]; [|done..]|]); intros E'; injection E' as <-; done. }
    destruct (parse t) as [cf| |]; cbn [rbind] in Er |- *; try done. destruct (read_config cf) as [c'| |]; cbn [rbind] in Er |- *; try done.
    apply Hr in Er. simpl in Er. by subst c'. }
  assert (forall m (l : list bytes), concat (take m l) `prefix_of` concat l) as Hpre.
  { intros m l. rewrite <-(take_drop m l) at 2. rewrite concat_app. by apply prefix_app_r. }
  assert (open_repository parse f' repo <> Err) as Hne by congruence. clear Hopen.
  destruct (ia_kind a) as [b|k1 k2 k3 k4] eqn:Ek.
  - assert (exists first f1, os = first ++ map IMkdir (subdirs repo) ++ ICreate (config_at repo) :: map (IAppend (config_at repo)) pieces /\
      (first = [] \/ first = [IMkdir repo] /\ f !! repo = None) /\ apply_fsops f first = Ok f1 /\ f1 !! repo = Some PDir /\ (forall x, f1 !! (repo ++ [x]) = None)) as (first & f1 & -> & Hfirst & E1 & Er & Hn).
    { destruct Hfree as [[Er Epd]|(Er & Hn & _)]; unfold init_ops in Eo; rewrite Er in Eo; cbn [rbind] in Eo.
      - injection Eo as <-. exists [IMkdir repo], (<[repo := PDir]> f). split; [done|]. split; [by right|]. split; [simpl; by rewrite Er, Epd|].
        split; [apply lookup_insert|]. intros x. rewrite lookup_insert_ne by ne. apply nothing_below; [done|congruence].
      - rewrite bool_decide_eq_true_2 in Eo by (by apply entries_below_nil). injection Eo as <-. exists [], f. split; [done|]. split; [by left|done]. }
    destruct (decide (n <= List.length first + 3)) as [Hle|Hgt].
    + exfalso. apply Hne.
      assert (f' !! config_at repo = None) as Hnc.
      { rewrite (apply_elsewhere f (take n (first ++ map IMkdir (subdirs repo) ++ ICreate (config_at repo) :: map (IAppend (config_at repo)) pieces)) f' (config_at repo)); [|
          |exact Ha].
        - destruct Hfirst as [->|[-> Er0]]; [injection E1 as <-; apply Hn|]. apply nothing_below; [done|congruence].
        - intros o Ho. assert (o ∈ first ++ map IMkdir (subdirs repo)) as Ho'.
          { rewrite app_assoc, take_app_le in Ho by (rewrite app_length; exact Hle). apply elem_of_take in Ho as (i & Hi & _). by eapply elem_of_list_lookup_2. }
          apply elem_of_app in Ho' as [Ho'|Ho'].
          + destruct Hfirst as [->|[-> _]]; [by apply elem_of_nil in Ho'|]. apply elem_of_list_singleton in Ho' as ->. simpl. apply not_eq_sym, below_ne.
          + apply elem_of_list_In in Ho' as [<-|[<-|[<-|[]]]]; simpl; apply below_inj; vm_compute; congruence. }
      assert (f' !! repo = Some PDir \/ f' !! repo = None) as Hr.
      { destruct (decide (n = 0 /\ first <> [])) as [[-> Hf]|Hn0].
        - injection Ha as <-. destruct Hfirst as [->|[-> Er0]]; [done|by right].
        - left. destruct Hfirst as [->|[-> Er0]].
          + injection E1 as <-. rewrite <-Er. eapply apply_elsewhere; [|exact Ha]. intros o Ho. apply elem_of_take in Ho as (i & Hi & _).
            apply elem_of_list_lookup_2 in Hi. cbn [app] in Hi. apply elem_of_list_In, in_app_iff in Hi as [Hi|[<-|Hi]]; [|simpl; apply below_ne|].
            * apply in_map_iff in Hi as (p & <- & Hp). unfold subdirs in Hp. apply in_map_iff in Hp as (x & <- & _). simpl. apply below_ne.
            * apply in_map_iff in Hi as (p & <- & Hp). simpl. apply below_ne.
          + destruct n as [|n]; [exfalso; by apply Hn0|]. cbn [app take apply_fsops] in Ha. simpl in E1. cbn [apply_fsop] in Ha. rewrite Er0 in Ha, E1.
            destruct (f !! removelast repo) as [[| |]|]; try done. simpl in E1. injection E1 as E1. cbn [rbind] in Ha. rewrite E1 in Ha.
            rewrite <-Er. eapply apply_elsewhere; [|exact Ha]. intros o Ho. apply elem_of_take in Ho as (i & Hi & _).
            apply elem_of_list_lookup_2 in Hi. apply elem_of_list_In, in_app_iff in Hi as [Hi|[<-|Hi]]; [|simpl; apply below_ne|].
            * apply in_map_iff in Hi as (p & <- & Hp). unfold subdirs in Hp. apply in_map_iff in Hp as (x & <- & _). simpl. apply below_ne.
            * apply in_map_iff in Hi as (p & <- & Hp). simpl. apply below_ne. }
      unfold open_repository. destruct Hr as [->| ->]; [|done]. by rewrite Hnc.
    + set (m := n - List.length first - 4).
      assert (take n (first ++ map IMkdir (subdirs repo) ++ ICreate (config_at repo) :: map (IAppend (config_at repo)) pieces) =
        first ++ map IMkdir (subdirs repo) ++ ICreate (config_at repo) :: map (IAppend (config_at repo)) (take m pieces)) as Et.
      { rewrite take_app_ge by lia. f_equal. rewrite take_app_ge by (simpl; lia). f_equal.
        assert (n - List.length first - List.length (map IMkdir (subdirs repo)) = S m) as -> by (subst m; simpl; lia). cbn [take]. f_equal. by rewrite firstn_map. }
      rewrite Et in Ha. rewrite apply_fsops_app, E1 in Ha. cbn [rbind] in Ha. rewrite make_directory in Ha by done. injection Ha as <-.
      exists (concat (take m pieces)). split; [by rewrite <-Epc|]. right. split; [|apply lookup_insert]. unfold made. by rewrite !lookup_insert_ne by ne.
  - destruct Hfree as [[Er Epd]|(_ & _ & b & E)]; [|done]. injection Eo as <-. destruct n as [|n].
    + injection Ha as <-. exfalso. apply Hne. unfold open_repository. by rewrite Er.
    + cbn [take apply_fsops apply_fsop] in Ha. rewrite Er, Epd in Ha. cbn [rbind] in Ha. rewrite firstn_map in Ha. rewrite (apply_appends _ _ []) in Ha by apply lookup_insert.
      injection Ha as <-. exists (concat (take n pieces)). split; [by rewrite <-Epc|]. left. rewrite insert_insert. apply lookup_insert.
Qed.

(** Once it is stopped at the wrong moment, though, there is no going on: what is
    there does not open, and setting it up again does nothing and fails, whatever is
    asked for.  Someone has to clear the directory by hand. *)
Theorem C61_refuted_interrupted_init sh print f repo a b text :
  tree_like f -> ia_kind a = Filesystem b -> free f repo (Filesystem b) -> passes sh a -> print (write_config (asked a)) = Ok text ->
  exists f', init_stopped sh print f repo a f' /\
    (forall parse, open_repository parse f' repo = Err) /\
    (forall sh' print' a' f'', init_stopped sh' print' f' repo a' f'' -> f'' = f' /\ ~ init_done sh' print' f' repo a' f'').
Proof.
  intros Ht Ek Hfree Hp Epr.
  assert (exists first f1, init_ops f repo (ia_kind a) [text] = Ok (first ++ map IMkdir (subdirs repo) ++ [ICreate (config_at repo); IAppend (config_at repo) text]) /\
    apply_fsops f first = Ok f1 /\ tree_like f1 /\ f1 !! repo = Some PDir /\ (forall x, f1 !! (repo ++ [x]) = None)) as (first & f1 & Eo & E1 & Ht1 & Er & Hn).
  { rewrite Ek. destruct Hfree as [[Er Epd]|(Er & Hn & _)]; unfold init_ops; rewrite Er; cbn [rbind].
    - exists [IMkdir repo], (<[repo := PDir]> f). split; [done|]. split; [simpl; by rewrite Er, Epd|]. split.
      + intros p e Hpe Hp0. destruct (decide (removelast p = repo)) as [->|Hne]; [apply lookup_insert|]. rewrite lookup_insert_ne by done.
        destruct (decide (p = repo)) as [->|Hne']; [done|]. rewrite lookup_insert_ne in Hpe by done. by eapply Ht.
      + split; [apply lookup_insert|]. intros x. rewrite lookup_insert_ne by ne. apply nothing_below; [done|congruence].
    - rewrite bool_decide_eq_true_2 by (by apply entries_below_nil). exists [], f. done. }
  set (f' := <[repo ++ [ascii_bytes "packs"] := PDir]> f1). exists f'.
  assert (tree_like f') as Ht'.
  { intros p e Hpe Hp0. unfold f' in *. destruct (decide (p = repo ++ [ascii_bytes "packs"])) as [->|Hne'].
    - rewrite removelast_snoc. rewrite lookup_insert_ne by ne. done.
    - rewrite lookup_insert_ne in Hpe by done. destruct (decide (removelast p = repo ++ [ascii_bytes "packs"])) as [->|Hne]; [apply lookup_insert|].
      rewrite lookup_insert_ne by done. by eapply Ht1. }
  split; [|split].
  - exists [text], (first ++ map IMkdir (subdirs repo) ++ [ICreate (config_at repo); IAppend (config_at repo) text]), (S (List.length first)).
    split; [exists (asked a), text; split; [by apply (init_configuration_spec sh a)|]; split; [done|]; split; [simpl; by rewrite app_nil_r|done]|].
    rewrite take_app_ge by lia. replace (S (List.length first) - List.length first) with 1 by lia. rewrite apply_fsops_app, E1. cbn [rbind subdirs map app take apply_fsops apply_fsop].
    rewrite removelast_snoc, Hn, Er. done.
  - intros parse. unfold open_repository, f'. rewrite lookup_insert_ne by ne. rewrite Er. unfold config_at. rewrite lookup_insert_ne by ne. by rewrite Hn.
  - intros sh' print' a' f'' Hs.
    assert (~ free f' repo (ia_kind a')) as Hnf.
    { intros [[E _]|(_ & E & _)].
      - unfold f' in E. rewrite lookup_insert_ne in E by ne. congruence.
      - specialize (E (ascii_bytes "packs")). unfold f' in E. by rewrite lookup_insert in E. }
    destruct (C61_init_refuses sh' print' f' repo a' f'' Ht' Hnf Hs) as [-> Hd]. by split.
Qed.

(** ** Cases *)
Definition ex_home : files :=
  <[[] := PDir]> (<[[ascii_bytes "home"] := PDir]> (<[[ascii_bytes "home"; ascii_bytes "notes"] := PFile [x01]]> ∅)).
Definition ex_repo : location := [ascii_bytes "home"; ascii_bytes "repo"].
Definition ex_args : init_args := mkInitArgs None (Some (ascii_bytes "me")) (Filesystem false).
(** Encrypting and decrypting: the other way round. *)
Definition ex_gpg (command input : bytes) : option bytes := Some (rev input).
(** A configuration as text. *)
Definition ex_print (c : config_file settings_of) : result bytes := Ok (ascii_bytes "settings").
Definition ex_parse (t : bytes) : result (config_file settings_of) :=
  if bool_decide (t = ascii_bytes "settings") then Ok (write_config (asked ex_args)) else Err.
Lemma ex_tree : tree_like ex_home.
Proof.
  intros p e Hp Hne. unfold ex_home in *.
  destruct (decide (p = [])) as [->|H0]; [done|]. rewrite lookup_insert_ne in Hp by done.
  destruct (decide (p = [ascii_bytes "home"])) as [->|H1]; [vm_compute; reflexivity|]. rewrite lookup_insert_ne in Hp by done.
  destruct (decide (p = [ascii_bytes "home"; ascii_bytes "notes"])) as [->|H2]; [vm_compute; reflexivity|]. by rewrite lookup_insert_ne in Hp by done.
Qed.
Lemma ex_free : free ex_home ex_repo (ia_kind ex_args).
Proof. left. split; vm_compute; reflexivity. Qed.
Lemma ex_passes : passes ex_gpg ex_args.
Proof. intros r _. exists (rev plaintext). split; [done|]. unfold ex_gpg. by rewrite rev_involutive. Qed.

Example C61_witness : exists f', init_done ex_gpg ex_print ex_home ex_repo ex_args f' /\
  open_repository ex_parse f' ex_repo = Ok (asked ex_args, true) /\ f' !! [ascii_bytes "home"; ascii_bytes "notes"] = Some (PFile [x01]).
Proof.
  destruct (C61_init_makes_a_repository ex_gpg ex_print ex_parse ex_home ex_repo ex_args (ascii_bytes "settings") [ascii_bytes "set"; ascii_bytes "tings"]
    ex_tree ex_free ex_passes) as (f' & Hd & _ & Ho & _); [reflexivity|vm_compute; reflexivity|reflexivity|].
  exists f'. split; [exact Hd|]. split; [exact Ho|].
  assert (init_stopped ex_gpg ex_print ex_home ex_repo ex_args f') as Hs.
  { destruct Hd as (pieces & os & Hi & Ha). exists pieces, os, (List.length os). split; [exact Hi|]. by rewrite firstn_all. }
  destruct (C61_init_changes_nothing _ _ _ _ _ _ ex_tree Hs) as [Hk _]. apply Hk. vm_compute. reflexivity.
Qed.
(** Stopped in the middle of the text, it does not open. *)
Example C61_stopped_witness : exists f', init_stopped ex_gpg ex_print ex_home ex_repo ex_args f' /\
  f' !! (config_at ex_repo) = Some (PFile (ascii_bytes "set")) /\ open_repository ex_parse f' ex_repo = Err.
Proof.
  set (pieces := [ascii_bytes "set"; ascii_bytes "tings"]).
  destruct (init_ops ex_home ex_repo (ia_kind ex_args) pieces) as [os| |] eqn:Eo; [|by vm_compute in Eo..].
  assert (match init_ops ex_home ex_repo (ia_kind ex_args) pieces with
    | Ok os => match apply_fsops ex_home (take 6 os) with
               | Ok f' => match f' !! config_at ex_repo, open_repository ex_parse f' ex_repo with
                          | Some (PFile t), Err => bool_decide (t = ascii_bytes "set")
                          | _, _ => false
                          end
               | _ => false
               end
    | _ => false
    end = true) as E by (vm_compute; reflexivity).
  rewrite Eo in E. destruct (apply_fsops ex_home (take 6 os)) as [f'| |] eqn:Ea; try done. exists f'. split.
  - exists pieces, os, 6. split; [|exact Ea]. exists (asked ex_args), (ascii_bytes "settings").
    split; [by apply (init_configuration_spec ex_gpg ex_args), ex_passes|]. split; [reflexivity|]. split; [reflexivity|exact Eo].
  - destruct (f' !! config_at ex_repo) as [[|t|]|]; try discriminate E. destruct (open_repository ex_parse f' ex_repo) as [| |]; try discriminate E.
    apply bool_decide_eq_true in E as ->. by split.
Qed.
(** Where there is something, it refuses. *)
Example C61_refuses_witness f' : init_stopped ex_gpg ex_print ex_home [ascii_bytes "home"] ex_args f' -> f' = ex_home.
Proof.
  intros Hs. apply (C61_init_refuses _ _ _ _ _ _ ex_tree) in Hs as [? _]; [done|]. intros [[E _]|(_ & E & _)].
  - vm_compute in E. discriminate E.
  - specialize (E (ascii_bytes "notes")). vm_compute in E. discriminate E.
Qed.
(** A filter that loses its input is refused. *)
Example C61_filter_witness pieces os : ~ init (fun _ _ => Some []) ex_print ex_home ex_repo ex_args pieces os.
Proof.
  intros Hi%C61_filters_are_tested. destruct (Hi _ eq_refl) as (x & E1 & E2). simpl in E2. injection E2 as E2. vm_compute in E2. discriminate E2.
Qed.
Example C61_refuted_witness : exists f', init_stopped ex_gpg ex_print ex_home ex_repo ex_args f' /\ open_repository ex_parse f' ex_repo = Err.
Proof.
  destruct (C61_refuted_interrupted_init ex_gpg ex_print ex_home ex_repo ex_args false (ascii_bytes "settings") ex_tree eq_refl ex_free ex_passes eq_refl) as (f' & Hs & Ho & _).
  exists f'. split; [exact Hs|apply Ho].
Qed.

Print Assumptions C61_init_changes_nothing.
Print Assumptions C61_init_refuses.
Print Assumptions C61_filters_are_tested.
Print Assumptions C61_init_makes_a_repository.
Print Assumptions C61_stopped_init_partial.
Print Assumptions C61_refuted_interrupted_init.
