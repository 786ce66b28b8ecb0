(** What the commands do to a repository in order. *)

From Verif Require Import Base OMap Formats FormatsFacts Hashing Pack Index IndexFacts PropsIndex Meta Forest ForestFacts
  FsTree FsSpec FsFacts BackupFacts PropsBackup PlanFacts Pipeline PipelineFacts PropsPipeline Repo RepoSpec RepoFacts RewriteFacts PublishFacts.

(** ** Changing only snapshots *)

Definition same_repo (k k' : backend) : Prop := k_packs k' = k_packs k /\ k_indexes k' = k_indexes k.

Lemma same_repo_live k k' : same_repo k k' -> live_packs k' = live_packs k.
Proof. intros [_ E]. unfold live_packs, live_indexes, superseded. by rewrite E. Qed.
Lemma same_repo_store k k' : same_repo k k' -> repo_store k' = repo_store k.
Proof. intros Hs. unfold repo_store, live_blobs. rewrite (same_repo_live k k' Hs). by destruct Hs as [-> _]. Qed.
Lemma same_repo_structured H U k k' : same_repo k k' -> structured H U k -> structured H U k'.
Proof. intros [E1 E2] []. constructor; by rewrite ?E1, ?E2. Qed.

Lemma put_snaps H k sns :
  same_repo k (apply_ops H k (map PutSnap sns)) /\
  (forall i sn, k_snaps (apply_ops H k (map PutSnap sns)) !! i = Some sn ->
     k_snaps k !! i = Some sn \/ (sn ∈ sns /\ i = snapshot_id H sn)) /\
  (forall i sn, k_snaps k !! i = Some sn -> (forall sn', sn' ∈ sns -> snapshot_id H sn' = i -> sn' = sn) ->
     k_snaps (apply_ops H k (map PutSnap sns)) !! i = Some sn).
Proof.
  unfold apply_ops. revert k. induction sns as [|x sns IH]; intros k; cbn [map foldl]; [split; [done|]; auto|].
  destruct (IH (apply_op H k (PutSnap x))) as ([E1 E2] & H1 & H2). split; [by split|]. split.
  - intros i sn Hi. destruct (H1 i sn Hi) as [Hi'|[Hi' ->]]; [|right; split; [by right|done]]. simpl in Hi'.
    apply lookup_insert_Some in Hi' as [[<- <-]|[_ Hi']]; [|by left]. right. split; [by left|done].
  - intros i sn Hi Hx. apply H2; [|intros sn' Hs; apply Hx; by right]. simpl.
    destruct (decide (snapshot_id H x = i)) as [E|Hne].
    + rewrite <-E, lookup_insert. f_equal. apply Hx; [by left|done].
    + by rewrite lookup_insert_ne.
Qed.

Lemma del_snaps H k ids :
  same_repo k (apply_ops H k (map DelSnap ids)) /\ k_snaps (apply_ops H k (map DelSnap ids)) ⊆ k_snaps k.
Proof.
  unfold apply_ops. revert k. induction ids as [|x ids IH]; intros k; cbn [map foldl]; [done|].
  destruct (IH (apply_op H k (DelSnap x))) as ([E1 E2] & H1). split; [by split|]. etrans; [exact H1|]. apply delete_subseteq.
Qed.

Lemma take_map {A B} (f : A -> B) n l : take n (map f l) = map f (take n l).
Proof. symmetry. apply fmap_take. Qed.

Section facts.
Variables (H : bytes -> oid) (U : blob -> Prop).
Hypothesis HU : universe H U.
Hypothesis Hlen : forall x, length (H x) = 28.
Local Set Default Proof Using "All".

(** ** Starting a command *)

Lemma sound_maps k : sound H U k -> exists ix bmap packed,
  master k = Ok ix /\ blob_to_pack_map ix = Ok bmap /\ blob_id_set ix = Ok packed /\
  (forall x, x ∈ packed <-> x ∈ flat_ids (live_packs k)).
Proof.
  intros Hk. destruct (master_ok H U HU k (sound_structured _ _ _ Hk)) as (ix & E & Hs & Hp).
  assert (NoDup (blob_ids ix)) as Hnd.
  { rewrite <-flat_blob_ids. apply once_nodup; [apply om_sorted_nodup, Hs|].
    eapply once_sub; [|apply (so_once _ _ _ Hk)]. intros p m. by apply Hp. }
  destruct (proj1 (C11_lookup_maps ix) Hnd) as (mp & st & sz & E1 & E2 & _ & _ & Hst & _).
  exists ix, mp, st. split_and!; try done. intros x. rewrite Hst, elem_of_flat_ids. split.
  - intros (p & n & m & e & Hm & He & <- & _). exists p, m, e. split; [by apply Hp|done].
  - intros (p & m & e & Hm & He & <-). exists p, (e_len e), m, e. split; [by apply Hp|done].
Qed.

Lemma in_order_maps k : in_order H U k -> exists ix bmap packed,
  master k = Ok ix /\ blob_to_pack_map ix = Ok bmap /\ blob_id_set ix = Ok packed /\
  (forall x, x ∈ packed <-> x ∈ flat_ids (live_packs k)).
Proof. intros Hk. by apply sound_maps, in_order_sound. Qed.

(** What resuming yields. *)
Lemma resume_ok k w ix start ups packed :
  sound H U k -> own_leftovers H U k w -> master k = Ok ix -> resume k w ix = Ok (start, ups, packed) ->
  ix_supersedes start = [] /\ om_sorted (ix_packs start) /\
  ((w_wip w = None /\ start = index_default) \/ w_wip w = Some start) /\
  once (live_packs k ++ ix_packs start) /\
  (forall x, x ∈ packed <-> x ∈ flat_ids (live_packs k) \/ x ∈ flat_ids (ix_packs start)) /\
  (forall p m, (p, m) ∈ ix_packs start -> holds (k_packs k) p m \/ (holds (w_packs w) p m /\ p ∈ ups)).
Proof.
  intros Hk [_ Hw] Eix Hr. destruct (sound_maps k Hk) as (ix' & bmap & pk & E1 & _ & E3 & Hpk).
  rewrite Eix in E1. injection E1 as <-. unfold resume in Hr. rewrite E3 in Hr. simpl in Hr.
  assert (resumable k w) as Hres.
  { unfold resumable. destruct (w_wip w) as [wx|]; [|done]. destruct Hw as (_ & Hso & _ & Hp). split; [done|].
    intros p m Hx. destruct (Hp p m Hx) as (b & [E|E] & <-); [left|right]; by exists b. }
  rewrite (resumable_found k w Hres) in Hr. unfold resumable in Hres. destruct (w_wip w) as [wx|] eqn:Ew; simpl in Hr.
  - injection Hr as <- <- <-. destruct Hw as (H1 & H2 & H3 & H4). split; [done|]. split; [done|]. split; [by right|].
    split; [done|]. split.
    + intros x. rewrite elem_of_union, Hpk, elem_of_list_to_set, flat_blob_ids, blob_ids_entries. tauto.
    + destruct Hres as [_ Hres]. intros p m Hp. destruct (Hres p m Hp) as [Hh|?]; [|by left]. right. split; [done|].
      destruct Hh as (b & E & _). apply elem_of_list_In, filter_In. split.
      * apply in_map_iff. exists (p, m). split; [done|]. by apply elem_of_list_In.
      * apply bool_decide_eq_true. eauto.
  - injection Hr as <- <- <-. split; [done|]. split; [done|]. split; [by left|]. split.
    + simpl. rewrite app_nil_r. apply Hk.
    + split; [|by intros p m ?%elem_of_nil]. intros x. rewrite Hpk. unfold flat_ids at 2. simpl. rewrite elem_of_nil. tauto.
Qed.

(** ** Commands that only add *)

Section adding.
Variables (k : backend) (w : workdir) (start : index) (ups : list oid) (packed : gset oid).
Variables (planned bs : list blob) (sns : list snapshot).
Variables (target : N) (cpus : nat) (errors : merror).
Hypothesis Herr : errors <> ErrorAny.
Hypothesis Hk : sound H U k.
Hypothesis Hw : own_leftovers H U k w.
Hypothesis Hsup : ix_supersedes start = [].
Hypothesis Hsorted : om_sorted (ix_packs start).
Hypothesis Hstart : (w_wip w = None /\ start = index_default) \/ w_wip w = Some start.
Hypothesis Honce : once (live_packs k ++ ix_packs start).
Hypothesis Hpacked : forall x, x ∈ packed <-> x ∈ flat_ids (live_packs k) \/ x ∈ flat_ids (ix_packs start).
Hypothesis Hholds : forall p m, (p, m) ∈ ix_packs start -> holds (k_packs k) p m \/ (holds (w_packs w) p m /\ p ∈ ups).
Hypothesis Hsent : bs = bs_sent (foldl send_new (mkBstate packed []) planned).
Hypothesis HplanU : Forall U planned.
Hypothesis Hclash : no_clash H k w (mkCommand start ups bs (map PutSnap sns)).

Lemma sent_new : NoDup (map b_id bs) /\ (forall b, b ∈ bs -> b ∈ planned /\ b_id b ∉ packed) /\
  (forall b, b ∈ planned -> b_id b ∈ packed \/ b_id b ∈ map b_id bs).
Proof.
  destruct (send_all planned (mkBstate packed [])) as (new & E & H1 & H2 & H3). rewrite Hsent, E. simpl in *. auto.
Qed.

Lemma sent_U : Forall U bs.
Proof.
  destruct sent_new as (_ & Hb & _). apply Forall_forall. intros b Hin. eapply Forall_forall in HplanU; [exact HplanU|].
  by apply Hb.
Qed.

Lemma adding_ready : run_ready H k w start ups bs.
Proof.
  constructor; try done.
  - intros p b E. by apply (so_packs _ _ _ Hk).
  - intros p b E. by apply Hw.
  - intros m m'. apply Hclash.
  - intros b Hb. apply (un_bytes _ _ HU). pose proof sent_U as HF. by eapply Forall_forall in HF.
Qed.

Section at_state.
Variable s : pstate.
Hypothesis Hs : during H target true cpus errors k w start ups bs s.

Let Hst := sound_structured _ _ _ Hk.
Let Hos : os_sorted (ix_supersedes start). Proof. by rewrite Hsup. Qed.
Let Hfr : fresh_index H k start bs := proj1 (proj2 Hclash).
Notation the_run L := (L H U HU k w start ups bs target cpus errors Herr Hst adding_ready sent_U (proj1 Hw) Hos Hfr s Hs).

Lemma adding_structured : structured H U (ps_back s).
Proof. apply (the_run run_structured). Qed.

Lemma adding_store : repo_store k ⊆ repo_store (ps_back s).
Proof. apply (the_run run_store Hsup). Qed.

Lemma adding_once : once (live_packs (ps_back s)) /\
  own_leftovers H U (ps_back s) (mkWorkdir (ps_files s) (ps_wip s)).
Proof.
  destruct (the_run run_published) as (_ & cur & Hcur & Hwip & Hix).
  destruct sent_new as (Hnd & Hnew & _).
  assert (forall b, b ∈ bs -> b_id b ∉ flat_ids (live_packs k) /\ b_id b ∉ flat_ids (ix_packs start)) as Hnot.
  { intros b Hb. destruct (Hnew b Hb) as [_ Hn]. split; intros Hx; apply Hn, Hpacked; auto. }
  pose proof (current_once H U HU k w start ups bs target cpus errors Herr Hst adding_ready sent_U (proj1 Hw) Hos Hfr s Hs
    cur Hcur Honce Hnd Hnot) as Hall.
  assert (forall p m, (p, m) ∈ live_packs (ps_back s) -> (p, m) ∈ live_packs k ++ ix_packs cur) as Hsub.
  { intros p m. apply (the_run run_live_inv cur p m); [|exact Hsup]. destruct Hix as [[? _]|?]; auto. }
  assert (once (live_packs (ps_back s) ++ ix_packs cur)) as Hall'.
  { eapply once_sub; [|exact Hall]. intros p m [Hp|Hp]%elem_of_app; [auto|]. apply elem_of_app. auto. }
  split.
  { eapply once_sub; [|exact Hall]. done. }
  destruct (run_inv _ _ _ _ _ _ _ _ _ _ Herr adding_ready Hs) as (cur' & I).
  pose proof (C14_interrupted_runs_are_resumable H target cpus errors k w start ups bs s Herr adding_ready) as H14.
  split; [apply (the_run run_files_from)|]. simpl.
  assert (resumable k w) as Hres.
  { destruct Hw as [_ Hw']. unfold resumable. destruct (w_wip w) as [wx|]; [|done]. destruct Hw' as (_ & Hso & _ & Hp). split; [done|].
    intros p m Hx. destruct (Hp p m Hx) as (b & [E|E] & <-); [left|right]; by exists b. }
  destruct (H14 Hres Hs) as (Hres' & _). unfold resumable in Hres'. simpl in Hres'.
  destruct (ps_wip s) as [wx|] eqn:Ewx; [|done]. destruct Hres' as [Hso Hp].
  assert (forall p m, (p, m) ∈ ix_packs wx -> exists bs0, (ps_files s !! p = Some bs0 \/ k_packs (ps_back s) !! p = Some bs0) /\ manifest_of bs0 = m) as Hp'.
  { intros p m Hx. destruct (Hp p m Hx) as [(b & E & <-)|(b & E & <-)]; exists b; auto. }
  destruct Hwip as [?|[Ew|Ew]]; [done| |].
  - destruct Hw as [_ Hw']. destruct (w_wip w) as [wx'|] eqn:Ew'; [|done]. injection Ew as <-.
    destruct Hw' as (Hsup' & _ & Ho' & _). split; [done|]. split; [done|]. split; [|done].
    destruct Hstart as [[? _]|[= <-]]; [done|].
    eapply once_sub; [|exact Hall']. intros p m [Hx|Hx]%elem_of_app; apply elem_of_app; [auto|]. right. by apply Hcur.
  - injection Ew as <-. split; [by rewrite (cu_sup _ _ _ Hcur)|]. done.
Qed.

Lemma live_weaken b : b ∈ live_blobs k -> b ∈ live_blobs (ps_back s).
Proof.
  intros Hb. pose proof (live_blobs_U H U HU k (so_packs _ _ _ Hk)) as HF. eapply Forall_forall in HF; [|exact Hb].
  assert (repo_store k !! b_id b = Some (b_type b, b_bytes b)) as E.
  { apply (repo_store_lookup H U HU); [apply Hk|]. by destruct b. }
  eapply lookup_weaken in E; [|apply adding_store].
  apply (repo_store_lookup H U HU) in E; [by destruct b|apply adding_structured].
Qed.

Lemma adding_offers : ps_main s = MDone true -> forall b, b ∈ planned -> b ∈ live_blobs (ps_back s).
Proof.
  intros Hm b Hb. assert (U b) as HUb by (by eapply Forall_forall in HplanU).
  destruct (the_run run_published) as (_ & cur & Hcur & _ & Hix).
  destruct (the_run run_offers cur Hcur) as [Hpk Hbs].
  { destruct Hix as [[E Hd]|P]; [left|right]; [|by auto]. destruct (Hd Hm) as (? & ? & _). auto. }
  destruct sent_new as (_ & _ & Hall). destruct (Hall b Hb) as [Hp|Hp].
  - apply Hpacked in Hp as [Hp|Hp]; apply elem_of_flat_ids in Hp as (p & m & e & Hp & He & Eid).
    + apply live_weaken. destruct (live_pack_bs H U HU k Hst p m Hp) as (bs' & Ek & <-).
      apply elem_of_list_fmap in He as (b' & -> & Hb').
      assert (b = b') as ->; [|apply elem_of_live_blobs; eauto 10].
      apply (un_inj _ _ HU); [done| |done]. destruct (so_packs _ _ _ Hk _ _ Ek) as [_ HF]. by eapply Forall_forall in HF.
    + apply Hpk in Hp. destruct (live_pack_bs H U HU (ps_back s) adding_structured p m Hp) as (bs' & Ek & <-).
      apply elem_of_list_fmap in He as (b' & -> & Hb').
      assert (b = b') as ->; [|apply elem_of_live_blobs; eauto 10].
      apply (un_inj _ _ HU); [done| |done]. destruct (st_packs _ _ _ adding_structured _ _ Ek) as [_ HF]. by eapply Forall_forall in HF.
  - apply elem_of_list_fmap in Hp as (b' & Eid & Hb').
    assert (b = b') as ->; [|by apply Hbs]. apply (un_inj _ _ HU); [done| |done].
    pose proof sent_U as HF. by eapply Forall_forall in HF.
Qed.

Lemma adding_snaps : k_snaps (ps_back s) = k_snaps k.
Proof. by destruct (the_run run_published) as (? & _). Qed.
End at_state.

Hypothesis Hcomplete : forall st', repo_store k ⊆ st' ->
  (forall b, b ∈ planned -> st' !! b_id b = Some (b_type b, b_bytes b)) ->
  forall sn, sn ∈ sns -> exists es, reads_root H st' (sn_tree sn) es.

Definition safe_growth (k' : backend) (w' : workdir) : Prop :=
  in_order H U k' /\ own_leftovers H U k' w' /\
  (forall i sn, k_snaps k !! i = Some sn -> k_snaps k' !! i = Some sn) /\
  repo_store k ⊆ repo_store k'.
Definition sound_growth (k' : backend) (w' : workdir) : Prop :=
  sound H U k' /\ own_leftovers H U k' w' /\
  (forall i sn, k_snaps k !! i = Some sn -> k_snaps k' !! i = Some sn) /\
  repo_store k ⊆ repo_store k' /\
  (forall i sn, k_snaps k' !! i = Some sn -> k_snaps k !! i = Some sn \/ snapshot_complete H k' sn).

Lemma adding_reaches k' w' :
  command_reaches H target true cpus errors k w (mkCommand start ups bs (map PutSnap sns)) k' w' -> sound_growth k' w'.
Proof.
  intros (s & n & Hs & Hn & -> & ->). simpl in Hs.
  simpl c_after. rewrite take_map.
  assert ((take n sns = [] \/ ps_main s = MDone true) /\ forall x, x ∈ take n sns -> x ∈ sns) as [Hor Hsub].
  { split; [destruct Hn as [?| ->]; auto|]. intros x Hx. rewrite <-(take_drop n sns). apply elem_of_app. by left. }
  clear Hn. generalize dependent (take n sns). intros sns' Hor Hsub.
  destruct (put_snaps H (ps_back s) sns') as (Hsame & Hin & Hkeep).
  pose proof (adding_structured s Hs) as Hst. pose proof (adding_store s Hs) as Hstore. destruct (adding_once s Hs) as [Ho Hleft].
  set (k' := apply_ops H (ps_back s) (map PutSnap sns')) in *.
  assert (forall i sn, k_snaps k !! i = Some sn -> k_snaps k' !! i = Some sn) as Hold.
  { intros i sn Hi. apply Hkeep; [by rewrite (adding_snaps s Hs)|]. intros sn' Hs' <-.
    pose proof (so_named _ _ _ Hk _ _ Hi) as En. rewrite En in Hi.
    symmetry. apply (proj2 (proj2 Hclash) sn sn'); [by left|by apply elem_of_list_fmap_1, Hsub|done]. }
  assert (repo_store k' = repo_store (ps_back s)) as Est by (by apply same_repo_store).
  split; [|split; [|split; [done|split]]].
  - destruct (same_repo_structured H U _ _ Hsame Hst) as [S1 S2 S3]. constructor; try done.
    + by rewrite (same_repo_live _ _ Hsame).
    + intros i sn Hi. destruct (Hin i sn Hi) as [Hi'|[_ ->]]; [|done]. rewrite (adding_snaps s Hs) in Hi'. by apply (so_named _ _ _ Hk).
  - destruct Hleft as [Hf Hwip]. split; [done|]. simpl in *. destruct (ps_wip s) as [wx|]; [|done].
    rewrite (same_repo_live _ _ Hsame). destruct Hsame as [-> _]. done.
  - by rewrite Est.
  - intros i sn Hi. unfold snapshot_complete, restores. rewrite Est.
    destruct (Hin i sn Hi) as [Hi'|[Hi' _]]; [left; by rewrite (adding_snaps s Hs) in Hi'|right].
    destruct Hor as [->|Hm]; [by apply elem_of_nil in Hi'|].
    apply (Hcomplete (repo_store (ps_back s)) Hstore); [|by apply Hsub].
    intros b Hb. apply (repo_store_lookup H U HU); [apply Hst|]. pose proof (adding_offers s Hs Hm b Hb). by destruct b.
Qed.

Lemma adding_packs k' w' :
  command_reaches H target true cpus errors k w (mkCommand start ups bs (map PutSnap sns)) k' w' -> k_packs k ⊆ k_packs k'.
Proof.
  intros (s & n & Hs & Hn & -> & ->). simpl c_after. rewrite take_map.
  destruct (put_snaps H (ps_back s) (take n sns)) as ([-> _] & _). simpl in Hs.
  assert (os_sorted (ix_supersedes start)) as Hos by (by rewrite Hsup).
  exact (run_packs_kept H U HU k w start ups bs target cpus errors Herr (sound_structured _ _ _ Hk) adding_ready sent_U
    (proj1 Hw) Hos (proj1 (proj2 Hclash)) s Hs).
Qed.

Lemma adding_done s : during H target true cpus errors k w start ups bs s -> ps_main s = MDone true ->
  let k' := apply_ops H (ps_back s) (map PutSnap sns) in
  ps_wip s = None /\
  (forall b, b ∈ planned -> repo_store k' !! b_id b = Some (b_type b, b_bytes b)) /\
  (forall sn, sn ∈ sns -> k_snaps k' !! snapshot_id H sn = Some sn).
Proof.
  intros Hs Hm. simpl. destruct (put_snaps H (ps_back s) sns) as (Hsame & Hin & Hkeep). split_and!.
  - by eapply C53_success_publishes_everything; [exact Herr|apply adding_ready|exact Hs|].
  - intros b Hb. rewrite (same_repo_store _ _ Hsame). apply (repo_store_lookup H U HU); [apply (adding_structured s Hs)|].
    pose proof (adding_offers s Hs Hm b Hb). by destruct b.
  - intros sn Hsn. clear Hin Hkeep Hcomplete.
    assert (forall sn', sn' ∈ sns -> snapshot_id H sn' = snapshot_id H sn -> sn' = sn) as Huniq.
    { intros sn' Hsn' E. apply (proj2 (proj2 Hclash)); [right|..|done]; by apply elem_of_list_fmap_1. }
    clear -Hsn Huniq. generalize (ps_back s). revert Hsn Huniq. induction sns as [|x l IH]; intros Hsn Huniq kk; [by apply elem_of_nil in Hsn|].
    destruct (decide (sn ∈ l)) as [Hl|Hl]; [apply (IH Hl); intros; apply Huniq; [by right|done]|].
    apply elem_of_cons in Hsn as [<-|?]; [|done]. cbn [map]. unfold apply_ops. cbn [foldl].
    destruct (put_snaps H (apply_op H kk (PutSnap sn)) l) as (_ & _ & Hkeep). apply Hkeep.
    + simpl. by rewrite lookup_insert.
    + intros sn' Hs' E. apply Huniq; [by right|done].
Qed.
End adding.

(** A command that only adds: what it plans to have stored, and the snapshots. *)
Definition adds (k : backend) (w : workdir) (c : command) (planned : list blob) (sns : list snapshot) : Prop :=
  exists start ups packed,
    c = mkCommand start ups (bs_sent (foldl send_new (mkBstate packed []) planned)) (map PutSnap sns) /\
    ix_supersedes start = [] /\ om_sorted (ix_packs start) /\
    ((w_wip w = None /\ start = index_default) \/ w_wip w = Some start) /\
    once (live_packs k ++ ix_packs start) /\
    (forall x, x ∈ packed <-> x ∈ flat_ids (live_packs k) \/ x ∈ flat_ids (ix_packs start)) /\
    (forall p m, (p, m) ∈ ix_packs start -> holds (k_packs k) p m \/ (holds (w_packs w) p m /\ p ∈ ups)) /\
    (forall st', repo_store k ⊆ st' ->
      (forall b, b ∈ planned -> st' !! b_id b = Some (b_type b, b_bytes b)) ->
      forall sn, sn ∈ sns -> exists es, reads_root H st' (sn_tree sn) es).

Lemma adds_sound k w c planned sns target cpus errors k' w' :
  errors <> ErrorAny -> sound H U k -> own_leftovers H U k w -> adds k w c planned sns -> Forall U planned -> no_clash H k w c ->
  command_reaches H target true cpus errors k w c k' w' -> sound_growth k k' w'.
Proof.
  intros He Hk Hw (start & ups & packed & -> & R1 & R2 & R3 & R4 & R5 & R6 & R7) HpU Hcl Hr.
  eapply (adding_reaches k w start ups packed planned); eauto.
Qed.

Lemma adds_safe k w c planned sns target cpus errors k' w' :
  errors <> ErrorAny -> in_order H U k -> own_leftovers H U k w -> adds k w c planned sns -> Forall U planned -> no_clash H k w c ->
  command_reaches H target true cpus errors k w c k' w' -> safe_growth k k' w'.
Proof.
  intros He Hk Hw Ha HpU Hcl Hr. destruct (adds_sound k w c planned sns target cpus errors k' w' He (in_order_sound _ _ _ Hk) Hw Ha HpU Hcl Hr)
    as ([S1 S2 S3 S4 S5] & Hw' & Hkeep & Hst & Hnew).
  split; [|done]. constructor; try done. intros i sn Hi. destruct (Hnew i sn Hi) as [Hi'|?]; [|done].
  destruct (io_snaps _ _ _ Hk i sn Hi') as [es Hes]. exists es. by eapply reads_root_mono.
Qed.

Lemma adds_packs k w c planned sns target cpus errors k' w' :
  errors <> ErrorAny -> in_order H U k -> own_leftovers H U k w -> adds k w c planned sns -> Forall U planned -> no_clash H k w c ->
  command_reaches H target true cpus errors k w c k' w' -> k_packs k ⊆ k_packs k'.
Proof.
  intros He Hk Hw (start & ups & packed & -> & R1 & R2 & R3 & R4 & R5 & R6 & R7) HpU Hcl Hr. apply in_order_sound in Hk.
  eapply (adding_packs k w start ups packed planned); eauto.
Qed.

Lemma sound_done k w c planned sns target cpus k' w' :
  sound H U k -> own_leftovers H U k w -> adds k w c planned sns -> Forall U planned -> no_clash H k w c ->
  command_done H target true cpus k w c k' w' ->
  w_wip w' = None /\
  (forall b, b ∈ planned -> repo_store k' !! b_id b = Some (b_type b, b_bytes b)) /\
  (forall sn, sn ∈ sns -> k_snaps k' !! snapshot_id H sn = Some sn).
Proof.
  intros Hk Hw (start & ups & packed & -> & R1 & R2 & R3 & R4 & R5 & R6 & R7) HpU Hcl (s & Hs & Hm & -> & ->).
  simpl. eapply (adding_done k w start ups packed planned); eauto; done.
Qed.

Lemma adds_done k w c planned sns target cpus k' w' :
  in_order H U k -> own_leftovers H U k w -> adds k w c planned sns -> Forall U planned -> no_clash H k w c ->
  command_done H target true cpus k w c k' w' ->
  w_wip w' = None /\
  (forall b, b ∈ planned -> repo_store k' !! b_id b = Some (b_type b, b_bytes b)) /\
  (forall sn, sn ∈ sns -> k_snaps k' !! snapshot_id H sn = Some sn).
Proof. intros Hk. apply sound_done, in_order_sound, Hk. Qed.

Lemma adds_sent k w c planned sns b : adds k w c planned sns -> b ∈ c_blobs c ->
  b ∈ planned /\ b_id b ∉ flat_ids (live_packs k).
Proof.
  intros (start & ups & packed & -> & R1 & R2 & R3 & R4 & R5 & R6 & R7) Hb. simpl in Hb.
  destruct (send_all planned (mkBstate packed [])) as (new & E & H1 & H2 & H3). rewrite E in Hb. simpl in *.
  destruct (H2 b Hb) as [? Hn]. split; [done|]. intros Hx. apply Hn, R5. by left.
Qed.

(** ** What is stored *)

Lemma stored_sane k id t : structured H U k -> stored_as H (repo_store k) id t -> tree_sane t /\ id = tree_id H t.
Proof.
  intros Hk Hst. unfold stored_as in Hst. case_decide as Hd.
  - subst. split; [|done]. split; [|constructor]. split; [unfold len_wf; simpl; lia|]. split; [constructor|done].
  - destruct Hst as (x & Ex & Ed). apply (repo_store_lookup H U HU) in Ex; [|apply Hk].
    destruct (live_tree H U HU k Hk _ Ex eq_refl) as (t' & Hs & Eb & Hdec). destruct (Hdec _ _ Ed) as [-> _].
    split; [done|]. by injection Eb.
Qed.

Lemma forest_stored_sane k fo : structured H U k -> (forall id t, fo !! id = Some t -> stored_as H (repo_store k) id t) -> forest_sane fo.
Proof. intros Hk Hf id t Ht. by destruct (stored_sane k id t Hk (Hf _ _ Ht)). Qed.

Lemma reads_chunks st id es t c : reads_root H st id es -> stored_as H st id t -> c ∈ tree_chunks t ->
  exists x, st !! c = Some (Chunk, x).
Proof.
  intros (t0 & Ht0 & HF) Ht Hc. assert (t0 = t) as -> by (by eapply stored_as_fun).
  unfold tree_chunks in Hc. apply elem_of_list_In, in_concat in Hc as (l & Hl & Hc).
  apply in_map_iff in Hl as ([nm nd] & <- & Hin). apply elem_of_list_In in Hin, Hc.
  apply elem_of_list_lookup in Hin as [i Hi]. eapply Forall2_lookup_l in HF as ([nm' n] & _ & _ & Hr); [|exact Hi].
  simpl in *. unfold node_chunks in Hc. destruct Hr as [m cs ps HF|m tg|m i2 t' es' Hs' HF]; simpl in Hc; try (by apply elem_of_nil in Hc).
  apply elem_of_list_lookup in Hc as [j Hj]. eapply Forall2_lookup_l in HF as (x & _ & Hx); [|exact Hj]. eauto.
Qed.

Lemma reads_subtree st id es t s : reads_root H st id es -> stored_as H st id t -> s ∈ subtrees t ->
  exists es', reads_root H st s es'.
Proof.
  intros (t0 & Ht0 & HF) Ht Hc. assert (t0 = t) as -> by (by eapply stored_as_fun).
  unfold subtrees in Hc. apply elem_of_list_In, in_concat in Hc as (l & Hl & Hc).
  apply in_map_iff in Hl as ([nm nd] & <- & Hin). apply elem_of_list_In in Hin, Hc.
  apply elem_of_list_lookup in Hin as [i Hi]. eapply Forall2_lookup_l in HF as ([nm' n] & _ & _ & Hr); [|exact Hi].
  simpl in *. destruct Hr as [m cs ps HF|m tg|m i2 t' es' Hs' HF]; simpl in Hc; try (by apply elem_of_nil in Hc).
  apply elem_of_list_singleton in Hc as ->. exists es', t'. done.
Qed.

Lemma reads_reach st fo root es id t : (forall id t, fo !! id = Some t -> stored_as H st id t) ->
  reads_root H st root es -> reach fo root id -> fo !! id = Some t ->
  exists es', reads_root H st id es'.
Proof.
  intros Hfo Hr Hre _. revert Hre. apply (rtc_ind_r (fun x => exists es', reads_root H st x es') root); [eauto|].
  intros y z _ (u & Eu & Hz) (es' & Hes'). eapply reads_subtree; eauto.
Qed.

(** ** A backup *)

Lemma parent_in k snaps given p : chronological k snaps -> parent_snapshot given snaps = Some p ->
  exists i, k_snaps k !! i = Some p.
Proof.
  intros [Hp _] E. unfold parent_snapshot in E. destruct (List.find _ _) as [[p' i]|] eqn:Ef; [|done]. injection E as ->.
  apply find_some in Ef as [Hin _]. apply in_rev in Hin. apply elem_of_list_In in Hin. rewrite <-Hp in Hin.
  apply elem_of_list_fmap in Hin as ([j sn] & [= -> ->] & Hj). apply elem_of_map_to_list in Hj. eauto.
Qed.

Lemma backup_adding_sound cuts deref allow_empty filter author tz tags now paths parent pf k w c :
  sound H U k -> (forall p, parent = Some p -> snapshot_complete H k p) -> own_leftovers H U k w ->
  backup_command H cuts false deref allow_empty filter author tz tags now paths parent pf k w c ->
  paths_ok cuts deref paths ->
  Forall U (plan_blobs H cuts filter pf (sn_tree <$> parent) paths) ->
  no_clash H k w c ->
  forest_sane pf /\ (forall id t, pf !! id = Some t -> stored_as H (repo_store k) id t) /\
  exists sns, adds k w c (plan_blobs H cuts filter pf (sn_tree <$> parent) paths) sns /\
    (forall sn, sn ∈ sns -> sn = mkSnapshot now tz author tags (map (fun e : fspath => e.1.1) paths) (plan_root H cuts filter pf (sn_tree <$> parent) paths)).
Proof.
  intros Hk Hparent Hw (ix & bmap & snaps & start & ups & packed & s & root & _ & Eix & Ebm & Hch & Epar & Hpf & Hres & Ebt & ->) Hok HplU Hclash.
  pose proof (sound_structured _ _ _ Hk) as Hst.
  assert (forall id t, pf !! id = Some t -> stored_as H (repo_store k) id t) as Hpfst.
  { destruct parent as [p|]; [|subst pf; by intros id t ?%lookup_empty_Some].
    destruct Hpf as [fuel Hpf]. by destruct (load_forest_ok H U HU k Hst ix bmap Eix Ebm _ _ _ Hpf) as (_ & ? & _). }
  pose proof (forest_stored_sane k pf Hst Hpfst) as Hpfs.
  rewrite backup_tree_plan in Ebt by done. injection Ebt as <- <-.
  destruct (resume_ok k w ix start ups packed Hk Hw Eix Hres) as (R1 & R2 & R3 & R4 & R5 & R6).
  assert (forall st', repo_store k ⊆ st' ->
      (forall b, b ∈ plan_blobs H cuts filter pf (sn_tree <$> parent) paths -> st' !! b_id b = Some (b_type b, b_bytes b)) ->
      exists es, reads_root H st' (plan_root H cuts filter pf (sn_tree <$> parent) paths) es) as Hcomp.
  { intros st' Hsub Hall. apply (plan_root_complete H cuts filter deref pf Hlen st' Hpfs).
    - intros id t Ht. eapply stored_as_mono; eauto.
    - done.
    - intros r Er. destruct parent as [p|]; [|done]. injection Er as <-. destruct (Hparent p eq_refl) as [es Hes]. exists es. by eapply reads_root_mono.
    - intros b Hb. split; [by apply Hall|]. intros Hty Hid.
      eapply Forall_forall in HplU; [|exact Hb]. apply (un_empty H U HU) in Hid; [|done].
      apply PropsBackup.plan_blob_shape in Hb as [[? _]|(t & -> & Hne & _)]; [congruence|]. destruct t as [|kv t]; [done|].
      by apply (PropsBackup.enc_tree_nonempty kv t). }
  cbv zeta.
  set (sn := mkSnapshot now tz author tags (map (fun e : fspath => e.1.1) paths) (plan_root H cuts filter pf (sn_tree <$> parent) paths)) in *.
  match goal with |- context[if ?b then _ else match last snaps with _ => _ end] => set (cond := b) end.
  assert (exists sns, (if cond then [] else match last snaps with
     | Some (p, _) => if bool_decide (mkSnapshot now tz (sn_author p) (sn_tags p) (sn_paths p) (sn_tree p) = sn) then [] else [PutSnap sn]
     | None => [PutSnap sn] end) = map PutSnap sns /\ forall x, x ∈ sns -> x = sn) as (sns & E & Hsns).
  { assert (forall x, x ∈ [sn] -> x = sn) as H1 by (intros x Hx; by apply elem_of_list_singleton in Hx).
    assert (forall x : snapshot, x ∈ [] -> x = sn) as H0 by (intros x Hx; by apply elem_of_nil in Hx).
    clearbody cond sn. clear -H0 H1. destruct cond; [by exists []|]. destruct (last snaps) as [[p i]|]; [|by exists [sn]].
    destruct (bool_decide _); [exists []|exists [sn]]; (split; [reflexivity|done]). }
  split; [done|]. split; [done|]. exists sns. split; [|done]. exists start, ups, packed. simpl. rewrite E. split_and!; try done.
  intros st' Hsub Hall x Hx. rewrite (Hsns x Hx). by apply Hcomp.
Qed.

Lemma backup_adding cuts deref allow_empty filter author tz tags now paths parent pf k w c :
  in_order H U k -> own_leftovers H U k w ->
  backup_command H cuts false deref allow_empty filter author tz tags now paths parent pf k w c ->
  paths_ok cuts deref paths ->
  Forall U (plan_blobs H cuts filter pf (sn_tree <$> parent) paths) ->
  no_clash H k w c ->
  forest_sane pf /\ (forall id t, pf !! id = Some t -> stored_as H (repo_store k) id t) /\
  exists sns, adds k w c (plan_blobs H cuts filter pf (sn_tree <$> parent) paths) sns /\
    (forall sn, sn ∈ sns -> sn = mkSnapshot now tz author tags (map (fun e : fspath => e.1.1) paths) (plan_root H cuts filter pf (sn_tree <$> parent) paths)).
Proof.
  intros Hk Hw Hc. eapply backup_adding_sound; [by apply in_order_sound| |done|exact Hc].
  intros p ->. destruct Hc as (ix & bmap & snaps & start & ups & packed & s & root & _ & Eix & Ebm & Hch & Epar & _). symmetry in Epar.
  destruct (parent_in _ _ _ _ Hch Epar) as [i Hi]. by apply (io_snaps _ _ _ Hk i p Hi).
Qed.

(** ** Rewriting *)

Lemma Forall2_in {A B} (P : A -> B -> Prop) l l' : Forall2 P l l' -> Forall2 (fun x y => x ∈ l /\ P x y) l l'.
Proof.
  induction 1 as [|x y l l' Hxy HF IH]; constructor; [by split; [left|]|].
  eapply Forall2_impl; [exact IH|]. intros a b [Ha Hb]. split; [by right|done].
Qed.

Lemma forest_facts k ix bmap fuel sn fo i :
  in_order H U k -> master k = Ok ix -> blob_to_pack_map ix = Ok bmap ->
  k_snaps k !! i = Some sn -> load_forest H k bmap fuel (sn_tree sn) = Some (Ok fo) ->
  is_Some (fo !! sn_tree sn) /\
  (forall id t, fo !! id = Some t -> stored_as H (repo_store k) id t /\ tree_sane t /\ id = tree_id H t) /\
  (forall id t s, fo !! id = Some t -> s ∈ subtrees t -> is_Some (fo !! s)) /\
  (forall id t, fo !! id = Some t -> reach fo (sn_tree sn) id) /\
  (forall id t c, fo !! id = Some t -> c ∈ tree_chunks t -> exists x, repo_store k !! c = Some (Chunk, x)).
Proof.
  intros Hk Eix Ebm Hi Ef. pose proof (in_order_structured _ _ _ Hk) as Hst.
  destruct (load_forest_ok H U HU k Hst ix bmap Eix Ebm _ _ _ Ef) as (F1 & F2 & F3 & F4).
  split; [done|]. split; [|split; [done|split; [done|]]].
  - intros id t Ht. split; [by apply F2|]. apply (stored_sane k); auto.
  - intros id t c Ht Hc. destruct (io_snaps _ _ _ Hk i sn Hi) as [es Hes].
    destruct (reads_reach (repo_store k) fo (sn_tree sn) es id t F2 Hes (F4 _ _ Ht) Ht) as [es' Hes'].
    eapply reads_chunks; eauto.
Qed.

Lemma repack_chunk_ok k ix bmap c s x : structured H U k -> master k = Ok ix -> blob_to_pack_map ix = Ok bmap ->
  repo_store k !! c = Some (Chunk, x) ->
  repack_chunk k ix bmap c s = Ok (send_new s (mkBlob Chunk c (chunk_of (repo_store k) c))).
Proof.
  intros Hk Eix Ebm Ec. unfold repack_chunk, send_new, chunk_of. simpl. rewrite Ec. destruct (decide (c ∈ bs_packed s)) as [Hin|Hin].
  - apply (repo_store_lookup H U HU) in Ec; [|apply Hk].
    destruct (blob_size_ok H U HU k Hk ix bmap Eix Ebm c _ Ec eq_refl) as [n ->]. done.
  - apply (read_chunk_spec H U HU k Hk ix bmap Eix Ebm) in Ec. by rewrite Ec.
Qed.

Lemma chunk_of_spec st c x : st !! c = Some (Chunk, x) -> chunk_of st c = x.
Proof. unfold chunk_of. by intros ->. Qed.

Lemma join_nil x : join [] x = x.
Proof. done. Qed.

(** The rewritten snapshot's tree. *)
Lemma rewritten_reads k st' filter fuel fo sn r bs es :
  structured H U k ->
  (forall id t, fo !! id = Some t -> stored_as H (repo_store k) id t) ->
  rplan H filter (chunk_of (repo_store k)) fo fuel [] (sn_tree sn) = Some (r, bs) ->
  Forall U bs -> (forall b, b ∈ bs -> st' !! b_id b = Some (b_type b, b_bytes b)) ->
  restores H k sn es -> reads_root H st' r (kept_entries filter es).
Proof.
  intros Hk Hfo Er HbU Hst' Hes.
  apply (rplan_reads H filter (chunk_of (repo_store k)) fo (repo_store k) st' fuel [] (sn_tree sn) r bs es); try done.
  - intros id t Ht. by destruct (stored_sane k id t Hk Ht).
  - apply chunk_of_spec.
  - intros b Hb. split; [by apply Hst'|]. intros Hid. eapply Forall_forall in HbU; [|exact Hb]. by apply (un_empty H U HU).
Qed.

Lemma copy_adding filter src chosen fuel forests k w c :
  in_order H U src -> (forall sn, sn ∈ chosen -> exists i, k_snaps src !! i = Some sn) ->
  in_order H U k -> own_leftovers H U k w ->
  copy_command H false filter src chosen fuel forests k w c ->
  Forall U (rplan_all H filter (chunk_of (repo_store src)) fuel forests) ->
  map fst forests = chosen /\
  exists sns, adds k w c (rplan_all H filter (chunk_of (repo_store src)) fuel forests) sns /\
    Forall2 (fun sn sn' =>
      sn' = mkSnapshot (sn_time sn) (sn_tz sn) (sn_author sn) (sn_tags sn) (sn_paths sn) (sn_tree sn') /\
      ((forall p, filter p = true) -> sn' = sn) /\
      forall st', (forall b, b ∈ rplan_all H filter (chunk_of (repo_store src)) fuel forests -> st' !! b_id b = Some (b_type b, b_bytes b)) ->
        forall es, restores H src sn es -> reads_root H st' (sn_tree sn') (kept_entries filter es)) chosen sns.
Proof.
  intros Hsrc Hch Hk Hw (sx & sbm & ix & start & ups & packed & s & sns & Esx & Esb & Ef & Eix & Hres & Erw & ->) HpU.
  pose proof (in_order_structured _ _ _ Hsrc) as Hsst.
  destruct (load_forests_inv _ _ _ _ _ _ Ef) as [<- HF]. split; [done|].
  assert (forall sn fo, (sn, fo) ∈ forests -> exists i, k_snaps src !! i = Some sn /\ load_forest H src sbm fuel (sn_tree sn) = Some (Ok fo)) as Hin.
  { intros sn fo Hx. destruct (Hch sn) as [i Hi]; [apply elem_of_list_fmap; by exists (sn, fo)|]. exists i. split; [done|].
    eapply Forall_forall in HF; [|exact Hx]. done. }
  destruct (rewrite_snapshots_plan H filter (chunk_of (repo_store src)) (repack_chunk src sx sbm) packed fuel forests
    (mkBstate packed []) s sns) as [-> HF2]; [|done|done|].
  { intros sn fo Hx. destruct (Hin sn fo Hx) as (i & Hi & El).
    destruct (forest_facts src sx sbm fuel sn fo i Hsrc Esx Esb Hi El) as (_ & F2 & _ & _ & F5). split.
    - intros id t c s' Ht Hc _. destruct (F5 id t c Ht Hc) as [x Hx']. by eapply repack_chunk_ok.
    - intros id t Ht. by destruct (F2 id t Ht) as (_ & [(_ & _ & ?) _] & _). }
  destruct (resume_ok k w ix start ups packed (in_order_sound _ _ _ Hk) Hw Eix Hres) as (R1 & R2 & R3 & R4 & R5 & R6).
  assert (Forall2 (fun sn sn' =>
      sn' = mkSnapshot (sn_time sn) (sn_tz sn) (sn_author sn) (sn_tags sn) (sn_paths sn) (sn_tree sn') /\
      ((forall p, filter p = true) -> sn' = sn) /\
      forall st', (forall b, b ∈ rplan_all H filter (chunk_of (repo_store src)) fuel forests -> st' !! b_id b = Some (b_type b, b_bytes b)) ->
        forall es, restores H src sn es -> reads_root H st' (sn_tree sn') (kept_entries filter es)) (map fst forests) sns) as HR.
  { apply Forall2_fmap_l. eapply Forall2_impl; [apply (Forall2_in _ _ _ HF2)|].
    intros [sn fo] sn' [Hx (bs & Er & Esn)]. simpl in *. destruct (Hin sn fo Hx) as (i & Hi & El).
    destruct (forest_facts src sx sbm fuel sn fo i Hsrc Esx Esb Hi El) as (_ & F2 & _ & _ & F5).
    split; [done|]. split.
    - intros Hf. destruct (rplan_same H filter (chunk_of (repo_store src)) fo _ _ _ _ _ Hf (fun id t Ht => proj2 (proj2 (F2 id t Ht))) Er) as [Eq _].
      rewrite Esn, Eq. by destruct sn.
    - intros st' Hst' es Hes. eapply (rewritten_reads src st' filter fuel fo sn); eauto.
      + intros id t Ht. by apply F2.
      + apply Forall_forall. intros b Hb. eapply Forall_forall in HpU; [exact HpU|]. by eapply (elem_of_rplan_all _ _ _ _ _ (sn, fo)).
      + intros b Hb. apply Hst'. by eapply (elem_of_rplan_all _ _ _ _ _ (sn, fo)). }
  exists sns. split; [|done]. exists start, ups, packed. split_and!; try done.
  intros st' _ Hst' sn' Hsn'. apply elem_of_list_lookup in Hsn' as [j Hj].
  eapply Forall2_lookup_r in HR as (sn & Hsn & _ & _ & Hread); [|exact Hj].
  destruct (Hch sn) as [i Hi]; [by eapply elem_of_list_lookup_2|]. destruct (io_snaps _ _ _ Hsrc i sn Hi) as [es Hes].
  eexists. by apply Hread.
Qed.

Lemma live_blob_flat k x : structured H U k ->
  x ∈ flat_ids (live_packs k) <-> exists b, b ∈ live_blobs k /\ b_id b = x.
Proof.
  intros Hk. rewrite elem_of_flat_ids. split.
  - intros (p & m & e & Hp & He & <-). destruct (live_pack_bs H U HU k Hk p m Hp) as (bs & E & <-).
    apply elem_of_list_fmap in He as (b & -> & Hb). exists b. split; [|done]. apply elem_of_live_blobs. eauto 10.
  - intros (b & (p & m & bs & Hp & E & Hb)%elem_of_live_blobs & <-).
    destruct (live_pack_bs H U HU k Hk p m Hp) as (bs' & E' & <-). rewrite E in E'. injection E' as <-.
    exists p, (manifest_of bs), (entry_of b). split_and!; try done. by apply elem_of_list_fmap_1.
Qed.

Lemma filter_adding filter target i meta fuel fo k w c :
  in_order H U k -> own_leftovers H U k w -> w_wip w = None -> k_snaps k !! i = Some target ->
  filter_command H false filter target meta fuel fo k c ->
  Forall U (rplan_all H filter (chunk_of (repo_store k)) fuel [(target, fo)]) ->
  exists root sns, adds k w c (rplan_all H filter (chunk_of (repo_store k)) fuel [(target, fo)]) sns /\
    sns = (if bool_decide (root = sn_tree target) then [] else
      [match meta with
       | None => mkSnapshot (sn_time target) (sn_tz target) (sn_author target) (sn_tags target) (sn_paths target) root
       | Some (author, tags, now, tz) => mkSnapshot now tz author tags (sn_paths target) root
       end]) /\
    (forall b, b ∈ c_blobs c -> b_type b = Tree) /\
    forall st', (forall b, b ∈ rplan_all H filter (chunk_of (repo_store k)) fuel [(target, fo)] -> st' !! b_id b = Some (b_type b, b_bytes b)) ->
        forall es, restores H k target es -> reads_root H st' root (kept_entries filter es).
Proof.
  intros Hk Hw Hwip Hi (ix & bmap & packed & s & root & Eix & Ebm & Ef & Epk & Erw & ->) HpU.
  pose proof (in_order_structured _ _ _ Hk) as Hst.
  destruct (in_order_maps k Hk) as (ix' & bmap' & pk & E1 & E2 & E3 & Hpk).
  rewrite Eix in E1. injection E1 as <-. rewrite Epk in E3. injection E3 as <-. clear bmap' E2.
  destruct (forest_facts k ix bmap fuel target fo i Hk Eix Ebm Hi Ef) as (_ & F2 & _ & _ & F5).
  assert (forall id t c, fo !! id = Some t -> c ∈ tree_chunks t -> c ∈ packed) as Hch.
  { intros id t c Ht Hc. destruct (F5 id t c Ht Hc) as [x Hx]. apply (repo_store_lookup H U HU) in Hx; [|apply Hst].
    apply Hpk, (live_blob_flat k _ Hst). by eexists. }
  pose proof (rewrite_plan H filter (chunk_of (repo_store k)) fo check_chunk packed) as Hf. unfold follows in Hf.
  specialize (Hf (fun id t c s0 Ht Hc Hs0 => ltac:(
    unfold check_chunk, send_new; simpl; pose proof (Hs0 _ (Hch id t c Ht Hc));
    rewrite bool_decide_eq_true_2 by done; simpl; by rewrite decide_True))).
  specialize (Hf (fun id t Ht => proj2 (proj2 (proj1 (proj1 (proj2 (F2 id t Ht))))))).
  specialize (Hf fuel [] (sn_tree target) (mkBstate packed []) ltac:(done)).
  destruct (rplan H filter (chunk_of (repo_store k)) fo fuel [] (sn_tree target)) as [[root' bs]|] eqn:Er.
  2: { rewrite Erw in Hf. by destruct (Hf (s, root)). }
  rewrite Hf in Erw. injection Erw as <- <-.
  assert (rplan_all H filter (chunk_of (repo_store k)) fuel [(target, fo)] = bs) as Ebs.
  { unfold rplan_all. simpl. rewrite Er. apply app_nil_r. }
  rewrite Ebs in *.
  assert (forall st', (forall b, b ∈ bs -> st' !! b_id b = Some (b_type b, b_bytes b)) ->
    forall es, restores H k target es -> reads_root H st' root' (kept_entries filter es)) as Hread.
  { intros st' Hst' es Hes. eapply (rewritten_reads k st' filter fuel fo target); eauto. intros id t Ht. by apply F2. }
  eexists root', _. split; [|split; [reflexivity|split; [|exact Hread]]].
  - exists index_default, [], packed. split_and!; try done.
    + f_equal. case_bool_decide; [done|]. by destruct meta as [[[[]]]|].
    + by left.
    + simpl. rewrite app_nil_r. apply Hk.
    + intros x. rewrite Hpk. simpl. split; [by left|]. intros [?|Hx]; [done|]. by apply elem_of_nil in Hx.
    + simpl. intros p m Hp. by apply elem_of_nil in Hp.
    + intros st' _ Hst' sn Hsn. destruct (io_snaps _ _ _ Hk i target Hi) as [es Hes].
      exists (kept_entries filter es). case_bool_decide; [by apply elem_of_nil in Hsn|].
      apply elem_of_list_singleton in Hsn as ->. specialize (Hread st' Hst' es Hes). by destruct meta as [[[[]]]|].
  - simpl. intros b Hb. destruct (send_all bs (mkBstate packed [])) as (new & E & H1 & H2 & H3). rewrite E in Hb. simpl in *.
    destruct (H2 b Hb) as [Hbs Hn].
    pose proof (rplan_shape H filter (chunk_of (repo_store k)) fo _ _ _ _ _ Hlen (fun id t Ht => proj1 (proj2 (F2 id t Ht))) Er) as Hsh.
    eapply Forall_forall in Hsh; [|exact Hbs]. destruct Hsh as [(id & t & c & Ht & Hc & ->)|(t & _ & ->)]; [|done].
    simpl in Hn. by destruct Hn; eapply Hch.
Qed.

End facts.
