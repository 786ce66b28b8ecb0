(** What a run of the backup pipeline does to a repository. *)

From Verif Require Import Base OMap Formats FormatsFacts Hashing Pack Index IndexFacts PropsIndex Meta Forest ForestFacts
  FsTree FsSpec FsFacts BackupFacts Pipeline PipelineFacts PropsPipeline Repo RepoSpec RepoFacts.

(** ** Blobs in one place *)

Definition flat_ids (l : list (oid * manifest)) : list oid := map e_id (concat (map snd l)).

Lemma elem_of_flat_ids l x : x ∈ flat_ids l <-> exists p m e, (p, m) ∈ l /\ e ∈ m /\ e_id e = x.
Proof.
  unfold flat_ids. rewrite elem_of_list_fmap. split.
  - intros (e & -> & He). apply elem_of_list_In, in_concat in He as (m & Hm & He).
    apply in_map_iff in Hm as ([p m'] & <- & Hp). exists p, m', e. by rewrite !elem_of_list_In.
  - intros (p & m & e & Hp & He & <-). exists e. split; [done|]. apply elem_of_list_In, in_concat.
    exists m. split; [|by apply elem_of_list_In]. apply in_map_iff. exists (p, m). split; [done|by apply elem_of_list_In].
Qed.

Lemma flat_ids_cons p m l : flat_ids ((p, m) :: l) = map e_id m ++ flat_ids l.
Proof. unfold flat_ids. simpl. by rewrite map_app. Qed.

Lemma nodup_once l : NoDup (flat_ids l) -> once l.
Proof.
  induction l as [|[q mq] l IH]; intros Hnd p m p' m' n n' e e' Hp Hp' Hn Hn' He.
  { by apply elem_of_nil in Hp. }
  rewrite flat_ids_cons in Hnd. apply NoDup_app in Hnd as (H1 & H2 & H3).
  assert (forall p m n n' e e', (p, m) ∈ l -> m !! n = Some e -> mq !! n' = Some e' -> e_id e = e_id e' -> False) as Hx.
  { clear -H2. intros p m n n' e e' Hp He He' E. apply (H2 (e_id e')).
    - apply elem_of_list_fmap_1. by eapply elem_of_list_lookup_2.
    - apply elem_of_flat_ids. exists p, m, e. split; [done|]. split; [by eapply elem_of_list_lookup_2|done]. }
  apply elem_of_cons in Hp as [[= -> ->]|Hp]; apply elem_of_cons in Hp' as [[= -> ->]|Hp'].
  - split; [done|]. eapply NoDup_lookup; [exact H1| |]; rewrite list_lookup_fmap; [by rewrite Hn|rewrite Hn'; simpl; by f_equal].
  - exfalso. by eapply (Hx p' m' n' n e' e).
  - exfalso. by eapply (Hx p m n n' e e').
  - by eapply IH.
Qed.

Lemma once_nodup l : NoDup l.*1 -> once l -> NoDup (flat_ids l).
Proof.
  induction l as [|[q mq] l IH]; intros Hk Ho; [constructor|]. rewrite flat_ids_cons.
  simpl in Hk. apply NoDup_cons in Hk as [Hq Hk]. apply NoDup_app. split_and!.
  - apply NoDup_alt. intros i j x Hi Hj. rewrite list_lookup_fmap in Hi, Hj.
    destruct (mq !! i) as [e|] eqn:Ei; [|done]. destruct (mq !! j) as [e'|] eqn:Ej; [|done]. simpl in *.
    assert (e_id e = e_id e') as E by congruence.
    by destruct (Ho q mq q mq i j e e') as [_ ->]; try done; left.
  - intros x (e & -> & He)%elem_of_list_fmap (p & m & e' & Hp & He' & E)%elem_of_flat_ids.
    apply elem_of_list_lookup in He as [i He]. apply elem_of_list_lookup in He' as [j He'].
    destruct (Ho q mq p m i j e e') as [-> _]; try done; [by left|by right|].
    apply Hq. apply elem_of_list_fmap. by exists (p, m).
  - apply IH; [done|]. intros p m p' m' n n' e e' Hp Hp'. apply Ho; by right.
Qed.

Lemma once_sub l l' : (forall p m, (p, m) ∈ l -> (p, m) ∈ l') -> once l' -> once l.
Proof. intros Hs Ho p m p' m' n n' e e' H1 H2. apply Ho; by apply Hs. Qed.

Lemma flat_ids_entries ix : flat_ids (ix_packs ix) = map e_id (entries_of ix).
Proof. done. Qed.

Lemma flat_blob_ids ix : flat_ids (ix_packs ix) = blob_ids ix.
Proof.
  rewrite blob_ids_entries. unfold flat_ids, index_entries. induction (ix_packs ix) as [|[p m] l IH]; [done|].
  simpl. rewrite !map_app, IH. f_equal. induction m; simpl; [done|]. by f_equal.
Qed.

Lemma no_error_main H target live cpus k w start ups bs s :
  during H target live cpus NoError k w start ups bs s -> failed (ps_main s) = false.
Proof.
  unfold during. intros Hs. apply (rtc_ind_r (fun s => failed (ps_main s) = false)
    (pipeline_start target k w start ups bs)) in Hs; [done|done|].
  clear. intros s s' _ Hst IH. destruct Hst; simpl; try done.
  - destruct (ps_indexer s); try done. by case_bool_decide.
  - by destruct closed.
  - destruct (packer_finish _); simpl; done.
  - unfold upload_job. destruct j; simpl; [by destruct (ps_files s !! id)|done].
  - unfold clear_job. by destruct j.
  - unfold clear_job. by destruct j.
  - match goal with E : ps_main s = MWait ok |- _ => rewrite E in IH end. by destruct ok.
Qed.

(** ** A run, from a structured repository *)

Section run.
Variables (H : bytes -> oid) (U : blob -> Prop).
Hypothesis HU : universe H U.
Variables (k : backend) (w : workdir) (start : index) (ups : list oid) (bs : list blob).
Variables (target : N) (cpus : nat) (errors : merror).
Hypothesis Herr : errors <> ErrorAny.
Hypothesis Hk : structured H U k.
Hypothesis Hready : run_ready H k w start ups bs.
Hypothesis HbsU : Forall U bs.
Hypothesis HwU : packs_from H U (w_packs w).
Hypothesis Hsup : os_sorted (ix_supersedes start).
Hypothesis Hfresh : fresh_index H k start bs.
Local Set Default Proof Using "All".

(** Equal manifests, equal blobs. *)
Lemma manifest_inj b b' : Forall U b -> Forall U b' -> manifest_of b = manifest_of b' -> b = b'.
Proof.
  revert b'. induction b as [|x b IH]; intros [|x' b'] H1 H2 E; try done. cbn [manifest_of map] in E.
  assert (E1 := f_equal (fun m => e_id <$> head m) E). apply (f_equal tail) in E. simpl in E, E1. injection E1 as E1. apply Forall_cons in H1 as [Hx H1]. apply Forall_cons in H2 as [Hx' H2].
  f_equal; [by apply (un_inj _ _ HU)|by apply IH].
Qed.

Variable s : pstate.
Hypothesis Hs : during H target true cpus errors k w start ups bs s.

Lemma infix_U mid ty : infix_of mid (of_type ty bs) -> Forall U mid.
Proof.
  intros (pre & post & E). apply Forall_forall. intros b Hb.
  assert (b ∈ of_type ty bs) as Hin. { rewrite E, !elem_of_app. auto. }
  unfold of_type in Hin. apply elem_of_list_In, filter_In in Hin as [Hin _]. apply elem_of_list_In in Hin.
  by eapply Forall_forall in HbsU.
Qed.

Lemma run_files_from : packs_from H U (ps_files s).
Proof.
  destruct (run_inv _ _ _ _ _ _ _ _ _ _ Herr Hready Hs) as (cur & I). intros p b E.
  split; [by apply (inv_files _ _ _ _ _ _ _ _ I)|].
  destruct (inv_files_from _ _ _ _ _ _ _ _ I p b E) as [Ew|(ty & Hi)]; [by destruct (HwU _ _ Ew)|by eapply infix_U].
Qed.

Lemma run_packs_from : packs_from H U (k_packs (ps_back s)).
Proof.
  destruct (run_inv _ _ _ _ _ _ _ _ _ _ Herr Hready Hs) as (cur & I). intros p b E.
  split; [by apply (inv_back _ _ _ _ _ _ _ _ I)|].
  destruct (inv_packs_from _ _ _ _ _ _ _ _ I p b E) as [Ek|[Ew|(ty & Hi)]].
  - by destruct (st_packs _ _ _ Hk _ _ Ek).
  - by destruct (HwU _ _ Ew).
  - by eapply infix_U.
Qed.

Lemma run_packs_kept : k_packs k ⊆ k_packs (ps_back s).
Proof.
  destruct (run_inv _ _ _ _ _ _ _ _ _ _ Herr Hready Hs) as (cur & I). apply map_subseteq_spec. intros p b E.
  destruct (inv_old _ _ _ _ _ _ _ _ I p b E) as (b' & E' & Em). rewrite E'. f_equal. apply manifest_inj; [| |done].
  - by destruct (run_packs_from _ _ E').
  - by destruct (st_packs _ _ _ Hk _ _ E).
Qed.

(** The index that may have been published. *)
Record publishes (ix : index) : Prop := {
  pb_indexes : k_indexes (ps_back s) = <[index_id H ix := ix]> (k_indexes k);
  pb_sup : ix_supersedes ix = ix_supersedes start;
  pb_sorted : om_sorted (ix_packs ix);
  pb_start : forall p m, (p, m) ∈ ix_packs start -> (p, m) ∈ ix_packs ix;
  pb_packs : forall p m, (p, m) ∈ ix_packs ix -> exists b, k_packs (ps_back s) !! p = Some b /\ manifest_of b = m;
  pb_entries : entries_of ix ⊆+ entries_of start ++ manifest_of bs;
  pb_all : errors = NoError \/ ps_main s = MDone true -> Permutation (entries_of ix) (entries_of start ++ manifest_of bs);
  pb_new : index_id H ix ∉ superseded k;
  pb_self : index_id H ix ∉ ix_supersedes ix;
  pb_same : forall jx, k_indexes k !! index_id H ix = Some jx -> jx = ix }.

(** The index being made. *)
Record current (ix : index) : Prop := {
  cu_sup : ix_supersedes ix = ix_supersedes start;
  cu_sorted : om_sorted (ix_packs ix);
  cu_start : forall p m, (p, m) ∈ ix_packs start -> (p, m) ∈ ix_packs ix;
  cu_entries : entries_of ix ⊆+ entries_of start ++ manifest_of bs }.

Lemma run_published :
  k_snaps (ps_back s) = k_snaps k /\ exists cur, current cur /\
  (ps_wip s = None \/ ps_wip s = w_wip w \/ ps_wip s = Some cur) /\
  ((k_indexes (ps_back s) = k_indexes k /\
     (ps_main s = MDone true -> bs = [] /\ ix_packs start = [] /\ ix_supersedes start = [])) \/
   publishes cur).
Proof.
  destruct (run_inv _ _ _ _ _ _ _ _ _ _ Herr Hready Hs) as (cur & I). split; [apply I|]. exists cur.
  assert (entries_of cur ⊆+ entries_of start ++ manifest_of bs) as Hsub.
  { destruct (inv_conserve _ _ _ _ _ _ _ _ I) as (lost & Hp & _). rewrite <-Hp. by apply submseteq_inserts_r. }
  split; [constructor; try done; apply I|]. split; [apply I|].
  assert ((k_indexes (ps_back s) = k_indexes k /\ (ps_main s = MDone true -> index_is_empty cur = true)) \/
    (indexes_published H k s cur /\ index_is_empty cur = false /\ ps_indexer s = IExit /\
     forall id m, (id, m) ∈ ix_packs cur -> on_backend (ps_back s) id m)) as [[E Hm]|(E & Hne & Ei & Hb)].
  { destruct (inv_indexes _ _ _ _ _ _ _ _ I) as [E|E]; [|by right].
    destruct (index_is_empty cur) eqn:He; [by left|]. assert (ps_uploader s = UExit \/ ps_uploader s <> UExit) as [Eu|Hn] by (destruct (ps_uploader s); auto).
    - right. pose proof (inv_join _ _ _ _ _ _ _ _ I Eu) as Ei. pose proof (inv_phase _ _ _ _ _ _ _ _ I) as Hph.
      rewrite Ei in Hph. destruct Hph as [?|[(j & -> & [?|?])|Hpub]]; try congruence. split; [done|]. split; [done|]. split; [done|].
      intros p m Hp. destruct (inv_avail _ _ _ _ _ _ _ _ I p m Hp) as [?|(b & E1 & E2 & [?|Hu])]; [done|congruence|].
      exfalso. destruct (ps_main s) as [u l| |] eqn:Em; try (by apply elem_of_nil in Hu).
      pose proof (inv_exits _ _ _ _ _ _ _ _ I) as Hex. rewrite Ei in Hex. destruct Hex as [Hex _].
      destruct (inv_running _ _ _ _ _ _ _ _ I Chunk) as [E'|E']; [congruence|by apply (E' u l)].
    - left. split; [done|]. intros Hm. by apply (inv_done _ _ _ _ _ _ _ _ I) in Hm. }
  - left. split; [done|]. intros Hd. specialize (Hm Hd).
    unfold index_is_empty in Hm. destruct (ix_supersedes cur) eqn:Es, (ix_packs cur) eqn:Ep; try done.
    assert (ix_packs start = []) as E0.
    { destruct (ix_packs start) as [|[p m] l] eqn:E0; [done|]. exfalso.
      assert ((p, m) ∈ ix_packs cur) as Hx. { apply (inv_grow _ _ _ _ _ _ _ _ I). rewrite E0. by left. }
      rewrite Ep in Hx. by apply elem_of_nil in Hx. }
    split; [|split; [done|]].
    + destruct (C53_success_publishes_everything _ _ _ _ _ _ _ _ _ _ Herr Hready Hs Hd) as (_ & _ & [(? & _)|(ix & Eix & _ & _ & _ & Hperm)]); [done|].
      destruct (inv_conserve _ _ _ _ _ _ _ _ I) as (lost & Hp & Hl). rewrite Hd in Hp, Hl. rewrite Hl in Hp by done.
      pose proof (inv_done _ _ _ _ _ _ _ _ I _ Hd) as Eu. pose proof (inv_join _ _ _ _ _ _ _ _ I Eu) as Ei.
      pose proof (inv_exits _ _ _ _ _ _ _ _ I) as Hex. rewrite Ei in Hex.
      assert (forall ty, wk_out (ps_workers s ty) = [] /\ pk_blobs (wk_packer (ps_workers s ty)) = []) as Hw.
      { intros ty. assert (wk_phase (ps_workers s ty) = WExit) as Hwx by (destruct ty; apply Hex).
        split; [by apply (inv_exit_out _ _ _ _ _ _ _ _ I)|].
        destruct (inv_worker _ _ _ _ _ _ _ _ I ty) as [E'| ->]; [|done]. rewrite Hwx in E'. done. }
      destruct (Hw Chunk) as [C1 C2]. destruct (Hw Tree) as [T1 T2]. rewrite C1, C2, T1, T2 in Hp. simpl in Hp.
      unfold entries_of in Hp at 1. rewrite Ep in Hp. simpl in Hp. apply Permutation_nil, app_eq_nil in Hp as [_ Hp]. by destruct bs.
    + rewrite <-(inv_sup _ _ _ _ _ _ _ _ I). done.
  - right.
    assert (forall p m, (p, m) ∈ ix_packs start -> p = pack_id H m) as Hnm.
    { intros p m Hp. destruct (rr_start _ _ _ _ _ _ Hready p m Hp) as [(b & E1 & <-)|[(b & E1 & <-) _]].
      - by apply (rr_named _ _ _ _ _ _ Hready).
      - by apply (rr_named_here _ _ _ _ _ _ Hready). }
    destruct (Hfresh cur) as (F1 & F2 & F3).
    { apply I. }
    { apply I. }
    { intros p m Hp. destruct (inv_new _ _ _ _ _ _ _ _ I p m Hp) as [?|[? _]]; auto. }
    { exact Hsub. }
    { done. }
    constructor; try done; try apply I.
    intros Hok. pose proof (inv_exits _ _ _ _ _ _ _ _ I) as Hex. rewrite Ei in Hex.
    assert (forall ty, wk_phase (ps_workers s ty) = WExit) as Hall by (intros []; apply Hex).
    destruct (inv_conserve _ _ _ _ _ _ _ _ I) as (lost & Hp & Hl).
    assert (failed (ps_main s) = false) as Hf.
    { destruct Hok as [Hok| ->]; [|done]. rewrite Hok in Hs. by eapply no_error_main. }
    rewrite (Hl Hf) in Hp.
    assert (rest_of (ps_main s) = []) as Hr.
    { destruct (ps_main s) as [u b| |] eqn:Em; try done. exfalso.
      destruct (inv_running _ _ _ _ _ _ _ _ I Chunk) as [E'|E']; [rewrite Hall in E'; done|by apply (E' u b)]. }
    rewrite Hr in Hp. rewrite <-Hp.
    assert (forall ty, wk_out (ps_workers s ty) = [] /\ pk_blobs (wk_packer (ps_workers s ty)) = []) as Hw.
    { intros ty. split; [by apply (inv_exit_out _ _ _ _ _ _ _ _ I)|].
      destruct (inv_worker _ _ _ _ _ _ _ _ I ty) as [E'| ->]; [|done]. rewrite Hall in E'. done. }
    destruct (Hw Chunk) as [-> ->]. destruct (Hw Tree) as [-> ->]. simpl. by rewrite app_nil_r.
Qed.

Lemma run_structured : structured H U (ps_back s).
Proof.
  destruct run_published as (_ & cur & Hcur & _ & Hix). constructor; [apply run_packs_from| |].
  - intros i ix Hi. destruct Hix as [[E _]|P].
    + rewrite E in Hi. by apply (st_sorted _ _ _ Hk i).
    + rewrite (pb_indexes _ P) in Hi. apply lookup_insert_Some in Hi as [[_ <-]|[_ Hi]]; [|by apply (st_sorted _ _ _ Hk i)].
      split; [by rewrite (pb_sup _ P)|apply P].
  - assert (forall i ix p m, k_indexes k !! i = Some ix -> (p, m) ∈ ix_packs ix ->
      exists b, k_packs (ps_back s) !! p = Some b /\ manifest_of b = m) as Hold.
    { intros i ix p m Hi Hp. destruct (st_backed _ _ _ Hk i ix p m Hi Hp) as (b & Eb & <-). exists b. split; [|done].
      eapply lookup_weaken; [exact Eb|apply run_packs_kept]. }
    intros i ix p m Hi Hp. destruct Hix as [[E _]|P].
    + rewrite E in Hi. eauto.
    + rewrite (pb_indexes _ P) in Hi. apply lookup_insert_Some in Hi as [[_ <-]|[_ Hi]]; [|by eauto]. by apply P.
Qed.

Lemma published_superseded ix x : publishes ix -> x ∈ superseded (ps_back s) -> x ∈ superseded k \/ x ∈ ix_supersedes ix.
Proof.
  intros P (i & jx & Hi & Hx)%elem_of_superseded. rewrite (pb_indexes _ P) in Hi.
  apply lookup_insert_Some in Hi as [[_ <-]|[_ Hi]]; [by right|]. left. apply elem_of_superseded. eauto.
Qed.

Lemma published_live ix p m : publishes ix -> (p, m) ∈ ix_packs ix -> (p, m) ∈ live_packs (ps_back s).
Proof.
  intros P Hp. apply elem_of_live_packs. exists (index_id H ix), ix. split; [|split; [|done]].
  - rewrite (pb_indexes _ P). apply lookup_insert.
  - intros [Hx|Hx]%(published_superseded ix); [by apply (pb_new _ P)|by apply (pb_self _ P)|done].
Qed.

Lemma live_pack_blobs p m b bs' : (p, m) ∈ live_packs (ps_back s) -> k_packs (ps_back s) !! p = Some bs' -> b ∈ bs' ->
  b ∈ live_blobs (ps_back s).
Proof. intros Hp E Hb. apply elem_of_live_blobs. eauto 10. Qed.

(** Whatever an index of the run lists is offered once it is published. *)
Lemma published_blobs ix b : publishes ix -> entry_of b ∈ entries_of ix -> U b -> b ∈ live_blobs (ps_back s).
Proof.
  intros P Hb HUb. unfold entries_of in Hb. apply elem_of_list_In, in_concat in Hb as (m & Hm & Hb).
  apply in_map_iff in Hm as ([p m'] & <- & Hp). apply elem_of_list_In in Hp, Hb. simpl in Hb.
  destruct (pb_packs _ P p m' Hp) as (b' & Eb & <-). apply elem_of_list_fmap in Hb as (b0 & E0 & Hb0).
  assert (b = b0) as ->.
  { apply (un_inj _ _ HU); [done| |].
    - destruct (run_packs_from p b' Eb) as [_ HF]. by eapply Forall_forall in HF.
    - by apply (f_equal e_id) in E0. }
  eapply live_pack_blobs; [by eapply published_live|exact Eb|done].
Qed.

(** After success, and whenever an index was published without error, everything
    sent is offered. *)
Lemma run_offers cur : current cur ->
  (k_indexes (ps_back s) = k_indexes k /\ bs = [] /\ ix_packs start = [] \/
   publishes cur /\ (errors = NoError \/ ps_main s = MDone true)) ->
  (forall p m, (p, m) ∈ ix_packs start -> (p, m) ∈ live_packs (ps_back s)) /\
  (forall b, b ∈ bs -> b ∈ live_blobs (ps_back s)).
Proof.
  intros Hcur [(_ & -> & ->)|[P Hok]].
  - split; [intros p m Hx|intros b Hx]; by apply elem_of_nil in Hx.
  - split.
    + intros p m Hp. by eapply published_live, pb_start.
    + intros b Hb. eapply published_blobs; [exact P| |by eapply Forall_forall in HbsU].
      rewrite (pb_all _ P Hok). apply elem_of_app. right. by apply elem_of_list_fmap_1.
Qed.

(** *** Without superseding *)

Lemma run_live : ix_supersedes start = [] -> forall p m,
  (p, m) ∈ live_packs k -> (p, m) ∈ live_packs (ps_back s).
Proof.
  intros Hno p m (i & ix & Hi & Hn & Hp)%elem_of_live_packs.
  destruct run_published as (_ & cur & Hcur & _ & Hix). apply elem_of_live_packs. exists i, ix.
  destruct Hix as [[E _]|P].
  - split; [by rewrite E|]. split; [|done]. intros (j & jx & Hj & Hx)%elem_of_superseded. rewrite E in Hj.
    apply Hn. apply elem_of_superseded. eauto.
  - split; [|split; [|done]].
    + rewrite (pb_indexes _ P). destruct (decide (index_id H cur = i)) as [<-|Hne]; [|by rewrite lookup_insert_ne].
      rewrite lookup_insert. f_equal. symmetry. by apply (pb_same _ P).
    + intros [Hx|Hx]%(published_superseded cur); [done| |done]. rewrite (pb_sup _ P), Hno in Hx. by apply elem_of_nil in Hx.
Qed.

Lemma run_live_inv cur p m : (k_indexes (ps_back s) = k_indexes k \/ publishes cur) -> ix_supersedes start = [] ->
  (p, m) ∈ live_packs (ps_back s) -> (p, m) ∈ live_packs k ++ ix_packs cur.
Proof.
  intros Hix Hno (i & ix & Hi & Hn & Hp)%elem_of_live_packs. apply elem_of_app.
  assert (forall x, x ∈ superseded k -> x ∈ superseded (ps_back s)) as Hss.
  { intros x (j & jx & Hj & Hx)%elem_of_superseded. destruct Hix as [E|P].
    - apply elem_of_superseded. exists j, jx. by rewrite E.
    - apply elem_of_superseded. exists j. destruct (decide (index_id H cur = j)) as [<-|Hne].
      + rewrite (pb_same _ P jx Hj) in Hx. exists cur. rewrite (pb_indexes _ P), lookup_insert. done.
      + exists jx. rewrite (pb_indexes _ P), lookup_insert_ne by done. done. }
  destruct Hix as [E|P].
  - left. apply elem_of_live_packs. exists i, ix. rewrite <-E. split; [done|]. split; [|done]. by intros ?%Hss.
  - rewrite (pb_indexes _ P) in Hi. apply lookup_insert_Some in Hi as [[_ <-]|[_ Hi]]; [by right|].
    left. apply elem_of_live_packs. exists i, ix. split; [done|]. split; [|done]. by intros ?%Hss.
Qed.

Lemma run_store : ix_supersedes start = [] -> repo_store k ⊆ repo_store (ps_back s).
Proof.
  intros Hno. apply (store_subset H U HU); [apply Hk|apply run_packs_from|].
  intros b (p & m & b' & Hp & E & Hb)%elem_of_live_blobs. apply elem_of_live_blobs. exists p, m, b'.
  split; [by apply run_live|]. split; [|done]. eapply lookup_weaken; [exact E|apply run_packs_kept].
Qed.

Lemma current_nodup cur : current cur -> NoDup (flat_ids (ix_packs start)) -> NoDup (map b_id bs) ->
  (forall b, b ∈ bs -> b_id b ∉ flat_ids (ix_packs start)) -> NoDup (flat_ids (ix_packs cur)).
Proof.
  intros Hcur H1 H2 H3. rewrite flat_ids_entries.
  destruct (submseteq_Permutation _ _ (cu_entries _ Hcur)) as (rest & Hp).
  assert (NoDup (map e_id (entries_of start ++ manifest_of bs))) as Hnd.
  { rewrite map_app. apply NoDup_app. split_and!.
    - by rewrite <-flat_ids_entries.
    - intros x Hx Hb. rewrite <-flat_ids_entries in Hx. unfold manifest_of in Hb.
      apply elem_of_list_fmap in Hb as (e & -> & He). apply elem_of_list_fmap in He as (b & -> & Hb). by apply (H3 b).
    - unfold manifest_of. rewrite map_map. exact H2. }
  apply (Permutation_map e_id) in Hp. rewrite Hp, map_app in Hnd. by apply NoDup_app in Hnd as [? _].
Qed.

Lemma current_once cur : current cur -> once (live_packs k ++ ix_packs start) -> NoDup (map b_id bs) ->
  (forall b, b ∈ bs -> b_id b ∉ flat_ids (live_packs k) /\ b_id b ∉ flat_ids (ix_packs start)) ->
  once (live_packs k ++ ix_packs cur).
Proof.
  intros Hcur Ho Hnd Hnew.
  assert (NoDup (flat_ids (ix_packs start))) as Hst.
  { apply once_nodup; [apply om_sorted_nodup, Hready|]. eapply once_sub; [|exact Ho]. intros. apply elem_of_app. by right. }
  assert (once (ix_packs cur)) as Hc.
  { apply nodup_once. apply current_nodup; try done. intros b Hb. by apply Hnew. }
  assert (forall p m p' m' n n' e e', (p, m) ∈ live_packs k -> (p', m') ∈ ix_packs cur ->
    m !! n = Some e -> m' !! n' = Some e' -> e_id e = e_id e' -> p = p' /\ n = n') as Hx.
  { intros p m p' m' n n' e e' Hp Hp' He He' E.
    assert (e' ∈ entries_of cur) as Hin.
    { unfold entries_of. apply elem_of_list_In, in_concat. exists m'. split; [|by apply elem_of_list_In; eapply elem_of_list_lookup_2].
      apply in_map_iff. exists (p', m'). split; [done|]. by apply elem_of_list_In. }
    assert (e' ∈ entries_of start ++ manifest_of bs) as Hin' by (eapply elem_of_submseteq; [exact Hin|apply Hcur]).
    apply elem_of_app in Hin' as [Hs'|Hb].
    - unfold entries_of in Hs'. apply elem_of_list_In, in_concat in Hs' as (m0 & Hm0 & He0).
      apply in_map_iff in Hm0 as ([p0 m0'] & <- & Hp0). apply elem_of_list_In in Hp0, He0. simpl in He0.
      apply elem_of_list_lookup in He0 as [n0 He0].
      destruct (Hc p0 m0' p' m' n0 n' e' e') as [-> ->]; try done; [by apply (cu_start _ Hcur)|].
      apply (Ho p m p' m0' n n' e e'); try done; apply elem_of_app; auto.
    - exfalso. apply elem_of_list_fmap in Hb as (b & -> & Hb). destruct (Hnew b Hb) as [Hn _]. apply Hn.
      apply elem_of_flat_ids. exists p, m, e. split; [done|]. split; [by eapply elem_of_list_lookup_2|done]. }
  intros p m p' m' n n' e e' Hp Hp' He He' E.
  apply elem_of_app in Hp as [Hp|Hp], Hp' as [Hp'|Hp'].
  - apply (Ho p m p' m' n n' e e'); try done; apply elem_of_app; auto.
  - by eapply (Hx p m p' m').
  - destruct (Hx p' m' p m n' n e' e) as [-> ->]; done.
  - by eapply (Hc p m p' m').
Qed.

(** *** Superseding everything *)

Lemma superseding_live k' ix :
  publishes ix -> (forall i, is_Some (k_indexes k !! i) -> i ∈ ix_supersedes start) ->
  k_indexes k' !! index_id H ix = Some ix ->
  (forall i jx, k_indexes k' !! i = Some jx -> i = index_id H ix \/ k_indexes k !! i = Some jx) ->
  forall p m, (p, m) ∈ live_packs k' <-> (p, m) ∈ ix_packs ix.
Proof.
  intros P Hall Hid Hsub p m. rewrite elem_of_live_packs. split.
  - intros (i & jx & Hi & Hn & Hp). destruct (Hsub i jx Hi) as [->|Hi']; [by simplify_eq|].
    exfalso. apply Hn. apply elem_of_superseded. exists (index_id H ix), ix. split; [done|].
    rewrite (pb_sup _ P). apply Hall. eauto.
  - intros Hp. exists (index_id H ix), ix. split; [done|]. split; [|done].
    intros (i & jx & Hi & Hx)%elem_of_superseded. destruct (Hsub i jx Hi) as [->|Hi'].
    + simplify_eq. by apply (pb_self _ P).
    + apply (pb_new _ P). apply elem_of_superseded. eauto.
Qed.
End run.
