(** Runs at the same time: each sees the repository grow as if it were alone. *)

From Verif Require Import Base OMap Formats Hashing Pack Index IndexFacts PropsIndex Meta Forest ForestFacts FsTree FsSpec FsFacts BackupFacts
  Pipeline PipelineFacts PropsPipeline Repo RepoSpec RepoFacts RewriteFacts PublishFacts CommandFacts History PruneFacts ReadFacts Concurrent.

(** ** What a step writes does not depend on what is there *)

Inductive write := WPack (p : oid) (bs : list blob) | WIndex (ix : index).
Definition written (H : bytes -> oid) (wr : option write) (k : backend) : backend :=
  match wr with
  | None => k
  | Some (WPack p bs) => mkBackend (<[p := bs]> (k_packs k)) (k_indexes k) (k_snaps k)
  | Some (WIndex ix) => publish H ix k
  end.

Lemma pstep_frame H target live cpus errors s s' : pstep H target live cpus errors s s' ->
  exists wr, ps_back s' = written H wr (ps_back s) /\
    (forall ix, wr = Some (WIndex ix) -> ps_uploader s = UBusy (JIndex ix)) /\
    forall k, pstep H target live cpus errors (set_back k s) (set_back (written H wr k) s').
Proof.
  intros Hst. destruct Hst as
    [s Hsp Hrun|s id ups bs Em Ef Hsp Eu|s b bs sz pk closed Em Hsp Ep Eo Epk|s Em|s ups bs Em Hm|s ty ok Em Hsp Ep Eo
    |s ty id out Eo Hsp Eu|s ty id m out st st' Eo Ei Er|s ty Ep Eo|s st Ei Ec Et|s ix Ei Hsp Eu|s j Eu El|s j Eu|s j Eu El
    |s ok Eu Hsp Em Ec Et Ei|s ok Em Ec Et Ei Eu].
  all: lazymatch goal with |- context [UWritten] => idtac | _ => exists None; split; [|split; [done|intros k; cbn [written]]] end.
  - cbn. destruct (ps_indexer s); try done. by case_bool_decide.
  - assert (E := St_spawn H target live cpus errors (set_back k s) Hsp Hrun). revert E. cbn.
    destruct (ps_indexer s); try done. by case_bool_decide.
  - done.
  - exact (St_main_upload H target live cpus errors (set_back k s) id ups bs Em Ef Hsp Eu).
  - by destruct closed.
  - assert (E := St_main_blob H target live cpus errors (set_back k s) b bs sz pk closed Em Hsp Ep Eo Epk). by destruct closed.
  - done.
  - exact (St_main_drop H target live cpus errors (set_back k s) Em).
  - done.
  - exact (St_main_fail H target live cpus errors (set_back k s) ups bs Em Hm).
  - by destruct (packer_finish _).
  - assert (E := St_finish H target live cpus errors (set_back k s) ty ok Em Hsp Ep Eo). revert E. cbn. by destruct (packer_finish _).
  - done.
  - exact (St_pack_upload H target live cpus errors (set_back k s) ty id out Eo Hsp Eu).
  - done.
  - exact (St_pack_index H target live cpus errors (set_back k s) ty id m out st st' Eo Ei Er).
  - done.
  - exact (St_pack_exit H target live cpus errors (set_back k s) ty Ep Eo).
  - done.
  - exact (St_index_end H target live cpus errors (set_back k s) st Ei Ec Et).
  - done.
  - exact (St_index_upload H target live cpus errors (set_back k s) ix Ei Hsp Eu).
  - destruct j as [id|ix].
    + destruct (ps_files s !! id) as [bs|] eqn:Ef.
      * exists (Some (WPack id bs)). split; [cbn; by rewrite Ef|]. split; [done|]. intros k.
        assert (E := St_up_write H target live cpus errors (set_back k s) (JPack id) Eu El). revert E. cbn. by rewrite Ef.
      * exists None. split; [cbn; by rewrite Ef|]. split; [done|]. intros k.
        assert (E := St_up_write H target live cpus errors (set_back k s) (JPack id) Eu El). revert E. cbn. by rewrite Ef.
    + exists (Some (WIndex ix)). split; [done|]. split; [by intros ix' [= <-]|]. intros k.
      exact (St_up_write H target live cpus errors (set_back k s) (JIndex ix) Eu El).
  - by destruct j.
  - assert (E := St_up_clear H target live cpus errors (set_back k s) j Eu). by destruct j.
  - by destruct j.
  - assert (E := St_up_dry H target live cpus errors (set_back k s) j Eu El). by destruct j.
  - done.
  - exact (St_up_exit H target live cpus errors (set_back k s) ok Eu Hsp Em Ec Et Ei).
  - done.
  - exact (St_join H target live cpus errors (set_back k s) ok Em Ec Et Ei Eu).
Qed.

Section facts.
Variables (H : bytes -> oid) (U : blob -> Prop).
Hypothesis HU : universe H U.
Hypothesis Hlen : forall x, length (H x) = 28.
Local Set Default Proof Using "All".

(** ** One run by itself *)

Lemma stores_spec c x : stores c x <-> x ∈ flat_ids (ix_packs (c_start c)) \/ x ∈ map b_id (c_blobs c).
Proof using Type.
  unfold stores. rewrite elem_of_flat_ids. f_equiv. change (map b_id (c_blobs c)) with (b_id <$> c_blobs c). rewrite elem_of_list_fmap. naive_solver.
Qed.

Lemma adds_at k w c planned sns target cpus errors s :
  errors <> ErrorAny -> sound H U k -> own_leftovers H U k w -> adds H k w c planned sns -> Forall U planned -> no_clash H k w c ->
  during H target true cpus errors k w (c_start c) (c_ups c) (c_blobs c) s ->
  structured H U (ps_back s) /\ once (live_packs (ps_back s)) /\
  (forall x, x ∈ superseded (ps_back s) -> x ∈ superseded k) /\
  (forall p m, (p, m) ∈ live_packs k -> (p, m) ∈ live_packs (ps_back s)) /\
  (forall ix, ps_uploader s = UBusy (JIndex ix) -> ix_supersedes ix = [] /\ om_sorted (ix_packs ix) /\ index_id H ix ∉ superseded k /\
     (forall p m e, (p, m) ∈ ix_packs ix -> e ∈ m -> stores c (e_id e)) /\
     (forall p m, (p, m) ∈ ix_packs ix -> exists bs, k_packs (ps_back s) !! p = Some bs /\ manifest_of bs = m) /\
     (forall jx, k_indexes (ps_back s) !! index_id H ix = Some jx -> jx = ix)) /\
  (ps_main s = MDone true -> forall b, b ∈ planned -> b ∈ live_blobs (ps_back s)) /\
  repo_store k ⊆ repo_store (ps_back s).
Proof.
  intros He Hk Hw (start & ups & packed & -> & R1 & R2 & R3 & R4 & R5 & R6 & R7) HpU Hcl Hs. cbn [c_start c_ups c_blobs] in Hs.
  assert (structured H U (ps_back s)) as S1 by (eapply (adding_structured H U HU Hlen k w start ups packed planned); eauto).
  assert (once (live_packs (ps_back s))) as S2 by (eapply (adding_once H U HU Hlen k w start ups packed planned); eauto).
  assert (run_ready H k w start ups (bs_sent (foldl send_new (mkBstate packed []) planned))) as Hr
    by (eapply (adding_ready H U HU Hlen k w start ups packed planned); eauto).
  assert (Forall U (bs_sent (foldl send_new (mkBstate packed []) planned))) as HbU.
  { eapply (sent_U H U HU Hlen k w start ups packed planned); eauto. }
  assert (os_sorted (ix_supersedes start)) as Hos by by rewrite R1.
  pose proof (run_published H U HU k w start ups _ target cpus errors He (sound_structured _ _ _ Hk) Hr HbU (proj1 Hw) Hos (proj1 (proj2 Hcl)) s Hs)
    as (_ & cur & Hcur & _ & Hix).
  assert (forall i ix, k_indexes (ps_back s) !! i = Some ix -> k_indexes k !! i = Some ix \/ ix = cur) as Hin.
  { intros i ix Hi. destruct Hix as [[E _]|P]; [left; by rewrite <-E|]. rewrite (pb_indexes _ _ _ _ _ _ _ P) in Hi.
    apply lookup_insert_Some in Hi as [[_ <-]|[_ Hi]]; auto. }
  split_and!; try done.
  - intros x (i & ix & Hi & Hx)%elem_of_superseded. apply elem_of_superseded. destruct (Hin i ix Hi) as [Hi'| ->]; [by exists i, ix|].
    rewrite (cu_sup _ _ _ Hcur), R1 in Hx. by apply elem_of_nil in Hx.
  - intros p m Hp. by eapply (run_live H U HU k w start ups _ target cpus errors He (sound_structured _ _ _ Hk) Hr HbU (proj1 Hw) Hos (proj1 (proj2 Hcl)) s Hs).
  - intros ix Eu. destruct (run_inv _ _ _ _ _ _ _ _ _ _ He Hr Hs) as (cur' & I). pose proof (inv_upload _ _ _ _ _ _ _ _ I) as Hu.
    rewrite Eu in Hu. destruct Hu as (-> & _ & Hne & Hb).
    assert (entries_of cur' ⊆+ entries_of start ++ manifest_of (bs_sent (foldl send_new (mkBstate packed []) planned))) as Hsub.
    { destruct (inv_conserve _ _ _ _ _ _ _ _ I) as (lost & Hp & _). rewrite <-Hp. by apply submseteq_inserts_r. }
    split; [by rewrite (inv_sup _ _ _ _ _ _ _ _ I)|]. split; [apply I|].
    destruct (proj1 (proj2 Hcl) cur') as (F1 & F2 & F3); try done; try apply I.
    { cbn [c_start]. intros p m Hp.
      destruct (inv_new _ _ _ _ _ _ _ _ I p m Hp) as [Hp'|[? _]]; [|done].
      destruct (rr_start _ _ _ _ _ _ Hr p m Hp') as [(b & E1 & <-)|[(b & E1 & <-) _]].
      - by apply (rr_named _ _ _ _ _ _ Hr).
      - by apply (rr_named_here _ _ _ _ _ _ Hr). }
    split; [done|]. split; [|split; [by intros p m Hp; apply Hb|]]; cycle 1.
    { intros jx Hj. destruct (inv_indexes _ _ _ _ _ _ _ _ I) as [E|[E _]].
      - rewrite E in Hj. by apply F3.
      - unfold indexes_published in E. rewrite E, lookup_insert in Hj. congruence. }
    intros p m e Hp He'. apply stores_spec. cbn [c_start c_blobs].
    assert (e_id e ∈ map e_id (entries_of start ++ manifest_of (bs_sent (foldl send_new (mkBstate packed []) planned)))) as Hx.
    { assert (e ∈ entries_of start ++ manifest_of (bs_sent (foldl send_new (mkBstate packed []) planned))) as Hx; [|by apply elem_of_list_fmap_1].
      apply (elem_of_submseteq (entries_of cur')); [|done]. apply elem_of_list_In, in_concat. exists m. split; [|by apply elem_of_list_In].
      apply in_map_iff. exists (p, m). split; [done|]. by apply elem_of_list_In. }
    rewrite map_app in Hx. apply elem_of_app in Hx as [Hx|Hx]; [left; by rewrite flat_ids_entries|right].
    unfold manifest_of in Hx. by rewrite map_map in Hx.
  - intros Hm. eapply (adding_offers H U HU Hlen k w start ups packed planned); eauto.
  - eapply (adding_store H U HU Hlen k w start ups packed planned); eauto.
Qed.

(** ** What holds of a repository that several runs work on *)

(** In order, but for blobs that may be there twice. *)
Record whole (k : backend) : Prop := {
  wh_struct : structured H U k;
  wh_named : forall i sn, k_snaps k !! i = Some sn -> i = snapshot_id H sn;
  wh_snaps : forall i sn, k_snaps k !! i = Some sn -> snapshot_complete H k sn }.

Lemma whole_in_order k : whole k -> once (live_packs k) -> in_order H U k.
Proof. intros [[S1 S2 S3] Hn Hs] Ho. by constructor. Qed.
Lemma in_order_whole k : in_order H U k -> whole k.
Proof. intros Hk. constructor; [by apply in_order_structured|apply Hk|apply Hk]. Qed.

Lemma loads_once k ix : whole k -> master k = Ok ix -> NoDup (blob_ids ix) -> once (live_packs k).
Proof.
  intros Hk Eix Hnd. destruct (master_ok H U HU k (wh_struct _ Hk)) as (ix' & E & Hs & Hp). rewrite Eix in E. injection E as <-.
  rewrite <-flat_blob_ids in Hnd. eapply once_sub; [|by apply PublishFacts.nodup_once]. intros p m. by apply Hp.
Qed.
Lemma map_nodup ix bmap : blob_to_pack_map ix = Ok bmap -> NoDup (blob_ids ix).
Proof. intros E. destruct (decide (NoDup (blob_ids ix))) as [Hn|Hn]; [done|]. destruct (proj2 (C11_lookup_maps ix) Hn) as (E' & _). congruence. Qed.
Lemma set_nodup ix x : blob_id_set ix = Ok x -> NoDup (blob_ids ix).
Proof. intros E. destruct (decide (NoDup (blob_ids ix))) as [Hn|Hn]; [done|]. destruct (proj2 (C11_lookup_maps ix) Hn) as (_ & E' & _). congruence. Qed.

(** What a run that only adds can start from is in order. *)
Lemma adds_to_adding k w c : whole k -> adds_to H U k w c ->
  in_order H U k /\ own_leftovers H U k w /\ no_clash H k w c /\ exists planned sns, adds H k w c planned sns /\ Forall U planned.
Proof.
  intros Hk Ha. destruct Ha as
    [cuts deref ae filter author tz tags now paths parent pf k w c Hc Hp HpU Hw Hcl
    |filter src chosen fuel forests k w c Hsrc Hch Hc HpU Hw Hcl
    |filter sn i meta fuel fo k w c Hwip Hi Hc HpU Hw Hcl].
  - assert (in_order H U k) as Hio.
    { apply whole_in_order; [done|]. destruct Hc as (ix & bmap & snaps & start & ups & packed & s & root & _ & Eix & Ebm & _).
      eapply loads_once; [done|exact Eix|by eapply map_nodup]. }
    destruct (backup_adding H U HU Hlen cuts deref ae filter author tz tags now paths parent pf k w c Hio Hw Hc Hp HpU Hcl) as (_ & _ & sns & Hadd & _).
    eauto 10.
  - assert (in_order H U k) as Hio.
    { apply whole_in_order; [done|]. destruct Hc as (sx & sbmap & ix & start & ups & packed & s & sns & _ & _ & _ & Eix & Er & _).
      unfold resume in Er. destruct (blob_id_set ix) as [x| |] eqn:Ex; [|done..].
      eapply loads_once; [done|exact Eix|by eapply set_nodup]. }
    destruct (copy_adding H U HU Hlen filter src chosen fuel forests k w c Hsrc Hch Hio Hw Hc HpU) as (_ & sns & Hadd & _). eauto 10.
  - assert (in_order H U k) as Hio.
    { apply whole_in_order; [done|]. destruct Hc as (ix & bmap & packed & s & root & Eix & Ebm & _).
      eapply loads_once; [done|exact Eix|by eapply map_nodup]. }
    destruct (filter_adding H U HU Hlen filter sn i meta fuel fo k w c Hio Hw Hwip Hi Hc HpU) as (root & sns & Hadd & _). eauto 10.
Qed.

(** What a run has stored by itself is offered by the repository. *)
Definition offers (k' k : backend) : Prop :=
  k_packs k' ⊆ k_packs k /\ forall p m, (p, m) ∈ live_packs k' -> (p, m) ∈ live_packs k.

Lemma offers_refl k : offers k k.
Proof using Type. done. Qed.
Lemma offers_trans k k' k'' : offers k k' -> offers k' k'' -> offers k k''.
Proof using Type. intros [A B] [C D]. split; [by etrans|auto]. Qed.
Lemma offers_blobs k k' b : offers k k' -> b ∈ live_blobs k -> b ∈ live_blobs k'.
Proof using Type.
  intros [A B] (p & m & b' & Hp & E & Hb)%elem_of_live_blobs. apply elem_of_live_blobs. exists p, m, b'. split; [by apply B|].
  split; [|done]. by eapply lookup_weaken.
Qed.
Lemma offers_store k k' : structured H U k -> structured H U k' -> offers k k' -> repo_store k ⊆ repo_store k'.
Proof.
  intros S S' Ho. apply (store_subset H U HU); [apply S|apply S'|]. intros b. by apply offers_blobs.
Qed.
Lemma offers_complete k k' sn : structured H U k -> structured H U k' -> offers k k' -> snapshot_complete H k sn -> snapshot_complete H k' sn.
Proof. intros S S' Ho [es Hes]. exists es. eapply reads_root_mono; [|exact Hes]. by apply offers_store. Qed.

(** A run, with the backend as it found it and the state it would be in, were it
    alone. *)
Record tracked (k : backend) (cl : client) (kb : backend) (w : workdir) (planned : list blob) (sns : list snapshot) (s : pstate) : Prop := {
  tr_order : in_order H U kb;
  tr_left : own_leftovers H U kb w;
  tr_adds : adds H kb w (cl_command cl) planned sns;
  tr_U : Forall U planned;
  tr_clash : no_clash H kb w (cl_command cl);
  tr_during : during H (cl_target cl) true (cl_cpus cl) ErrorLater kb w (c_start (cl_command cl)) (c_ups (cl_command cl)) (c_blobs (cl_command cl)) s;
  tr_threads : forall x, set_back x (cl_threads cl) = set_back x s;
  tr_pending : forall o, o ∈ cl_pending cl -> o ∈ c_after (cl_command cl);
  tr_offers : offers (ps_back s) k }.
Definition known (k : backend) (cl : client) : Prop := exists kb w planned sns s, tracked k cl kb w planned sns s.

Definition tracked_at {k cl kb w planned sns s} (T : tracked k cl kb w planned sns s) :=
  adds_at kb w (cl_command cl) planned sns (cl_target cl) (cl_cpus cl) ErrorLater s ltac:(done) (in_order_sound _ _ _ (tr_order _ _ _ _ _ _ _ T))
    (tr_left _ _ _ _ _ _ _ T) (tr_adds _ _ _ _ _ _ _ T) (tr_U _ _ _ _ _ _ _ T) (tr_clash _ _ _ _ _ _ _ T) (tr_during _ _ _ _ _ _ _ T).

Lemma tracked_offers k k' cl kb w planned sns s : offers k k' -> tracked k cl kb w planned sns s -> tracked k' cl kb w planned sns s.
Proof. intros Ho []. constructor; try done. by eapply offers_trans. Qed.
Lemma known_offers k k' cl : offers k k' -> known k cl -> known k' cl.
Proof. intros Ho (kb & w & planned & sns & s & T). exists kb, w, planned, sns, s. by eapply tracked_offers. Qed.

(** A rebuild. *)
Definition rebuild_ok (k : backend) (r : option rebuild) : Prop :=
  match r with
  | None => True
  | Some (RListed old) => os_sorted old /\ forall x, x ∈ old -> is_Some (k_indexes k !! x)
  | Some (RRead ix) => os_sorted (ix_supersedes ix) /\ om_sorted (ix_packs ix) /\
      (forall p m, (p, m) ∈ ix_packs ix -> exists bs, k_packs k !! p = Some bs /\ manifest_of bs = m) /\
      (forall x, x ∈ ix_supersedes ix -> exists jx, k_indexes k !! x = Some jx /\ forall p m, (p, m) ∈ ix_packs jx -> (p, m) ∈ ix_packs ix)
  | Some (RRemoving ix ids) => k_indexes k !! index_id H ix = Some ix /\ index_id H ix ∉ superseded k /\ forall x, x ∈ ids -> x ∈ ix_supersedes ix
  end.

Record going_well (y : system) : Prop := {
  gw_whole : whole (sy_back y);
  gw_runs : Forall (known (sy_back y)) (sy_runs y);
  gw_rebuild : rebuild_ok (sy_back y) (sy_rebuild y) }.

(** ** Publishing *)

Lemma publish_lookup ix k i jx : k_indexes (publish H ix k) !! i = Some jx <->
  i = index_id H ix /\ jx = ix \/ i <> index_id H ix /\ k_indexes k !! i = Some jx.
Proof using Type. simpl. rewrite lookup_insert_Some. naive_solver. Qed.

Section publishing.
Variables (ix : index) (k : backend).
Hypothesis Hsame : forall jx, k_indexes k !! index_id H ix = Some jx -> jx = ix.

Lemma publish_old i jx : k_indexes k !! i = Some jx -> k_indexes (publish H ix k) !! i = Some jx.
Proof using Hsame.
  intros Hi. apply publish_lookup. destruct (decide (i = index_id H ix)) as [->|Hne]; [left|by right]. split; [done|]. by apply Hsame.
Qed.
Lemma publish_superseded x : x ∈ superseded (publish H ix k) <-> x ∈ superseded k \/ x ∈ ix_supersedes ix.
Proof using Hsame.
  rewrite !elem_of_superseded. split.
  - intros (i & jx & [[_ ->]|[_ Hi]]%publish_lookup & Hx); [by right|left; eauto].
  - intros [(i & jx & Hi & Hx)|Hx]; [exists i, jx; split; [by apply publish_old|done]|].
    exists (index_id H ix), ix. split; [apply publish_lookup; by left|done].
Qed.
Hypothesis Hfresh : index_id H ix ∉ superseded (publish H ix k).
Lemma publish_new p m : (p, m) ∈ ix_packs ix -> (p, m) ∈ live_packs (publish H ix k).
Proof using Hsame Hfresh.
  intros Hp. apply elem_of_live_packs. exists (index_id H ix), ix. split; [apply publish_lookup; by left|done].
Qed.
Lemma publish_live p m : (forall x jx, x ∈ ix_supersedes ix -> k_indexes k !! x = Some jx -> forall p m, (p, m) ∈ ix_packs jx -> (p, m) ∈ ix_packs ix) ->
  (p, m) ∈ live_packs k -> (p, m) ∈ live_packs (publish H ix k).
Proof using Hsame Hfresh.
  intros Hc (i & jx & Hi & Hn & Hp)%elem_of_live_packs. destruct (decide (i ∈ ix_supersedes ix)) as [Hx|Hx].
  { apply publish_new. by eapply Hc. }
  apply elem_of_live_packs. exists i, jx. split; [by apply publish_old|]. split; [|done]. by intros [?|?]%publish_superseded.
Qed.
Lemma publish_live_inv p m : (p, m) ∈ live_packs (publish H ix k) -> (p, m) ∈ ix_packs ix \/ (p, m) ∈ live_packs k.
Proof using Hsame.
  intros (i & jx & [[_ ->]|[_ Hi]]%publish_lookup & Hn & Hp)%elem_of_live_packs; [by left|right].
  apply elem_of_live_packs. exists i, jx. split; [done|]. split; [|done]. intros Hx. apply Hn, publish_superseded. by left.
Qed.
Lemma publish_structured : structured H U k -> os_sorted (ix_supersedes ix) -> om_sorted (ix_packs ix) ->
  (forall p m, (p, m) ∈ ix_packs ix -> exists bs, k_packs k !! p = Some bs /\ manifest_of bs = m) -> structured H U (publish H ix k).
Proof using Type.
  intros [S1 S2 S3] Ho1 Ho2 Hb. constructor; [done| |].
  - intros i jx [[_ ->]|[_ Hi]]%publish_lookup; [done|by eapply S2].
  - intros i jx p m [[_ ->]|[_ Hi]]%publish_lookup Hp; [by apply Hb|by eapply S3].
Qed.
End publishing.

Lemma whole_step k k' : whole k -> structured H U k' -> offers k k' ->
  (forall i sn, k_snaps k' !! i = Some sn -> k_snaps k !! i = Some sn \/ i = snapshot_id H sn /\ snapshot_complete H k' sn) -> whole k'.
Proof.
  intros Hk Hs Ho Hsn. constructor; [done| |].
  - intros i sn [Hi|[-> _]]%Hsn; [by apply (wh_named _ Hk)|done].
  - intros i sn [Hi|[_ Hc]]%Hsn; [|done]. eapply offers_complete; [apply Hk|done|done|]. by eapply wh_snaps.
Qed.

Lemma set_back_back s : set_back (ps_back s) s = s.
Proof using Type. by destruct s. Qed.

(** A step of a thread: of the repository and of the run. *)
Lemma thread_step k cl kb w planned sns s s' :
  whole k -> tracked k cl kb w planned sns s ->
  pstep H (cl_target cl) true (cl_cpus cl) ErrorLater (set_back k (cl_threads cl)) s' -> no_overwrite k (ps_back s') ->
  (forall ix, ps_uploader (cl_threads cl) = UBusy (JIndex ix) -> index_id H ix ∉ superseded k) ->
  exists wr, ps_back s' = written H wr k /\ (forall ix, wr = Some (WIndex ix) -> ps_uploader s = UBusy (JIndex ix)) /\
  structured H U (ps_back s') /\ offers k (ps_back s') /\ k_snaps (ps_back s') = k_snaps k /\
  tracked (ps_back s') (with_threads s' cl) kb w planned sns (set_back (written H wr (ps_back s)) s').
Proof.
  intros Hk T Hst (N1 & N2 & N3) Hfr. pose proof Hst as Hst0. rewrite (tr_threads _ _ _ _ _ _ _ T) in Hst.
  destruct (pstep_frame _ _ _ _ _ _ _ Hst) as (wr & Ewr & Hix & Hall). exists wr. simpl in Ewr, Hix.
  specialize (Hall (ps_back s)). change (set_back (ps_back s) (set_back k s)) with (set_back (ps_back s) s) in Hall. rewrite set_back_back in Hall.
  set (t := set_back (written H wr (ps_back s)) s') in *. split; [done|]. split; [done|].
  assert (during H (cl_target cl) true (cl_cpus cl) ErrorLater kb w (c_start (cl_command cl)) (c_ups (cl_command cl)) (c_blobs (cl_command cl)) t) as Hd.
  { eapply rtc_r; [apply (tr_during _ _ _ _ _ _ _ T)|exact Hall]. }
  assert (structured H U (ps_back t)) as St.
  { eapply adds_at; [| | | | | |exact Hd]; [done|apply in_order_sound, (tr_order _ _ _ _ _ _ _ T)|apply T..]. }
  destruct (tracked_at T) as (A1 & A2 & A3 & A4 & A5 & A6 & A7). pose proof (tr_offers _ _ _ _ _ _ _ T) as [O1 O2].
  assert (ps_uploader (cl_threads cl) = ps_uploader s) as Eup by (exact (f_equal ps_uploader (tr_threads _ _ _ _ _ _ _ T k))).
  assert (structured H U (ps_back s') /\ offers k (ps_back s') /\ k_snaps (ps_back s') = k_snaps k /\ offers (ps_back t) (ps_back s')) as (G1 & G2 & G3 & G4).
  { rewrite Ewr in *. destruct wr as [[p bs|ix]|]; simpl written in *.
    - assert (k_packs k ⊆ <[p:=bs]> (k_packs k)) as Hsub.
      { apply map_subseteq_spec. intros q b Hq. simpl in N1. destruct (decide (q = p)) as [->|Hne]; [|by rewrite lookup_insert_ne].
        rewrite lookup_insert. f_equal. apply (N1 p); [done|apply lookup_insert]. }
      split_and!.
      + destruct (wh_struct _ Hk) as [S1 S2 S3]. constructor; simpl.
        * intros q b [[<- <-]|[_ Hq]]%lookup_insert_Some; [|by apply S1]. apply (st_packs _ _ _ St). simpl. apply lookup_insert.
        * done.
        * intros i ix q m Hi Hq. destruct (S3 i ix q m Hi Hq) as (b & Eb & <-). exists b. split; [|done]. by eapply lookup_weaken.
      + split; [done|]. intros q m Hq. exact Hq.
      + done.
      + split; [|exact O2]. simpl. by apply insert_mono.
    - specialize (Hix ix eq_refl). destruct (A5 ix Hix) as (B1 & B2 & B3 & B4 & B5 & B6). specialize (Hfr ix). rewrite Eup in Hfr. specialize (Hfr Hix).
      assert (forall jx, k_indexes k !! index_id H ix = Some jx -> jx = ix) as Hsame.
      { intros jx Hj. symmetry. apply (N2 (index_id H ix)); [done|]. apply publish_lookup. by left. }
      assert (index_id H ix ∉ superseded (publish H ix k)) as Hnew.
      { rewrite publish_superseded by done. intros [?|Hx]; [done|]. rewrite B1 in Hx. by apply elem_of_nil in Hx. }
      split_and!.
      + apply publish_structured; [apply Hk|by rewrite B1|done|]. intros p m Hp. destruct (B5 p m Hp) as (b & Eb & <-). exists b. split; [|done]. by eapply lookup_weaken.
      + split; [done|]. intros p m. apply publish_live; [done|done|]. rewrite B1. by intros x jx ?%elem_of_nil.
      + done.
      + split; [done|]. intros p m [Hp|Hp]%publish_live_inv; [by apply publish_new| |done].
        apply publish_live; [done|done| |by apply O2]. rewrite B1. by intros x jx ?%elem_of_nil.
    - split; [apply Hk|]. split; [done|]. split; [done|]. by split. }
  split_and!; try done. destruct T. constructor; try done.
Qed.

Lemma rebuilt_over_spec old k packs ix : Permutation packs (map fst (map_to_list (k_packs k))) -> rebuilt_over old k packs = Ok ix ->
  ix_supersedes ix = old /\ om_sorted (ix_packs ix) /\
  (forall p m, (p, m) ∈ ix_packs ix <-> exists bs, k_packs k !! p = Some bs /\ manifest_of bs = m).
Proof using Type.
  intros Hp E. unfold rebuilt_over in E.
  destruct (indexer_recv_all _ _) as [st| |] eqn:Er; simpl in E; try done. injection E as <-.
  apply recv_all_no in Er as (A & B & C).
  - rewrite B. unfold indexer_start. rewrite andb_false_r. simpl. split; [done|]. split; [done|].
    intros p m. rewrite C. unfold indexer_start. rewrite andb_false_r. simpl. rewrite elem_of_nil, elem_of_list_fmap. split.
    + intros [[]|(q & E & Hq)]. rewrite Hp in Hq. apply elem_of_list_fmap in Hq as ([q' bs] & -> & Hq). apply elem_of_map_to_list in Hq.
      simpl in E. rewrite Hq in E. simpl in E. injection E as -> ->. eauto.
    + intros (bs & E & <-). right. exists p. rewrite E. split; [done|]. rewrite Hp. apply elem_of_list_fmap. exists (p, bs).
      split; [done|]. by apply elem_of_map_to_list.
  - unfold indexer_start. by rewrite andb_false_r.
  - unfold indexer_start. by rewrite andb_false_r.
Qed.

(** ** Every step keeps everything well *)

Definition same_or_new (y y' : system) : Prop :=
  forall i sn, k_snaps (sy_back y') !! i = Some sn -> k_snaps (sy_back y) !! i = Some sn \/
    exists cl, cl ∈ sy_runs y /\ PutSnap sn ∈ c_after (cl_command cl).

Lemma pending_put k cl kb w planned sns s o : tracked k cl kb w planned sns s -> o ∈ cl_pending cl -> exists sn, o = PutSnap sn /\ sn ∈ sns.
Proof.
  intros T Ho. apply (tr_pending _ _ _ _ _ _ _ T) in Ho. destruct (tr_adds _ _ _ _ _ _ _ T) as (start & ups & packed & E & _).
  rewrite E in Ho. simpl in Ho. apply elem_of_list_fmap in Ho as (sn & -> & ?). by exists sn.
Qed.

Lemma rebuild_ok_offers k k' r : offers k k' -> (forall i ix, k_indexes k !! i = Some ix -> k_indexes k' !! i = Some ix) ->
  (forall x, x ∈ superseded k' -> x ∈ superseded k) -> rebuild_ok k r -> rebuild_ok k' r.
Proof.
  intros [O1 O2] Hi Hs. destruct r as [[old|ix|ix ids]|]; simpl; [| | |done].
  - intros [Ho Hx]. split; [done|]. intros x [jx E]%Hx. exists jx. by apply Hi.
  - intros (R1 & R2 & R3 & R4). split_and!; [done|done| |].
    + intros p m Hp. destruct (R3 p m Hp) as (bs & Eb & <-). exists bs. split; [|done]. by eapply lookup_weaken.
    + intros x Hx. destruct (R4 x Hx) as (jx & E & Hp). exists jx. split; [by apply Hi|done].
  - intros (R1 & R2 & R3). split; [by apply Hi|]. split; [|done]. by intros ?%Hs.
Qed.

Lemma with_threads_known k s' cl kb w planned sns t : tracked k (with_threads s' cl) kb w planned sns t -> known k (with_threads s' cl).
Proof using Type. intros T. by exists kb, w, planned, sns, t. Qed.

Lemma together_well beside rebuilds y y' : going_well y -> together H (adds_to H U) beside rebuilds y y' ->
  going_well y' /\ offers (sy_back y) (sy_back y') /\ same_or_new y y'.
Proof.
  intros [Hk Hr Hb]. intros Hst. destruct Hst as
    [k cs r w c target cpus Hm _
    |k before cl after r s' Hst Hno Hfr
    |k before cl after r o os Em Ep Hno
    |k before cl after r|k cs r i|k cs Hrb|k cs old packs ix Hp E|k cs ix Hne Hno Hfr|k cs ix i ids|k cs r]; simpl in *.
  - split; [|split; [done|intros i sn Hi; by left]]. constructor; simpl; [done| |done]. apply Forall_app. split; [done|]. constructor; [|constructor].
    destruct (adds_to_adding k w c Hk Hm) as (Hio & Hw & Hcl & planned & sns & Ha & HU').
    exists k, w, planned, sns, (pipeline_start target k w (c_start c) (c_ups c) (c_blobs c)). constructor; simpl; try done. apply rtc_refl.
  - apply Forall_app in Hr as [Hr1 Hr2]. apply Forall_cons in Hr2 as [(kb & w & planned & sns & s & T) Hr2].
    destruct (thread_step k cl kb w planned sns s s' Hk T Hst Hno Hfr) as (wr & Ewr & Hup & G1 & G2 & G3 & G4).
    split; [|split; [done|intros i sn; simpl; rewrite G3; by left]]. constructor; simpl.
    + apply (whole_step k); [done|done|done|]. intros i sn. rewrite G3. by left.
    + apply Forall_app. split; [eapply Forall_impl; [exact Hr1|]; intros x; by apply known_offers|]. constructor.
      * by eapply with_threads_known.
      * eapply Forall_impl; [exact Hr2|]; intros x; by apply known_offers.
    + assert (forall ix, wr = Some (WIndex ix) -> ix_supersedes ix = [] /\ forall jx, k_indexes k !! index_id H ix = Some jx -> jx = ix) as Hw.
      { intros ix ->. destruct (tracked_at T) as (_ & _ & _ & _ & A5 & _). destruct (A5 ix (Hup ix eq_refl)) as (B1 & _). split; [done|].
        intros jx Hj. symmetry. destruct Hno as (_ & N2 & _). apply (N2 (index_id H ix)); [done|]. rewrite Ewr. apply publish_lookup. by left. }
      apply (rebuild_ok_offers k); [done| | |done]; rewrite Ewr; destruct wr as [[p bs|ix]|]; simpl written; try done.
      * intros i jx. apply publish_old. by apply (Hw ix).
      * intros x. rewrite publish_superseded by (by apply (Hw ix)). rewrite (proj1 (Hw ix eq_refl)). intros [?|Hx]; [done|by apply elem_of_nil in Hx].
  - apply Forall_app in Hr as [Hr1 Hr2]. apply Forall_cons in Hr2 as [(kb & w & planned & sns & s & T) Hr2].
    destruct (pending_put _ _ _ _ _ _ _ o T) as (sn & -> & Hsn); [rewrite Ep; by left|]. simpl.
    assert (offers k (apply_op H k (PutSnap sn))) as Ho by done. simpl in Ho.
    assert (structured H U (apply_op H k (PutSnap sn))) as Hs. { destruct (wh_struct _ Hk) as [S1 S2 S3]. by constructor. } simpl in Hs.
    split; [|split; [done|]].
    + constructor; simpl.
      * apply (whole_step k); [done|done|done|]. simpl. intros i sn' [[<- <-]|[_ Hi]]%lookup_insert_Some; [right|by left]. split; [done|].
        destruct (tracked_at T) as (A1 & A2 & A3 & A4 & A5 & A6 & A7).
        destruct (tr_adds _ _ _ _ _ _ _ T) as (start & ups & packed & _ & _ & _ & _ & _ & _ & _ & Hc).
        apply (Hc (repo_store k)); [|intros b Hbl|done].
        -- etrans; [exact A7|]. apply offers_store; [done|apply Hk|apply T].
        -- apply (repo_store_lookup H U HU); [apply Hk|]. assert (b ∈ live_blobs k) as Hx; [|by destruct b].
           eapply offers_blobs; [apply T|]. apply A6; [|done]. rewrite <-Em. symmetry. exact (f_equal ps_main (tr_threads _ _ _ _ _ _ _ T k)).
      * apply Forall_app. split; [eapply Forall_impl; [exact Hr1|]; intros x; by apply known_offers|]. constructor.
        -- exists kb, w, planned, sns, s. destruct T. constructor; simpl; try done. intros o Hx. apply tr_pending0. rewrite Ep. by right.
        -- eapply Forall_impl; [exact Hr2|]; intros x; by apply known_offers.
      * by apply (rebuild_ok_offers k).
    + intros i sn'. simpl. intros [[<- <-]|[_ Hi]]%lookup_insert_Some; [right|by left]. exists cl. split; [apply elem_of_app; right; by left|].
      apply (tr_pending _ _ _ _ _ _ _ T). rewrite Ep. by left.
  - split; [|split; [done|intros i sn Hi; by left]]. constructor; simpl; [done| |done]. apply Forall_app in Hr as [Hr1 Hr2]. apply Forall_cons in Hr2 as [_ Hr2].
    by apply Forall_app.
  - assert (offers k (apply_op H k (DelSnap i))) as Ho by done. simpl in Ho.
    assert (structured H U (apply_op H k (DelSnap i))) as Hs. { destruct (wh_struct _ Hk) as [S1 S2 S3]. by constructor. } simpl in Hs.
    split; [|split; [done|intros j sn; simpl; intros [_ Hj]%lookup_delete_Some; by left]]. constructor; simpl.
    + apply (whole_step k); [done|done|done|]. simpl. intros j sn [_ Hj]%lookup_delete_Some. by left.
    + eapply Forall_impl; [exact Hr|]; intros x; by apply known_offers.
    + by apply (rebuild_ok_offers k).
  - split; [|split; [done|intros i sn Hi; by left]]. constructor; simpl; [done|done|]. split; [apply os_of_list_is_sorted|].
    intros x. rewrite elem_of_os_of_list by apply NoDup_fst_map_to_list. intros ([j jx] & -> & Hj)%elem_of_list_fmap. apply elem_of_map_to_list in Hj. by exists jx.
  - split; [|split; [done|intros i sn Hi; by left]]. constructor; simpl; [done|done|]. destruct Hb as [R1 R2].
    destruct (rebuilt_over_spec _ _ _ _ Hp E) as (E1 & E2 & E3). rewrite E1. split; [done|]. split; [done|]. split.
    + intros p m Hm. by apply E3.
    + intros x [jx Hx]%R2. exists jx. split; [done|]. intros p m Hm. apply E3. by eapply (st_backed _ _ _ (wh_struct _ Hk)).
  - destruct Hb as (R1 & R2 & R3 & R4). destruct Hno as (N1 & N2 & N3).
    assert (forall jx, k_indexes k !! index_id H ix = Some jx -> jx = ix) as Hsame.
    { intros jx Hj. symmetry. apply (N2 (index_id H ix)); [done|]. apply publish_lookup. by left. }
    assert (offers k (publish H ix k)) as Ho.
    { split; [done|]. intros p m. apply publish_live; [done|done|]. intros x jx Hx Hj q n Hq. destruct (R4 x Hx) as (jx' & Ej & Hc). simplify_eq. by apply Hc. }
    split; [|split; [done|intros i sn Hi; by left]]. constructor; simpl.
    + apply (whole_step k); [done|by apply publish_structured; [apply Hk|..]|done|]. intros i sn Hi. by left.
    + eapply Forall_impl; [exact Hr|]; intros x; by apply known_offers.
    + split; [apply publish_lookup; by left|done].
  - destruct Hb as (R1 & R2 & R3). set (k' := mkBackend _ _ _).
    assert (i <> index_id H ix) as Hne.
    { intros ->. apply R2, elem_of_superseded. exists (index_id H ix), ix. split; [done|]. apply R3. by left. }
    assert (i ∈ superseded k) as Hi. { apply elem_of_superseded. exists (index_id H ix), ix. split; [done|]. apply R3. by left. }
    assert (forall x, x ∈ superseded k' -> x ∈ superseded k) as Hsup.
    { intros x (j & jx & Hj & Hx)%elem_of_superseded. simpl in Hj. apply lookup_delete_Some in Hj as [_ Hj]. apply elem_of_superseded. eauto. }
    assert (offers k k') as Ho.
    { split; [done|]. intros p m (j & jx & Hj & Hn & Hp)%elem_of_live_packs. apply elem_of_live_packs. exists j, jx. split; [|split; [|done]].
      - simpl. rewrite lookup_delete_ne; [done|]. by intros ->.
      - by intros ?%Hsup. }
    split; [|split; [done|intros j sn Hj; by left]]. constructor; simpl.
    + apply (whole_step k); [done| |done|].
      * destruct (wh_struct _ Hk) as [S1 S2 S3]. constructor; simpl; [done| |].
        -- intros j jx [_ Hj]%lookup_delete_Some. by eapply S2.
        -- intros j jx p m [_ Hj]%lookup_delete_Some. by eapply S3.
      * intros j sn Hj. by left.
    + eapply Forall_impl; [exact Hr|]; intros x; by apply known_offers.
    + split; [by rewrite lookup_delete_ne|]. split; [by intros ?%Hsup|]. intros x Hx. apply R3. by right.
  - split; [|split; [done|intros i sn Hi; by left]]. by constructor.
Qed.

(** ** Runs that have nothing new in common *)

Definition disjoint_runs (c c' : command) : Prop := forall x, stores c x -> ~ stores c' x.
Fixpoint all_apart (l : list command) : Prop :=
  match l with [] => True | c :: l => Forall (disjoint_runs c) l /\ all_apart l end.

Lemma disjoint_sym c c' : disjoint_runs c c' -> disjoint_runs c' c.
Proof using Type. intros Hd x Hx Hx'. by apply (Hd x). Qed.
Lemma all_apart_mid a c b : all_apart (a ++ c :: b) <-> all_apart (a ++ b) /\ Forall (disjoint_runs c) (a ++ b).
Proof using Type.
  induction a as [|d a IH]; simpl; [tauto|]. rewrite IH, Forall_cons, !Forall_app, Forall_cons.
  assert (disjoint_runs c d <-> disjoint_runs d c) as Hs by (split; apply disjoint_sym). tauto.
Qed.

Definition own_only (k : backend) (cl : client) : Prop :=
  exists kb w planned sns s, tracked k cl kb w planned sns s /\
    forall p m, (p, m) ∈ live_packs k -> (p, m) ∈ live_packs (ps_back s) \/ forall e, e ∈ m -> ~ stores (cl_command cl) (e_id e).

Record going_apart (y : system) : Prop := {
  ga_well : going_well y;
  ga_rebuild : sy_rebuild y = None;
  ga_once : once (live_packs (sy_back y));
  ga_own : Forall (own_only (sy_back y)) (sy_runs y);
  ga_apart : all_apart (map cl_command (sy_runs y)) }.

Lemma own_only_step k k' cl : offers k k' ->
  (forall p m, (p, m) ∈ live_packs k' -> (p, m) ∈ live_packs k \/ forall e, e ∈ m -> ~ stores (cl_command cl) (e_id e)) ->
  own_only k cl -> own_only k' cl.
Proof.
  intros Ho Hl (kb & w & planned & sns & s & T & Hp). exists kb, w, planned, sns, s. split; [by eapply tracked_offers|].
  intros p m [?|?]%Hl; [by apply Hp|by right].
Qed.

Lemma together_apart y y' : going_apart y -> together H (adds_to H U) apart False y y' -> going_apart y'.
Proof.
  intros [Hw Hn Ho Hown Hap] Hst. destruct (together_well _ _ _ _ Hw Hst) as (Hw' & Hoff & _). destruct Hst as
    [k cs r w c target cpus Hm Hbe
    |k before cl after r s' Hst Hno Hfr
    |k before cl after r o os Em Ep Hno
    |k before cl after r|k cs r i|k cs Hrb|k cs old packs ix Hp E|k cs ix Hne Hno Hfr|k cs ix i ids|k cs r]; simpl in *; try done.
  - constructor; try done; simpl.
    + apply Forall_app. split; [done|]. constructor; [|constructor].
      destruct (adds_to_adding k w c (gw_whole _ Hw) Hm) as (Hio & Hlo & Hcl & planned & sns & Ha & HU').
      exists k, w, planned, sns, (pipeline_start target k w (c_start c) (c_ups c) (c_blobs c)). split; [|intros p m Hp; by left].
      constructor; simpl; try done. apply rtc_refl.
    + rewrite map_app. simpl. apply all_apart_mid. rewrite app_nil_r. split; [done|]. apply Forall_forall. intros d Hd x Hx Hx'.
      change (map cl_command cs) with (cl_command <$> cs) in Hd. apply elem_of_list_fmap in Hd as (cl & -> & Hcl). by apply (Hbe cl x).
  - apply Forall_app in Hown as [Ho1 Ho2]. apply Forall_cons in Ho2 as [(kb & w & planned & sns & s & T & Hlv) Ho2].
    rewrite map_app in Hap. simpl in Hap. apply all_apart_mid in Hap as [Ha1 Ha2].
    destruct (thread_step k cl kb w planned sns s s' (gw_whole _ Hw) T Hst Hno Hfr) as (wr & Ewr & Hup & G1 & G2 & G3 & G4).
    assert (forall p m, (p, m) ∈ live_packs (ps_back s') -> (p, m) ∈ live_packs k \/
      (p, m) ∈ live_packs (written H wr (ps_back s)) /\ forall e, e ∈ m -> stores (cl_command cl) (e_id e)) as Hnew.
    { intros p m Hp. rewrite Ewr in Hp. destruct wr as [[q bs|ix]|]; [by left| |by left]. simpl written in *.
      destruct (tracked_at T) as (A1 & A2 & A3 & A4 & A5 & A6 & A7). destruct (A5 ix (Hup ix eq_refl)) as (B1 & B2 & B3 & B4 & B5 & B6).
      apply publish_live_inv in Hp as [Hp|Hp]; [right|by left|].
      - split; [|intros e; by apply (B4 p m)]. apply publish_new; [done| |done]. rewrite publish_superseded by done. rewrite B1.
        intros [Hx%A3|Hx]; [done|by apply elem_of_nil in Hx].
      - intros jx Hj. symmetry. destruct Hno as (_ & N2 & _). apply (N2 (index_id H ix)); [done|]. rewrite Ewr. apply publish_lookup. by left. }
    assert (forall p m, (p, m) ∈ live_packs (ps_back s) -> (p, m) ∈ live_packs (written H wr (ps_back s))) as Hkeep.
    { intros p m Hp. destruct wr as [[q bs|ix]|]; [done| |done]. simpl written in *.
      destruct (tracked_at T) as (A1 & A2 & A3 & A4 & A5 & A6 & A7). destruct (A5 ix (Hup ix eq_refl)) as (B1 & B2 & B3 & B4 & B5 & B6).
      apply publish_live; [done| | |done]. { rewrite publish_superseded by done. rewrite B1. intros [Hx%A3|Hx]; [done|by apply elem_of_nil in Hx]. }
      rewrite B1. by intros x jx ?%elem_of_nil. }
    assert (forall p m, (p, m) ∈ live_packs (ps_back s') -> (p, m) ∈ live_packs (written H wr (ps_back s)) \/ forall e, e ∈ m -> ~ stores (cl_command cl) (e_id e)) as Hlv'.
    { intros p m [Hp|[Hp _]]%Hnew; [|by left]. apply Hlv in Hp as [Hp|Hp]; [left; by apply Hkeep|by right]. }
    assert (once (live_packs (written H wr (ps_back s)))) as Honce by (apply (tracked_at G4)).
    constructor; try done; simpl.
    + intros p m p' m' n n' e e' Hp Hp' He He' Eid.
      assert (e ∈ m) as Hem by (by eapply elem_of_list_lookup_2). assert (e' ∈ m') as Hem' by (by eapply elem_of_list_lookup_2).
      destruct (Hnew p m Hp) as [Hq|[Hq Hs]], (Hnew p' m' Hp') as [Hq'|[Hq' Hs']].
      * by eapply Ho.
      * destruct (Hlv' p m Hp) as [Hx|Hx]; [by eapply Honce|]. exfalso. apply (Hx e Hem). rewrite Eid. by apply Hs'.
      * destruct (Hlv' p' m' Hp') as [Hx|Hx]; [by eapply Honce|]. exfalso. apply (Hx e' Hem'). rewrite <-Eid. by apply Hs.
      * by eapply Honce.
    + assert (Forall (fun x => disjoint_runs (cl_command cl) (cl_command x)) (before ++ after)) as Hd.
      { rewrite <-map_app in Ha2. apply Forall_forall. intros x Hx. rewrite Forall_forall in Ha2. apply Ha2.
        change (cl_command x ∈ cl_command <$> (before ++ after)). by apply elem_of_list_fmap_1. }
      assert (forall x, disjoint_runs (cl_command cl) (cl_command x) -> own_only k x -> own_only (ps_back s') x) as Hother.
      { intros x Hx. apply own_only_step; [done|]. intros p m [?|[_ Hs]]%Hnew; [by left|right]. intros e He Hs'. by apply (Hx (e_id e)); [apply Hs|]. }
      apply Forall_app in Hd as [Hd1 Hd2]. apply Forall_app. split; [|constructor].
      * apply Forall_forall. intros x Hx. rewrite Forall_forall in Hd1, Ho1. by apply Hother; [apply Hd1|apply Ho1].
      * by exists kb, w, planned, sns, (set_back (written H wr (ps_back s)) s').
      * apply Forall_forall. intros x Hx. rewrite Forall_forall in Hd2, Ho2. by apply Hother; [apply Hd2|apply Ho2].
    + rewrite map_app. simpl. by apply all_apart_mid.
  - apply Forall_app in Hown as [Ho1 Ho2]. apply Forall_cons in Ho2 as [(kb & w & planned & sns & s & T & Hlv) Ho2].
    destruct (pending_put _ _ _ _ _ _ _ o T) as (sn & -> & Hsn); [rewrite Ep; by left|]. simpl in *.
    constructor; try done; simpl.
    + apply Forall_app. split; [eapply Forall_impl; [exact Ho1|]; intros x; apply own_only_step; [done|intros p m Hp; by left]|]. constructor.
      * exists kb, w, planned, sns, s. split; [|done]. destruct T. constructor; simpl; try done. intros o Hx. apply tr_pending0. rewrite Ep. by right.
      * eapply Forall_impl; [exact Ho2|]; intros x; apply own_only_step; [done|intros p m Hp; by left].
    + by rewrite map_app in *.
  - constructor; try done; simpl.
    + apply Forall_app in Hown as [Ho1 Ho2]. apply Forall_cons in Ho2 as [_ Ho2]. by apply Forall_app.
    + rewrite map_app in Hap |- *. simpl in Hap. by apply all_apart_mid in Hap as [? _].
  - constructor; try done; simpl. eapply Forall_impl; [exact Hown|]; intros x; apply own_only_step; [done|intros p m Hp; by left].
Qed.

(** ** Whole histories *)

Definition from (k : backend) : system := mkSystem k [] None.

Lemma from_well k : in_order H U k -> going_well (from k).
Proof. intros Hk. constructor; simpl; [by apply in_order_whole|constructor|done]. Qed.
Lemma from_apart k : in_order H U k -> going_apart (from k).
Proof. intros Hk. constructor; simpl; [by apply from_well|done|apply Hk|constructor|done]. Qed.

Lemma history_well beside rebuilds y y' : going_well y -> rtc (together H (adds_to H U) beside rebuilds) y y' -> going_well y' /\ offers (sy_back y) (sy_back y').
Proof.
  intros Hy Hr. revert Hy. induction Hr as [y|y y1 y' Hst Hr IH]; intros Hy; [done|].
  destruct (together_well _ _ _ _ Hy Hst) as (Hy1 & Ho1 & _). destruct (IH Hy1) as [Hy' Ho']. split; [done|]. by eapply offers_trans.
Qed.
Lemma history_apart y y' : going_apart y ->
  rtc (together H (adds_to H U) apart False) y y' -> going_apart y'.
Proof.
  intros Hy Hr. revert Hy. induction Hr as [y|y y1 y' Hst Hr IH]; intros Hy; [done|]. apply IH. by eapply together_apart.
Qed.
End facts.
