(** Facts about walks that fail. *)

From Verif Require Import Base OMap Cbor Formats FormatsFacts Hashing Pack Index IndexFacts PropsIndex Meta Forest ForestFacts
  FsTree FsSpec FsFacts BackupFacts PlanFacts Pipeline PipelineFacts PropsPipeline Repo RepoSpec RepoFacts RewriteFacts PublishFacts
  CommandFacts History PruneFacts Fails DamageFacts Exec Witness.

(** ** The two descriptions of a walk agree *)

Definition as_result {A} (e : ended A) : result (bstate * A) :=
  match e.2 with Ok x => Ok (e.1, x) | Err => Err | Panic => Panic end.

Lemma walk_chunks_agrees on_chunk cs s :
  rfold on_chunk cs s = match walk_chunks on_chunk cs s with (s', Ok _) => Ok s' | (_, Err) => Err | (_, Panic) => Panic end.
Proof. revert s. induction cs as [|c cs IH]; intros s; [done|]. cbn. destruct (on_chunk c s) as [s'| |]; [apply IH|done|done]. Qed.
Lemma walk_nodes_agrees filter on_chunk rec rec' path l s t :
  (forall p id s, rec p id s = as_result <$> rec' p id s) ->
  rewrite_nodes filter on_chunk rec path l s t = as_result <$> walk_nodes filter on_chunk rec' path l s t.
Proof.
  intros Hrec. revert s t. induction l as [|[nm nd] l IH]; intros s t; [done|]. cbn [rewrite_nodes walk_nodes].
  destruct (negb _); [apply IH|]. destruct (n_contents nd) as [cs|sub|tg].
  - rewrite walk_chunks_agrees. destruct (walk_chunks on_chunk cs s) as [s' [[]| |]]; [|done|done]. destruct (om_get nm t); [done|apply IH].
  - rewrite Hrec. destruct (rec' _ sub s) as [[s' [sub'| |]]|]; cbn; [|done|done|done]. destruct (om_get nm t); [done|apply IH].
  - destruct (om_get nm t); [done|apply IH].
Qed.
Lemma walk_tree_agrees H filter on_chunk fo fuel path id s :
  rewrite_tree H filter on_chunk fo fuel path id s = as_result <$> walk_tree H filter on_chunk fo fuel path id s.
Proof.
  revert path id s. induction fuel as [|fuel IH]; intros path id s; [done|]. cbn [rewrite_tree walk_tree]. destruct (fo !! id) as [t|]; [|done].
  rewrite (walk_nodes_agrees filter on_chunk _ (walk_tree H filter on_chunk fo fuel)) by (intros; apply IH).
  by destruct (walk_nodes _ _ _ path t s []) as [[s' [t'| |]]|].
Qed.
Lemma walk_snapshots_agrees H filter on_chunk fuel l s :
  rewrite_snapshots H filter on_chunk fuel l s = as_result <$> walk_snapshots H filter on_chunk fuel l s.
Proof.
  revert s. induction l as [|[sn fo] l IH]; intros s; [done|]. cbn [rewrite_snapshots walk_snapshots]. rewrite walk_tree_agrees.
  destruct (walk_tree _ _ _ fo fuel [] (sn_tree sn) s) as [[s' [r| |]]|]; cbn; [|done|done|done]. rewrite IH.
  by destruct (walk_snapshots _ _ _ fuel l s') as [[s'' [sns| |]]|].
Qed.

(** ** What holds of the state throughout a walk *)

Section inv.
Variables (H : bytes -> oid) (filter : bytes -> bool) (on_chunk : oid -> bstate -> result bstate) (I : bstate -> Prop).
Hypothesis Hchunk : forall c s s', I s -> on_chunk c s = Ok s' -> I s'.
Hypothesis Htree : forall t s, I s -> I (send_new s (tree_blob H t)).
Local Set Default Proof Using "All".

Lemma walk_chunks_inv cs s s' r : I s -> walk_chunks on_chunk cs s = (s', r) -> I s'.
Proof.
  revert s. induction cs as [|c cs IH]; intros s Hs E; cbn in E; [by injection E as <- _|].
  destruct (on_chunk c s) as [s1| |] eqn:E1; [|by injection E as <- _|by injection E as <- _]. eapply IH; [|exact E]. by eapply Hchunk.
Qed.
Lemma walk_nodes_inv rec path l s t s' r :
  (forall p id s s' r, I s -> rec p id s = Some (s', r) -> I s') -> I s -> walk_nodes filter on_chunk rec path l s t = Some (s', r) -> I s'.
Proof.
  intros Hrec. revert s t. induction l as [|[nm nd] l IH]; intros s t Hs E; cbn [walk_nodes] in E; [by injection E as <- _|].
  destruct (negb _); [by eapply IH|]. destruct (n_contents nd) as [cs|sub|tg].
  - destruct (walk_chunks on_chunk cs s) as [s1 r1] eqn:E1. apply walk_chunks_inv in E1; [|done].
    destruct r1 as [[]| |]; [|by injection E as <- _|by injection E as <- _]. destruct (om_get nm t); [by injection E as <- _|by eapply IH].
  - destruct (rec _ sub s) as [[s1 r1]|] eqn:E1; [|done]. apply Hrec in E1; [|done].
    destruct r1 as [x| |]; [|by injection E as <- _|by injection E as <- _]. destruct (om_get nm t); [by injection E as <- _|by eapply IH].
  - destruct (om_get nm t); [by injection E as <- _|by eapply IH].
Qed.
Lemma walk_tree_inv fo fuel path id s s' r : I s -> walk_tree H filter on_chunk fo fuel path id s = Some (s', r) -> I s'.
Proof.
  revert path id s s' r. induction fuel as [|fuel IH]; intros path id s s' r Hs E; [done|]. cbn [walk_tree] in E.
  destruct (fo !! id) as [t|]; [|by injection E as <- _].
  destruct (walk_nodes _ _ _ path t s []) as [[s1 r1]|] eqn:E1; [|done]. apply walk_nodes_inv in E1; [|exact IH|done].
  destruct r1 as [x| |]; injection E as <- _; [by apply Htree|done|done].
Qed.
Lemma walk_snapshots_inv fuel l s s' r : I s -> walk_snapshots H filter on_chunk fuel l s = Some (s', r) -> I s'.
Proof.
  revert s s' r. induction l as [|[sn fo] l IH]; intros s s' r Hs E; cbn [walk_snapshots] in E; [by injection E as <- _|].
  destruct (walk_tree _ _ _ fo fuel [] (sn_tree sn) s) as [[s1 r1]|] eqn:E1; [|done]. apply walk_tree_inv in E1; [|done].
  destruct r1 as [x| |]; [|by injection E as <- _|by injection E as <- _].
  destruct (walk_snapshots _ _ _ fuel l s1) as [[s2 r2]|] eqn:E2; [|done]. apply IH in E2; [|done]. destruct r2; by injection E as <- _.
Qed.
End inv.

(** ** Sending again what was sent *)

Definition resent (packed : gset oid) (s : bstate) : Prop := foldl send_new (mkBstate packed []) (bs_sent s) = s.
Lemma resent_send packed s b : resent packed s -> resent packed (send_new s b).
Proof.
  intros Hs. unfold send_new. case_decide as Hd; [done|]. unfold resent. cbn [bs_sent]. rewrite foldl_app, Hs. cbn. unfold send_new.
  by rewrite decide_False.
Qed.

Section commands.
Variables (H : bytes -> oid) (U : blob -> Prop).
Hypothesis HU : universe H U.
Hypothesis Hlen : forall x, length (H x) = 28.
Local Set Default Proof Using "All".

Definition fine_chunks (packed : gset oid) (s : bstate) : Prop :=
  resent packed s /\ Forall (fun b => b_type b = Chunk -> U b) (bs_sent s).
Lemma fine_start packed : fine_chunks packed (mkBstate packed []).
Proof. split; [done|constructor]. Qed.
Lemma fine_tree packed t s : fine_chunks packed s -> fine_chunks packed (send_new s (tree_blob H t)).
Proof.
  intros [Hr HF]. split; [by apply resent_send|]. unfold send_new. case_decide; [done|]. cbn [bs_sent]. apply Forall_app. split; [done|].
  by constructor.
Qed.
Lemma fine_repack packed src sx sbm c s s' : (forall p bs, k_packs src !! p = Some bs -> Forall U bs) ->
  fine_chunks packed s -> repack_chunk src sx sbm c s = Ok s' -> fine_chunks packed s'.
Proof.
  intros Hsrc [Hr HF] E. unfold repack_chunk in E. destruct (decide (c ∈ bs_packed s)) as [Hin|Hin].
  - apply rbind_ok in E as (n & _ & E). by injection E as <-.
  - apply rbind_ok in E as (x & Ex & E). injection E as <-. split; [by apply resent_send|]. unfold send_new. case_decide; [done|]. cbn [bs_sent].
    apply Forall_app. split; [done|]. constructor; [|done]. intros _. by eapply (genuine_chunk H U HU Hlen src sbm Hsrc).
Qed.
Lemma fine_check packed c s s' : fine_chunks packed s -> check_chunk c s = Ok s' -> fine_chunks packed s'.
Proof. intros Hs E. unfold check_chunk in E. apply rbind_ok in E as (? & _ & E). by injection E as <-. Qed.

Lemma copy_fails_adding filter src chosen fuel k w c :
  (forall p bs, k_packs src !! p = Some bs -> Forall U bs) ->
  sound H U k -> own_leftovers H U k w ->
  copy_fails H false filter src chosen fuel k w c ->
  (forall b, b ∈ c_blobs c -> b_type b = Tree -> U b) ->
  exists planned, Forall U planned /\ adds H k w c planned [].
Proof.
  intros Hsrc Hk Hw (sx & sbm & forests & ix & start & ups & packed & s & r & Esx & Esb & Ef & Eix & Hres & Ewk & _ & ->) Htree.
  destruct (resume_ok H U HU Hlen k w ix start ups packed Hk Hw Eix Hres) as (R1 & R2 & R3 & R4 & R5 & R6).
  assert (fine_chunks packed s) as [Hrs HF].
  { eapply walk_snapshots_inv; [| |apply fine_start|exact Ewk]; [intros; by eapply fine_repack|intros; by apply fine_tree]. }
  exists (bs_sent s). split.
  - apply Forall_forall. intros b Hb. destruct (b_type b) eqn:Et; [|by apply Htree]. eapply Forall_forall in HF; [|exact Hb]. by apply HF.
  - exists start, ups, packed. unfold resent in Hrs. rewrite Hrs. split_and!; try done. intros st' _ _ sn Hsn. by apply elem_of_nil in Hsn.
Qed.

Lemma filter_fails_adding filter target fuel k w c :
  sound H U k -> own_leftovers H U k w -> w_wip w = None ->
  filter_fails H filter target fuel k c ->
  (forall b, b ∈ c_blobs c -> b_type b = Tree -> U b) ->
  exists planned, Forall U planned /\ adds H k w c planned [].
Proof.
  intros Hk Hw Hwip (ix & bmap & fo & packed & s & r & Eix & Ebm & Ef & Epk & Ewk & _ & ->) Htree.
  destruct (sound_maps H U HU Hlen k Hk) as (ix' & bmap' & pk & E1 & E2 & E3 & Hpk).
  rewrite Eix in E1. injection E1 as <-. rewrite Epk in E3. injection E3 as <-.
  assert (fine_chunks packed s) as [Hrs HF].
  { eapply walk_tree_inv; [| |apply fine_start|exact Ewk]; [intros; by eapply fine_check|intros; by apply fine_tree]. }
  exists (bs_sent s). split.
  - apply Forall_forall. intros b Hb. destruct (b_type b) eqn:Et; [|by apply Htree]. eapply Forall_forall in HF; [|exact Hb]. by apply HF.
  - exists index_default, [], packed. unfold resent in Hrs. rewrite Hrs. split_and!; try done.
    + by left.
    + simpl. rewrite app_nil_r. apply Hk.
    + intros x. rewrite Hpk. simpl. split; [by left|]. intros [?|Hx]; [done|]. by apply elem_of_nil in Hx.
    + simpl. intros p m Hp. by apply elem_of_nil in Hp.
    + intros st' _ _ sn Hsn. by apply elem_of_nil in Hsn.
Qed.
End commands.

(** The end of a failing run is among what there may be with errors. *)
Lemma fails_reaches H target live cpus k w c k' w' :
  command_fails H target live cpus k w c k' w' -> command_reaches H target live cpus ErrorLater k w c k' w'.
Proof.
  intros (s0 & s1 & Hs0 & Em & Hs1 & Em1 & -> & ->). exists s1, 0. split; [|split; [by right|done]].
  assert (forall a b, rtc (pstep H target live cpus NoError) a b -> rtc (pstep H target live cpus ErrorLater) a b) as Hwk.
  { intros a b. induction 1; [done|]. eapply rtc_l; [|done]. by apply pstep_weaken. }
  unfold during in *. etrans; [apply Hwk, Hs0|]. eapply rtc_l; [by apply (St_main_fail _ _ _ _ _ s0 [] [])|]. by apply Hwk.
Qed.

(** Storing blobs removes nothing. *)
Lemma run_only_adds H target live cpus errors k w start ups bs s :
  during H target live cpus errors k w start ups bs s ->
  k_snaps (ps_back s) = k_snaps k /\ dom (k_packs k) ⊆ dom (k_packs (ps_back s)) /\ dom (k_indexes k) ⊆ dom (k_indexes (ps_back s)).
Proof.
  intros Hs. set (R := fun k' => k_snaps k' = k_snaps k /\ dom (k_packs k) ⊆ dom (k_packs k') /\ dom (k_indexes k) ⊆ dom (k_indexes k')).
  assert (R (ps_back (pipeline_start target k w start ups bs))) as H0 by done. change (R (ps_back s)). revert H0.
  induction Hs as [|a b c Hab Hbc IH]; [done|]. intros H0. apply IH. clear -Hab H0.
  destruct Hab; try done.
  - destruct (ps_indexer s); try done. by destruct (bool_decide _).
  - by destruct closed.
  - unfold close_pack. by destruct (packer_finish _).
  - destruct H0 as (Ra & Rb & Rc). destruct j as [id|ix]; simpl.
    + destruct (ps_files s !! id); [|done]. split; [done|]. split; [|done]. cbn [ps_back set_back k_packs]. rewrite dom_insert. set_solver.
    + split; [done|]. split; [done|]. cbn [ps_back set_back k_indexes]. rewrite dom_insert. set_solver.
  - by destruct j.
  - by destruct j.
Qed.
