(** Rewriting snapshots when things may be missing. *)

From Verif Require Import Base OMap Cbor Formats FormatsFacts Hashing Pack Index IndexFacts PropsIndex Meta Forest ForestFacts
  FsTree FsSpec FsFacts BackupFacts PropsBackup PlanFacts Pipeline PipelineFacts PropsPipeline Repo RepoSpec RepoFacts RewriteFacts PublishFacts CommandFacts PruneFacts.

(** ** A walk that got through did what the plan says *)

Section walk.
Variables (H : bytes -> oid) (filter : bytes -> bool) (chunk : oid -> bytes) (fo : forest).
Variable on_chunk : oid -> bstate -> result bstate.
Hypothesis Hchunk : forall c s s', on_chunk c s = Ok s' -> s' = send_new s (mkBlob Chunk c (chunk c)).
Hypothesis Hsorted : forall id t, fo !! id = Some t -> om_sorted t.
Local Set Default Proof Using "All".

(** Each chunk was accepted when its turn came. *)
Fixpoint accepted (s : bstate) (bs : list blob) : Prop :=
  match bs with
  | [] => True
  | b :: bs' => (b_type b = Chunk -> exists s', on_chunk (b_id b) s = Ok s') /\ accepted (send_new s b) bs'
  end.

Lemma accepted_app s a b : accepted s (a ++ b) <-> accepted s a /\ accepted (foldl send_new s a) b.
Proof using Type. revert s. induction a as [|x a IH]; intros s; cbn [app accepted foldl]; [tauto|]. rewrite IH. tauto. Qed.

Lemma rfold_accepted cs s s' : rfold on_chunk cs s = Ok s' ->
  s' = foldl send_new s (map (fun c => mkBlob Chunk c (chunk c)) cs) /\ accepted s (map (fun c => mkBlob Chunk c (chunk c)) cs).
Proof.
  revert s. induction cs as [|c cs IH]; intros s E; simpl in E; [by injection E as <-|].
  apply rbind_ok in E as (s1 & E1 & E). pose proof (Hchunk _ _ _ E1) as Es1. destruct (IH _ E) as [-> Ha]. cbn [map foldl accepted].
  rewrite Es1 in Ha |- *. split; [done|]. split; [|done]. intros _. by exists s1.
Qed.

Definition did (r : option (result (bstate * oid))) (p : option (oid * list blob)) (s : bstate) : Prop :=
  forall s' id', r = Some (Ok (s', id')) -> exists bs, p = Some (id', bs) /\ s' = foldl send_new s bs /\ accepted s bs.

Lemma rewrite_nodes_did id t rec prec path l s acc s' t' :
  fo !! id = Some t -> (exists l0, t = l0 ++ l) ->
  (forall p sub s, did (rec p sub s) (prec p sub) s) ->
  Forall (fun a : bytes * node => Forall (fun b : bytes * node => bytes_lt a.1 b.1) l) acc ->
  rewrite_nodes filter on_chunk rec path l s acc = Some (Ok (s', t')) ->
  exists lp, rplan_nodes filter chunk prec path l = Some lp /\ t' = acc ++ rplan_tree lp /\
    s' = foldl send_new s (concat (map (fun x => x.2.2) lp)) /\ accepted s (concat (map (fun x => x.2.2) lp)).
Proof.
  intros Et Hl Hrec. pose proof (Hsorted id t Et) as Hso. revert s acc Hl.
  induction l as [|[name nd] l IH]; intros s acc [l0 Hl] Hacc E; cbn [rewrite_nodes rplan_nodes] in *.
  { injection E as <- <-. exists []. cbn. by rewrite app_nil_r. }
  cbv zeta in *.
  assert (exists l1, t = l1 ++ l) as Hl' by (exists (l0 ++ [(name, nd)]); by rewrite <-app_assoc).
  assert (Forall (fun b : bytes * node => bytes_lt name b.1) l) as Hlt.
  { rewrite Hl in Hso. clear -Hso. induction l0 as [|[k v] l0 IH]; simpl in Hso; tauto. }
  assert (Forall (fun a : bytes * node => Forall (fun b : bytes * node => bytes_lt a.1 b.1) l) acc) as Hacc1.
  { eapply Forall_impl; [exact Hacc|]. intros a Ha. by apply Forall_cons in Ha as [_ ?]. }
  destruct (filter (join path name)); cbn [negb] in *; [|by eapply IH].
  assert (Forall (fun a : bytes * node => bytes_lt a.1 name) acc) as Hname.
  { eapply Forall_impl; [exact Hacc|]. intros a Ha. by apply Forall_cons in Ha as [? _]. }
  assert (om_get name acc = None) as Hnone.
  { clear -Hname. induction acc as [|[k v] acc IHa]; simpl; [done|]. apply Forall_cons in Hname as [Hk Hr].
    simpl in Hk. unfold bytes_lt in Hk. rewrite bytes_cmp_antisym, Hk. simpl. by apply IHa. }
  rewrite Hnone in E.
  assert (forall s1 nd1 bs1, s1 = foldl send_new s bs1 -> accepted s bs1 ->
    rewrite_nodes filter on_chunk rec path l s1 (om_insert name nd1 acc) = Some (Ok (s', t')) ->
    exists lp, match rplan_nodes filter chunk prec path l with Some rest => Some ((name, (nd1, bs1)) :: rest) | None => None end = Some lp /\
      t' = acc ++ rplan_tree lp /\ s' = foldl send_new s (concat (map (fun x => x.2.2) lp)) /\ accepted s (concat (map (fun x => x.2.2) lp))) as Hgo.
  { intros s1 nd1 bs1 Es1 Ha1 E1. rewrite om_insert_last in E1 by done. apply IH in E1 as (lp & -> & -> & -> & Ha); [|done|].
    - eexists. split; [done|]. cbn [rplan_tree map concat fst snd]. rewrite <-app_assoc. split; [done|].
      rewrite foldl_app, accepted_app, <-Es1. done.
    - apply Forall_app. split; [done|]. by repeat constructor. }
  destruct (n_contents nd) as [cs|sub|tg] eqn:En.
  - destruct (rfold on_chunk cs s) as [s1| |] eqn:Er; try done. destruct (rfold_accepted _ _ _ Er) as [Es1 Ha1]. by eapply Hgo.
  - destruct (rec (join path name) sub s) as [[[s1 sub']| |]|] eqn:Er; try done.
    destruct (Hrec _ _ _ _ _ Er) as (bs & -> & Es1 & Ha1). by eapply Hgo.
  - apply (Hgo s nd []); done.
Qed.

Lemma rewrite_did fuel path id s : did (rewrite_tree H filter on_chunk fo fuel path id s) (rplan H filter chunk fo fuel path id) s.
Proof.
  revert path id s. induction fuel as [|fuel IH]; intros path id s s' id' E; cbn [rewrite_tree rplan] in *; [done|].
  destruct (fo !! id) as [t|] eqn:Et; [|done].
  destruct (rewrite_nodes filter on_chunk (rewrite_tree H filter on_chunk fo fuel) path t s []) as [[[s1 t1]| |]|] eqn:En; try done.
  destruct (rewrite_nodes_did id t _ (rplan H filter chunk fo fuel) path t s [] s1 t1 Et (ex_intro _ [] eq_refl) IH (Forall_nil_2 _) En)
    as (lp & -> & -> & -> & Ha).
  injection E as <- <-. eexists. split; [done|]. rewrite foldl_app, accepted_app. done.
Qed.
End walk.

Lemma rewrite_snapshots_did H filter chunk on_chunk fuel l s s' sns :
  (forall c s s', on_chunk c s = Ok s' -> s' = send_new s (mkBlob Chunk c (chunk c))) ->
  (forall sn fo id t, (sn, fo) ∈ l -> fo !! id = Some t -> om_sorted t) ->
  rewrite_snapshots H filter on_chunk fuel l s = Some (Ok (s', sns)) ->
  s' = foldl send_new s (rplan_all H filter chunk fuel l) /\ accepted on_chunk s (rplan_all H filter chunk fuel l) /\
  Forall2 (fun x sn' => exists bs, rplan H filter chunk x.2 fuel [] (sn_tree x.1) = Some (sn_tree sn', bs) /\
    sn' = mkSnapshot (sn_time x.1) (sn_tz x.1) (sn_author x.1) (sn_tags x.1) (sn_paths x.1) (sn_tree sn')) l sns.
Proof.
  intros Hc. revert s s' sns. induction l as [|[sn fo] l IH]; intros s s' sns Ho E; cbn [rewrite_snapshots] in E.
  { injection E as <- <-. split; [done|]. split; [done|constructor]. }
  destruct (rewrite_tree H filter on_chunk fo fuel [] (sn_tree sn) s) as [[[s1 root]| |]|] eqn:E1; try done.
  destruct (rewrite_did H filter chunk fo on_chunk Hc (fun id t => Ho sn fo id t (elem_of_list_here _ _)) fuel [] (sn_tree sn) s s1 root E1) as (bs & Er & -> & Ha).
  destruct (rewrite_snapshots H filter on_chunk fuel l (foldl send_new s bs)) as [[[s2 sns2]| |]|] eqn:E2; try done.
  injection E as <- <-. destruct (IH _ _ _ (fun sn' fo' id t Hin => Ho sn' fo' id t (elem_of_list_further _ _ _ Hin)) E2) as (-> & Ha' & HF).
  assert (rplan_all H filter chunk fuel ((sn, fo) :: l) = bs ++ rplan_all H filter chunk fuel l) as ->.
  { unfold rplan_all. cbn [map concat fst snd]. by rewrite Er. }
  rewrite foldl_app, accepted_app. split; [done|]. split; [done|]. constructor; [|done]. cbn [fst snd sn_tree]. eauto.
Qed.

(** ** If all of the plan is there, the result can be read *)

Lemma rplan_complete H filter chunk fo st' fuel path id id' bs :
  (forall x, length (H x) = 28) -> (forall id t, fo !! id = Some t -> tree_sane t) ->
  rplan H filter chunk fo fuel path id = Some (id', bs) ->
  (forall b, b ∈ bs -> b_type b = Chunk -> st' !! b_id b = Some (Chunk, b_bytes b)) ->
  (forall t, tree_blob H t ∈ bs -> tree_sane t -> stored_as H st' (tree_id H t) t) ->
  exists es, reads_root H st' id' es.
Proof.
  intros Hlen Hsane. revert path id id' bs. induction fuel as [|fuel IH]; intros path id id' bs E Hc Ht; [done|].
  apply rplan_inv in E as (t & lp & Et & El & -> & ->).
  pose proof (rplan_nodes_sub H filter chunk fo _ _ _ _ El) as HF.
  assert (forall x, x ∈ lp -> forall b, b ∈ x.2.2 -> b ∈ concat (map (fun x => x.2.2) lp) ++ [tree_blob H (rplan_tree lp)]) as Hsub.
  { intros x Hx b Hb. apply elem_of_app. left. apply elem_of_list_In, in_concat. exists x.2.2. split; [|by apply elem_of_list_In].
    apply in_map_iff. exists x. split; [done|]. by apply elem_of_list_In. }
  assert (exists es, Forall2 (fun (a : bytes * node) (b : bytes * fsnode) => a.1 = b.1 /\ reads H st' a.2 b.2) (rplan_tree lp) es) as [es Hes].
  { assert (Forall (fun x : bytes * (node * list blob) => exists n, reads H st' x.2.1 n) lp) as Hall.
    { apply Forall_forall. intros x Hx. specialize (Hsub x Hx). eapply Forall_forall in HF as (nd & _ & _ & Hnd); [|exact Hx].
      destruct x as [nm [nd' bs']]. cbn [fst snd] in *. destruct (n_contents nd) as [cs|sub|tg] eqn:En.
      - injection Hnd as -> ->. destruct nd as [cont m]. cbn in En. subst cont.
        assert (exists ps, Forall2 (fun c p => st' !! c = Some (Chunk, p)) cs ps) as [ps Hps].
        { exists (map chunk cs). apply Forall2_fmap_r. apply Forall2_same_length_lookup_2; [done|]. intros i c c' Ec Ec'.
          rewrite Ec in Ec'. injection Ec' as <-. apply (Hc (mkBlob Chunk c (chunk c))); [|done]. apply Hsub, elem_of_list_fmap. exists c.
          split; [done|]. by eapply elem_of_list_lookup_2. }
        eexists. by constructor.
      - destruct Hnd as (i & bs2 & Er & [= -> ->]). destruct (IH _ _ _ _ Er) as (es & ti & Hti & HFi).
        + intros b Hb. by apply Hc, Hsub.
        + intros u Hu. by apply Ht, Hsub.
        + eexists. by econstructor.
      - injection Hnd as -> ->. destruct nd as [cont m]. cbn in En. subst cont. eexists. constructor. }
    clear -Hall. induction Hall as [|x lp [n Hn] _ [es Hes]]; [exists []; constructor|]. exists ((x.1, n) :: es). constructor; [done|exact Hes]. }
  exists es, (rplan_tree lp). split; [|done]. apply Ht; [apply elem_of_app; right; by left|]. eapply rplan_tree_sane; eauto.
Qed.

Lemma read_mono k bmap c id t c' : read_tree k bmap c id = Ok (t, c') -> c ⊆ c' /\ c' !! id = Some t.
Proof.
  unfold read_tree. destruct (c !! id) as [t0|] eqn:Ec; [intros [= <- <-]; auto|].
  intros E. apply rbind_ok in E as (b & _ & E). apply rbind_ok in E as (t' & _ & E). injection E as -> <-.
  split; [by apply insert_subseteq|apply lookup_insert].
Qed.

(** ** Genuine blobs *)

(** Nothing a directory lists as part of a file has the bytes of a directory. *)
Definition typed (H : bytes -> oid) (U : blob -> Prop) : Prop :=
  forall b t c b', U b -> b_type b = Tree -> b_bytes b = enc_tree t -> tree_sane t -> c ∈ tree_chunks t -> U b' -> b_id b' = c -> b_type b' = Chunk.

Section genuine.
Variables (H : bytes -> oid) (U : blob -> Prop).
Hypothesis HU : universe H U.
Hypothesis Hlen : forall x, length (H x) = 28.
Local Set Default Proof Using "All".

Lemma find_blob_in k bmap id b : find_blob k bmap id = Ok b -> b_id b = id /\ exists p bs, k_packs k !! p = Some bs /\ b ∈ bs.
Proof.
  unfold find_blob. intros E. apply rbind_ok in E as (p & _ & E). apply rbind_ok in E as (bs & Eb & E).
  destruct (k_packs k !! p) as [bs'|] eqn:Ek; [|done]. injection Eb as ->.
  destruct (List.find _ bs) as [b'|] eqn:Ef; [|done]. injection E as ->. apply find_some in Ef as [Hin Hb].
  apply bool_decide_eq_true in Hb. split; [done|]. exists p, bs. split; [done|]. by apply elem_of_list_In.
Qed.

Definition genuine_forest (fo : forest) : Prop :=
  forall id t, fo !! id = Some t -> tree_sane t /\ id = tree_id H t /\ U (tree_blob H t).

Lemma genuine_new : genuine_forest (cache_new H).
Proof.
  intros id t E. unfold cache_new in E. apply lookup_singleton_Some in E as [<- <-]. split; [|split; [done|apply (un_none _ _ HU)]].
  split; [|constructor]. split; [unfold len_wf; simpl; lia|]. split; [constructor|done].
Qed.

Lemma tree_blob_of b : U b -> b_type b = Tree -> exists t, tree_sane t /\ b = tree_blob H t /\ forall t' r, dec_tree (b_bytes b) = Some (t', r) -> t' = t /\ r = [].
Proof.
  intros HUb Hty. destruct (un_tree _ _ HU b HUb Hty) as (t & Hs & Eb). exists t. split; [done|]. split.
  - pose proof (un_id _ _ HU b HUb) as Hid. destruct b as [ty i x]. simpl in *. subst. done.
  - intros t' r E. rewrite Eb, <-(app_nil_r (enc_tree t)), dec_enc_tree in E by apply Hs. by injection E as <- <-.
Qed.

Variables (src : backend) (sbm : gmap oid oid).
Hypothesis Hsrc : forall p bs, k_packs src !! p = Some bs -> Forall U bs.

Lemma genuine_read c id t c' : genuine_forest c -> read_tree src sbm c id = Ok (t, c') -> genuine_forest c'.
Proof.
  intros Hc. unfold read_tree. destruct (c !! id) as [t0|] eqn:Ec; [by intros [= <- <-]|].
  intros E. apply rbind_ok in E as (b & Eb & E). apply rbind_ok in E as (t' & Et & E). injection E as -> <-.
  apply find_blob_in in Eb as (Hid & p & bs & Ep & Hb). pose proof (Hsrc _ _ Ep) as HF. eapply Forall_forall in HF; [|exact Hb].
  intros i u. destruct (decide (id = i)) as [<-|Hne]; [|rewrite lookup_insert_ne by done; apply Hc].
  rewrite lookup_insert. intros [= <-]. destruct (b_type b) eqn:Hty; [done|].
  destruct (dec_tree (b_bytes b)) as [[t' r]|] eqn:Ed; [|done]. injection Et as ->.
  destruct (tree_blob_of b HF Hty) as (t1 & Hs & Eq & Hd). destruct (Hd _ _ Ed) as [-> _]. split; [done|].
  rewrite Eq in HF, Hid. split; [done|done].
Qed.

Lemma genuine_load fuel root fo : load_forest H src sbm fuel root = Some (Ok fo) -> genuine_forest fo.
Proof.
  unfold load_forest, forest_from_root.
  destruct (append_tree (read_tree src sbm) fuel ∅ root (cache_new H, ∅)) as [[[c f]| |]|] eqn:E; try done.
  intros [= ->].
  pose proof (append_tree_inv _ genuine_forest _ _ _ (cache_new H, ∅) _ genuine_read genuine_new E) as Hc. simpl in Hc.
  destruct (append_tree_ok (read_tree src sbm) (read_mono src sbm) _ _ _ _ _ _ _ E) as [_ Hok].
  destruct (Hok c) as [Ha Hb]; [done|]. intros id t Et. apply Hc.
  destruct (Hb id) as [E0|Hr]; [by rewrite E0, lookup_empty in Et|]. destruct (Ha id Hr) as (_ & _ & _ & <-). done.
Qed.

Lemma genuine_chunk c x : read_chunk src sbm c = Ok x -> U (mkBlob Chunk c x).
Proof.
  unfold read_chunk. intros E. apply rbind_ok in E as (b & Eb & E). apply find_blob_in in Eb as (<- & p & bs & Ep & Hb).
  pose proof (Hsrc _ _ Ep) as HF. eapply Forall_forall in HF; [|exact Hb]. destruct b as [[] i y]; cbn in *; [|done]. by injection E as ->.
Qed.
End genuine.

(** ** All accepted chunks are genuine *)

Lemma accepted_genuine (H : bytes -> oid) (U : blob -> Prop) on_chunk (good : oid -> Prop) (s : bstate) bs :
  (forall c s s', on_chunk c s = Ok s' -> c ∈ bs_packed s \/ good c) ->
  (forall b, b ∈ bs -> b_type b = Tree -> U b) ->
  (forall b, b ∈ bs -> b_type b = Chunk -> good (b_id b) -> U b) ->
  (forall b x, b ∈ bs -> b_type b = Chunk -> b_id b = b_id x -> U x -> U b) ->
  (forall x, x ∈ bs_packed s -> exists b, U b /\ b_id b = x) ->
  accepted on_chunk s bs -> Forall U bs.
Proof.
  intros Hon. revert s. induction bs as [|b bs IH]; intros s Ht Hg Hs Hp Ha; [done|]. destruct Ha as [Hb Ha].
  assert (U b) as HUb.
  { destruct (b_type b) eqn:Hty; [|apply Ht; [by left|done]]. destruct (Hb eq_refl) as [s' E].
    destruct (Hon _ _ _ E) as [Hin|Hgood]; [|apply Hg; [by left|done|done]].
    destruct (Hp _ Hin) as (x & HUx & Ex). by eapply (Hs b x); [left| | |]. }
  constructor; [done|]. apply (IH (send_new s b)); [| | | |done].
  - intros b' Hb'. apply Ht. by right.
  - intros b' Hb'. apply Hg. by right.
  - intros b' x Hb'. apply Hs. by right.
  - intros x. unfold send_new. destruct (decide (b_id b ∈ bs_packed s)); [apply Hp|]. cbn. rewrite elem_of_union, elem_of_singleton.
    intros [->|Hx]; [by exists b|by apply Hp].
Qed.

(** ** Commands *)

Lemma Forall2_with {A B} (R : A -> B -> Prop) l k : Forall2 R l k -> Forall2 (fun a b => a ∈ l /\ R a b) l k.
Proof.
  induction 1 as [|a b l k Hab HF IH]; constructor; [split; [by left|done]|]. eapply Forall2_impl; [exact IH|]. intros ? ? [? ?]. split; [by right|done].
Qed.

Section commands.
Variables (H : bytes -> oid) (U : blob -> Prop).
Hypothesis HU : universe H U.
Hypothesis Hlen : forall x, length (H x) = 28.
Hypothesis Hty : typed H U.
Local Set Default Proof Using "All".

Lemma all_present st' bs : Forall U bs -> (forall b, b ∈ bs -> st' !! b_id b = Some (b_type b, b_bytes b)) ->
  (forall b, b ∈ bs -> b_type b = Chunk -> st' !! b_id b = Some (Chunk, b_bytes b)) /\
  (forall t, tree_blob H t ∈ bs -> tree_sane t -> stored_as H st' (tree_id H t) t).
Proof.
  intros HF Hst. split; [intros b Hb Et; rewrite (Hst b Hb); by rewrite Et|].
  intros t Hin [Hwf _]. specialize (Hst _ Hin). eapply Forall_forall in HF; [|exact Hin]. cbn in Hst. unfold stored_as. case_decide as Hd.
  - apply (un_empty H U HU) in HF; [|exact Hd]. cbn in HF. destruct t as [|kv l]; [done|]. exfalso. by apply (PropsBackup.enc_tree_nonempty kv l).
  - exists (enc_tree t). split; [exact Hst|]. rewrite <-(app_nil_r (enc_tree _)). by apply dec_enc_tree.
Qed.

(** Everything a directory of packs and a repository hold. *)
Definition all_blobs (k : backend) (w : workdir) : list blob :=
  concat (map snd (map_to_list (k_packs k))) ++ concat (map snd (map_to_list (w_packs w))).
Lemma all_blobs_in k w b : b ∈ all_blobs k w <-> exists p bs, (k_packs k !! p = Some bs \/ w_packs w !! p = Some bs) /\ b ∈ bs.
Proof.
  unfold all_blobs. rewrite elem_of_app, !elem_of_concat. split.
  - intros [(bs & Hb & Hx)|(bs & Hb & Hx)]; change (map snd ?l) with (snd <$> l) in Hx; apply elem_of_list_fmap in Hx as ([p bs'] & -> & Hx);
      apply elem_of_map_to_list in Hx; exists p, bs'; auto.
  - intros (p & bs & [E|E] & Hb); apply elem_of_map_to_list in E; [left|right]; exists bs; (split; [done|]); change (map snd ?l) with (snd <$> l);
      apply elem_of_list_fmap; exists (p, bs); done.
Qed.
Lemma all_blobs_U k w : packs_from H U (k_packs k) -> packs_from H U (w_packs w) -> Forall U (all_blobs k w).
Proof.
  intros Hk Hw. apply Forall_forall. intros b (p & bs & [E|E] & Hb)%all_blobs_in; [apply Hk in E|apply Hw in E]; destruct E as [_ HF]; by eapply Forall_forall in HF.
Qed.

(** The blobs of a plan: chunks of genuine directories, and directories. *)
Lemma plan_genuine (filter : bytes -> bool) (chunk : oid -> bytes) on_chunk (good : oid -> Prop) fuel forests packed :
  (forall sn fo, (sn, fo) ∈ forests -> genuine_forest H U fo) ->
  (forall c s s', on_chunk c s = Ok s' -> c ∈ bs_packed s \/ good c) ->
  (forall c, good c -> U (mkBlob Chunk c (chunk c))) ->
  (forall b, b ∈ rplan_all H filter chunk fuel forests -> b_type b = Tree -> U b) ->
  (forall x, x ∈ packed -> exists b, U b /\ b_id b = x /\ (b_type b = Chunk -> b_bytes b = chunk x)) ->
  accepted on_chunk (mkBstate packed []) (rplan_all H filter chunk fuel forests) ->
  Forall U (rplan_all H filter chunk fuel forests).
Proof.
  intros Hfo Hon Hgood Htree Hpacked Ha.
  assert (forall b, b ∈ rplan_all H filter chunk fuel forests -> b_type b = Chunk ->
    exists c t, b = mkBlob Chunk c (chunk c) /\ c ∈ tree_chunks t /\ tree_sane t /\ U (tree_blob H t)) as Hshape.
  { intros b Hb Et. unfold rplan_all in Hb. apply elem_of_concat in Hb as (l & Hb & Hl). change (map ?f ?l) with (f <$> l) in Hl.
    apply elem_of_list_fmap in Hl as ([sn fo] & -> & Hx). cbn [fst snd] in Hb.
    destruct (rplan H filter chunk fo fuel [] (sn_tree sn)) as [[r bs]|] eqn:Er; [|by apply elem_of_nil in Hb].
    pose proof (Hfo _ _ Hx) as Hg.
    pose proof (rplan_shape H filter chunk fo _ _ _ _ _ Hlen (fun id t E => proj1 (Hg id t E)) Er) as HF.
    eapply Forall_forall in HF; [|exact Hb]. destruct HF as [(i & t & c & Ei & Hc & ->)|(t & _ & ->)]; [|done].
    exists c, t. destruct (Hg i t Ei) as (? & _ & ?). done. }
  set (K := fun b => U b /\ (b_type b = Chunk -> b_bytes b = chunk (b_id b))).
  assert (Forall K (rplan_all H filter chunk fuel forests)) as HK; [|eapply Forall_impl; [exact HK|intros b [? _]; done]].
  apply (accepted_genuine H K on_chunk good (mkBstate packed [])); [done| | | | |done].
  - intros b Hb Et. split; [by apply Htree|]. by rewrite Et.
  - intros b Hb Et Hg. destruct (Hshape b Hb Et) as (c & t & -> & _). split; [by apply Hgood|done].
  - intros b x Hb Et Eid [HUx Hx]. destruct (Hshape b Hb Et) as (c & t & -> & Hc & Hs & HUt). cbn in Eid.
    assert (b_type x = Chunk) as Etx by (by eapply (Hty (tree_blob H t) t c x)).
    split; [|done]. specialize (Hx Etx). rewrite <-Eid in Hx. destruct x as [tx ix bx]. cbn in *. by subst.
  - intros x Hx. destruct (Hpacked x Hx) as (b & HUb & <- & Hb). exists b. done.
Qed.

Lemma packed_known k w start x : sound H U k -> own_leftovers H U k w ->
  ((w_wip w = None /\ start = index_default) \/ w_wip w = Some start) ->
  x ∈ flat_ids (live_packs k) \/ x ∈ flat_ids (ix_packs start) -> exists b, b ∈ all_blobs k w /\ b_id b = x.
Proof.
  intros Hk [_ Hw] Hst [Hx|Hx].
  - apply (live_blob_flat H U HU Hlen k _ (sound_structured _ _ _ Hk)) in Hx as (b & Hb & <-). exists b. split; [|done].
    apply elem_of_live_blobs in Hb as (p & m & bs & _ & E & Hb). apply all_blobs_in. exists p, bs. auto.
  - destruct Hst as [[_ ->]|Ew]; [by apply elem_of_nil in Hx|]. rewrite Ew in Hw. destruct Hw as (_ & _ & _ & Hp).
    apply elem_of_flat_ids in Hx as (p & m & e & Hm & He & <-). destruct (Hp p m Hm) as (bs & Eb & <-).
    change (manifest_of bs) with (entry_of <$> bs) in He. apply elem_of_list_fmap in He as (b & -> & Hb). exists b. split; [|done].
    apply all_blobs_in. exists p, bs. split; [|done]. tauto.
Qed.

(** *** Copying *)

Lemma copy_adding_any filter src chosen fuel forests k w c :
  (forall p bs, k_packs src !! p = Some bs -> Forall U bs) ->
  sound H U k -> own_leftovers H U k w ->
  copy_command H false filter src chosen fuel forests k w c ->
  (forall chunk b, b ∈ rplan_all H filter chunk fuel forests -> b_type b = Tree -> U b) ->
  exists planned sns, Forall U planned /\ adds H k w c planned sns /\
    Forall2 (fun sn sn' =>
      sn' = mkSnapshot (sn_time sn) (sn_tz sn) (sn_author sn) (sn_tags sn) (sn_paths sn) (sn_tree sn') /\
      ((forall p, filter p = true) -> sn' = sn)) chosen sns.
Proof.
  intros Hsrc Hk Hw (sx & sbm & ix & start & ups & packed & s & sns & Esx & Esb & Ef & Eix & Hres & Erw & ->) Htree.
  destruct (load_forests_inv _ _ _ _ _ _ Ef) as [<- HF].
  set (chunk := fun c => match read_chunk src sbm c with Ok x => x | _ => chunk_of (store_of (all_blobs k w)) c end).
  assert (forall sn fo, (sn, fo) ∈ forests -> genuine_forest H U fo) as Hg.
  { intros sn fo Hx. eapply Forall_forall in HF; [|exact Hx]. by eapply (genuine_load H U HU Hlen src sbm Hsrc). }
  destruct (rewrite_snapshots_did H filter chunk (repack_chunk src sx sbm) fuel forests (mkBstate packed []) s sns) as (-> & Ha & HF2); [| |done|].
  { intros c0 s0 s1 E. unfold repack_chunk in E. unfold send_new. cbn [b_id]. destruct (decide (c0 ∈ bs_packed s0)) as [Hin|Hin].
    - apply rbind_ok in E as (n & _ & E). by injection E as <-.
    - apply rbind_ok in E as (x & Ex & E). injection E as <-. unfold send_new. cbn [b_id]. rewrite decide_False by done. unfold chunk. by rewrite Ex. }
  { intros sn fo id t Hx Et. destruct (Hg _ _ Hx id t Et) as ([(_ & _ & ?) _] & _). done. }
  destruct (resume_ok H U HU Hlen k w ix start ups packed Hk Hw Eix Hres) as (R1 & R2 & R3 & R4 & R5 & R6).
  assert (Forall U (rplan_all H filter chunk fuel forests)) as HpU.
  { apply (plan_genuine filter chunk (repack_chunk src sx sbm) (fun c => exists x, read_chunk src sbm c = Ok x) fuel forests packed); [done| | |by apply Htree| |done].
    - intros c0 s0 s1 E. unfold repack_chunk in E. destruct (decide (c0 ∈ bs_packed s0)) as [Hin|Hin]; [by left|right].
      apply rbind_ok in E as (x & Ex & _). by exists x.
    - intros c0 [x Ex]. unfold chunk. rewrite Ex. by eapply (genuine_chunk H U HU Hlen src sbm Hsrc).
    - intros x Hx. apply R5 in Hx. destruct (packed_known k w start x Hk Hw R3 Hx) as (b & Hb & <-).
      pose proof (all_blobs_U k w (so_packs _ _ _ Hk) (proj1 Hw)) as HUa. pose proof HUa as HUb. eapply Forall_forall in HUb; [|exact Hb].
      exists b. split; [done|]. split; [done|]. intros Et. unfold chunk. destruct (read_chunk src sbm (b_id b)) as [y| |] eqn:Ey.
      + pose proof (genuine_chunk H U HU Hlen src sbm Hsrc _ _ Ey) as HUy.
        by rewrite (un_inj _ _ HU b _ HUb HUy eq_refl).
      + unfold chunk_of. by rewrite (store_of_lookup U _ _ (un_inj _ _ HU) HUa Hb).
      + unfold chunk_of. by rewrite (store_of_lookup U _ _ (un_inj _ _ HU) HUa Hb). }
  exists (rplan_all H filter chunk fuel forests), sns. split; [done|]. split.
  - exists start, ups, packed. split_and!; try done. intros st' _ Hst' sn' Hsn'. apply elem_of_list_lookup in Hsn' as [j Hj].
    eapply Forall2_lookup_r in HF2 as ([sn fo] & Hx & bs & Er & _); [|exact Hj]. cbn [fst snd] in Er.
    assert (forall b, b ∈ bs -> b ∈ rplan_all H filter chunk fuel forests) as Hsub.
    { intros b Hb. eapply (elem_of_rplan_all _ _ _ _ _ (sn, fo)); [by eapply elem_of_list_lookup_2|exact Er|done]. }
    destruct (all_present st' bs) as [P1 P2].
    { apply Forall_forall. intros b Hb. eapply Forall_forall in HpU; [exact HpU|]. by apply Hsub. }
    { intros b Hb. by apply Hst', Hsub. }
    eapply (rplan_complete H filter chunk fo st' fuel [] (sn_tree sn) _ bs Hlen); [|exact Er|exact P1|exact P2].
    intros id t Et. by destruct (Hg sn fo (elem_of_list_lookup_2 _ _ _ Hx) id t Et) as [? _].
  - apply Forall2_fmap_l. eapply Forall2_impl; [apply (Forall2_with _ _ _ HF2)|].
    intros [sn fo] sn' [Hx (bs & Er & Esn)]. cbn [fst snd] in *. split; [done|]. intros Hf.
    destruct (rplan_same H filter chunk fo _ _ _ _ _ Hf (fun id t Et => proj1 (proj2 (Hg _ _ Hx id t Et))) Er) as [Eq _].
    rewrite Esn, Eq. by destruct sn.
Qed.

(** *** Filtering *)

Lemma filter_adding_any filter target meta fuel fo k w c :
  sound H U k -> own_leftovers H U k w -> w_wip w = None ->
  filter_command H false filter target meta fuel fo k c ->
  (forall chunk b, b ∈ rplan_all H filter chunk fuel [(target, fo)] -> b_type b = Tree -> U b) ->
  exists root planned sns, Forall U planned /\ adds H k w c planned sns /\
    sns = (if bool_decide (root = sn_tree target) then [] else
      [match meta with
       | None => mkSnapshot (sn_time target) (sn_tz target) (sn_author target) (sn_tags target) (sn_paths target) root
       | Some (author, tags, now, tz) => mkSnapshot now tz author tags (sn_paths target) root
       end]).
Proof.
  intros Hk Hw Hwip (ix & bmap & packed & s & root & Eix & Ebm & Ef & Epk & Erw & ->) Htree.
  pose proof (sound_structured _ _ _ Hk) as Hst.
  destruct (sound_maps H U HU Hlen k Hk) as (ix' & bmap' & pk & E1 & E2 & E3 & Hpk).
  rewrite Eix in E1. injection E1 as <-. rewrite Epk in E3. injection E3 as <-. clear bmap' E2.
  assert (genuine_forest H U fo) as Hg.
  { eapply (genuine_load H U HU Hlen k bmap); [|exact Ef]. intros p bs E. by apply (so_packs _ _ _ Hk) in E as [_ ?]. }
  set (chunk := chunk_of (repo_store k)).
  destruct (rewrite_did H filter chunk fo check_chunk) with (fuel := fuel) (path := @nil Byte.byte) (id := sn_tree target) (s := mkBstate packed []) (s' := s) (id' := root)
    as (bs & Er & -> & Ha); [| |done|].
  { intros c0 s0 s1 E. unfold check_chunk in E. apply rbind_ok in E as (? & En & E). injection E as <-. unfold ensure in En.
    destruct (bool_decide (c0 ∈ bs_packed s0)) eqn:Eb; [|done]. apply bool_decide_eq_true in Eb. unfold send_new. cbn [b_id]. by rewrite decide_True. }
  { intros id t Et. by destruct (Hg id t Et) as ([(_ & _ & ?) _] & _). }
  assert (rplan_all H filter chunk fuel [(target, fo)] = bs) as Ebs.
  { unfold rplan_all. cbn [map concat fst snd]. rewrite Er. apply app_nil_r. }
  assert (Forall U bs) as HpU.
  { rewrite <-Ebs. apply (plan_genuine filter chunk check_chunk (fun _ => False) fuel [(target, fo)] packed); [| |done|by apply Htree| |by rewrite Ebs].
    - intros sn fo' Hx. apply elem_of_list_singleton in Hx. by injection Hx as -> ->.
    - intros c0 s0 s1 E. left. unfold check_chunk in E. apply rbind_ok in E as (? & En & E). unfold ensure in En.
      destruct (bool_decide (c0 ∈ bs_packed s0)) eqn:Eb; [|done]. by apply bool_decide_eq_true in Eb.
    - intros x Hx. apply Hpk in Hx. apply (live_blob_flat H U HU Hlen k _ Hst) in Hx as (b & Hb & <-).
      pose proof (live_blobs_U H U HU k (so_packs _ _ _ Hk)) as HUa. eapply Forall_forall in HUa; [|exact Hb].
      exists b. split; [done|]. split; [done|]. intros Et. unfold chunk, chunk_of. destruct b as [ty i x]. cbn in *.
      apply (repo_store_lookup H U HU) in Hb; [|apply Hk]. by rewrite Hb. }
  eexists root, bs, _. split; [done|]. split; [|reflexivity].
  exists index_default, [], packed. split_and!; try done.
  - f_equal. case_bool_decide; [done|]. by destruct meta as [[[[]]]|].
  - by left.
  - simpl. rewrite app_nil_r. apply Hk.
  - intros x. rewrite Hpk. simpl. split; [by left|]. intros [?|Hx]; [done|]. by apply elem_of_nil in Hx.
  - simpl. intros p m Hp. by apply elem_of_nil in Hp.
  - intros st' _ Hst' sn Hsn. destruct (all_present st' bs HpU Hst') as [P1 P2].
    destruct (rplan_complete H filter chunk fo st' fuel [] (sn_tree target) root bs Hlen (fun id t Et => proj1 (Hg id t Et)) Er P1 P2) as [es Hes].
    exists es. case_bool_decide; [by apply elem_of_nil in Hsn|]. apply elem_of_list_singleton in Hsn as ->. by destruct meta as [[[[]]]|].
Qed.

(** *** Pruning *)

Lemma prune_complete dry k w c : sound H U k -> w_wip w = None -> prune_command H dry k w (Some c) ->
  forall i sn, k_snaps k !! i = Some sn -> snapshot_complete H k sn.
Proof.
  intros Hk Hwip (ix & bmap & snaps & fuel & forests & Eix & Ebm & Hch & Ef & Hc) i sn Hi. cbv zeta in Hc.
  destruct (decide _) as [|_] in Hc; [done|]. destruct Hc as (start & ups & packed & s & sns & Hst0 & Erw & _).
  pose proof (sound_structured _ _ _ Hk) as Hst.
  destruct (master_ok H U HU k Hst) as (ix' & E & Hs & Hp). rewrite Eix in E. injection E as <-.
  destruct (load_forests_inv _ _ _ _ _ _ Ef) as [Efs HF].
  assert (forall p bs, k_packs k !! p = Some bs -> Forall U bs) as Hsrc by (intros p bs E; by apply (so_packs _ _ _ Hk) in E as [_ ?]).
  assert (forall sn fo, (sn, fo) ∈ forests -> genuine_forest H U fo /\ forall id t, fo !! id = Some t -> stored_as H (repo_store k) id t) as Hg.
  { intros sn0 fo Hx. eapply Forall_forall in HF; [|exact Hx]. split; [by eapply (genuine_load H U HU Hlen k bmap Hsrc)|].
    by destruct (load_forest_ok H U HU k Hst ix bmap Eix Ebm _ _ _ HF) as (_ & ? & _). }
  set (chunk := chunk_of (repo_store k)).
  destruct (rewrite_snapshots_did H (fun _ => true) chunk (repack_chunk k ix bmap) fuel forests (mkBstate packed []) s sns) as (_ & Ha & HF2); [| |done|].
  { intros c0 s0 s1 E. unfold repack_chunk in E. unfold send_new. cbn [b_id]. destruct (decide (c0 ∈ bs_packed s0)) as [Hin|Hin].
    - apply rbind_ok in E as (n & _ & E). by injection E as <-.
    - apply rbind_ok in E as (x & Ex & E). injection E as <-. unfold send_new. cbn [b_id]. rewrite decide_False by done.
      apply (read_chunk_spec H U HU k Hst ix bmap Eix Ebm) in Ex. unfold chunk, chunk_of. by rewrite Ex. }
  { intros sn0 fo id t Hx Et. destruct (Hg _ _ Hx) as [Hg0 _]. destruct (Hg0 id t Et) as ([(_ & _ & ?) _] & _). done. }
  assert (forall x, x ∈ packed -> exists b, b ∈ live_blobs k /\ b_id b = x) as Hpacked.
  { intros x Hx. apply (live_blob_flat H U HU Hlen k _ Hst). unfold prune_start in Hst0.
    assert (resumable k w) as Hr by (unfold resumable; by rewrite Hwip).
    rewrite (resumable_found k w Hr), Hwip in Hst0. apply rbind_ok in Hst0 as (pk & Epk & E). cbn in E. injection E as _ _ <-.
    set (new := mkIndex _ (List.filter (pack_in_use (reachable_blobs forests)) (ix_packs ix))) in Epk.
    assert (NoDup (blob_ids new)) as Hnd.
    { rewrite <-flat_blob_ids. apply once_nodup.
      - apply om_sorted_nodup. apply om_sorted_filter, Hs.
      - eapply once_sub; [|apply (so_once _ _ _ Hk)]. intros p m Hm. apply Hp. cbn in Hm. apply elem_of_list_In, filter_In in Hm as [Hm _]. by apply elem_of_list_In. }
    destruct (proj1 (C11_lookup_maps new) Hnd) as (mp & st & sz & _ & E2 & _ & _ & Hstm & _). rewrite Epk in E2. injection E2 as <-.
    apply Hstm in Hx as (p & n & m & e & Hm & He & <- & _). apply elem_of_flat_ids. exists p, m, e. split; [|done]. apply Hp. cbn in Hm.
    apply elem_of_list_In, filter_In in Hm as [Hm _]. by apply elem_of_list_In. }
  set (K := fun b => b_type b = Chunk -> repo_store k !! b_id b = Some (Chunk, chunk (b_id b))).
  assert (forall b, b ∈ rplan_all H (fun _ => true) chunk fuel forests ->
    (exists c0 t, b = mkBlob Chunk c0 (chunk c0) /\ c0 ∈ tree_chunks t /\ tree_sane t /\ U (tree_blob H t)) \/
    (exists t, b = tree_blob H t /\ tree_sane t /\ U (tree_blob H t) /\ stored_as H (repo_store k) (tree_id H t) t)) as Hshape.
  { intros b Hb. unfold rplan_all in Hb. apply elem_of_concat in Hb as (l & Hb & Hl). change (map ?f ?l) with (f <$> l) in Hl.
    apply elem_of_list_fmap in Hl as ([sn0 fo] & -> & Hx). cbn [fst snd] in Hb.
    destruct (rplan H (fun _ => true) chunk fo fuel [] (sn_tree sn0)) as [[r bs]|] eqn:Er; [|by apply elem_of_nil in Hb].
    destruct (Hg _ _ Hx) as [Hg0 Hst1].
    destruct (rplan_same H (fun _ => true) chunk fo _ _ _ _ _ (fun _ => eq_refl) (fun id t Et => proj1 (proj2 (Hg0 id t Et))) Er) as [_ HFs].
    eapply Forall_forall in HFs; [|exact Hb]. destruct HFs as [(j & t & c0 & Et & Hc0 & ->)|(j & t & Et & ->)].
    - left. exists c0, t. destruct (Hg0 j t Et) as (? & _ & ?). done.
    - right. exists t. destruct (Hg0 j t Et) as (? & -> & ?). split; [done|]. split; [done|]. split; [done|]. by apply Hst1. }
  assert (Forall K (rplan_all H (fun _ => true) chunk fuel forests)) as HK.
  { set (K' := fun b => (U b /\ b_type b = Tree) \/ (b_type b = Chunk /\ repo_store k !! b_id b = Some (Chunk, chunk (b_id b)))).
    assert (Forall K' (rplan_all H (fun _ => true) chunk fuel forests)) as HK'.
    - apply (accepted_genuine H K' (repack_chunk k ix bmap) (fun c => exists x, read_chunk k bmap c = Ok x) (mkBstate packed [])); [| | | | |done].
      + intros c0 s0 s1 E. unfold repack_chunk in E. destruct (decide (c0 ∈ bs_packed s0)) as [Hin|Hin]; [by left|right].
        apply rbind_ok in E as (x & Ex & _). by exists x.
      + intros b Hb Et. left. destruct (Hshape b Hb) as [(c0 & t & -> & _)|(t & -> & _ & ? & _)]; [done|done].
      + intros b Hb Et [x Ex]. right. split; [done|]. apply (read_chunk_spec H U HU k Hst ix bmap Eix Ebm) in Ex. unfold chunk, chunk_of. by rewrite Ex.
      + intros b x Hb Et Eid Hx. destruct (Hshape b Hb) as [(c0 & t & -> & Hc0 & Hs0 & HUt)|(t & -> & _)]; [|done]. right. split; [done|].
        destruct Hx as [[HUx Etx]|[_ Hx]]; [|by rewrite Eid]. cbn in Eid.
        assert (b_type x = Chunk) by (by eapply (Hty (tree_blob H t) t c0 x)). congruence.
      + intros x Hx. destruct (Hpacked x Hx) as (b & Hb & <-). exists b. split; [|done].
        pose proof (live_blobs_U H U HU k (so_packs _ _ _ Hk)) as HUa. eapply Forall_forall in HUa; [|exact Hb].
        destruct (b_type b) eqn:Et; [right|by left]. split; [done|]. destruct b as [ty j y]. cbn in *. subst ty.
        apply (repo_store_lookup H U HU) in Hb; [|apply Hk]. unfold chunk, chunk_of. by rewrite Hb.
    - eapply Forall_impl; [exact HK'|]. intros b [[_ Et]|[_ Hb]] Et'; [congruence|done]. }
  assert ((sn, i) ∈ snaps) as Hin.
  { destruct Hch as [Hperm _]. rewrite <-Hperm. apply elem_of_list_fmap. exists (i, sn). split; [done|]. by apply elem_of_map_to_list. }
  assert (sn ∈ map fst forests) as Hsn. { rewrite Efs. change (map fst ?l) with (fst <$> l). apply elem_of_list_fmap. by exists (sn, i). }
  change (map fst ?l) with (fst <$> l) in Hsn. apply elem_of_list_fmap in Hsn as ([sn' fo] & Esn & Hx). cbn in Esn. subst sn'.
  apply elem_of_list_lookup in Hx as [j Hj]. eapply Forall2_lookup_l in HF2 as (sn' & _ & bs & Er & _); [|exact Hj]. cbn [fst snd] in Er.
  apply elem_of_list_lookup_2 in Hj. destruct (Hg _ _ Hj) as [Hg0 _].
  destruct (rplan_same H (fun _ => true) chunk fo _ _ _ _ _ (fun _ => eq_refl) (fun id t Et => proj1 (proj2 (Hg0 id t Et))) Er) as [Eq _].
  assert (forall b, b ∈ bs -> b ∈ rplan_all H (fun _ => true) chunk fuel forests) as Hsub.
  { intros b Hb. by eapply (elem_of_rplan_all _ _ _ _ _ (sn, fo)). }
  destruct (rplan_complete H (fun _ => true) chunk fo (repo_store k) fuel [] (sn_tree sn) _ bs Hlen (fun id t Et => proj1 (Hg0 id t Et)) Er) as [es Hes].
  - intros b Hb Et. pose proof HK as HKb. eapply Forall_forall in HKb; [|by apply Hsub]. rewrite (HKb Et).
    destruct (Hshape b (Hsub b Hb)) as [(c0 & t & -> & _)|(t & -> & _)]; [done|done].
  - intros t Ht Hsane. destruct (Hshape _ (Hsub _ Ht)) as [(c0 & t' & E & _)|(t' & E & Hs' & _ & Hst')]; [done|].
    assert (t = t') as ->; [|done]. injection E as _ Ee. destruct Hsane as [Hw1 _], Hs' as [Hw2 _].
    pose proof (dec_enc_tree t [] Hw1) as D1. pose proof (dec_enc_tree t' [] Hw2) as D2. rewrite !app_nil_r in D1, D2. rewrite Ee, D2 in D1. by injection D1.
  - exists es. unfold restores. by rewrite <-Eq.
Qed.
End commands.
