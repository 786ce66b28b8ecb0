(** Facts about rewriting stored trees. *)

From Verif Require Import Base OMap Cbor Formats FormatsFacts Hashing Pack Index Meta Forest ForestFacts
  FsTree FsSpec FsFacts BackupFacts PropsBackup Pipeline Repo RepoSpec.

Lemma bs_packed_send s b : bs_packed s ⊆ bs_packed (send_new s b).
Proof. unfold send_new. destruct (decide _); simpl; set_solver. Qed.

Lemma bs_packed_sends bs s : bs_packed s ⊆ bs_packed (foldl send_new s bs).
Proof.
  revert s. induction bs as [|b bs IH]; intros s; simpl; [done|]. etrans; [apply bs_packed_send|apply IH].
Qed.

Lemma collect_sorted {A B} (f : bytes * A -> option B) (l : list (bytes * A)) : om_sorted l -> om_sorted (collect fst f l).
Proof.
  induction l as [|[k a] l IH]; cbn [collect]; [done|]. simpl om_sorted at 1. intros [Hall Hs].
  destruct (f (k, a)) as [b|]; [|by apply IH]. simpl. split; [|by apply IH].
  apply Forall_forall. intros [k' b'] (x & Hx & <- & _)%collect_elem. simpl.
  eapply Forall_forall in Hall; [|exact Hx]. done.
Qed.

Lemma sorted_names {A B} (l1 : list (bytes * A)) (l2 : list (bytes * B)) (R : A -> B -> Prop) :
  Forall2 (fun a b => a.1 = b.1 /\ R a.2 b.2) l1 l2 -> om_sorted l1 -> om_sorted l2.
Proof.
  induction 1 as [|[k a] [k' b] l1 l2 [Hk Hr] HF IH]; [done|]. simpl in Hk. subst k'. simpl. intros [Hall Hs].
  split; [|by apply IH]. clear -Hall HF. induction HF as [|[x a'] [y b'] l1 l2 [Hx _] HF IH]; [done|].
  apply Forall_cons in Hall as [Hl Hall]. simpl in *. subst y. constructor; [done|by apply IH].
Qed.

Section plan.
Variables (H : bytes -> oid) (filter : bytes -> bool) (chunk : oid -> bytes) (fo : forest).
Local Set Default Proof Using "All".

(** ** The walk does what the plan says *)

Section walk.
Variable on_chunk : oid -> bstate -> result bstate.
Variable packed0 : gset oid.
Hypothesis Hchunk : forall id t c s, fo !! id = Some t -> c ∈ tree_chunks t -> packed0 ⊆ bs_packed s ->
  on_chunk c s = Ok (send_new s (mkBlob Chunk c (chunk c))).
Hypothesis Hsorted : forall id t, fo !! id = Some t -> om_sorted t.

Lemma rfold_chunks id t cs s : fo !! id = Some t -> (forall c, c ∈ cs -> c ∈ tree_chunks t) -> packed0 ⊆ bs_packed s ->
  rfold on_chunk cs s = Ok (foldl send_new s (map (fun c => mkBlob Chunk c (chunk c)) cs)).
Proof.
  intros Et. revert s. induction cs as [|c cs IH]; intros s Hc Hs; simpl; [done|].
  rewrite (Hchunk id t) by (try done; apply Hc; by left). simpl. apply IH.
  - intros c' Hc'. apply Hc. by right.
  - etrans; [exact Hs|apply bs_packed_send].
Qed.

Definition follows (r : option (result (bstate * oid))) (p : option (oid * list blob)) (s : bstate) : Prop :=
  match p with
  | Some (id', bs) => r = Some (Ok (foldl send_new s bs, id'))
  | None => forall x, r <> Some (Ok x)
  end.

Lemma rewrite_nodes_plan id t rec prec path l s acc :
  fo !! id = Some t -> (exists l0, t = l0 ++ l) ->
  (forall p sub s, packed0 ⊆ bs_packed s -> follows (rec p sub s) (prec p sub) s) ->
  packed0 ⊆ bs_packed s -> Forall (fun a : bytes * node => Forall (fun b : bytes * node => bytes_lt a.1 b.1) l) acc ->
  match rplan_nodes filter chunk prec path l with
  | Some lp => rewrite_nodes filter on_chunk rec path l s acc =
      Some (Ok (foldl send_new s (concat (map (fun x => x.2.2) lp)), acc ++ rplan_tree lp))
  | None => forall x, rewrite_nodes filter on_chunk rec path l s acc <> Some (Ok x)
  end.
Proof.
  intros Et Hl Hrec. pose proof (Hsorted id t Et) as Hso. revert s acc Hl.
  induction l as [|[name nd] l IH]; intros s acc [l0 Hl] Hs Hacc; simpl; [by rewrite app_nil_r|].
  assert (exists l1, t = l1 ++ l) as Hl' by (exists (l0 ++ [(name, nd)]); by rewrite <-app_assoc).
  assert (Forall (fun b : bytes * node => bytes_lt name b.1) l) as Hlt.
  { rewrite Hl in Hso. clear -Hso. induction l0 as [|[k v] l0 IH]; simpl in Hso; tauto. }
  assert (Forall (fun a : bytes * node => Forall (fun b : bytes * node => bytes_lt a.1 b.1) l) acc) as Hacc1.
  { eapply Forall_impl; [exact Hacc|]. intros a Ha. by apply Forall_cons in Ha as [_ ?]. }
  destruct (filter (join path name)); simpl; [|by apply IH].
  assert (Forall (fun a : bytes * node => bytes_lt a.1 name) acc) as Hname.
  { eapply Forall_impl; [exact Hacc|]. intros a Ha. by apply Forall_cons in Ha as [? _]. }
  assert (om_get name acc = None) as ->.
  { clear -Hname. induction acc as [|[k v] acc IHa]; simpl; [done|]. apply Forall_cons in Hname as [Hk Hr].
    simpl in Hk. unfold bytes_lt in Hk. rewrite bytes_cmp_antisym, Hk. simpl. by apply IHa. }
  assert (forall s' nd', packed0 ⊆ bs_packed s' ->
    match rplan_nodes filter chunk prec path l with
    | Some lp => rewrite_nodes filter on_chunk rec path l s' (om_insert name nd' acc) =
        Some (Ok (foldl send_new s' (concat (map (fun x => x.2.2) lp)), acc ++ (name, nd') :: rplan_tree lp))
    | None => forall x, rewrite_nodes filter on_chunk rec path l s' (om_insert name nd' acc) <> Some (Ok x)
    end) as Hgo.
  { intros s' nd' Hs'. rewrite om_insert_last by done.
    specialize (IH s' (acc ++ [(name, nd')]) Hl' Hs').
    destruct (rplan_nodes filter chunk prec path l) as [lp|].
    - rewrite IH; [by rewrite <-app_assoc|]. apply Forall_app. split; [done|]. by repeat constructor.
    - apply IH. apply Forall_app. split; [done|]. by repeat constructor. }
  destruct (n_contents nd) as [cs|sub|tg] eqn:En.
  - rewrite (rfold_chunks id t); [|done| |done].
    2: { intros c Hc. rewrite Hl. unfold tree_chunks. rewrite map_app, concat_app. apply elem_of_app. right.
      simpl. apply elem_of_app. left. unfold node_chunks. by rewrite En. }
    specialize (Hgo (foldl send_new s (map (fun c => mkBlob Chunk c (chunk c)) cs)) nd).
    destruct (rplan_nodes filter chunk prec path l) as [lp|].
    + rewrite Hgo by (etrans; [exact Hs|apply bs_packed_sends]). simpl. by rewrite foldl_app.
    + apply Hgo. etrans; [exact Hs|apply bs_packed_sends].
  - specialize (Hrec (join path name) sub s Hs). unfold follows in Hrec.
    destruct (prec (join path name) sub) as [[id' bs]|].
    + rewrite Hrec. specialize (Hgo (foldl send_new s bs) (mkNode (CDir id') (n_meta nd))).
      destruct (rplan_nodes filter chunk prec path l) as [lp|].
      * rewrite Hgo by (etrans; [exact Hs|apply bs_packed_sends]). simpl. by rewrite foldl_app.
      * apply Hgo. etrans; [exact Hs|apply bs_packed_sends].
    + destruct (rec (join path name) sub s) as [[sx| |]|]; try done. by destruct (Hrec sx).
  - specialize (Hgo s nd Hs). destruct (rplan_nodes filter chunk prec path l) as [lp|]; [|done].
    rewrite Hgo. done.
Qed.

Lemma rewrite_plan fuel path id s : packed0 ⊆ bs_packed s ->
  follows (rewrite_tree H filter on_chunk fo fuel path id s) (rplan H filter chunk fo fuel path id) s.
Proof.
  revert path id s. induction fuel as [|fuel IH]; intros path id s Hs; simpl; [done|].
  destruct (fo !! id) as [t|] eqn:Et; [|done].
  pose proof (rewrite_nodes_plan id t (rewrite_tree H filter on_chunk fo fuel) (rplan H filter chunk fo fuel) path t s []
    Et (ex_intro _ [] eq_refl) IH Hs (Forall_nil_2 _)) as Hn.
  destruct (rplan_nodes filter chunk (rplan H filter chunk fo fuel) path t) as [lp|]; simpl.
  - rewrite Hn. simpl. by rewrite foldl_app.
  - destruct (rewrite_nodes _ _ _ _ _ _ _) as [[sx| |]|]; try done. by destruct (Hn sx).
Qed.
End walk.

(** ** What the plan is *)

Lemma rplan_nodes_sub rec path l lp : rplan_nodes filter chunk rec path l = Some lp ->
  Forall (fun x => exists nd, (x.1, nd) ∈ l /\ filter (join path x.1) = true /\
    match n_contents nd with
    | CFile cs => x.2 = (nd, map (fun c => mkBlob Chunk c (chunk c)) cs)
    | CSymlink _ => x.2 = (nd, [])
    | CDir sub => exists id bs, rec (join path x.1) sub = Some (id, bs) /\ x.2 = (mkNode (CDir id) (n_meta nd), bs)
    end) lp.
Proof.
  revert lp. induction l as [|[name nd] l IH]; intros lp E; cbn [rplan_nodes] in E; [by injection E as <-|].
  assert (forall lp', rplan_nodes filter chunk rec path l = Some lp' ->
    Forall (fun x => exists nd0, (x.1, nd0) ∈ (name, nd) :: l /\ filter (join path x.1) = true /\
    match n_contents nd0 with
    | CFile cs => x.2 = (nd0, map (fun c => mkBlob Chunk c (chunk c)) cs)
    | CSymlink _ => x.2 = (nd0, [])
    | CDir sub => exists id bs, rec (join path x.1) sub = Some (id, bs) /\ x.2 = (mkNode (CDir id) (n_meta nd0), bs)
    end) lp') as IH'.
  { intros lp' E'. eapply Forall_impl; [by apply IH|]. intros x (nd0 & H1 & H2). exists nd0. split; [by right|done]. }
  cbv zeta in E. destruct (filter (join path name)) eqn:Ef; cbn [negb] in E; [|by apply IH'].
  destruct (match n_contents nd with CFile _ => _ | _ => _ end) as [x|] eqn:Ex; [|done].
  destruct (rplan_nodes filter chunk rec path l) as [rest|] eqn:Er; [|done]. injection E as <-.
  constructor; [|by apply IH']. exists nd. split; [by left|]. split; [done|]. simpl.
  destruct (n_contents nd) as [cs|sub|tg]; [by injection Ex as <-| |by injection Ex as <-].
  destruct (rec (join path name) sub) as [[id bs]|] eqn:Es; [|done]. injection Ex as <-. eauto.
Qed.

Lemma rplan_nodes_sorted rec path l lp : om_sorted l -> rplan_nodes filter chunk rec path l = Some lp ->
  om_sorted (rplan_tree lp) /\ length lp <= length l.
Proof.
  revert lp. induction l as [|[name nd] l IH]; intros lp Hs E; cbn [rplan_nodes] in E; [by injection E as <-|].
  simpl in Hs. destruct Hs as [Hall Hs]. cbv zeta in E.
  destruct (filter (join path name)); cbn [negb] in E; [|destruct (IH _ Hs E); split; [done|simpl; lia]].
  destruct (match n_contents nd with CFile _ => _ | _ => _ end) as [x|]; [|done].
  destruct (rplan_nodes filter chunk rec path l) as [rest|] eqn:Er; [|done]. injection E as <-.
  destruct (IH _ Hs eq_refl) as [H1 H2]. simpl. split; [|lia]. split; [|done].
  apply Forall_forall. intros kv (y & -> & Hy)%elem_of_list_fmap.
  pose proof (rplan_nodes_sub _ _ _ _ Er) as HF. eapply Forall_forall in HF as (nd' & Hin & _); [|exact Hy].
  eapply Forall_forall in Hall; [|exact Hin]. done.
Qed.

Lemma rplan_inv fuel path id id' bs : rplan H filter chunk fo (S fuel) path id = Some (id', bs) ->
  exists t lp, fo !! id = Some t /\ rplan_nodes filter chunk (rplan H filter chunk fo fuel) path t = Some lp /\
    id' = tree_id H (rplan_tree lp) /\ bs = concat (map (fun x => x.2.2) lp) ++ [tree_blob H (rplan_tree lp)].
Proof.
  simpl. destruct (fo !! id) as [t|]; [|done].
  destruct (rplan_nodes filter chunk (rplan H filter chunk fo fuel) path t) as [lp|] eqn:E; [|done].
  intros [= <- <-]. eauto 10.
Qed.

Lemma rplan_id_length fuel path id id' bs : (forall x, length (H x) = 28) ->
  rplan H filter chunk fo fuel path id = Some (id', bs) -> length id' = 28.
Proof.
  intros Hlen. destruct fuel as [|fuel]; [done|]. intros (t & lp & _ & _ & -> & _)%rplan_inv. apply Hlen.
Qed.

Lemma rplan_tree_sane fuel path t lp : (forall x, length (H x) = 28) -> tree_sane t ->
  rplan_nodes filter chunk (rplan H filter chunk fo fuel) path t = Some lp -> tree_sane (rplan_tree lp).
Proof.
  intros Hlen [(Hl & Hall & Hso) Hkind] El.
  pose proof (rplan_nodes_sub _ _ _ _ El) as HF.
  destruct (rplan_nodes_sorted _ _ _ _ Hso El) as [Hso' Hlen']. split; [split; [|split; [|done]]|].
  - unfold len_wf, rplan_tree in *. rewrite map_length. lia.
  - apply Forall_map. eapply Forall_impl; [exact HF|]. intros [nm [nd' bs']] (nd & Hin & _ & Hc). simpl in *.
    eapply Forall_forall in Hall as [Hn [Hc1 Hm]]; [|exact Hin]. simpl in *. split; [done|].
    destruct (n_contents nd) as [cs|sub|tg] eqn:En.
    + injection Hc as -> ->. split; [by rewrite En|done].
    + destruct Hc as (i2 & bs2 & Er & [= -> ->]). split; [|done]. simpl. by eapply rplan_id_length.
    + injection Hc as -> ->. split; [by rewrite En|done].
  - apply Forall_map. eapply Forall_impl; [exact HF|]. intros [nm [nd' bs']] (nd & Hin & _ & Hc). simpl in *.
    eapply Forall_forall in Hkind; [|exact Hin]. simpl in Hkind.
    destruct (n_contents nd) as [cs|sub|tg] eqn:En.
    + injection Hc as -> ->. by rewrite En.
    + destruct Hc as (i2 & bs2 & Er & [= -> ->]). simpl in *. done.
    + injection Hc as -> ->. by rewrite En.
Qed.

(** Every blob of the plan is a chunk some tree names or a proper tree. *)
Lemma rplan_shape fuel path id id' bs :
  (forall x, length (H x) = 28) ->
  (forall id t, fo !! id = Some t -> tree_sane t) ->
  rplan H filter chunk fo fuel path id = Some (id', bs) ->
  Forall (fun b => (exists i t c, fo !! i = Some t /\ c ∈ tree_chunks t /\ b = mkBlob Chunk c (chunk c)) \/
                   (exists t, tree_sane t /\ b = tree_blob H t)) bs.
Proof.
  intros Hlen Hsane. revert path id id' bs. induction fuel as [|fuel IH]; intros path id id' bs E; [done|].
  apply rplan_inv in E as (t & lp & Et & El & -> & ->).
  pose proof (rplan_nodes_sub _ _ _ _ El) as HF.
  apply Forall_app. split.
  - apply Forall_concat, Forall_map. eapply Forall_impl; [exact HF|]. intros [nm [nd' bs']] (nd & Hin & _ & Hc). simpl in *.
    destruct (n_contents nd) as [cs|sub|tg] eqn:En; [|destruct Hc as (i2 & bs2 & Er & [= -> ->])|by injection Hc as -> ->].
    + injection Hc as -> ->. apply Forall_forall. intros b (c & -> & Hc)%elem_of_list_fmap. left.
      exists id, t, c. split; [done|]. split; [|done]. unfold tree_chunks. apply elem_of_list_In, in_concat.
      exists cs. split; [|by apply elem_of_list_In]. apply elem_of_list_In, elem_of_list_fmap.
      exists (nm, nd). split; [|done]. simpl. unfold node_chunks. by rewrite En.
    + eapply IH. exact Er.
  - constructor; [|constructor]. right. eexists. split; [|done]. eapply rplan_tree_sane; eauto.
Qed.

Lemma rplan_nodes_reads (st st' : store) rec path t lp es :
  (forall id t, stored_as H st id t -> om_sorted t) ->
  rplan_nodes filter chunk rec path t = Some lp ->
  (forall c x, st !! c = Some (Chunk, x) -> chunk c = x) ->
  (forall b, b ∈ concat (map (fun x => x.2.2) lp) -> st' !! b_id b = Some (b_type b, b_bytes b)) ->
  (forall p sub id bs l, rec p sub = Some (id, bs) ->
     (forall b, b ∈ bs -> b ∈ concat (map (fun x => x.2.2) lp)) -> reads_root H st sub l ->
     reads_root H st' id (collect fst (fun e : bytes * fsnode => kept filter (join p e.1) e.2) l)) ->
  Forall2 (fun (e1 : bytes * node) (e2 : bytes * fsnode) => e1.1 = e2.1 /\ reads H st e1.2 e2.2) t es ->
  Forall2 (fun (e1 : bytes * node) (e2 : bytes * fsnode) => e1.1 = e2.1 /\ reads H st' e1.2 e2.2) (rplan_tree lp)
    (collect fst (fun e : bytes * fsnode => kept filter (join path e.1) e.2) es).
Proof.
  intros Hsane El Hch Hst' Hrec HF. revert lp El Hst' Hrec. induction HF as [|[nm nd] [nm' n] t es [Hn Hr] HF IH]; intros lp El Hst' Hrec.
  { cbn [rplan_nodes] in El. injection El as <-. constructor. }
  simpl in Hn, Hr. subst nm'. cbn [rplan_nodes] in El. cbv zeta in El. cbn [collect]. cbn [fst snd].
  destruct (filter (join path nm)) eqn:Ef; cbn [negb] in El.
  2: { assert (kept filter (join path nm) n = None) as ->; [|by apply IH].
    destruct n; simpl; by rewrite Ef. }
  destruct (match n_contents nd with CFile _ => _ | _ => _ end) as [[nd' bs']|] eqn:Ex; [|done].
  destruct (rplan_nodes filter chunk rec path t) as [rest|] eqn:Er; [|done]. injection El as <-.
  assert (exists n', kept filter (join path nm) n = Some n' /\ reads H st' nd' n') as (n' & -> & Hr').
  { inversion Hr as [m cs parts Hp E1 E2|m tg E1 E2|m id t' es' Hs' HF' E1 E2]; subst nd n; simpl in Ex; simpl; rewrite Ef; simpl.
    - injection Ex as <- <-. eexists. split; [done|]. constructor.
      simpl in Hst'. clear -Hp Hst' Hch. induction Hp as [|c x cs xs Hx Hp IH]; constructor.
      + apply Hch in Hx. rewrite <-Hx. apply (Hst' (mkBlob Chunk c (chunk c))). simpl. by left.
      + apply IH. intros b Hb. apply Hst'. simpl. by right.
    - injection Ex as <- <-. eexists. split; [done|]. constructor.
    - destruct (rec (join path nm) id) as [[i2 bs2]|] eqn:Es; [|done]. injection Ex as <- <-.
      eexists. split; [done|].
      destruct (Hrec _ _ _ _ es' Es) as (t2 & Ht2 & HF2).
      { intros b Hb. simpl. apply elem_of_app. by left. }
      { by exists t'. }
      rewrite om_of_list_sorted by (apply collect_sorted; eapply sorted_names; [exact HF'|by eapply Hsane]).
      by econstructor. }
  constructor; [done|]. apply IH; [done| |].
  - intros b Hb. apply Hst'. simpl. apply elem_of_app. by right.
  - intros p sub id bs l Es Hb. eapply Hrec; [exact Es|]. intros b Hb'. simpl. apply elem_of_app. right. by apply Hb.
Qed.

(** The new tree reads back as the old one, without what the filter rejects. *)
Lemma rplan_reads (st st' : store) fuel path id id' bs es :
  (forall x, length (H x) = 28) ->
  (forall id t, stored_as H st id t -> tree_sane t) ->
  (forall id t, fo !! id = Some t -> stored_as H st id t) ->
  (forall c x, st !! c = Some (Chunk, x) -> chunk c = x) ->
  (forall b, b ∈ bs -> st' !! b_id b = Some (b_type b, b_bytes b) /\
     (b_id b = empty_id H -> b_bytes b = enc_tree [])) ->
  rplan H filter chunk fo fuel path id = Some (id', bs) ->
  reads_root H st id es ->
  reads_root H st' id' (collect fst (fun e : bytes * fsnode => kept filter (join path e.1) e.2) es).
Proof.
  intros Hlen Hsane Hfo Hch. revert path id id' bs es. induction fuel as [|fuel IH]; intros path id id' bs es Hst' E Hr; [done|].
  apply rplan_inv in E as (t & lp & Et & El & -> & ->).
  pose proof (Hfo _ _ Et) as Hst. destruct Hr as (t0 & Ht0 & HF).
  assert (t0 = t) as -> by (by eapply stored_as_fun).
  pose proof (rplan_tree_sane _ _ _ _ Hlen (Hsane _ _ Hst) El) as [Hwf _].
  exists (rplan_tree lp). split.
  { destruct (Hst' (tree_blob H (rplan_tree lp))) as [Hl He]; [apply elem_of_app; right; by left|].
    unfold stored_as. case_decide as Hd.
    - specialize (He Hd). simpl in He. destruct (rplan_tree lp) as [|kv l]; [done|].
      exfalso. by apply (PropsBackup.enc_tree_nonempty kv l).
    - exists (enc_tree (rplan_tree lp)). split; [exact Hl|]. rewrite <-(app_nil_r (enc_tree _)). by apply dec_enc_tree. }
  eapply rplan_nodes_reads; [|exact El|exact Hch| | |exact HF].
  - intros i u Hu. by destruct (Hsane _ _ Hu) as [(_ & _ & ?) _].
  - intros b Hb. apply Hst'. apply elem_of_app. by left.
  - intros p sub i bs l Es Hb Hl. eapply IH; [|exact Es|exact Hl]. intros b Hb'. apply Hst'. apply elem_of_app. left. by apply Hb.
Qed.

(** Enough fuel. *)
Lemma rplan_nodes_total rec path t :
  Forall (fun kv : bytes * node => match n_contents kv.2 with CDir sub => forall p, is_Some (rec p sub) | _ => True end) t ->
  is_Some (rplan_nodes filter chunk rec path t).
Proof.
  induction 1 as [|[nm nd] t Hn HF IH]; cbn [rplan_nodes]; [by eexists|]. cbv zeta.
  destruct (filter (join path nm)); cbn [negb]; [|done]. destruct IH as [rest ->]. simpl in Hn.
  destruct (n_contents nd) as [cs|sub|tg]; [by eexists| |by eexists].
  destruct (Hn (join path nm)) as [[i bs] ->]. by eexists.
Qed.

Fixpoint fs_depth (n : fsnode) : nat :=
  match n with FsDir _ es => S (list_max (map (fun e : bytes * fsnode => fs_depth e.2) es)) | _ => 0 end.

Lemma rplan_total (st : store) fuel path id es :
  (forall id t, fo !! id = Some t -> stored_as H st id t) ->
  (forall id t sub, fo !! id = Some t -> sub ∈ subtrees t -> is_Some (fo !! sub)) ->
  is_Some (fo !! id) -> reads_root H st id es -> list_max (map (fun e : bytes * fsnode => fs_depth e.2) es) < fuel ->
  is_Some (rplan H filter chunk fo fuel path id).
Proof.
  intros Hfo Hclosed. revert path id es. induction fuel as [|fuel IH]; intros path id es [t Et] (t0 & Ht0 & HF) Hd; [lia|].
  assert (t0 = t) as -> by (eapply stored_as_fun; eauto). simpl. rewrite Et.
  destruct (rplan_nodes_total (rplan H filter chunk fo fuel) path t) as [lp ->]; [|by eexists].
  assert (forall sub, sub ∈ subtrees t -> is_Some (fo !! sub)) as Hsub by eauto. clear Hclosed Et Ht0.
  induction HF as [|[nm nd] [nm' n] t es [Hn Hr] HF IHF]; constructor.
  - simpl in *. destruct (n_contents nd) as [cs|sub|tg] eqn:En; [done| |done]. intros p.
    inversion Hr as [| |m i t' es' Hs' HF' E1 E2]; subst; simpl in En; try congruence. injection En as ->.
    eapply (IH p sub es'); [apply Hsub; unfold subtrees; simpl; by left|by exists t'|].
    simpl in Hd. lia.
  - apply IHF; [simpl in Hd; lia|]. intros sub Hs. apply Hsub. unfold subtrees in *. simpl. apply elem_of_app. by right.
Qed.

(** Taking nothing out changes nothing. *)
Lemma rplan_same fuel path id id' bs :
  (forall p, filter p = true) ->
  (forall id t, fo !! id = Some t -> id = tree_id H t) ->
  rplan H filter chunk fo fuel path id = Some (id', bs) ->
  id' = id /\ Forall (fun b => (exists i t c, fo !! i = Some t /\ c ∈ tree_chunks t /\ b = mkBlob Chunk c (chunk c)) \/
                   (exists i t, fo !! i = Some t /\ b = tree_blob H t)) bs.
Proof.
  intros Hf Hid. revert path id id' bs. induction fuel as [|fuel IH]; intros path id id' bs E; [done|].
  apply rplan_inv in E as (t & lp & Et & El & -> & ->).
  assert (rplan_tree lp = t) as ->.
  { clear -El IH Hf. revert lp El. induction t as [|[nm nd] t IHt]; intros lp El; cbn [rplan_nodes] in El.
    { by injection El as <-. }
    cbv zeta in El. rewrite Hf in El. cbn [negb] in El.
    destruct (match n_contents nd with CFile _ => _ | _ => _ end) as [[nd' bs']|] eqn:Ex; [|done].
    destruct (rplan_nodes filter chunk _ path t) as [rest|] eqn:Er; [|done]. injection El as <-.
    simpl. rewrite IHt by done. f_equal. f_equal. destruct nd as [c m]. simpl in Ex.
    destruct c as [cs|sub|tg]; [by injection Ex as <- <-| |by injection Ex as <- <-].
    destruct (rplan _ _ _ _ _ _ sub) as [[i bs]|] eqn:Es; [|done]. injection Ex as <- <-.
    by destruct (IH _ _ _ _ Es) as [-> _]. }
  split; [symmetry; by apply Hid|]. apply Forall_app. split; [|constructor; [right; eauto|constructor]].
  pose proof (rplan_nodes_sub _ _ _ _ El) as HF.
  apply Forall_concat, Forall_map. eapply Forall_impl; [exact HF|]. intros [nm [nd' bs']] (nd & Hin & _ & Hc). simpl in *.
  destruct (n_contents nd) as [cs|sub|tg] eqn:En; [|destruct Hc as (i2 & bs2 & Er & [= -> ->])|by injection Hc as -> ->].
  - injection Hc as -> ->. apply Forall_forall. intros b (c & -> & Hc)%elem_of_list_fmap. left.
    exists id, t, c. split; [done|]. split; [|done]. unfold tree_chunks. apply elem_of_list_In, in_concat.
    exists cs. split; [|by apply elem_of_list_In]. apply elem_of_list_In, elem_of_list_fmap.
    exists (nm, nd). split; [|done]. simpl. unfold node_chunks. by rewrite En.
  - eapply IH. exact Er.
Qed.
End plan.

(** ** Several snapshots *)

Lemma rewrite_snapshots_plan H filter chunk on_chunk packed0 fuel l s s' sns :
  (forall sn fo, (sn, fo) ∈ l ->
     (forall id t c s, fo !! id = Some t -> c ∈ tree_chunks t -> packed0 ⊆ bs_packed s ->
        on_chunk c s = Ok (send_new s (mkBlob Chunk c (chunk c)))) /\
     (forall id t, fo !! id = Some t -> om_sorted t)) ->
  packed0 ⊆ bs_packed s ->
  rewrite_snapshots H filter on_chunk fuel l s = Some (Ok (s', sns)) ->
  s' = foldl send_new s (rplan_all H filter chunk fuel l) /\
  Forall2 (fun x sn' => exists bs, rplan H filter chunk x.2 fuel [] (sn_tree x.1) = Some (sn_tree sn', bs) /\
    sn' = mkSnapshot (sn_time x.1) (sn_tz x.1) (sn_author x.1) (sn_tags x.1) (sn_paths x.1) (sn_tree sn')) l sns.
Proof.
  revert s s' sns. induction l as [|[sn fo] l IH]; intros s s' sns Hall Hs E; simpl in E.
  { injection E as <- <-. split; [done|constructor]. }
  destruct (Hall sn fo) as [Hc Ho]; [by left|].
  pose proof (rewrite_plan H filter chunk fo on_chunk packed0 Hc Ho fuel [] (sn_tree sn) s Hs) as Hf. unfold follows in Hf.
  destruct (rplan H filter chunk fo fuel [] (sn_tree sn)) as [[root bs]|] eqn:Er.
  2: { destruct (rewrite_tree _ _ _ _ _ _ _ _) as [[[]| |]|]; try done. by destruct (Hf (b, l0)). }
  rewrite Hf in E. destruct (rewrite_snapshots H filter on_chunk fuel l (foldl send_new s bs)) as [[[s2 sns2]| |]|] eqn:E2; try done.
  injection E as <- <-. destruct (IH _ _ _ (fun sn' fo' Hin => Hall sn' fo' (elem_of_list_further _ _ _ Hin)) (transitivity Hs (bs_packed_sends bs s)) E2) as [-> HF].
  unfold rplan_all. simpl. rewrite Er, foldl_app. split; [done|]. constructor; [|done]. simpl. eauto.
Qed.

Lemma elem_of_rplan_all H filter chunk fuel l x r bs b :
  x ∈ l -> rplan H filter chunk x.2 fuel [] (sn_tree x.1) = Some (r, bs) -> b ∈ bs -> b ∈ rplan_all H filter chunk fuel l.
Proof.
  intros Hx E Hb. unfold rplan_all. apply elem_of_list_In, in_concat. exists bs. split; [|by apply elem_of_list_In].
  apply in_map_iff. exists x. rewrite E. split; [done|]. by apply elem_of_list_In.
Qed.

Lemma load_forests_inv H k bmap fuel snaps forests : load_forests H k bmap fuel snaps = Some (Ok forests) ->
  map fst forests = snaps /\ Forall (fun x : snapshot * forest => load_forest H k bmap fuel (sn_tree x.1) = Some (Ok x.2)) forests.
Proof.
  revert forests. induction snaps as [|sn snaps IH]; intros forests E; simpl in E.
  { injection E as <-. by split. }
  destruct (load_forest H k bmap fuel (sn_tree sn)) as [[fo| |]|] eqn:Ef; try done.
  destruct (load_forests H k bmap fuel snaps) as [[l| |]|]; try done. injection E as <-.
  destruct (IH l eq_refl) as [<- HF]. simpl. split; [done|]. by constructor.
Qed.
