(** The files follow the repository. *)

From stdpp Require Import functions.
From Verif Require Import Base OMap Cbor CborFacts Formats FormatsFacts Hashing Pack PackFacts Index IndexFacts Meta Forest ForestFacts FsTree FsSpec
  Pipeline PipelineFacts Repo RepoSpec Check Reader Locations PropsLocations History HistoryFacts Bytes.

(** ** One change *)

Lemma act_store st kd i x : oid_wf i -> act st (Store kd i x) = <[location kd i := x]> st.
Proof. intros Hi. simpl. unfold put_object. destruct C50_locations_one_to_one as (Hd & _). by rewrite Hd. Qed.

Lemma act_remove st kd i : oid_wf i -> act st (Remove kd i) = delete (location kd i) st.
Proof.
  intros Hi. simpl. unfold drop_object, be_remove. destruct C50_locations_one_to_one as (Hd & _). rewrite Hd by done. simpl.
  case_bool_decide as E; [done|]. apply eq_None_not_Some in E. by rewrite delete_notin.
Qed.

Lemma location_ne kd i kd' i' : oid_wf i -> oid_wf i' -> kd <> kd' \/ i <> i' -> location kd i <> location kd' i'.
Proof.
  intros Hi Hi' Hne E. destruct C50_locations_one_to_one as (_ & Hinj & _). destruct (Hinj _ _ _ _ Hi Hi' E) as [-> ->]. by destruct Hne.
Qed.

Lemma change_stored H zdec k st c x : (forall y, length (H y) = 28) ->
  change_wf c -> change_bytes zdec c x -> stored_in zdec st k -> stored_in zdec (change_files H st c x) (apply_change H k c).
Proof.
  intros Hlen Hc Hx [Sp Si Ss So].
  assert (forall kd i y p z, oid_wf i -> <[location kd i := y]> st !! p = Some z ->
    (exists kd i, oid_wf i /\ p = location kd i) \/ extension p = Some (ascii_bytes "part")) as Hput.
  { intros kd i y p z Hi [[<- _]|[_ E]]%lookup_insert_Some; [left; eauto|eauto]. }
  assert (forall q p z, delete q st !! p = Some z ->
    (exists kd i, oid_wf i /\ p = location kd i) \/ extension p = Some (ascii_bytes "part")) as Hdel.
  { intros q p z [_ E]%lookup_delete_Some. eauto. }
  destruct c as [p bs|ix|[sn|i|i|i]|p|p]; cbn [change_wf change_bytes change_files apply_change apply_op] in *.
  - rewrite act_store by done. split; cbn [k_packs k_indexes k_snaps]; [| | |intros q y E; eapply Hput; [|exact E]; done]; intros j Hj.
    + destruct (decide (p = j)) as [->|Hne]; [rewrite !lookup_insert; by constructor|].
      rewrite !lookup_insert_ne; [by apply Sp|by apply location_ne; auto|done].
    + rewrite lookup_insert_ne by (apply location_ne; auto). by apply Si.
    + rewrite lookup_insert_ne by (apply location_ne; auto). by apply Ss.
  - assert (oid_wf (index_id H ix)) as Hi by apply Hlen.
    rewrite act_store by done. split; cbn [k_packs k_indexes k_snaps]; [| | |intros q y E; eapply Hput; [|exact E]; done]; intros j Hj.
    + rewrite lookup_insert_ne by (apply location_ne; auto). by apply Sp.
    + destruct (decide (index_id H ix = j)) as [<-|Hne]; [rewrite !lookup_insert; by constructor|].
      rewrite !lookup_insert_ne; [by apply Si|by apply location_ne; auto|done].
    + rewrite lookup_insert_ne by (apply location_ne; auto). by apply Ss.
  - assert (oid_wf (snapshot_id H sn)) as Hi by apply Hlen. subst x.
    rewrite act_store by done. split; cbn [k_packs k_indexes k_snaps]; [| | |intros q y E; eapply Hput; [|exact E]; done]; intros j Hj.
    + rewrite lookup_insert_ne by (apply location_ne; auto). by apply Sp.
    + rewrite lookup_insert_ne by (apply location_ne; auto). by apply Si.
    + destruct (decide (snapshot_id H sn = j)) as [<-|Hne]; [by rewrite !lookup_insert|].
      rewrite !lookup_insert_ne; [by apply Ss|done|by apply location_ne; auto].
  - rewrite act_remove by done. split; cbn [k_packs k_indexes k_snaps]; [| | |intros q y E; by eapply Hdel]; intros j Hj.
    + rewrite lookup_delete_ne by (apply location_ne; auto). by apply Sp.
    + rewrite lookup_delete_ne by (apply location_ne; auto). by apply Si.
    + destruct (decide (i = j)) as [<-|Hne]; [by rewrite !lookup_delete|].
      rewrite !lookup_delete_ne; [by apply Ss|done|by apply location_ne; auto].
  - rewrite act_remove by done. split; cbn [k_packs k_indexes k_snaps]; [| | |intros q y E; by eapply Hdel]; intros j Hj.
    + rewrite lookup_delete_ne by (apply location_ne; auto). by apply Sp.
    + destruct (decide (i = j)) as [<-|Hne]; [rewrite !lookup_delete; constructor|].
      rewrite !lookup_delete_ne; [by apply Si|by apply location_ne; auto|done].
    + rewrite lookup_delete_ne by (apply location_ne; auto). by apply Ss.
  - rewrite act_remove by done. split; cbn [k_packs k_indexes k_snaps]; [| | |intros q y E; by eapply Hdel]; intros j Hj.
    + destruct (decide (i = j)) as [<-|Hne]; [rewrite !lookup_delete; constructor|].
      rewrite !lookup_delete_ne; [by apply Sp|by apply location_ne; auto|done].
    + rewrite lookup_delete_ne by (apply location_ne; auto). by apply Si.
    + rewrite lookup_delete_ne by (apply location_ne; auto). by apply Ss.
  - unfold act, be_write. split.
    1-3: intros j Hj; rewrite lookup_insert_ne by (by apply location_not_part); auto.
    intros q z [[<- _]|[_ E]]%lookup_insert_Some; eauto.
  - split; [..|intros q y E; by eapply Hdel].
    all: intros j Hj; rewrite lookup_delete_ne by (by apply location_not_part); auto.
Qed.

Lemma changes_stored H zdec k st cs xs : (forall y, length (H y) = 28) ->
  Forall change_wf cs -> Forall2 (change_bytes zdec) cs xs -> stored_in zdec st k ->
  stored_in zdec (foldl (fun st c => change_files H st c.1 c.2) st (zip cs xs)) (foldl (apply_change H) k cs).
Proof.
  intros Hlen Hwf HF. revert k st Hwf. induction HF as [|c x cs xs Hx HF IH]; intros k st Hwf Hst; [done|].
  apply Forall_cons in Hwf as [Hc Hwf]. simpl. apply IH; [done|]. by apply change_stored.
Qed.

Lemma stored_in_empty zdec : stored_in zdec ∅ empty_repo.
Proof.
  split; [intros i Hi; cbn [empty_repo k_packs k_indexes k_snaps]; rewrite !lookup_empty; constructor..| |].
  - done.
  - intros p x E. by apply lookup_empty_Some in E.
Qed.

(** ** What every history keeps *)

(** Packs hold blobs of one type, each under 4 GiB; indexes and snapshots are named
    by the hashes of what is in them. *)
Definition tidy_packs (ps : gmap oid (list blob)) : Prop :=
  forall p bs, ps !! p = Some bs -> oid_wf p /\
    exists ty, Forall (fun b => b_type b = ty /\ (N.of_nat (length (b_bytes b)) < 2 ^ 32)%N) bs.
Definition tidy (H : bytes -> oid) (kw : backend * workdir) : Prop :=
  tidy_packs (k_packs kw.1) /\ tidy_packs (w_packs kw.2) /\
  (forall i ix, k_indexes kw.1 !! i = Some ix -> i = index_id H ix) /\ (forall i sn, k_snaps kw.1 !! i = Some sn -> i = snapshot_id H sn).

Definition in_steps (H : bytes -> oid) (k k' : backend) : Prop :=
  exists cs, Forall change_wf cs /\ foldl (apply_change H) k cs = k'.

Lemma in_steps_refl H k : in_steps H k k.
Proof. by exists []. Qed.
Lemma in_steps_trans H k k' k'' : in_steps H k k' -> in_steps H k' k'' -> in_steps H k k''.
Proof. intros (cs & W & E) (cs' & W' & E'). exists (cs ++ cs'). split; [by apply Forall_app|]. by rewrite foldl_app, E. Qed.
Lemma in_steps_one H k c : change_wf c -> in_steps H k (apply_change H k c).
Proof. intros Hc. exists [c]. split; [by constructor|done]. Qed.

Section tidy.
Variable H : bytes -> oid.
Hypothesis Hlen : forall x, length (H x) = 28.

Lemma tidy_op k w o : tidy H (k, w) -> tidy H (apply_op H k o, w) /\ in_steps H k (apply_op H k o).
Proof using All.
  intros (T1 & T2 & T3 & T4). split.
  - destruct o as [sn|i|i|i]; simpl; (split; [|split; [|split]]); try done; simpl in *.
    + intros j s [[<- <-]|[_ E]]%lookup_insert_Some; [done|eauto].
    + intros j s [_ E]%lookup_delete_Some. eauto.
    + intros j s [_ E]%lookup_delete_Some. eauto.
    + intros j s [_ E]%lookup_delete_Some. eauto.
  - assert (forall {A} (m : gmap oid A) (i : oid), (forall j x, m !! j = Some x -> oid_wf j) -> ~ oid_wf i -> delete i m = m) as Hno.
    { intros A m i Hm Hi. apply delete_notin. destruct (m !! i) eqn:E; [|done]. by apply Hm in E. }
    destruct o as [sn|i|i|i]; [by apply (in_steps_one H k (Op (PutSnap sn)))|..]; (destruct (decide (oid_wf i)) as [Hi|Hi];
      [by first [apply (in_steps_one H k (Op (DelSnap i)))|apply (in_steps_one H k (Op (DelIndex i)))|apply (in_steps_one H k (Op (DelPack i)))]|]); simpl in *.
    + rewrite Hno; [destruct k; apply in_steps_refl| |done]. intros j x E. rewrite (T4 j x E). apply Hlen.
    + rewrite Hno; [destruct k; apply in_steps_refl| |done]. intros j x E. rewrite (T3 j x E). apply Hlen.
    + rewrite Hno; [destruct k; apply in_steps_refl| |done]. intros j x E. by destruct (T1 j x E).
Qed.

Lemma tidy_ops k w os : tidy H (k, w) -> tidy H (apply_ops H k os, w) /\ in_steps H k (apply_ops H k os).
Proof using All.
  revert k. induction os as [|o os IH]; intros k T; [split; [done|apply in_steps_refl]|]. simpl.
  destruct (tidy_op k w o T) as [T1 S1]. destruct (IH _ T1) as [T2 S2]. split; [done|]. by eapply in_steps_trans.
Qed.

(** A run of the threads. *)
Definition tidy_run (s : pstate) : Prop :=
  tidy H (crashed s) /\
  forall ty, Forall (fun b => b_type b = ty /\ (N.of_nat (length (b_bytes b)) < 2 ^ 32)%N) (pk_blobs (wk_packer (ps_workers s ty))).

Lemma tidy_run_same s s' :
  ps_files s' = ps_files s -> ps_back s' = ps_back s ->
  (forall ty, pk_blobs (wk_packer (ps_workers s' ty)) = pk_blobs (wk_packer (ps_workers s ty))) ->
  tidy_run s -> tidy_run s' /\ in_steps H (ps_back s) (ps_back s').
Proof using All.
  intros Ef Eb Ew [(T1 & T2 & T3 & T4) Tw]. simpl in *. split; [|rewrite Eb; apply in_steps_refl].
  split; [unfold crashed, tidy; simpl; by rewrite Ef, Eb|]. intros ty. by rewrite Ew.
Qed.

Lemma tidy_close ty closed pk ph s :
  tidy H (crashed s) ->
  (forall ty', ty' <> ty -> Forall (fun b => b_type b = ty' /\ (N.of_nat (length (b_bytes b)) < 2 ^ 32)%N) (pk_blobs (wk_packer (ps_workers s ty')))) ->
  Forall (fun b => b_type b = ty /\ (N.of_nat (length (b_bytes b)) < 2 ^ 32)%N) (pk_blobs pk) ->
  (forall bs, closed = Some bs -> Forall (fun b => b_type b = ty /\ (N.of_nat (length (b_bytes b)) < 2 ^ 32)%N) bs) ->
  tidy_run (close_pack H ty closed pk ph s) /\ in_steps H (ps_back s) (ps_back (close_pack H ty closed pk ph s)).
Proof using All.
  intros (T1 & T2 & T3 & T4) Tw Tp Tc. simpl in *.
  assert (forall out, forall ty', Forall (fun b => b_type b = ty' /\ (N.of_nat (length (b_bytes b)) < 2 ^ 32)%N)
    (pk_blobs (wk_packer (<[ty := mkWorker pk out ph]> (ps_workers s) ty')))) as Hw.
  { intros out ty'. destruct (decide (ty' = ty)) as [->|Hne]; [by rewrite fn_lookup_insert|]. rewrite fn_lookup_insert_ne by done. auto. }
  unfold close_pack. destruct closed as [bs|]; simpl; (split; [|apply in_steps_refl]); (split; [|by intros ty'; apply Hw]); [|done].
  split; [done|]. split; [|done]. simpl. intros p bs' [[<- <-]|[_ E]]%lookup_insert_Some; [|eauto]. split; [apply Hlen|]. exists ty. eauto.
Qed.

Lemma tidy_step target live cpus errors s s' : tidy_run s -> pstep H target live cpus errors s s' ->
  tidy_run s' /\ in_steps H (ps_back s) (ps_back s').
Proof using All.
  intros T Hs. pose proof T as [(T1 & T2 & T3 & T4) Tw]. simpl in T1, T2, T3, T4.
  inversion Hs; subst; try (by apply tidy_run_same).
  - (* spawn *) apply tidy_run_same; [..|done]; destruct (ps_indexer s); try done; by destruct (bool_decide _).
  - (* a blob *)
    match goal with Hp : packer_step _ _ _ _ = _ |- _ => rename Hp into Hpk end.
    assert (N.of_nat (length (b_bytes b)) < 2 ^ 32)%N as Hb.
    { unfold packer_step in Hpk. destruct (N.of_nat (length (b_bytes b)) <? 2 ^ 32)%N eqn:E; [by apply N.ltb_lt|done]. }
    apply (tidy_close (b_type b) closed pk WRun (set_main (MSend [] bs) s)); [by destruct T|by intros; apply Tw|..].
    + apply packer_step_blobs in Hpk as [(_ & -> & _)|(_ & ->)]; [|constructor]. apply Forall_app. split; [apply Tw|by constructor].
    + intros bs' ->. apply packer_step_blobs in Hpk as [(? & _)|([= ->] & _)]; [done|]. apply Forall_app. split; [apply Tw|by constructor].
  - (* the last pack *)
    apply tidy_close; [by destruct T|by intros; apply Tw|constructor|].
    intros bs' E. unfold packer_finish in E. destruct (_ <? _)%N; [|done]. injection E as <-. apply Tw.
  - (* messages *) apply tidy_run_same; [done|done| |done]. intros ty'. simpl. destruct (decide (ty' = ty)) as [->|Hne];
      [by rewrite fn_lookup_insert|by rewrite fn_lookup_insert_ne].
  - apply tidy_run_same; [done|done| |done]. intros ty'. simpl. destruct (decide (ty' = ty)) as [->|Hne];
      [by rewrite fn_lookup_insert|by rewrite fn_lookup_insert_ne].
  - apply tidy_run_same; [done|done| |done]. intros ty'. simpl. destruct (decide (ty' = ty)) as [->|Hne];
      [by rewrite fn_lookup_insert|by rewrite fn_lookup_insert_ne].
  - (* uploading *) unfold upload_job. destruct j as [id|ix]; [destruct (ps_files s !! id) as [bs|] eqn:Ef; [|by apply tidy_run_same]|]; simpl.
    + destruct (T2 id bs Ef) as [Hid Hty]. split; [|by apply (in_steps_one H (ps_back s) (NewPack id bs))].
      split; [|done]. split; [|done]. simpl. intros p bs' [[<- <-]|[_ E]]%lookup_insert_Some; eauto.
    + split; [|by apply (in_steps_one H (ps_back s) (NewIndex ix))]. split; [|done]. split; [done|]. split; [done|]. split; [|done]. simpl.
      intros i jx [[<- <-]|[_ E]]%lookup_insert_Some; [done|eauto].
  - destruct j as [id|ix]; [|by apply tidy_run_same]. split; [|apply in_steps_refl]. split; [|done]. split; [done|]. split; [|done]. simpl.
    intros p bs [_ E]%lookup_delete_Some. eauto.
  - destruct j as [id|ix]; [|by apply tidy_run_same]. split; [|apply in_steps_refl]. split; [|done]. split; [done|]. split; [|done]. simpl.
    intros p bs [_ E]%lookup_delete_Some. eauto.
Qed.

Lemma tidy_command target live cpus errors k w c k' w' : tidy H (k, w) ->
  command_reaches H target live cpus errors k w c k' w' -> tidy H (k', w') /\ in_steps H k k'.
Proof using All.
  intros T (s & n & Hd & _ & -> & ->).
  assert (tidy_run s /\ in_steps H k (ps_back s)) as [[Ts _] Ss].
  { unfold during in Hd.
    assert (tidy_run (pipeline_start target k w (c_start c) (c_ups c) (c_blobs c)) /\ in_steps H k (ps_back (pipeline_start target k w (c_start c) (c_ups c) (c_blobs c)))) as H0.
    { split; [|apply in_steps_refl]. split; [exact T|]. intros ty. constructor. }
    revert H0. induction Hd as [|s1 s2 s3 Hs _ IH]; [done|]. intros [T1 S1]. apply IH.
    destruct (tidy_step _ _ _ _ _ _ T1 Hs) as [T2 S2]. split; [done|]. by eapply in_steps_trans. }
  destruct (tidy_ops (ps_back s) (mkWorkdir (ps_files s) (ps_wip s)) (take n (c_after c)) Ts) as [T2 S2].
  split; [done|]. by eapply in_steps_trans.
Qed.

Lemma tidy_start : tidy H (empty_repo, clean).
Proof using Type. split_and!; intros ? ? E; simpl in E; by apply lookup_empty_Some in E. Qed.
Lemma tidy_clean k w : tidy H (k, w) -> tidy H (k, clean).
Proof using Type. intros (T1 & T2 & T3 & T4). split_and!; done. Qed.

Lemma tidy_happens U kw kw' : tidy H kw -> happens H U kw kw' -> tidy H kw' /\ in_steps H kw.1 kw'.1.
Proof using All.
  intros T Hh. destruct Hh; simpl; try (by eapply tidy_command).
  - match goal with Hr : command_reaches _ _ _ _ _ _ _ _ _ _ |- _ => destruct (tidy_command _ _ _ _ _ _ _ _ _ T Hr) as [T1 S1] end.
    split; [by eapply tidy_clean|done].
  - by apply tidy_ops.
  - match goal with Hr : rebuild_reaches _ _ _ |- _ => destruct Hr as (packs & ix & _ & _ & [->|(_ & n & ->)]) end; [split; [done|apply in_steps_refl]|].
    assert (tidy H (mkBackend (k_packs k) (<[index_id H ix:=ix]> (k_indexes k)) (k_snaps k), w)) as T1.
    { destruct T as (T1 & T2 & T3 & T4). split_and!; try done. simpl. intros i jx [[<- <-]|[_ E]]%lookup_insert_Some; [done|eauto]. }
    destruct (tidy_ops _ w (take n (map DelIndex (ix_supersedes ix))) T1) as [T2 S2]. split; [done|].
    eapply in_steps_trans; [|exact S2]. by apply (in_steps_one H k (NewIndex ix)).
  - split; [by eapply tidy_clean|apply in_steps_refl].
Qed.

Lemma tidy_history U kw kw' : tidy H kw -> history H U kw kw' -> tidy H kw' /\ in_steps H kw.1 kw'.1.
Proof using All.
  intros T Hh. induction Hh as [kw|a b c Hs _ IH]; [split; [done|apply in_steps_refl]|].
  destruct (tidy_happens _ _ _ T Hs) as [T2 S2]. destruct (IH T2) as [T3 S3]. split; [done|]. by eapply in_steps_trans.
Qed.
End tidy.
