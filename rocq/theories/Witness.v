(** Checking the premises of the repository theorems on concrete runs.  Used by
    the examples only. *)

From Verif Require Import Base OMap Formats FormatsFacts Hashing Pack Index IndexFacts Meta Forest FsTree FsSpec FsFacts
  Pipeline PipelineFacts PropsPipeline Repo RepoSpec RepoFacts PublishFacts CommandFacts History PruneFacts Exec.

(** ** File trees *)

Fixpoint fs_okb (cuts : bytes -> list bytes) (deref : bool) (n : fsnode) : bool :=
  match n with
  | FsFile m c => bool_decide (meta_kind m = KFile /\ metadata_wf m /\ is_Some (meta_size m) /\ len_wf (cuts c))
  | FsDir m es =>
      bool_decide (meta_kind m = KDirectory /\ metadata_wf m /\ len_wf es /\ NoDup es.*1) &&
      forallb (fun e : bytes * fsnode => bool_decide (text_wf e.1) && fs_okb cuts deref e.2) es
  | FsLink m t => bool_decide (deref = false /\ meta_kind m = KSymlink /\ metadata_wf m /\ text_wf t)
  | FsOther _ => true
  end.
Lemma fs_okb_ok cuts deref n : fs_okb cuts deref n = true -> fs_ok cuts deref n.
Proof.
  induction n as [m c|m es IH|m t|m] using fsnode_ind'; cbn [fs_okb fs_ok].
  - apply bool_decide_eq_true.
  - intros [Hm%bool_decide_eq_true He]%andb_true_iff. destruct Hm as (H1 & H2 & H3 & H4). split_and!; try done.
    clear -IH He. induction es as [|e es IHl]; simpl in *; [done|]. apply andb_true_iff in He as [He1 He].
    apply andb_true_iff in He1 as [Ht%bool_decide_eq_true Hf].
    apply Forall_cons in IH as [I1 I2]. split; [split; [done|by apply I1]|by apply IHl].
  - apply bool_decide_eq_true.
  - done.
Qed.
Definition paths_okb (cuts : bytes -> list bytes) (deref : bool) (paths : list fspath) : bool :=
  bool_decide (len_wf paths /\ NoDup (map (fun e : fspath => e.1.2) paths)) &&
  forallb (fun e : fspath => bool_decide (text_wf e.1.2) && fs_okb cuts deref e.2) paths.
Lemma paths_okb_ok cuts deref paths : paths_okb cuts deref paths = true -> paths_ok cuts deref paths.
Proof.
  intros [[H1 H2]%bool_decide_eq_true H3]%andb_true_iff. split; [done|]. split; [done|].
  apply Forall_forall. intros e He. rewrite forallb_forall in H3. apply elem_of_list_In in He.
  apply H3, andb_true_iff in He as [Ht%bool_decide_eq_true Hf]. split; [done|by apply fs_okb_ok].
Qed.

(** ** The universe of the blobs in a list *)

Definition in_list (l : list blob) (b : blob) : Prop := b ∈ l.
Global Instance blob_eq_dec : EqDecision blob.
Proof. solve_decision. Defined.

Definition tree_okb (b : blob) : bool :=
  match b_type b with
  | Chunk => true
  | Tree =>
      match dec_tree (b_bytes b) with
      | Some (t, _) =>
          bool_decide (enc_tree t = b_bytes b) && bool_decide (tree_wf t) &&
          forallb (fun kv : bytes * node => bool_decide (meta_kind (n_meta kv.2) = contents_kind (n_contents kv.2))) t
      | None => false
      end
  end.
Definition universe_check (H : bytes -> oid) (l : list blob) : bool :=
  forallb (fun b => bool_decide (b_id b = H (b_bytes b)) && bool_decide (b_bytes b <> []) && tree_okb b) l &&
  bool_decide (NoDup (map b_id l)) && bool_decide (tree_blob H [] ∈ l).

Lemma universe_ok H l : universe_check H l = true -> universe H (in_list l).
Proof.
  unfold universe_check. intros [[Hall Hnd%bool_decide_eq_true]%andb_true_iff Hn%bool_decide_eq_true]%andb_true_iff.
  rewrite forallb_forall in Hall.
  assert (forall b, b ∈ l -> b_id b = H (b_bytes b) /\ b_bytes b <> [] /\ tree_okb b = true) as Hb.
  { intros b Hb. apply elem_of_list_In, Hall in Hb.
    by apply andb_true_iff in Hb as [[?%bool_decide_eq_true ?%bool_decide_eq_true]%andb_true_iff ?]. }
  constructor; [by intros b (? & ? & ?)%Hb|by intros b (? & ? & ?)%Hb| | |exact Hn].
  - intros b b' [i Hi]%elem_of_list_lookup [j Hj]%elem_of_list_lookup E.
    assert (i = j) as ->; [|congruence]. rewrite NoDup_alt in Hnd. apply (Hnd i j (b_id b)).
    + change (map b_id l) with (b_id <$> l). by rewrite list_lookup_fmap, Hi.
    + change (map b_id l) with (b_id <$> l). by rewrite list_lookup_fmap, Hj, E.
  - intros b (_ & _ & Ht)%Hb Hty. unfold tree_okb in Ht. rewrite Hty in Ht.
    destruct (dec_tree (b_bytes b)) as [[t r]|]; [|done]. exists t.
    apply andb_true_iff in Ht as [[E%bool_decide_eq_true Hw%bool_decide_eq_true]%andb_true_iff Hk]. split; [|done].
    split; [done|]. apply Forall_forall. intros kv Hkv. rewrite forallb_forall in Hk.
    by apply elem_of_list_In, Hk, bool_decide_eq_true in Hkv.
Qed.

(** ** All indexes a run may publish *)

Definition grow {A} (x : A) (ms : list (list A)) : list (list (list A)) :=
  match ms with
  | [] => [[[x]]]
  | m :: ms' => [[x] :: m :: ms'; (x :: m) :: ms']
  end.
Fixpoint groupings {A} (l : list A) : list (list (list A)) :=
  match l with
  | [] => [[]]
  | x :: l' => concat (map (grow x) (groupings l'))
  end.
Lemma groupings_complete {A} (ms : list (list A)) : Forall (fun m => m <> []) ms -> ms ∈ groupings (concat ms).
Proof.
  assert (forall (x : A) l ms ms', ms ∈ groupings l -> ms' ∈ grow x ms -> ms' ∈ groupings (x :: l)) as Hg.
  { intros x l ms0 ms' H1 H2. cbn [groupings]. apply elem_of_list_In, in_concat. exists (grow x ms0).
    split; [|by apply elem_of_list_In]. by apply in_map, elem_of_list_In. }
  induction ms as [|m ms IH]; intros Hm; [by left|]. apply Forall_cons in Hm as [Hm Hms]. specialize (IH Hms).
  induction m as [|x m IHm]; [done|]. destruct m as [|y m].
  - apply (Hg x (concat ms) ms); [done|]. destruct ms; by left.
  - specialize (IHm ltac:(done)). apply (Hg x (concat ((y :: m) :: ms)) ((y :: m) :: ms)); [done|]. right. by left.
Qed.

Section candidates.
Variable H : bytes -> oid.

Definition named (ms : list manifest) : list (oid * manifest) := om_of_list (map (fun m => (pack_id H m, m)) ms).
Definition candidates (sup : list oid) (l : list entry) : list index :=
  concat (map (fun pi => concat (map (fun n => concat (map (fun ms =>
      [mkIndex sup (named ms); mkIndex sup (om_insert (pack_id H []) [] (named ms))])
    (groupings (take n pi)))) (seq 0 (S (length pi))))) (permutations l)).

Definition nonempty (pm : oid * manifest) : Prop := pm.2 <> [].
Instance nonempty_dec pm : Decision (nonempty pm).
Proof. unfold nonempty. apply _. Defined.

Lemma concat_nonempty (ps : list (oid * manifest)) : concat (map snd (filter nonempty ps)) = concat (map snd ps).
Proof.
  induction ps as [|[p m] ps IH]; [done|]. rewrite filter_cons. case_decide as Hd; simpl; [by rewrite IH|].
  rewrite IH. unfold nonempty in Hd. simpl in Hd. destruct m; [done|]. by destruct Hd.
Qed.

Lemma candidates_complete sup l ix : ix_supersedes ix = sup -> om_sorted (ix_packs ix) ->
  (forall p m, (p, m) ∈ ix_packs ix -> p = pack_id H m) -> concat (map snd (ix_packs ix)) ⊆+ l ->
  ix ∈ candidates sup l.
Proof.
  intros <- Hs Hid Hsub. destruct ix as [sup ps]. simpl in *.
  set (ps' := filter nonempty ps). assert (om_sorted ps') as Hs' by by apply om_filter_sorted.
  assert (forall p m, (p, m) ∈ ps' <-> (p, m) ∈ ps /\ m <> []) as Hin.
  { intros p m. unfold ps'. rewrite elem_of_list_filter. unfold nonempty. simpl. tauto. }
  assert (named (map snd ps') = ps') as Hn.
  { unfold named. rewrite map_map. transitivity (om_of_list ps'); [|by apply om_of_list_sorted]. f_equal.
    rewrite <-(map_id ps') at 2. apply map_ext_in. intros [p m] Hp%elem_of_list_In. simpl. apply Hin in Hp as [Hp _].
    by rewrite <-(Hid p m Hp). }
  assert (mkIndex sup ps ∈ [mkIndex sup (named (map snd ps')); mkIndex sup (om_insert (pack_id H []) [] (named (map snd ps')))]) as Hx.
  { rewrite Hn. destruct (om_get (pack_id H []) ps) as [m|] eqn:Eg.
    - apply om_get_elem in Eg as Hm; [|done]. destruct m as [|e m].
      + assert (ps = om_insert (pack_id H []) [] ps') as <-; [|right; by left].
        apply om_get_ext; [done|by apply om_insert_sorted|]. intros q. rewrite om_get_insert by done.
        case_decide as Hq; [by subst q|]. destruct (om_get q ps) as [m|] eqn:Eq.
        * symmetry. apply om_get_elem; [done|]. apply om_get_elem in Eq; [|done]. apply Hin. split; [done|].
          intros ->. apply Hq. symmetry. by apply Hid.
        * symmetry. destruct (om_get q ps') as [m|] eqn:Eq'; [|done]. apply om_get_elem in Eq'; [|done]. apply Hin in Eq' as [Eq' _].
          apply om_get_elem in Eq'; [|done]. congruence.
      + assert (ps = ps') as <-; [|by left]. symmetry. unfold ps'. clear -Hid Hs Eg Hm. assert (forall p m, (p, m) ∈ ps -> m <> []) as Hne.
        { intros p m' Hp ->. rewrite (Hid p [] Hp) in Hp. apply om_get_elem in Hp; [|done]. rewrite Eg in Hp. discriminate. }
        clear -Hne. induction ps as [|[p m] ps IH]; [done|]. rewrite filter_cons, decide_True.
        * f_equal. apply IH. intros p' m' Hp. apply (Hne p' m'). by right.
        * apply (Hne p m). by left.
    - assert (ps = ps') as <-; [|by left]. symmetry. unfold ps'. assert (forall p m, (p, m) ∈ ps -> m <> []) as Hne.
      { intros p m' Hp ->. rewrite (Hid p [] Hp) in Hp. apply om_get_elem in Hp; [|done]. rewrite Eg in Hp. discriminate. }
      clear -Hne. induction ps as [|[p m] ps IH]; [done|]. rewrite filter_cons, decide_True.
      * f_equal. apply IH. intros p' m' Hp. apply (Hne p' m'). by right.
      * apply (Hne p m). by left. }
  apply submseteq_Permutation in Hsub as [rest Hp].
  assert (concat (map snd ps) ++ rest ∈ permutations l) as Hpi by by apply permutations_Permutation.
  unfold candidates. apply elem_of_list_In, in_concat. eexists. split; [apply in_map, elem_of_list_In, Hpi|].
  apply in_concat. eexists. split; [apply in_map, (in_seq _ 0 (length (concat (map snd ps)))); rewrite app_length; lia|].
  rewrite take_app. apply in_concat. eexists. split; [|apply elem_of_list_In, Hx].
  apply in_map_iff. exists (map snd ps'). split; [done|]. apply elem_of_list_In.
  rewrite <-concat_nonempty. fold ps'. apply groupings_complete. apply Forall_forall.
  intros m ([p m'] & -> & Hm)%elem_of_list_fmap. by apply Hin in Hm as [_ ?].
Qed.

Definition index_eqb (a b : index) : bool := bool_decide (ix_supersedes a = ix_supersedes b) && bool_decide (ix_packs a = ix_packs b).
Definition fresh_check (k : backend) (start : index) (bs : list blob) : bool :=
  let sup := superseded k in
  forallb (fun ix => index_is_empty ix ||
      (let i := index_id H ix in
       negb (bool_decide (i ∈ sup)) && negb (bool_decide (i ∈ ix_supersedes ix)) &&
       match k_indexes k !! i with Some jx => index_eqb jx ix | None => true end))
    (candidates (ix_supersedes start) (concat (map snd (ix_packs start)) ++ manifest_of bs)).
Lemma fresh_ok k start bs : fresh_check k start bs = true -> fresh_index H k start bs.
Proof.
  intros Hf ix E1 Hs Hid Hsub Hne. unfold fresh_check in Hf. rewrite forallb_forall in Hf.
  pose proof (candidates_complete _ _ ix E1 Hs Hid Hsub) as Hc. apply elem_of_list_In, Hf in Hc. rewrite Hne in Hc. simpl in Hc.
  apply andb_true_iff in Hc as [[H1%negb_true_iff%bool_decide_eq_false H2%negb_true_iff%bool_decide_eq_false]%andb_true_iff H3].
  split; [done|]. split; [done|]. intros jx E. rewrite E in H3. unfold index_eqb in H3.
  apply andb_true_iff in H3 as [Ea%bool_decide_eq_true Eb%bool_decide_eq_true]. destruct jx, ix; simpl in *. congruence.
Qed.

(** ** No clash *)

Definition new_snaps (os : list bop) : list snapshot := omap (fun o => match o with PutSnap sn => Some sn | _ => None end) os.
Lemma elem_of_new_snaps os sn : PutSnap sn ∈ os <-> sn ∈ new_snaps os.
Proof.
  unfold new_snaps. rewrite elem_of_list_omap. split; [intros Hx; by exists (PutSnap sn)|].
  intros ([] & Hx & E); try done. by injection E as <-.
Qed.

Definition clash_free (k : backend) (w : workdir) (c : command) : bool :=
  collide_free H (ps_manifests (k_packs k) ++ ps_manifests (w_packs w) ++ sent_manifests (c_blobs c)) &&
  fresh_check k (c_start c) (c_blobs c) &&
  forallb (fun sn => match k_snaps k !! snapshot_id H sn with Some s => bool_decide (s = sn) | None => true end &&
     forallb (fun sn' => bool_decide (snapshot_id H sn' = snapshot_id H sn -> sn' = sn)) (new_snaps (c_after c))) (new_snaps (c_after c)).
Lemma clash_free_ok k w c : clash_free k w c = true -> no_clash H k w c.
Proof.
  unfold clash_free. intros [[H1 H2]%andb_true_iff H3]%andb_true_iff. split; [by apply collide_free_ok|]. split; [by apply fresh_ok|].
  intros sn sn' Hor Hin%elem_of_new_snaps E. rewrite forallb_forall in H3. apply elem_of_list_In, H3, andb_true_iff in Hin as [Ha Hb].
  destruct Hor as [Hk|Hn%elem_of_new_snaps].
  - rewrite <-E, Hk in Ha. by apply bool_decide_eq_true in Ha.
  - rewrite forallb_forall in Hb. apply elem_of_list_In, Hb, bool_decide_eq_true in Hn. by apply Hn.
Qed.

(** ** Rebuilding *)

Definition onceb (l : list (oid * manifest)) : bool :=
  bool_decide (NoDup (map fst l)) && bool_decide (NoDup (flat_ids l)).
Lemma nodup_once l : NoDup (map fst l) -> NoDup (flat_ids l) -> once l.
Proof.
  induction l as [|[q mq] l IH]; [intros _ _ p m p' m' n n' e e' []%elem_of_nil|].
  intros Hk Hf. rewrite flat_ids_cons in Hf. apply NoDup_app in Hf as (Hf1 & Hf2 & Hf3). simpl in Hk. apply NoDup_cons in Hk as [Hq Hk].
  assert (forall m n e p, (p, m) ∈ l -> m !! n = Some e -> e_id e ∈ flat_ids l) as Hl.
  { intros m n e p Hp He. apply elem_of_flat_ids. exists p, m, e. split; [done|]. split; [by eapply elem_of_list_lookup_2|done]. }
  assert (forall n e, mq !! n = Some e -> e_id e ∈ map e_id mq) as Hm.
  { intros n e He. apply elem_of_list_fmap_1. by eapply elem_of_list_lookup_2. }
  intros p m p' m' n n' e e' [E1|H1]%elem_of_cons [E2|H2]%elem_of_cons He He' E.
  - injection E1 as -> ->. injection E2 as -> ->. split; [done|]. rewrite NoDup_alt in Hf1. apply (Hf1 n n' (e_id e)).
    + change (map e_id mq) with (e_id <$> mq). by rewrite list_lookup_fmap, He.
    + change (map e_id mq) with (e_id <$> mq). by rewrite list_lookup_fmap, He', E.
  - injection E1 as -> ->. exfalso. apply (Hf2 (e_id e)); [by eapply Hm|]. rewrite E. by eapply Hl.
  - injection E2 as -> ->. exfalso. apply (Hf2 (e_id e)); [rewrite E; by eapply Hm|]. by eapply Hl.
  - eapply IH; eauto.
Qed.
Lemma onceb_ok l : onceb l = true -> once l.
Proof. intros [?%bool_decide_eq_true ?%bool_decide_eq_true]%andb_true_iff. by apply nodup_once. Qed.

Definition rebuild_check (k : backend) : bool :=
  onceb (all_packs k) &&
  match rebuilt_index k (map fst (map_to_list (k_packs k))) with
  | Ok ix => negb (bool_decide (index_id H ix ∈ ix_supersedes ix)) && negb (bool_decide (index_id H ix ∈ superseded k))
  | _ => false
  end.
Lemma fresh_rebuild_check k :
  match rebuilt_index k (map fst (map_to_list (k_packs k))) with
  | Ok ix => negb (bool_decide (index_id H ix ∈ ix_supersedes ix)) && negb (bool_decide (index_id H ix ∈ superseded k))
  | _ => false
  end = true -> fresh_rebuild H k.
Proof.
  intros Hr packs ix Hp E.
  destruct (rebuilt_index k (map fst (map_to_list (k_packs k)))) as [ix'| |] eqn:E'; try done.
  apply rebuilt_spec in E as (A1 & A2 & A3 & A4); [|done]. apply rebuilt_spec in E' as (B1 & B2 & B3 & B4); [|done].
  assert (ix = ix') as ->.
  { destruct ix as [s ps], ix' as [s' ps']. simpl in *. f_equal.
    - apply os_sorted_ext; [done|done|]. intros i. by rewrite A3, B3.
    - apply om_sorted_ext; [done|done|]. intros [p m]. by rewrite A4, B4. }
  by apply andb_true_iff in Hr as [?%negb_true_iff%bool_decide_eq_false ?%negb_true_iff%bool_decide_eq_false].
Qed.
Lemma rebuild_check_ok k : rebuild_check k = true -> once (all_packs k) /\ fresh_rebuild H k.
Proof. intros [Ho%onceb_ok Hr%fresh_rebuild_check]%andb_true_iff. done. Qed.
End candidates.

(** ** Playing a history *)

Inductive action :=
| Backup (paths : list fspath) (now : Z) (stop : option nat)
| Forget (ids : list oid)
| Prune (stop : option nat)
| Rebuild
| Leave.

Section play.
Variables (H : bytes -> oid) (l : list blob) (cuts : bytes -> list bytes) (target : N) (full : blob -> bool).

(** [Some n]: interrupted after [n] steps; 300 steps are enough for any of our examples. *)
Definition go (stop : option nat) (k : backend) (w : workdir) (c : command) : option (backend * workdir) :=
  match stop with
  | Some n => Some (run_part H target true 4 full n k w c)
  | None => run_whole H target true 4 full 300 k w c
  end.
Lemma go_ok stop k w c k' w' : go stop k w c = Some (k', w') -> command_reaches H target true 4 NoError k w c k' w'.
Proof.
  destruct stop as [n|]; simpl.
  - intros E. pose proof (run_part_ok H target true 4 full n k w c) as Hr.
    replace (run_part H target true 4 full n k w c) with (k', w') in Hr by congruence. exact Hr.
  - intros E. eapply done_reaches, run_whole_ok, E.
Qed.

Definition backup_of (paths : list fspath) (now : Z) (k : backend) (w : workdir) : option (option snapshot * forest * command) :=
  exec_backup H cuts false false false (fun _ => true) [] [] [] now paths 20 k w.

Lemma backup_of_ok paths now k w parent pf c : backup_of paths now k w = Some (parent, pf, c) ->
  backup_command H cuts false false false (fun _ => true) [] [] [] now paths parent pf k w c.
Proof. apply exec_backup_ok. Qed.

Definition play1 (kw : backend * workdir) (a : action) : option (backend * workdir) :=
  match a with
  | Backup paths now stop =>
      match backup_of paths now kw.1 kw.2 with
      | Some (parent, pf, c) =>
          if paths_okb cuts false paths &&
             forallb (fun b => bool_decide (b ∈ l)) (plan_blobs H cuts (fun _ => true) pf (sn_tree <$> parent) paths) &&
             clash_free H kw.1 kw.2 c
          then go stop kw.1 kw.2 c else None
      | None => None
      end
  | Forget ids => Some (apply_ops H kw.1 (forget_ops false ids), kw.2)
  | Prune stop =>
      match w_wip kw.2 with
      | Some _ => None
      | None =>
          match exec_prune H false 20 kw.1 kw.2 with
          | Some (Some c) =>
              if clash_free H kw.1 kw.2 c then match go stop kw.1 kw.2 c with Some (k', _) => Some (k', clean) | None => None end else None
          | Some None => Some kw
          | None => None
          end
      end
  | Rebuild =>
      match w_wip kw.2 with
      | Some _ => None
      | None => if rebuild_check H kw.1 then match exec_rebuild H kw.1 with Some k' => Some (k', kw.2) | None => None end else None
      end
  | Leave => Some (kw.1, clean)
  end.

Lemma play1_ok kw a kw' : play1 kw a = Some kw' -> history H (in_list l) kw kw'.
Proof.
  destruct kw as [k w], kw' as [k' w'], a as [paths now stop|ids|stop| |]; cbn [play1 fst snd].
  - unfold backup_of. destruct (exec_backup _ _ _ _ _ _ _ _ _ _ _ _ _ _) as [[[parent pf] c]|] eqn:E; [|done].
    destruct (_ && _) eqn:Ec; [|done]. intros Hg%go_ok. apply rtc_once.
    apply andb_true_iff in Ec as [[Hp%paths_okb_ok Hu]%andb_true_iff Hc%clash_free_ok].
    eapply hp_backup; [by eapply exec_backup_ok|done| |done| |exact Hg]; [|done].
    apply Forall_forall. intros b Hb. rewrite forallb_forall in Hu. by apply elem_of_list_In, Hu, bool_decide_eq_true in Hb.
  - intros E. injection E as <- <-. apply rtc_once. pose proof (hp_forget H (in_list l) k w ids (length (forget_ops false ids))) as Hf.
    by rewrite firstn_all in Hf.
  - destruct (w_wip w) eqn:Ew; [done|]. destruct (exec_prune _ _ _ _ _) as [[c|]|] eqn:E; [|intros E'; by injection E' as <- <-|done].
    destruct (clash_free _ _ _ _) eqn:Ec; [|done]. destruct (go _ _ _ _) as [[k1 w1]|] eqn:Eg; [|done]. intros E'. injection E' as <- <-.
    apply rtc_once. eapply hp_prune; [by eapply exec_prune_ok|by apply clash_free_ok|by eapply go_ok].
  - destruct (w_wip w) eqn:Ew; [done|]. destruct (rebuild_check _ _) eqn:Ec; [|done].
    destruct (exec_rebuild _ _) as [k1|] eqn:E; [|done]. intros E'. injection E' as <- <-.
    apply rebuild_check_ok in Ec as [? ?]. apply rtc_once. apply hp_rebuild; [done|done|done|by apply exec_rebuild_ok].
  - intros E. injection E as <- <-. apply rtc_once, hp_leave.
Qed.

Fixpoint play (kw : backend * workdir) (acts : list action) : option (backend * workdir) :=
  match acts with
  | [] => Some kw
  | a :: acts' => match play1 kw a with Some kw' => play kw' acts' | None => None end
  end.
Lemma play_ok kw acts kw' : play kw acts = Some kw' -> history H (in_list l) kw kw'.
Proof.
  revert kw. induction acts as [|a acts IH]; intros kw; simpl; [intros E; injection E as <-; done|].
  destruct (play1 kw a) as [kw1|] eqn:E; [|done]. intros E'. etrans; [by eapply play1_ok|by apply IH].
Qed.
End play.

(** ** Reading off results *)

Definition holds {A} (o : option A) (P : A -> bool) : bool := match o with Some a => P a | None => false end.
Lemma holds_inv {A} (o : option A) P : holds o P = true -> exists a, o = Some a /\ P a = true.
Proof. destruct o; [eauto|done]. Qed.

(** The root or a chunk named there is missing. *)
Definition broken (H : bytes -> oid) (k : backend) (sn : snapshot) : bool :=
  let st := repo_store k in
  if decide (sn_tree sn = empty_id H) then false
  else match st !! sn_tree sn with
  | Some (Tree, b) =>
      match dec_tree b with
      | Some (t, []) => existsb (fun c => match st !! c with Some (Chunk, _) => false | _ => true end) (tree_chunks t)
      | _ => true
      end
  | _ => true
  end.
Lemma broken_ok H U k sn : universe H U -> (forall x, length (H x) = 28) -> broken H k sn = true -> ~ snapshot_complete H k sn.
Proof.
  intros HU Hlen Hb [es Hes]. unfold broken in Hb. pose proof Hes as (t & Ht & _). pose proof Ht as Ht'. unfold stored_as in Ht.
  destruct (decide _) as [?|Hne]; [done|]. destruct Ht as (b & Eb & Ed). rewrite Eb, Ed in Hb.
  apply existsb_exists in Hb as (c & Hc%elem_of_list_In & Hn).
  destruct (reads_chunks H U HU Hlen _ _ _ _ c Hes Ht' Hc) as [x Hx]. by rewrite Hx in Hn.
Qed.

Definition unusable (k : backend) : bool :=
  match master k with
  | Ok ix => match blob_to_pack_map ix with Ok _ => false | _ => true end
  | _ => true
  end.
Lemma unusable_ok k : unusable k = true -> ~ usable k.
Proof. intros Hu (ix & bmap & packed & E1 & E2 & E3). unfold unusable in Hu. by rewrite E1, E2 in Hu. Qed.

Definition in_listb (l bs : list blob) : bool := forallb (fun b => bool_decide (b ∈ l)) bs.
Lemma in_listb_ok l bs : in_listb l bs = true -> Forall (in_list l) bs.
Proof.
  intros Hu. apply Forall_forall. intros b Hb. unfold in_listb in Hu. rewrite forallb_forall in Hu.
  by apply elem_of_list_In, Hu, bool_decide_eq_true in Hb.
Qed.

Lemma pstep_weaken H target live cpus errors s s' : pstep H target live cpus NoError s s' -> pstep H target live cpus errors s s'.
Proof. destruct 1; by econstructor; eauto. Qed.

(** The main thread meets an error after [n] steps, when nothing is left of what
    it found in the working directory. *)
Definition run_failing (H : bytes -> oid) (target : N) (full : blob -> bool) (n n2 : nat) (k : backend) (w : workdir) (c : command)
    : option (backend * workdir) :=
  let s := run H target true 4 full n (start_of target k w c) in
  match ps_main s with
  | MSend [] _ => let s' := run H target true 4 full n2 (set_main (MWait false) s) in Some (ps_back s', mkWorkdir (ps_files s') (ps_wip s'))
  | _ => None
  end.
Lemma run_failing_ok H target full n n2 k w c k' w' :
  run_failing H target full n n2 k w c = Some (k', w') -> command_reaches H target true 4 ErrorLater k w c k' w'.
Proof.
  unfold run_failing. set (s := run H target true 4 full n (start_of target k w c)).
  destruct (ps_main s) as [[|] bs| |] eqn:Em; try done. intros E. injection E as <- <-.
  eexists _, 0. split; [|split; [by right|split; reflexivity]].
  assert (forall a b, rtc (pstep H target true 4 NoError) a b -> rtc (pstep H target true 4 ErrorLater) a b) as Hw.
  { intros a b. induction 1; [done|]. eapply rtc_l; [|done]. by apply pstep_weaken. }
  unfold during. etrans; [apply Hw, run_ok|]. fold s. eapply rtc_l; [by apply (St_main_fail _ _ _ _ _ s [] bs)|]. apply Hw, run_ok.
Qed.
