(** C13, C14, C31, C53: the threads of a backup. *)

From stdpp Require Import functions.
From Verif Require Import Base OMap Formats Hashing Pack Index IndexFacts Pipeline PipelineFacts PipelineLive Toy.

(** ** Vocabulary *)

(** A pack of that name and content is among [ps]. *)
Definition holds (ps : gmap oid (list blob)) (p : oid) (m : manifest) : Prop :=
  exists bs, ps !! p = Some bs /\ manifest_of bs = m.

(** Every index on the backend describes packs that are there. *)
Definition indexes_backed (k : backend) : Prop :=
  forall i ix p m, k_indexes k !! i = Some ix -> (p, m) ∈ ix_packs ix -> holds (k_packs k) p m.

(** What a run needs to start: maps are ordered, packs are named after their
    manifests (as [PackfileWriter::finalize] names them) without collisions, and
    the index it starts from names packs that are on the backend or in the
    directory and about to be uploaded. *)
Record run_ready (H : bytes -> oid) (k : backend) (w : workdir) (start : index) (ups : list oid) (bs : list blob) : Prop := {
  rr_sorted : om_sorted (ix_packs start);
  rr_named : packs_named H (k_packs k);
  rr_named_here : packs_named H (w_packs w);
  rr_collision : no_pack_collision H (run_manifest k w bs);
  rr_bytes : forall b, b ∈ bs -> b_bytes b <> [];
  rr_start : forall p m, (p, m) ∈ ix_packs start ->
    holds (k_packs k) p m \/ (holds (w_packs w) p m /\ p ∈ ups) }.

(** The WIP index names packs that are still there. *)
Definition resumable (k : backend) (w : workdir) : Prop :=
  match w_wip w with
  | None => True
  | Some ix => om_sorted (ix_packs ix) /\
      forall p m, (p, m) ∈ ix_packs ix -> holds (w_packs w) p m \/ holds (k_packs k) p m
  end.

Lemma run_inv H target cpus errors k w start ups bs s :
  errors <> ErrorAny -> run_ready H k w start ups bs ->
  during H target true cpus errors k w start ups bs s -> exists cur, inv H target k w start bs cur s.
Proof.
  intros He [] Hd. eapply inv_reach; eauto.
  intros p m Hx. destruct (rr_start0 p m Hx) as [?|[(b & E1 & E2) ?]]; [by left|right; eauto].
Qed.

(** ** C13: a published index never points at a missing pack *)

(** In every state of every schedule, and so after a crash there. *)
Theorem C13_published_indexes_have_their_packs H target cpus errors k w start ups bs s :
  errors <> ErrorAny ->
  run_ready H k w start ups bs -> indexes_backed k ->
  during H target true cpus errors k w start ups bs s ->
  indexes_backed (ps_back s).
Proof.
  intros He Hr Hk Hd. destruct (run_inv _ _ _ _ _ _ _ _ _ _ He Hr Hd) as (cur & I).
  intros i ix p m Hi Hp.
  assert (forall i', k_indexes k !! i' = Some ix -> holds (k_packs (ps_back s)) p m) as Hold.
  { intros i' Hi'. destruct (Hk i' ix p m Hi' Hp) as (b & E1 & <-). by apply (inv_old _ _ _ _ _ _ _ _ I). }
  destruct (inv_indexes _ _ _ _ _ _ _ _ I) as [E|(E & _ & _ & Hcur)].
  - rewrite E in Hi. eauto.
  - rewrite E in Hi. apply lookup_insert_Some in Hi as [[_ <-]|[_ Hi]]; [|eauto]. by apply Hcur.
Qed.
Print Assumptions C13_published_indexes_have_their_packs.

(** ** C14: an interrupted run can be resumed *)

(** What the resume check makes of a resumable directory: the WIP index, and the
    packs it names that are in the directory. *)
Lemma resumable_found k w : resumable k w ->
  find_resumable k w = Ok (match w_wip w with None => None | Some ix => Some (ix, find_cwd_packfiles (w_packs w) ix) end).
Proof.
  unfold resumable, find_resumable. destruct (w_wip w) as [ix|]; [|done]. intros [Hs Hx].
  set (missing := List.filter _ (map fst (ix_packs ix))).
  assert (forallb (fun id => bool_decide (is_Some (k_packs k !! id))) missing = true) as ->; [|done].
  apply forallb_forall. intros p Hp. apply bool_decide_eq_true. unfold missing in Hp. apply filter_In in Hp as [Hp Hn].
  apply in_map_iff in Hp as ([p' m] & <- & Hp). apply elem_of_list_In in Hp.
  destruct (Hx p' m Hp) as [(b & E & _)|(b & E & _)]; [|simpl; eauto]. exfalso.
  apply negb_true_iff, bool_decide_eq_false in Hn. apply Hn. apply elem_of_list_In, filter_In. split.
  - apply in_map_iff. exists (p', m). split; [done|]. by apply elem_of_list_In.
  - apply bool_decide_eq_true. simpl. eauto.
Qed.

Theorem C14_interrupted_runs_are_resumable H target cpus errors k w start ups bs s :
  errors <> ErrorAny ->
  run_ready H k w start ups bs -> resumable k w ->
  during H target true cpus errors k w start ups bs s ->
  let (k', w') := crashed s in
  resumable k' w' /\
  (exists found, find_resumable k' w' = Ok found) /\
  (* no pack is lost *)
  (forall p m, holds (k_packs k) p m -> holds (k_packs k') p m) /\
  (forall p m, holds (w_packs w) p m -> holds (w_packs w') p m \/ holds (k_packs k') p m) /\
  (* nothing known to a WIP index written by this run is forgotten *)
  (forall ix p m, ps_wip s = Some ix -> w_wip w <> Some ix -> (p, m) ∈ ix_packs start -> (p, m) ∈ ix_packs ix).
Proof.
  intros He Hr Hw Hd. destruct (run_inv _ _ _ _ _ _ _ _ _ _ He Hr Hd) as (cur & I).
  assert (resumable (ps_back s) (mkWorkdir (ps_files s) (ps_wip s))) as Hres.
  { unfold resumable. simpl. destruct (inv_wip _ _ _ _ _ _ _ _ I) as [->|[->| ->]]; [done| |].
    - unfold resumable in Hw. destruct (w_wip w) as [ix|]; [|done]. destruct Hw as [Hs Hx]. split; [done|].
      intros p m Hp. destruct (Hx p m Hp) as [(b & E & <-)|(b & E & <-)].
      + destruct (inv_oldfiles _ _ _ _ _ _ _ _ I p b E) as [?|?]; auto.
      + right. by apply (inv_old _ _ _ _ _ _ _ _ I).
    - split; [apply I|]. intros p m Hp. destruct (inv_avail _ _ _ _ _ _ _ _ I p m Hp) as [?|(b & E1 & E2 & _)]; [by right|].
      left. exists b. done. }
  unfold crashed. split; [done|]. split; [eexists; by apply resumable_found|]. split; [|split].
  - intros p m (b & E & <-). by apply (inv_old _ _ _ _ _ _ _ _ I).
  - intros p m (b & E & <-). by apply (inv_oldfiles _ _ _ _ _ _ _ _ I).
  - intros ix p m E Hne Hp. destruct (inv_wip _ _ _ _ _ _ _ _ I) as [Ew|[Ew|Ew]]; try congruence.
    rewrite E in Ew. injection Ew as ->. by apply (inv_grow _ _ _ _ _ _ _ _ I).
Qed.
Print Assumptions C14_interrupted_runs_are_resumable.

(** The index and packs the resume check returns are a good start for the next
    run, which closes the circle over any number of interruptions. *)
Theorem C14_what_is_resumed_is_ready H k w ix ups bs :
  find_resumable k w = Ok (Some (ix, ups)) ->
  resumable k w -> packs_named H (k_packs k) -> packs_named H (w_packs w) ->
  no_pack_collision H (run_manifest k w bs) -> (forall b, b ∈ bs -> b_bytes b <> []) ->
  run_ready H k w ix ups bs.
Proof.
  intros Hf Hw Hn1 Hn2 Hc Hb. rewrite resumable_found in Hf by done. unfold resumable in Hw.
  destruct (w_wip w) as [ix'|] eqn:Ew; [|done]. injection Hf as <- <-. destruct Hw as [Hs Hx].
  constructor; try done. intros p m Hp. destruct (Hx p m Hp) as [Hh|?]; [|by left]. right. split; [done|].
  destruct Hh as (b & E & _). apply elem_of_list_In, filter_In. split.
  - apply in_map_iff. exists (p, m). split; [done|]. by apply elem_of_list_In.
  - apply bool_decide_eq_true. eauto.
Qed.
Print Assumptions C14_what_is_resumed_is_ready.

(** ** C53: a run that succeeds has published what it was given *)

Theorem C53_success_publishes_everything H target cpus errors k w start ups bs s :
  errors <> ErrorAny ->
  run_ready H k w start ups bs ->
  during H target true cpus errors k w start ups bs s -> ps_main s = MDone true ->
  ps_wip s = None /\ k_snaps (ps_back s) = k_snaps k /\
  ((bs = [] /\ start = mkIndex (ix_supersedes start) [] /\ k_indexes (ps_back s) = k_indexes k) \/
   exists ix, k_indexes (ps_back s) = <[index_id H ix := ix]> (k_indexes k) /\
     ix_supersedes ix = ix_supersedes start /\
     (forall p m, (p, m) ∈ ix_packs start -> (p, m) ∈ ix_packs ix) /\
     (forall p m, (p, m) ∈ ix_packs ix -> holds (k_packs (ps_back s)) p m) /\
     Permutation (concat (map snd (ix_packs ix))) (concat (map snd (ix_packs start)) ++ manifest_of bs)).
Proof.
  intros He Hr Hd Hm. destruct (run_inv _ _ _ _ _ _ _ _ _ _ He Hr Hd) as (cur & I).
  pose proof (inv_done _ _ _ _ _ _ _ _ I _ Hm) as Eu. pose proof (inv_join _ _ _ _ _ _ _ _ I Eu) as Ei.
  pose proof (inv_exits _ _ _ _ _ _ _ _ I) as Hex. pose proof (inv_phase _ _ _ _ _ _ _ _ I) as Hph. rewrite Ei in Hex, Hph.
  assert (forall ty, wk_phase (ps_workers s ty) = WExit) as Hall by (intros []; apply Hex).
  assert (Permutation (entries_of cur) (entries_of start ++ manifest_of bs)) as Hp.
  { destruct (inv_conserve _ _ _ _ _ _ _ _ I) as (lost & Hp & Hl). rewrite Hm in Hp, Hl. rewrite Hl in Hp by done.
    rewrite <-Hp. simpl.
    assert (forall ty, wk_out (ps_workers s ty) = [] /\ pk_blobs (wk_packer (ps_workers s ty)) = []) as Hw.
    { intros ty. split; [by apply (inv_exit_out _ _ _ _ _ _ _ _ I)|].
      destruct (inv_worker _ _ _ _ _ _ _ _ I ty) as [E| ->]; [|done]. rewrite Hall in E. done. }
    destruct (Hw Chunk) as [-> ->]. destruct (Hw Tree) as [-> ->]. simpl. by rewrite app_nil_r. }
  split; [by apply (inv_wip_done _ _ _ _ _ _ _ _ I)|]. split; [apply I|].
  assert (forall p m, (p, m) ∈ ix_packs cur -> holds (k_packs (ps_back s)) p m) as Hback.
  { intros p m Hx. destruct (inv_avail _ _ _ _ _ _ _ _ I p m Hx) as [?|(b & _ & _ & [E|E])]; [done|congruence|].
    rewrite Hm in E. by apply elem_of_nil in E. }
  destruct Hph as [He0|[(j & -> & [E|E])|Hpub]]; try congruence.
  - destruct (inv_indexes _ _ _ _ _ _ _ _ I) as [Eix|(_ & ? & _)]; [|congruence]. left.
    unfold index_is_empty in He0. destruct (ix_supersedes cur) eqn:Es, (ix_packs cur) eqn:Ep; try done.
    unfold entries_of in Hp at 1. rewrite Ep in Hp. simpl in Hp. apply Permutation_nil, app_eq_nil in Hp as [_ Hp].
    split; [by destruct bs|]. split; [|done].
    assert (ix_packs start = []) as E0.
    { destruct (ix_packs start) as [|[p m] l] eqn:E0; [done|]. exfalso.
      assert ((p, m) ∈ ix_packs cur) as Hx. { apply (inv_grow _ _ _ _ _ _ _ _ I). rewrite E0. by left. }
      rewrite Ep in Hx. by apply elem_of_nil in Hx. }
    destruct start; simpl in *. by subst.
  - right. exists cur. split; [done|]. split; [apply I|]. split; [apply (inv_grow _ _ _ _ _ _ _ _ I)|]. done.
Qed.
Print Assumptions C53_success_publishes_everything.

(** ** C31: the pipeline never hangs *)

(** What the caller of a run provides: the index it starts from is named like
    packs are, the packs to upload are there, and no blob is sent twice or is in
    the starting index already (C17). *)
Record stream_ready (H : bytes -> oid) (w : workdir) (start : index) (ups : list oid) (bs : list blob) : Prop := {
  sr_sorted : om_sorted (ix_packs start);
  sr_collision : no_pack_collision H (live_manifest start bs);
  sr_named : forall p m, (p, m) ∈ ix_packs start -> p = pack_id H m;
  sr_ups : NoDup ups;
  sr_files : forall p, p ∈ ups -> is_Some (w_packs w !! p);
  sr_small : forall b, b ∈ bs -> (N.of_nat (length (b_bytes b)) < 2 ^ 32)%N;
  sr_new : NoDup (concat (map snd (ix_packs start)) ++ manifest_of bs) }.

(** With four CPUs or more: no schedule goes on for ever; whatever has happened so
    far, some thread can go on until the run is over; so every run ends. *)
Theorem C31_four_cpus_never_hang_partial H target live cpus errors k w start ups bs :
  4 <= cpus -> stream_ready H w start ups bs ->
  (forall run : nat -> pstate, run 0 = pipeline_start target k w start ups bs ->
     ~ forall n, pstep H target live cpus errors (run n) (run (S n))) /\
  (forall s, during H target live cpus errors k w start ups bs s ->
     (exists ok, ps_main s = MDone ok) \/ exists s', pstep H target live cpus NoError s s') /\
  (forall s, during H target live cpus NoError k w start ups bs s ->
     exists s', rtc (pstep H target live cpus NoError) s s' /\ ps_main s' = MDone true).
Proof.
  intros Hc Hr.
  assert (forall errors s, during H target live cpus errors k w start ups bs s ->
     (exists ok, ps_main s = MDone ok) \/ exists s', pstep H target live cpus NoError s s') as Hprog.
  { intros e s Hd. destruct Hr. eapply progress; eauto. eapply linv_reach; eauto. }
  split; [|split].
  - intros run _ Hrun.
    assert (forall n, steps_left (run n) + n <= steps_left (run 0)) as Hle.
    { induction n as [|n IH]; [lia|]. pose proof (pstep_decreases _ _ _ _ _ _ _ (Hrun n)). lia. }
    specialize (Hle (S (steps_left (run 0)))). lia.
  - apply Hprog.
  - intros s. remember (steps_left s) as n eqn:En. revert s En. induction (lt_wf n) as [n _ IH]. intros s -> Hd.
    destruct (Hprog NoError s Hd) as [(ok & Em)|(s' & Hs)].
    + exists s. split; [done|]. rewrite Em. f_equal.
      assert (forall s, during H target live cpus NoError k w start ups bs s -> ps_main s <> MWait false /\ ps_main s <> MDone false) as Hok.
      { clear. unfold during. intros s Hs. apply (rtc_ind_r (fun s => ps_main s <> MWait false /\ ps_main s <> MDone false)
          (pipeline_start target k w start ups bs)) in Hs; [done|done|].
        clear. intros s s' _ Hst IH. destruct Hst; simpl; try done.
        - destruct (ps_indexer s); try done. by case_bool_decide.
        - by destruct closed.
        - destruct (packer_finish _); simpl; done.
        - unfold upload_job. destruct j; simpl; [by destruct (ps_files s !! id)|done].
        - unfold clear_job. by destruct j.
        - unfold clear_job. by destruct j.
        - split; [done|]. intros [= ->]. by destruct IH. }
      destruct ok; [done|]. by destruct (Hok s Hd).
    + destruct (IH (steps_left s') (pstep_decreases _ _ _ _ _ _ _ Hs) s' eq_refl) as (s2 & H2 & Em).
      { unfold during in *. by eapply rtc_r. }
      exists s2. split; [by eapply rtc_l|done].
Qed.
Print Assumptions C31_four_cpus_never_hang_partial.

(** With three CPUs or fewer: a run that has both a new chunk and a new directory
    to store never ends, in any schedule: the uploader is the fourth thread, and
    gets no permit before a packer has ended, which must first upload its pack. *)
Theorem C31_below_four_cpus_refuted H target live cpus k w start ups bs s :
  cpus <= 3 ->
  (exists c t, c ∈ bs /\ b_type c = Chunk /\ b_bytes c <> [] /\ t ∈ bs /\ b_type t = Tree /\ b_bytes t <> []) ->
  during H target live cpus NoError k w start ups bs s ->
  (forall ok, ps_main s <> MDone ok) /\ ps_back s = k.
Proof.
  intros Hc (c & t & H1 & H2 & H3 & H4 & H5 & H6) Hd.
  assert (forall ty, exists b, b ∈ bs /\ b_type b = ty /\ b_bytes b <> []) as Hb by (intros []; eauto).
  assert (stuck k s) as I by (by eapply stuck_reach). split; [apply (sk_main _ _ I)|apply (sk_back _ _ I)].
Qed.
Print Assumptions C31_below_four_cpus_refuted.

(** ** An error while opening the packs found in the working directory *)

(** If opening one of them fails, the main thread drops its channels with packs
    still to upload, but the indexer publishes the WIP index it started from. *)
Theorem C13_unopened_packs_refuted H target cpus k w start ups bs p m :
  4 <= cpus -> (p, m) ∈ ix_packs start -> k_packs k !! p = None ->
  exists s i, during H target true cpus ErrorAny k w start ups bs s /\
    ps_main s = MDone false /\ k_indexes (ps_back s) !! i = Some start /\ k_packs (ps_back s) !! p = None.
Proof.
  intros Hc Hp Hk.
  assert (index_is_empty start = false) as Hne.
  { unfold index_is_empty. destruct (ix_packs start); [by apply elem_of_nil in Hp|]. by destruct (ix_supersedes start). }
  set (st := mkIndexer true start (Some start) (Some start)).
  set (wk := fun ph => mkWorker (packer_new target) [] ph).
  set (k' := mkBackend (k_packs k) (<[index_id H start := start]> (k_indexes k)) (k_snaps k)).
  set (f0 := fun _ : blob_type => wk WRun).
  set (f1 := <[Chunk := wk WLast]> f0). set (f2 := <[Chunk := wk WExit]> f1).
  set (f3 := <[Tree := wk WLast]> f2). set (f4 := <[Tree := wk WExit]> f3).
  exists (mkPstate (MDone false) f4 IExit UExit 4 (w_packs w) (Some start) k'), (index_id H start).
  split; [|split; [done|split; [by simpl; rewrite lookup_insert|done]]].
  unfold during, pipeline_start.
  eapply rtc_l; [eapply St_main_fail; done|]. unfold set_main; simpl.
  eapply rtc_l; [eapply St_spawn; unfold running; simpl; lia|]. unfold set_spawned; simpl.
  eapply rtc_l; [eapply St_spawn; unfold running; simpl; lia|]. unfold set_spawned; simpl.
  eapply rtc_l; [eapply St_spawn; unfold running; simpl; lia|]. unfold set_spawned; simpl.
  unfold indexer_start. rewrite Hne. simpl.
  eapply rtc_l; [eapply St_spawn; unfold running; simpl; lia|]. unfold set_spawned; simpl.
  eapply rtc_l; [eapply (St_finish _ _ _ _ _ _ Chunk false); try done; simpl; lia|]. unfold set_worker; simpl.
  eapply rtc_l; [eapply (St_pack_exit _ _ _ _ _ _ Chunk); done|]. unfold set_worker; simpl.
  eapply rtc_l; [eapply (St_finish _ _ _ _ _ _ Tree false); try done; simpl; lia|]. unfold set_worker; simpl.
  eapply rtc_l; [eapply (St_pack_exit _ _ _ _ _ _ Tree); done|]. unfold set_worker; simpl.
  eapply rtc_l; [eapply (St_index_end _ _ _ _ _ _ st); done|]. unfold indexer_end. simpl. rewrite andb_false_r. simpl.
  unfold set_indexer, set_wip; simpl.
  eapply rtc_l; [eapply St_index_upload; [done|unfold tid_uploader; simpl; lia|done]|]. unfold set_indexer, set_uploader; simpl.
  eapply rtc_l; [eapply St_up_write; done|]. unfold set_uploader; simpl.
  eapply rtc_l; [eapply St_up_clear; done|]. unfold set_uploader, set_back; simpl.
  eapply rtc_l; [eapply (St_up_exit _ _ _ _ _ _ false); try done; unfold tid_uploader; simpl; lia|]. unfold set_uploader; simpl.
  eapply rtc_l; [eapply (St_join _ _ _ _ _ _ false); try done|]. unfold set_main, set_wip; simpl. done.
Qed.
Print Assumptions C13_unopened_packs_refuted.

(** ** Examples *)

Definition infixes {A} (l : list A) : list (list A) :=
  concat (map (fun i => map (fun n => take n (drop i l)) (seq 0 (S (length l)))) (seq 0 (S (length l)))).

Lemma infixes_complete {A} (mid l : list A) : infix_of mid l -> mid ∈ infixes l.
Proof.
  intros (pre & post & ->). unfold infixes. apply elem_of_list_In, in_concat.
  eexists. split; [apply in_map, (in_seq _ 0 (length pre)); rewrite app_length; lia|].
  apply in_map_iff. exists (length mid). rewrite drop_app. rewrite take_app. split; [done|].
  apply in_seq. rewrite !app_length. lia.
Qed.

Definition ps_manifests (ps : gmap oid (list blob)) : list manifest := map (fun x => manifest_of x.2) (map_to_list ps).
Definition sent_manifests (bs : list blob) : list manifest :=
  map manifest_of (infixes (of_type Chunk bs) ++ infixes (of_type Tree bs)).

Definition collide_free (H : bytes -> oid) (ms : list manifest) : bool :=
  bool_decide (NoDup (map (pack_id H) (remove_dups ms))).

Lemma sent_manifests_complete bs ty mid : infix_of mid (of_type ty bs) -> manifest_of mid ∈ sent_manifests bs.
Proof.
  intros Hm. unfold sent_manifests. apply elem_of_list_In, in_map, elem_of_list_In, elem_of_app.
  destruct ty; [left|right]; by apply infixes_complete.
Qed.

Lemma collide_free_ok H k w bs :
  collide_free H (ps_manifests (k_packs k) ++ ps_manifests (w_packs w) ++ sent_manifests bs) = true ->
  no_pack_collision H (run_manifest k w bs).
Proof.
  intros Hf. assert (forall m, run_manifest k w bs m -> m ∈ ps_manifests (k_packs k) ++ ps_manifests (w_packs w) ++ sent_manifests bs) as Hin.
  { intros m [(id & b & [E|E] & ->)|(ty & mid & Hi & ->)]; rewrite !elem_of_app.
    - left. apply elem_of_map_to_list in E. apply elem_of_list_In, in_map_iff. exists (id, b). split; [done|by apply elem_of_list_In].
    - right. left. apply elem_of_map_to_list in E. apply elem_of_list_In, in_map_iff. exists (id, b). split; [done|by apply elem_of_list_In].
    - right. right. by eapply sent_manifests_complete. }
  intros m m' Hm%Hin%elem_of_remove_dups Hm'%Hin%elem_of_remove_dups E. apply bool_decide_eq_true in Hf.
  apply elem_of_list_lookup in Hm as [i Hi], Hm' as [j Hj]. rewrite NoDup_alt in Hf.
  assert (i = j) as ->; [|congruence]. apply (Hf i j (pack_id H m)).
  - change (map (pack_id H)) with (fmap (M:=list) (pack_id H)). by rewrite list_lookup_fmap, Hi.
  - change (map (pack_id H)) with (fmap (M:=list) (pack_id H)). by rewrite list_lookup_fmap, Hj, E.
Qed.

(** Two chunks and a directory; the second chunk's pack was left behind by an
    interrupted run. *)
Definition ex_blob (ty : blob_type) (x : bytes) : blob := mkBlob ty (quick_hash x) x.
Definition ex_chunk1 := ex_blob Chunk [x01; x02; x03].
Definition ex_chunk2 := ex_blob Chunk [x04; x05].
Definition ex_dir := ex_blob Tree [x06].
Definition ex_left : oid := pack_id quick_hash (manifest_of [ex_chunk2]).
Definition ex_wip : index := mkIndex [] [(ex_left, manifest_of [ex_chunk2])].
Definition ex_back : backend := mkBackend ∅ ∅ ∅.
Definition ex_work : workdir := mkWorkdir {[ex_left := [ex_chunk2]]} (Some ex_wip).

Example C13_witness :
  run_ready quick_hash ex_back ex_work ex_wip [ex_left] [ex_chunk1; ex_dir] /\
  find_resumable ex_back ex_work = Ok (Some (ex_wip, [ex_left])) /\
  resumable ex_back ex_work /\
  indexes_backed ex_back /\
  stream_ready quick_hash ex_work ex_wip [ex_left] [ex_chunk1; ex_dir].
Proof.
  assert (packs_named quick_hash (w_packs ex_work)) as Hw.
  { intros id b E. unfold ex_work in E. simpl in E. apply lookup_singleton_Some in E as [<- <-]. done. }
  assert (holds (w_packs ex_work) ex_left (manifest_of [ex_chunk2])) as Hh.
  { exists [ex_chunk2]. split; [|done]. apply lookup_singleton. }
  assert (forall p m, (p, m) ∈ ix_packs ex_wip -> p = ex_left /\ m = manifest_of [ex_chunk2]) as Hwip.
  { intros p m. unfold ex_wip. simpl. rewrite elem_of_list_singleton. by intros [= -> ->]. }
  split; [|split; [|split; [|split]]].
  - constructor; try done.
    + apply collide_free_ok. vm_compute. reflexivity.
    + intros b [->|[->|?%elem_of_nil]%elem_of_cons]%elem_of_cons; done.
    + intros p m [-> ->]%Hwip. right. split; [done|by left].
  - vm_compute. reflexivity.
  - split; [done|]. intros p m [-> ->]%Hwip. by left.
  - intros i ix p m E. done.
  - constructor.
    + done.
    + intros m m' Hm Hm'. apply (collide_free_ok quick_hash ex_back ex_work [ex_chunk1; ex_dir]); [vm_compute; reflexivity| |].
      * destruct Hm as [Hm|(id & [-> ->]%Hwip)]; [by right|]. left. exists ex_left, [ex_chunk2]. split; [|done]. right. apply lookup_singleton.
      * destruct Hm' as [Hm'|(id & [-> ->]%Hwip)]; [by right|]. left. exists ex_left, [ex_chunk2]. split; [|done]. right. apply lookup_singleton.
    + intros p m [-> ->]%Hwip. reflexivity.
    + apply NoDup_singleton.
    + intros p Hp. apply elem_of_list_singleton in Hp as ->. exists [ex_chunk2]. apply lookup_singleton.
    + intros b [->|[->|?%elem_of_nil]%elem_of_cons]%elem_of_cons; [vm_compute; reflexivity..|done].
    + apply (bool_decide_unpack _). vm_compute. exact I.
Qed.

(** So a resumed run of this example has an execution that ends well, after which
    the leftover pack and the new blobs are all indexed. *)
Example C53_witness : exists s ix,
  during quick_hash 20000000 true 4 NoError ex_back ex_work ex_wip [ex_left] [ex_chunk1; ex_dir] s /\
  ps_main s = MDone true /\ ps_wip s = None /\
  k_indexes (ps_back s) = {[index_id quick_hash ix := ix]} /\
  Permutation (concat (map snd (ix_packs ix))) (manifest_of [ex_chunk2; ex_chunk1; ex_dir]) /\
  (forall p m, (p, m) ∈ ix_packs ix -> holds (k_packs (ps_back s)) p m).
Proof.
  destruct C13_witness as (Hr & _ & _ & _ & Hsr).
  destruct (C31_four_cpus_never_hang_partial quick_hash 20000000 true 4 NoError ex_back ex_work ex_wip [ex_left] [ex_chunk1; ex_dir] ltac:(lia) Hsr)
    as (_ & _ & Hend).
  destruct (Hend _ (rtc_refl _ _)) as (s & Hs & Em).
  destruct (C53_success_publishes_everything _ _ _ NoError _ _ _ _ _ s ltac:(done) Hr Hs Em) as (Ew & _ & [(? & _)|(ix & E1 & _ & _ & E2 & E3)]); [done|].
  exists s, ix. split; [done|]. split; [done|]. split; [done|]. split; [done|]. split; [|done].
  rewrite E3. done.
Qed.

Example C31_refuted_witness :
  (exists c t, c ∈ [ex_chunk1; ex_dir] /\ b_type c = Chunk /\ b_bytes c <> [] /\
     t ∈ [ex_chunk1; ex_dir] /\ b_type t = Tree /\ b_bytes t <> []).
Proof.
  exists ex_chunk1, ex_dir. split; [by left|]. split; [done|]. split; [done|]. split; [right; by left|]. done.
Qed.

Example C13_refuted_witness : (ex_left, manifest_of [ex_chunk2]) ∈ ix_packs ex_wip /\ k_packs ex_back !! ex_left = None.
Proof. split; [by left|done]. Qed.
