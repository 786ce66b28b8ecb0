(** Invariants of the backup pipeline. *)

From stdpp Require Import functions.
From Verif Require Import Base OMap Formats Hashing Pack Index IndexFacts Pipeline.

Definition of_type (ty : blob_type) (bs : list blob) : list blob :=
  List.filter (fun b => bool_decide (b_type b = ty)) bs.

Definition entries_of (ix : index) : manifest := concat (map snd (ix_packs ix)).

Global Arguments of_type : simpl never.

Lemma of_type_cons ty b bs :
  of_type ty (b :: bs) = (if bool_decide (b_type b = ty) then [b] else []) ++ of_type ty bs.
Proof. unfold of_type. simpl. by case_bool_decide. Qed.

Definition infix_of {A} (l l' : list A) : Prop := exists pre post, l' = pre ++ l ++ post.

(** Every pack the run can see or make: the ones there before, and runs of
    consecutive blobs of one type. *)
Definition run_manifest (k : backend) (w : workdir) (bs : list blob) (m : manifest) : Prop :=
  (exists id b, (k_packs k !! id = Some b \/ w_packs w !! id = Some b) /\ m = manifest_of b) \/
  (exists ty mid, infix_of mid (of_type ty bs) /\ m = manifest_of mid).

Definition no_pack_collision (H : bytes -> oid) (P : manifest -> Prop) : Prop :=
  forall m m', P m -> P m' -> pack_id H m = pack_id H m' -> m = m'.

(** Pack files are named after their manifests. *)
Definition packs_named (H : bytes -> oid) (ps : gmap oid (list blob)) : Prop :=
  forall id bs, ps !! id = Some bs -> id = pack_id H (manifest_of bs).

Definition ups_of (m : mphase) : list oid := match m with MSend ups _ => ups | _ => [] end.
Definition rest_of (m : mphase) : list blob := match m with MSend _ bs => bs | _ => [] end.
Definition failed (m : mphase) : bool := match m with MWait false | MDone false => true | _ => false end.

Definition out_entries (out : list packer_msg) : manifest :=
  concat (map (fun x => match x with MsgIndex _ m => m | MsgUpload _ => [] end) out).

Definition on_backend (k : backend) (id : oid) (m : manifest) : Prop :=
  exists bs, k_packs k !! id = Some bs /\ manifest_of bs = m.

(** A pack named by the index being built: uploaded, or about to be. *)
Definition avail (s : pstate) (id : oid) (m : manifest) : Prop :=
  on_backend (ps_back s) id m \/
  (exists bs, ps_files s !! id = Some bs /\ manifest_of bs = m /\
     (ps_uploader s = UBusy (JPack id) \/ id ∈ ups_of (ps_main s))).

(** What a packer still has to say. *)
Definition out_ok (H : bytes -> oid) (s : pstate) (out : list packer_msg) : Prop :=
  match out with
  | [] => True
  | [MsgUpload id; MsgIndex id' m] =>
      id' = id /\ id = pack_id H m /\
      ((exists bs, ps_files s !! id = Some bs /\ manifest_of bs = m) \/ on_backend (ps_back s) id m)
  | [MsgIndex id m] => id = pack_id H m /\ avail s id m
  | _ => False
  end.

(** What [packer_step] does to the blobs. *)
Lemma packer_step_blobs target pk b sz pk' closed :
  packer_step target pk b sz = Ok (pk', closed) ->
  (closed = None /\ pk_blobs pk' = pk_blobs pk ++ [b] /\
     pk_in_pack pk' = (pk_in_pack pk + N.of_nat (length (b_bytes b)))%N) \/
  (closed = Some (pk_blobs pk ++ [b]) /\ pk' = packer_new target).
Proof.
  unfold packer_step. intros E. apply rbind_ok in E as (u & _ & E).
  destruct (_ <=? _)%N; [injection E as <- <-; auto|].
  destruct (_ <=? _)%N; [destruct (_ <=? _)%N|]; injection E as <- <-; auto.
Qed.

Lemma entries_insert id m ix :
  om_sorted (ix_packs ix) -> om_get id (ix_packs ix) = None ->
  Permutation (entries_of (mkIndex (ix_supersedes ix) (om_insert id m (ix_packs ix)))) (m ++ entries_of ix).
Proof.
  unfold entries_of. simpl. generalize (ix_packs ix). intros l Hs Hn. revert Hs Hn.
  induction l as [|[k v] l IH]; intros Hs Hn; [done|].
  simpl in *. destruct (bytes_cmp id k) eqn:Ec; simpl; try done.
  assert (om_sorted l) as Hs' by (by inversion Hs).
  rewrite IH; [|done|]. { solve_Permutation. }
  done.
Qed.

Section inv.
Variable H : bytes -> oid.
Variable target : N.
Variable cpus : nat.
Variables (k0 : backend) (w0 : workdir) (start : index) (ups0 : list oid) (bs0 : list blob).
Variable errors : merror.
Hypothesis Herr : errors <> ErrorAny.
Notation step := (pstep H target true cpus errors).

Definition indexes_published (s : pstate) (cur : index) : Prop :=
  k_indexes (ps_back s) = <[index_id H cur := cur]> (k_indexes k0).

Record inv (cur : index) (s : pstate) : Prop := {
  inv_sorted : om_sorted (ix_packs cur);
  inv_sup : ix_supersedes cur = ix_supersedes start;
  inv_grow : forall id m, (id, m) ∈ ix_packs start -> (id, m) ∈ ix_packs cur;
  inv_new : forall id m, (id, m) ∈ ix_packs cur -> (id, m) ∈ ix_packs start \/
    (id = pack_id H m /\ exists ty mid, infix_of mid (of_type ty bs0) /\ m = manifest_of mid);
  inv_phase : match ps_indexer s with
    | INew st => st = cur
    | IRecv st => in_resumable st = true /\ in_index st = cur /\
        in_persisted st = (if index_is_empty cur then None else Some cur) /\ in_wip st = ps_wip s
    | ISend ix => ix = cur /\ index_is_empty cur = false
    | IExit => index_is_empty cur = true \/ (exists j, j = JIndex cur /\ (ps_uploader s = UBusy j \/ ps_uploader s = UWritten j))
        \/ indexes_published s cur
    end;
  inv_exits : match ps_indexer s with
    | ISend _ | IExit => wk_phase (ps_workers s Chunk) = WExit /\ wk_phase (ps_workers s Tree) = WExit
    | _ => True end;
  inv_running : forall ty, wk_phase (ps_workers s ty) = WRun \/ (forall ups bs, ps_main s <> MSend ups bs);
  inv_worker : forall ty, wk_phase (ps_workers s ty) = WRun \/ wk_packer (ps_workers s ty) = packer_new target;
  inv_exit_out : forall ty, wk_phase (ps_workers s ty) = WExit -> wk_out (ps_workers s ty) = [];
  inv_count : forall ty, pk_in_pack (wk_packer (ps_workers s ty)) =
    foldr (fun b n => (N.of_nat (length (b_bytes b)) + n)%N) 0%N (pk_blobs (wk_packer (ps_workers s ty)));
  inv_infix : forall ty, exists pre post, of_type ty bs0 =
    pre ++ pk_blobs (wk_packer (ps_workers s ty)) ++ of_type ty (rest_of (ps_main s)) ++ post;
  inv_conserve : exists lost, Permutation
    (entries_of cur ++ out_entries (wk_out (ps_workers s Chunk)) ++ out_entries (wk_out (ps_workers s Tree))
     ++ manifest_of (pk_blobs (wk_packer (ps_workers s Chunk))) ++ manifest_of (pk_blobs (wk_packer (ps_workers s Tree)))
     ++ manifest_of (rest_of (ps_main s)) ++ lost)
    (entries_of start ++ manifest_of bs0) /\ (failed (ps_main s) = false -> lost = []);
  inv_out : forall ty, out_ok H s (wk_out (ps_workers s ty));
  inv_out_new : forall ty id m, MsgIndex id m ∈ wk_out (ps_workers s ty) ->
    id = pack_id H m /\ exists ty mid, infix_of mid (of_type ty bs0) /\ m = manifest_of mid;
  inv_avail : forall id m, (id, m) ∈ ix_packs cur -> avail s id m;
  inv_files : forall id bs, ps_files s !! id = Some bs -> id = pack_id H (manifest_of bs) /\ run_manifest k0 w0 bs0 (manifest_of bs);
  inv_back : forall id bs, k_packs (ps_back s) !! id = Some bs -> id = pack_id H (manifest_of bs) /\ run_manifest k0 w0 bs0 (manifest_of bs);
  inv_old : forall id bs, k_packs k0 !! id = Some bs -> on_backend (ps_back s) id (manifest_of bs);
  inv_oldfiles : forall id bs, w_packs w0 !! id = Some bs ->
    (exists bs', ps_files s !! id = Some bs' /\ manifest_of bs' = manifest_of bs) \/ on_backend (ps_back s) id (manifest_of bs);
  inv_packs_from : forall id bs, k_packs (ps_back s) !! id = Some bs ->
    k_packs k0 !! id = Some bs \/ w_packs w0 !! id = Some bs \/ exists ty, infix_of bs (of_type ty bs0);
  inv_files_from : forall id bs, ps_files s !! id = Some bs ->
    w_packs w0 !! id = Some bs \/ exists ty, infix_of bs (of_type ty bs0);
  inv_wip : ps_wip s = None \/ ps_wip s = w_wip w0 \/ ps_wip s = Some cur;
  inv_snaps : k_snaps (ps_back s) = k_snaps k0;
  inv_upload : match ps_uploader s with
    | UBusy (JPack id) => is_Some (ps_files s !! id) \/ is_Some (k_packs (ps_back s) !! id)
    | UWritten (JPack id) => is_Some (k_packs (ps_back s) !! id)
    | UBusy (JIndex ix) | UWritten (JIndex ix) => ix = cur /\ ps_indexer s = IExit /\ index_is_empty cur = false
        /\ (forall id m, (id, m) ∈ ix_packs cur -> on_backend (ps_back s) id m)
    | _ => True end;
  inv_indexes : k_indexes (ps_back s) = k_indexes k0 \/
    (indexes_published s cur /\ index_is_empty cur = false /\ ps_indexer s = IExit /\
     forall id m, (id, m) ∈ ix_packs cur -> on_backend (ps_back s) id m);
  inv_written : forall j, ps_uploader s = UWritten (JIndex j) -> indexes_published s cur;
  inv_done : forall ok, ps_main s = MDone ok -> ps_uploader s = UExit;
  inv_join : ps_uploader s = UExit -> ps_indexer s = IExit;
  inv_wip_done : ps_main s = MDone true -> ps_wip s = None;
}.

Hypothesis Hsorted : om_sorted (ix_packs start).
Hypothesis Hcoll : no_pack_collision H (run_manifest k0 w0 bs0).
Hypothesis Hnamed : packs_named H (k_packs k0).
Hypothesis Hnamed' : packs_named H (w_packs w0).
Hypothesis Hbytes : forall b, b ∈ bs0 -> b_bytes b <> [].
Hypothesis Hstart : forall id m, (id, m) ∈ ix_packs start ->
  on_backend k0 id m \/ (exists bs, w_packs w0 !! id = Some bs /\ manifest_of bs = m /\ id ∈ ups0).

Local Set Default Proof Using "All".

Lemma infix_self {A} (l : list A) : infix_of l l.
Proof. exists [], []. by rewrite app_nil_r. Qed.

Lemma inv_start : inv start (pipeline_start target k0 w0 start ups0 bs0).
Proof.
  constructor; simpl; try done; auto.
  - intros ty. exists [], []. simpl. by rewrite app_nil_r.
  - exists []. simpl. split; [|done]. by rewrite app_nil_r.
  - intros ty id m Hx%elem_of_nil. done.
  - intros id m Hx. destruct (Hstart id m Hx) as [Hb|(b & E1 & E2 & E3)]; [by left|].
    right. exists b. auto.
  - intros id b E. split; [by apply Hnamed'|]. left. eauto.
  - intros id b E. split; [by apply Hnamed|]. left. eauto.
  - intros id b E. exists b. done.
  - intros id b E. left. eauto.
Qed.

(** Two packs of the same name have the same manifest. *)
Lemma same_manifest b b' :
  run_manifest k0 w0 bs0 (manifest_of b) -> run_manifest k0 w0 bs0 (manifest_of b') ->
  pack_id H (manifest_of b) = pack_id H (manifest_of b') -> manifest_of b = manifest_of b'.
Proof. intros. by apply Hcoll. Qed.

Lemma avail_case s s' id m :
  avail s id m ->
  (on_backend (ps_back s) id m -> avail s' id m) ->
  (forall bs, ps_files s !! id = Some bs -> manifest_of bs = m ->
     ps_uploader s = UBusy (JPack id) \/ id ∈ ups_of (ps_main s) -> avail s' id m) -> avail s' id m.
Proof. intros [Hb|(b & E1 & E2 & E3)] H1 H2; eauto. Qed.

(** A step that leaves files, backend, uploads and messages alone. *)
Lemma out_ok_case s s' out :
  out_ok H s out ->
  (forall id m, on_backend (ps_back s) id m -> on_backend (ps_back s') id m) ->
  (forall id bs, ps_files s !! id = Some bs ->
     (exists bs', ps_files s' !! id = Some bs' /\ manifest_of bs' = manifest_of bs) \/ on_backend (ps_back s') id (manifest_of bs)) ->
  (forall id m, avail s id m -> avail s' id m) -> out_ok H s' out.
Proof.
  intros Ho H1 H2 H3. destruct out as [|[id|id m] [|[id'|id' m'] [|]]]; simpl in *; try done.
  - destruct Ho as (-> & E & Hx). split; [done|]. split; [done|]. destruct Hx as [(b & E1 & E2)|Hx]; [|auto].
    destruct (H2 _ _ E1) as [(b' & E3 & E4)|Hx]; [left; exists b'; rewrite E4; done|right; by rewrite <-E2].
  - destruct Ho as (E & Ha). auto.
Qed.

Lemma out_entries_pack b : out_entries (pack_msgs H b) = manifest_of b.
Proof. unfold out_entries, pack_msgs. simpl. by rewrite app_nil_r. Qed.

Lemma manifest_of_app b b' : manifest_of (b ++ b') = manifest_of b ++ manifest_of b'.
Proof. apply map_app. Qed.


Lemma on_backend_insert cur s id b :
  inv cur s -> run_manifest k0 w0 bs0 (manifest_of b) -> id = pack_id H (manifest_of b) ->
  forall id' m, on_backend (ps_back s) id' m ->
  on_backend (mkBackend (<[id := b]> (k_packs (ps_back s))) (k_indexes (ps_back s)) (k_snaps (ps_back s))) id' m.
Proof.
  intros I Hr -> id' m (b' & E & <-). unfold on_backend. simpl.
  destruct (decide (id' = pack_id H (manifest_of b))) as [->|Hne].
  - exists b. rewrite lookup_insert. split; [done|].
    destruct (inv_back _ _ I _ _ E) as [E' Hr']. by apply same_manifest.
  - exists b'. rewrite lookup_insert_ne by done. done.
Qed.

Lemma files_insert cur s id b :
  inv cur s -> run_manifest k0 w0 bs0 (manifest_of b) -> id = pack_id H (manifest_of b) ->
  forall id' b', ps_files s !! id' = Some b' ->
  exists b'', <[id := b]> (ps_files s) !! id' = Some b'' /\ manifest_of b'' = manifest_of b'.
Proof.
  intros I Hr -> id' b' E.
  destruct (decide (id' = pack_id H (manifest_of b))) as [->|Hne].
  - exists b. rewrite lookup_insert. split; [done|].
    destruct (inv_files _ _ I _ _ E) as [E' Hr']. by apply same_manifest.
  - exists b'. rewrite lookup_insert_ne by done. done.
Qed.

(** Closing a pack keeps everything that was said about the other parts. *)
Lemma avail_insert cur s s' id b :
  inv cur s -> run_manifest k0 w0 bs0 (manifest_of b) -> id = pack_id H (manifest_of b) ->
  ps_back s' = ps_back s -> ps_uploader s' = ps_uploader s -> ups_of (ps_main s') = ups_of (ps_main s) ->
  ps_files s' = <[id := b]> (ps_files s) ->
  forall id' m, avail s id' m -> avail s' id' m.
Proof.
  intros I Hr Hid E1 E2 E3 E4 id' m Ha. unfold avail in *. rewrite E1, E2, E3, E4.
  destruct Ha as [Ha|(b' & F1 & F2 & F3)]; [by left|right].
  destruct (files_insert cur s id b I Hr Hid _ _ F1) as (b'' & G1 & G2).
  exists b''. rewrite G2. done.
Qed.

Lemma inv_close cur s ty closed pk ph mn :
  inv cur s -> wk_out (ps_workers s ty) = [] -> wk_phase (ps_workers s ty) = WRun ->
  ups_of mn = ups_of (ps_main s) -> failed mn = failed (ps_main s) -> (forall ok, mn <> MDone ok) ->
  (ph = WRun \/ (ph = WLast /\ pk = packer_new target /\ forall ups bs, mn <> MSend ups bs)) ->
  ((forall ups bs, ps_main s <> MSend ups bs) -> forall ups bs, mn <> MSend ups bs) ->
  pk_in_pack pk = foldr (fun b n => (N.of_nat (length (b_bytes b)) + n)%N) 0%N (pk_blobs pk) ->
  (exists pre post, of_type ty bs0 = pre ++ pk_blobs pk ++ of_type ty (rest_of mn) ++ post) ->
  (forall ty', ty' <> ty -> of_type ty' (rest_of mn) = of_type ty' (rest_of (ps_main s))) ->
  (forall b, closed = Some b -> infix_of b (of_type ty bs0)) ->
  Permutation (manifest_of (default [] closed) ++ manifest_of (pk_blobs pk) ++ manifest_of (rest_of mn))
    (manifest_of (pk_blobs (wk_packer (ps_workers s ty))) ++ manifest_of (rest_of (ps_main s))) ->
  inv cur (close_pack H ty closed pk ph (set_main mn s)).
Proof.
  intros I Hout Hph Hups Hfail Hnd Hphase Hmain Hcount Hinf Hinf' Hclosed Hperm.
  set (w' := mkWorker pk (match closed with Some b => pack_msgs H b | None => [] end) ph).
  set (files' := match closed with Some b => <[pack_id H (manifest_of b) := b]> (ps_files s) | None => ps_files s end).
  assert (close_pack H ty closed pk ph (set_main mn s) =
    mkPstate mn (<[ty := w']> (ps_workers s)) (ps_indexer s) (ps_uploader s) (ps_spawned s) files' (ps_wip s) (ps_back s)) as ->
    by (by destruct closed).
  assert (forall b, closed = Some b -> run_manifest k0 w0 bs0 (manifest_of b)) as Hrun.
  { intros b E. right. exists ty, b. split; [by apply Hclosed|done]. }
  assert (forall ty', wk_phase (<[ty := w']> (ps_workers s) ty') = WExit -> wk_phase (ps_workers s ty') = WExit /\ ty' <> ty) as Hexit.
  { intros ty'. destruct (decide (ty' = ty)) as [->|Hne].
    - rewrite fn_lookup_insert. simpl. destruct Hphase as [-> |[-> _]]; done.
    - rewrite fn_lookup_insert_ne by done. done. }
  set (s' := mkPstate _ _ _ _ _ _ _ _).
  assert (forall id m, avail s id m -> avail s' id m) as Hav.
  { destruct closed as [b|].
    - intros. eapply (avail_insert cur s s' (pack_id H (manifest_of b)) b I); eauto.
    - intros id m Ha. unfold avail in *. simpl. by rewrite Hups. }
  assert (forall id b, ps_files s !! id = Some b -> exists b', files' !! id = Some b' /\ manifest_of b' = manifest_of b) as Hfi.
  { unfold files'. destruct closed as [b|]; [|eauto]. intros id b' E. eapply files_insert; eauto. }
  assert (wk_phase (ps_workers s Chunk) = WExit /\ wk_phase (ps_workers s Tree) = WExit -> False) as Hnotboth.
  { intros [E1 E2]. destruct ty; rewrite Hph in *; done. }
  pose proof (inv_exits cur s I) as Iex.
  constructor; simpl; try (by apply I).
  - destruct (ps_indexer s); try done; exfalso; by apply Hnotboth.
  - intros ty'. destruct (decide (ty' = ty)) as [->|Hne].
    + rewrite fn_lookup_insert. simpl. destruct Hphase as [->|(_ & _ & Hx)]; auto.
    + rewrite fn_lookup_insert_ne by done. destruct (inv_running cur s I ty'); auto.
  - intros ty'. destruct (decide (ty' = ty)) as [->|Hne].
    + rewrite fn_lookup_insert. simpl. destruct Hphase as [->|(_ & Hx & _)]; auto.
    + rewrite fn_lookup_insert_ne by done. apply I.
  - intros ty' Hx. apply Hexit in Hx as [Hx Hne]. rewrite fn_lookup_insert_ne by done. by apply (inv_exit_out cur s I).
  - intros ty'. destruct (decide (ty' = ty)) as [->|Hne].
    + rewrite fn_lookup_insert. done.
    + rewrite fn_lookup_insert_ne by done. apply I.
  - intros ty'. destruct (decide (ty' = ty)) as [->|Hne].
    + rewrite fn_lookup_insert. done.
    + rewrite fn_lookup_insert_ne, Hinf' by done. apply I.
  - destruct (inv_conserve cur s I) as (lost & Hp & Hl). exists lost. split; [|by rewrite Hfail].
    rewrite <-Hp.
    assert (out_entries (wk_out w') = manifest_of (default [] closed)) as Ho.
    { unfold w'. simpl. destruct closed; [apply out_entries_pack|done]. }
    destruct ty.
    + rewrite fn_lookup_insert, fn_lookup_insert_ne by done. rewrite Ho, Hout. simpl.
      apply Permutation_app_head.
      transitivity ((manifest_of (default [] closed) ++ manifest_of (pk_blobs pk) ++ manifest_of (rest_of mn)) ++
        out_entries (wk_out (ps_workers s Tree)) ++ manifest_of (pk_blobs (wk_packer (ps_workers s Tree))) ++ lost); [solve_Permutation|].
      rewrite Hperm. solve_Permutation.
    + rewrite fn_lookup_insert, fn_lookup_insert_ne by done. rewrite Ho, Hout. simpl.
      apply Permutation_app_head.
      transitivity ((manifest_of (default [] closed) ++ manifest_of (pk_blobs pk) ++ manifest_of (rest_of mn)) ++
        out_entries (wk_out (ps_workers s Chunk)) ++ manifest_of (pk_blobs (wk_packer (ps_workers s Chunk))) ++ lost); [solve_Permutation|].
      rewrite Hperm. solve_Permutation.
  - intros ty'. destruct (decide (ty' = ty)) as [->|Hne].
    + rewrite fn_lookup_insert. unfold w'. simpl. destruct closed as [b|]; [|done].
      simpl. split; [done|]. split; [done|]. left. exists b. unfold files'. by rewrite lookup_insert.
    + rewrite fn_lookup_insert_ne by done. eapply out_ok_case; [apply (inv_out cur s I)|done|simpl; eauto|done].
  - intros ty' id m. destruct (decide (ty' = ty)) as [->|Hne].
    + rewrite fn_lookup_insert. unfold w'. simpl. destruct closed as [b|]; [|by intros ?%elem_of_nil].
      unfold pack_msgs. intros [?|[[= -> ->]|?%elem_of_nil]%elem_of_cons]%elem_of_cons; [done| |done].
      split; [done|]. exists ty, b. split; [by apply Hclosed|done].
    + rewrite fn_lookup_insert_ne by done. apply (inv_out_new cur s I).
  - intros id m Hx. apply Hav. by apply (inv_avail cur s I).
  - unfold files'. destruct closed as [b|]; [|apply I]. intros id b'.
    destruct (decide (id = pack_id H (manifest_of b))) as [->|Hne].
    + rewrite lookup_insert. intros [= ->]. auto.
    + rewrite lookup_insert_ne by done. apply (inv_files cur s I).
  - intros id b E. destruct (inv_oldfiles cur s I _ _ E) as [(b' & E1 & E2)|Hx]; [|by right].
    left. destruct (Hfi _ _ E1) as (b2 & E3 & E4). exists b2. split; [done|]. congruence.
  - unfold files'. destruct closed as [b|]; [|apply I]. intros id b'.
    destruct (decide (id = pack_id H (manifest_of b))) as [->|Hne].
    + rewrite lookup_insert. intros [= ->]. right. exists ty. by apply Hclosed.
    + rewrite lookup_insert_ne by done. apply (inv_files_from cur s I).
  - pose proof (inv_upload cur s I) as Iu.
    destruct (ps_uploader s) as [|[id|ix]|[id|ix]|] eqn:Eu; try done.
    destruct Iu as [[b E]|E]; [|by right]. left. destruct (Hfi _ _ E) as (b' & E' & _). eauto.
  - intros ok E. by apply Hnd in E.
  - intros E. by apply Hnd in E.
Qed.

Lemma inv_spawned cur s n : inv cur s -> inv cur (set_spawned n s).
Proof. intros I. constructor; simpl; by apply I. Qed.

(** The indexer starts. *)
Lemma inv_indexer cur s st st' :
  inv cur s -> ps_indexer s = st -> st = INew cur ->
  (in_resumable st' = true /\ in_index st' = cur /\
        in_persisted st' = (if index_is_empty cur then None else Some cur)) ->
  in_wip st' = None \/ in_wip st' = w_wip w0 \/ in_wip st' = Some cur ->
  inv cur (set_indexer (IRecv st') (set_wip (in_wip st') s)).
Proof.
  intros I E -> (E1 & E2 & E3) Hw. pose proof (inv_upload cur s I) as Iup. rewrite E in Iup.
  constructor; simpl; try done; try (by apply I).
  - destruct (ps_uploader s) as [|[]|[]|]; try done; destruct Iup as (_ & ? & _); done.
  - destruct (inv_indexes cur s I) as [?|(_ & _ & Ei & _)]; [auto|]. congruence.
  - intros Ei. apply (inv_join cur s I) in Ei. congruence.
  - intros Em. apply (inv_done cur s I), (inv_join cur s I) in Em. congruence.
Qed.

(** Steps of the main thread that only let go of things. *)
Lemma inv_main cur s mn :
  inv cur s -> ups_of mn = ups_of (ps_main s) ->
  (exists ok, mn = MWait ok) -> (exists bs, ps_main s = MSend [] bs /\ (bs = [] \/ failed mn = true)) ->
  inv cur (set_main mn s).
Proof.
  intros I Hups (ok & ->) (bs & Em & Hbs).
  assert (forall id m, avail s id m -> avail (set_main (MWait ok) s) id m) as Hav.
  { intros id m Ha. unfold avail in *. simpl. by rewrite Em in Ha. }
  constructor; simpl; try (by apply I).
  - intros ty. right. done.
  - intros ty. destruct (inv_infix cur s I ty) as (pre & post & E). rewrite Em in E.
    exists pre, (of_type ty bs ++ post). by rewrite E.
  - destruct (inv_conserve cur s I) as (lost & Hp & Hl). rewrite Em in Hp, Hl. simpl in Hp.
    exists (manifest_of bs ++ lost). split; [done|]. destruct ok; [|done]. intros _.
    rewrite Hl by done. destruct Hbs as [->|Hx]; done.
  - intros ty. eapply out_ok_case; [apply (inv_out cur s I)|done|simpl; eauto|done].
  - intros id m Hx. apply Hav. by apply (inv_avail cur s I).
  - done.
  - done.
Qed.


Lemma inv_step cur s s' : inv cur s -> step s s' -> exists cur', inv cur' s'.
Proof.
  intros I Hstep. pose proof (inv_phase cur s I) as Iphase. pose proof (inv_exits cur s I) as Iex.
  pose proof (inv_upload cur s I) as Iup.
  destruct Hstep as [s Hs Hr|s id ups bs Em Hf Hs Hu|s b bs sz pk closed Em Ht Hph Hout Hpk|s Em|s ups bs Em Ho
    |s ty ok Em Ht Hph Hout|s ty id out Hout Ht Hu|s ty id m out st st' Hout Hix Hrecv|s ty Hph Hout
    |s st Hix Hc Ht|s ix Hix Ht Hu|s j Hu Hl|s j Hu|s j Hu Hl|s ok Hu Ht Hm Hc Htr Hix|s ok Hm Hc Ht Hix Hu].
  - (* spawn *)
    exists cur. apply inv_spawned. destruct (ps_indexer s) as [st| | |] eqn:Ei; try done.
    case_bool_decide; [|done]. subst st. apply inv_indexer with (st := INew cur); try done.
    + unfold indexer_start. rewrite andb_true_r. destruct (index_is_empty cur) eqn:Ee; simpl; rewrite ?Ee; done.
    + unfold indexer_start. rewrite andb_true_r. destruct (index_is_empty cur) eqn:Ee; simpl; [|auto]. apply I.
  - (* a pack of the working directory to the uploader *)
    exists cur.
    assert (forall id' m, avail s id' m -> avail (set_main (MSend ups bs) (set_uploader (UBusy (JPack id)) s)) id' m) as Hav.
    { intros id' m Ha. unfold avail in *. simpl. rewrite Em, Hu in Ha. simpl in Ha.
      destruct Ha as [Ha|(b & E1 & E2 & [?|E3])]; [by left|done|]. right. exists b. split; [done|]. split; [done|].
      apply elem_of_cons in E3 as [->|E3]; auto. }
    constructor; simpl; try done; try (by apply I); try (by intros ok' E'; apply (inv_done cur s I) in E'; congruence).
    + destruct (ps_indexer s) eqn:Ei; try done. exfalso. destruct Iex as [Iex _].
      destruct (inv_running cur s I Chunk) as [E|E]; [congruence|]. by apply E in Em.
    + intros ty. destruct (inv_running cur s I ty) as [E|E]; [auto|by apply E in Em].
    + intros ty. pose proof (inv_infix cur s I ty) as Hx. by rewrite Em in Hx.
    + pose proof (inv_conserve cur s I) as Hx. by rewrite Em in Hx.
    + intros ty. eapply out_ok_case; [apply (inv_out cur s I)|done|simpl; eauto|done].
    + intros id' m Hx. apply Hav. by apply (inv_avail cur s I).
    + auto.
  - (* a blob *)
    exists cur. pose proof (inv_infix cur s I (b_type b)) as (pre & post & Einf). rewrite Em in Einf.
    simpl in Einf. rewrite of_type_cons, bool_decide_true in Einf by done. simpl in Einf.
    apply packer_step_blobs in Hpk as [(-> & Eb & En)|(-> & ->)].
    + apply inv_close; rewrite ?Em; try done; auto.
      * intros Hx. by destruct (Hx [] (b :: bs)).
      * rewrite En, Eb, (inv_count cur s I), foldr_app. simpl.
        rewrite N.add_0_r. clear. induction (pk_blobs _) as [|x l IH]; simpl; lia.
      * exists pre, post. rewrite Eb, Einf. simpl. by rewrite <-!app_assoc.
      * intros ty' Hne. simpl. rewrite of_type_cons, bool_decide_false by done. done.
      * simpl. rewrite Eb, manifest_of_app. simpl. by rewrite <-app_assoc.
    + apply inv_close; rewrite ?Em; try done; auto.
      * intros Hx. by destruct (Hx [] (b :: bs)).
      * simpl. exists (pre ++ pk_blobs (wk_packer (ps_workers s (b_type b))) ++ [b]), post.
        rewrite Einf. by rewrite <-!app_assoc.
      * intros ty' Hne. simpl. rewrite of_type_cons, bool_decide_false by done. done.
      * intros b' [= <-]. exists pre, (of_type (b_type b) bs ++ post). rewrite Einf. by rewrite <-!app_assoc.
      * simpl. rewrite manifest_of_app. simpl. by rewrite <-app_assoc.
  - (* the main thread is done *)
    exists cur. apply inv_main; rewrite ?Em; eauto.
  - (* the main thread fails *)
    exists cur. assert (ups = []) as -> by (clear -Ho Herr; by destruct errors). apply inv_main; rewrite ?Em; eauto.
  - (* the last pack *)
    exists cur. pose proof (inv_infix cur s I ty) as (pre & post & Einf). rewrite Em in Einf. simpl in Einf.
    assert (packer_finish (wk_packer (ps_workers s ty)) = Some (pk_blobs (wk_packer (ps_workers s ty))) \/
      packer_finish (wk_packer (ps_workers s ty)) = None /\ pk_blobs (wk_packer (ps_workers s ty)) = []) as Hfin.
    { unfold packer_finish. rewrite (inv_count cur s I).
      destruct (0 <? _)%N eqn:E0; [by left|]. right. split; [done|].
      apply N.ltb_ge in E0.
      assert (forall b, b ∈ pk_blobs (wk_packer (ps_workers s ty)) -> b_bytes b <> []) as Hne.
      { intros b Hb. apply Hbytes. assert (b ∈ of_type ty bs0) as Hx by (rewrite Einf; set_solver).
        unfold of_type in Hx. apply elem_of_list_In, filter_In in Hx as [Hx _]. by apply elem_of_list_In. }
      destruct (pk_blobs _) as [|b l]; [done|]. specialize (Hne b (elem_of_list_here _ _)).
      simpl in E0. destruct (b_bytes b); [done|]. simpl in E0. lia. }
    assert (set_main (ps_main s) s = s) as Es by (by destruct s).
    pose proof (inv_close cur s ty (packer_finish (wk_packer (ps_workers s ty))) (packer_new target) WLast (ps_main s)) as Hcl.
    rewrite Es in Hcl. apply Hcl; clear Hcl; try done; auto; rewrite ?Em; try done.
    + right. done.
    + simpl. exists (pre ++ pk_blobs (wk_packer (ps_workers s ty))), post. rewrite Einf. by rewrite <-!app_assoc.
    + intros b E. exists pre, post. destruct Hfin as [E'|[E' _]]; rewrite E' in E; [|done]. by injection E as <-.
    + simpl. destruct Hfin as [E'|[E' E2]]; rewrite E'; simpl; rewrite ?E2; done.
  - (* a finished pack to the uploader *)
    exists cur. pose proof (inv_out cur s I ty) as Ho. rewrite Hout in Ho. simpl in Ho.
    destruct out as [|[id'|id' m] [|]]; try done. destruct Ho as (-> & Eid & Ho).
    set (s' := set_uploader _ _).
    assert (forall id' m', avail s id' m' -> avail s' id' m') as Hav.
    { intros id' m' Ha. unfold avail in *. simpl. rewrite Hu in Ha.
      destruct Ha as [Ha|(b & E1 & E2 & [?|E3])]; [by left|done|]. right. exists b. auto. }
    constructor; simpl; try done; try (by apply I); try (by intros ok' E'; apply (inv_done cur s I) in E'; congruence).
    + destruct (ps_indexer s) eqn:Ei; try done. rewrite Hu in Iphase.
      destruct Iphase as [?|[(j & -> & [?|?])|?]]; try done; auto.
    + destruct (ps_indexer s) eqn:Ei; try done; destruct Iex as [E1 E2]; destruct ty;
        rewrite ?fn_lookup_insert, ?fn_lookup_insert_ne by done; done.
    + intros ty'. destruct (decide (ty' = ty)) as [->|Hne];
        rewrite ?fn_lookup_insert, ?fn_lookup_insert_ne by done; apply I.
    + intros ty'. destruct (decide (ty' = ty)) as [->|Hne];
        rewrite ?fn_lookup_insert, ?fn_lookup_insert_ne by done; apply I.
    + intros ty'. destruct (decide (ty' = ty)) as [->|Hne];
        rewrite ?fn_lookup_insert, ?fn_lookup_insert_ne by done; simpl; [|apply I].
      intros E. apply (inv_exit_out cur s I) in E. congruence.
    + intros ty'. destruct (decide (ty' = ty)) as [->|Hne];
        rewrite ?fn_lookup_insert, ?fn_lookup_insert_ne by done; apply I.
    + intros ty'. destruct (decide (ty' = ty)) as [->|Hne];
        rewrite ?fn_lookup_insert, ?fn_lookup_insert_ne by done; apply I.
    + pose proof (inv_conserve cur s I) as Hx.
      destruct ty; rewrite ?fn_lookup_insert, ?fn_lookup_insert_ne by done; simpl; rewrite Hout in Hx; exact Hx.
    + intros ty'. destruct (decide (ty' = ty)) as [->|Hne]; rewrite ?fn_lookup_insert, ?fn_lookup_insert_ne by done; simpl.
      * split; [done|]. unfold avail. simpl. destruct Ho as [(b & E1 & E2)|?]; [|by left].
        right. exists b. auto.
      * eapply out_ok_case; [apply (inv_out cur s I)|done|simpl; eauto|done].
    + intros ty' id2 m2. destruct (decide (ty' = ty)) as [->|Hne]; rewrite ?fn_lookup_insert, ?fn_lookup_insert_ne by done; simpl; [|apply I].
      intros Hx. apply (inv_out_new cur s I ty). rewrite Hout. by right.
    + intros id' m' Hx. apply Hav. by apply (inv_avail cur s I).
    + destruct Ho as [(b & E1 & E2)|(b & E1 & E2)]; eauto.
  - (* a finished pack to the indexer *)
    rewrite Hix in Iphase. destruct Iphase as (E1 & E2 & E3 & E4).
    unfold indexer_recv in Hrecv. apply rbind_ok in Hrecv as (u & Hget & Hrecv). rewrite E1, E2 in Hrecv.
    injection Hrecv as <-. simpl.
    assert (om_get id (ix_packs cur) = None) as Hnone.
    { rewrite E2 in Hget. simpl in Hget. destruct (om_get id (ix_packs cur)); [done|done]. }
    set (cur' := mkIndex (ix_supersedes cur) (om_insert id m (ix_packs cur))).
    assert (index_is_empty cur' = false) as Ene.
    { unfold index_is_empty. simpl. destruct (om_insert id m (ix_packs cur)) eqn:Ei; [|by destruct (ix_supersedes cur)].
      pose proof (om_get_insert_eq id m (ix_packs cur)) as Hx. by rewrite Ei in Hx. }
    assert (forall id2 m2, (id2, m2) ∈ ix_packs cur' <-> (id2, m2) = (id, m) \/ (id2, m2) ∈ ix_packs cur) as Hin.
    { intros id2 m2. pose proof (inv_sorted cur s I) as Hs.
      rewrite <-!om_get_elem by (try apply om_insert_sorted; done). unfold cur'. simpl.
      rewrite om_get_insert by done. destruct (decide (id = id2)) as [->|Hne].
      - rewrite Hnone. split; [intros [= ->]; by left|intros [[= ->]|?]; done].
      - split; [auto|]. intros [[= -> ->]|?]; done. }
    pose proof (inv_out cur s I ty) as Ho. rewrite Hout in Ho. simpl in Ho.
    destruct out as [|? ?]; [|done]. destruct Ho as [Eid Ho].
    exists cur'.
    constructor; simpl; rewrite ?Ene; try done; try (by apply I).
    + apply om_insert_sorted, I.
    + intros id2 m2 Hx. apply Hin. right. by apply (inv_grow cur s I).
    + intros id2 m2 [[= -> ->]|Hx]%Hin; [|by apply (inv_new cur s I)].
      right. apply (inv_out_new cur s I ty). rewrite Hout. by left.
    + intros ty'. destruct (decide (ty' = ty)) as [->|Hne];
        rewrite ?fn_lookup_insert, ?fn_lookup_insert_ne by done; apply I.
    + intros ty'. destruct (decide (ty' = ty)) as [->|Hne];
        rewrite ?fn_lookup_insert, ?fn_lookup_insert_ne by done; apply I.
    + intros ty'. destruct (decide (ty' = ty)) as [->|Hne];
        rewrite ?fn_lookup_insert, ?fn_lookup_insert_ne by done; simpl; [done|apply I].
    + intros ty'. destruct (decide (ty' = ty)) as [->|Hne];
        rewrite ?fn_lookup_insert, ?fn_lookup_insert_ne by done; apply I.
    + intros ty'. destruct (decide (ty' = ty)) as [->|Hne];
        rewrite ?fn_lookup_insert, ?fn_lookup_insert_ne by done; apply I.
    + destruct (inv_conserve cur s I) as (lost & Hp & Hl). exists lost. split; [|done]. rewrite <-Hp.
      unfold cur'. rewrite entries_insert by (done || apply I).
      destruct ty; rewrite ?fn_lookup_insert, ?fn_lookup_insert_ne by done; simpl; rewrite Hout; unfold out_entries; simpl;
        rewrite ?app_nil_r; solve_Permutation.
    + intros ty'. destruct (decide (ty' = ty)) as [->|Hne]; rewrite ?fn_lookup_insert, ?fn_lookup_insert_ne by done; simpl; [done|].
      apply (inv_out cur s I).
    + intros ty' id2 m2. destruct (decide (ty' = ty)) as [->|Hne]; rewrite ?fn_lookup_insert, ?fn_lookup_insert_ne by done; simpl; [|apply I].
      by intros ?%elem_of_nil.
    + intros id2 m2 [[= -> ->]|Hx]%Hin; [done|]. by apply (inv_avail cur s I).
    + auto.
    + rewrite Hix in Iup. destruct (ps_uploader s) as [|[]|[]|]; try done; destruct Iup as (_ & ? & _); done.
    + destruct (inv_indexes cur s I) as [?|(_ & _ & E & _)]; [auto|]. by rewrite Hix in E.
    + intros j Hj. rewrite Hj, Hix in Iup. destruct Iup as (_ & ? & _). done.
    + intros E. apply (inv_join cur s I) in E. by rewrite Hix in E.
    + intros E. apply (inv_done cur s I), (inv_join cur s I) in E. congruence.
  - (* a packer leaves *)
    exists cur.
    constructor; simpl; try done; try (by apply I); try (by intros ok' E'; apply (inv_done cur s I) in E'; congruence).
    + destruct (ps_indexer s) eqn:Ei; try done; destruct Iex as [F1 F2]; destruct ty;
        rewrite ?fn_lookup_insert, ?fn_lookup_insert_ne by done; done.
    + intros ty'. destruct (decide (ty' = ty)) as [->|Hne];
        rewrite ?fn_lookup_insert, ?fn_lookup_insert_ne by done; [|apply I].
      destruct (inv_running cur s I ty) as [E|E]; [congruence|auto].
    + intros ty'. destruct (decide (ty' = ty)) as [->|Hne];
        rewrite ?fn_lookup_insert, ?fn_lookup_insert_ne by done; [|apply I].
      destruct (inv_worker cur s I ty) as [E|E]; [congruence|auto].
    + intros ty'. destruct (decide (ty' = ty)) as [->|Hne];
        rewrite ?fn_lookup_insert, ?fn_lookup_insert_ne by done; [done|apply I].
    + intros ty'. destruct (decide (ty' = ty)) as [->|Hne];
        rewrite ?fn_lookup_insert, ?fn_lookup_insert_ne by done; apply I.
    + intros ty'. destruct (decide (ty' = ty)) as [->|Hne];
        rewrite ?fn_lookup_insert, ?fn_lookup_insert_ne by done; apply I.
    + pose proof (inv_conserve cur s I) as Hx.
      destruct ty; rewrite ?fn_lookup_insert, ?fn_lookup_insert_ne by done; simpl; rewrite Hout in Hx; exact Hx.
    + intros ty'. destruct (decide (ty' = ty)) as [->|Hne];
        rewrite ?fn_lookup_insert, ?fn_lookup_insert_ne by done; [done|]. apply (inv_out cur s I).
    + intros ty' id2 m2. destruct (decide (ty' = ty)) as [->|Hne]; rewrite ?fn_lookup_insert, ?fn_lookup_insert_ne by done; simpl; [|apply I].
      by intros ?%elem_of_nil.
  - (* the indexer stops receiving *)
    exists cur. rewrite Hix in Iphase. destruct Iphase as (E1 & E2 & E3 & E4).
    assert (indexer_end st = (st, in_persisted st)) as Eend.
    { unfold indexer_end. by rewrite E1, andb_false_r. }
    rewrite Eend. simpl. rewrite E3, E4. rewrite Hix in Iup.
    assert (set_wip (ps_wip s) s = s) as Ew by (by destruct s). rewrite Ew.
    destruct (index_is_empty cur) eqn:Ee.
    + constructor; simpl; rewrite ?Ee; try done; try (by apply I); auto.
      * destruct (ps_uploader s) as [|[]|[]|]; try done; destruct Iup as (_ & ? & _); done.
      * destruct (inv_indexes cur s I) as [?|(_ & _ & E & _)]; [auto|]. by rewrite Hix in E.
    + constructor; simpl; rewrite ?Ee; try done; try (by apply I); auto.
      * destruct (ps_uploader s) as [|[]|[]|]; try done; destruct Iup as (_ & ? & _); done.
      * destruct (inv_indexes cur s I) as [?|(_ & _ & E & _)]; [auto|]. by rewrite Hix in E.
      * intros E. apply (inv_join cur s I) in E. by rewrite Hix in E.
  - (* the index to the uploader *)
    exists cur. rewrite Hix in Iphase, Iex. destruct Iphase as [-> Ene].
    assert (forall ups bs, ps_main s <> MSend ups bs) as Hnm.
    { destruct (inv_running cur s I Chunk) as [E|E]; [|done]. destruct Iex; congruence. }
    assert (forall id m, (id, m) ∈ ix_packs cur -> on_backend (ps_back s) id m) as Hall.
    { intros id m Hx. destruct (inv_avail cur s I id m Hx) as [?|(b & _ & _ & [E|E])]; [done|congruence|].
      destruct (ps_main s) as [ups bs| |]; [by destruct (Hnm ups bs)|by apply elem_of_nil in E..]. }
    assert (forall id' m', avail s id' m' -> on_backend (ps_back s) id' m') as Hav.
    { intros id m [?|(b & _ & _ & [E|E])]; [done|congruence|].
      destruct (ps_main s) as [ups bs| |]; [by destruct (Hnm ups bs)|by apply elem_of_nil in E..]. }
    constructor; simpl; try done; try (by apply I); try (by intros ok' E'; apply (inv_done cur s I) in E'; congruence).
    + right. left. exists (JIndex cur). auto.
    + intros ty. eapply out_ok_case; [apply (inv_out cur s I)|done|simpl; eauto|]. intros id m Hx. left. by apply Hav.
    + intros id m Hx. left. by apply Hall.
    + destruct (inv_indexes cur s I) as [?|(_ & _ & E & _)]; [auto|]. by rewrite Hix in E.
  - (* writing *)
    exists cur. destruct j as [id|ix]; simpl.
    + (* a pack *)
      destruct (ps_files s !! id) as [b|] eqn:Ef.
      * destruct (inv_files cur s I _ _ Ef) as [Eid Hrun].
        pose proof (on_backend_insert cur s id b I Hrun Eid) as Hob.
        set (s' := set_uploader _ _).
        assert (forall id' m', avail s id' m' -> avail s' id' m') as Hav.
        { intros id' m' Ha. unfold avail in *. simpl. rewrite Hu in Ha.
          destruct Ha as [Ha|(b' & F1 & F2 & [F3|F3])]; [left; by apply Hob| |right; eauto].
          injection F3 as <-. left. exists b. simpl. rewrite lookup_insert. split; [done|]. congruence. }
        rewrite Hu in Iup.
        constructor; simpl; try done; try (by apply I); try (by intros ok' E'; apply (inv_done cur s I) in E'; congruence).
        -- destruct (ps_indexer s) eqn:Ei; try done. rewrite Hu in Iphase.
           destruct Iphase as [?|[(j & -> & [?|?])|?]]; try done; auto.
        -- intros ty. eapply out_ok_case; [apply (inv_out cur s I)|done|simpl; eauto|done].
        -- intros id' m' Hx. apply Hav. by apply (inv_avail cur s I).
        -- intros id' b'. destruct (decide (id' = id)) as [->|Hne];
             rewrite ?lookup_insert, ?lookup_insert_ne by done; [intros [= <-]; done|apply I].
        -- intros id' b' E. apply Hob. by apply (inv_old cur s I).
        -- intros id' b' E. destruct (inv_oldfiles cur s I _ _ E) as [?|?]; [auto|]. right. by apply Hob.
        -- intros id' b'. destruct (decide (id' = id)) as [->|Hne];
             rewrite ?lookup_insert, ?lookup_insert_ne by done; [intros [= <-]|apply I].
           right. by apply (inv_files_from cur s I).
        -- rewrite lookup_insert. eauto.
        -- destruct (inv_indexes cur s I) as [?|(F1 & F2 & F3 & F4)]; [auto|]. right.
           split; [done|]. split; [done|]. split; [done|]. intros id' m' Hx. apply Hob. by apply F4.
      * rewrite Hu in Iup. destruct Iup as [[? ?]|Iup]; [congruence|].
        assert (forall id' m', avail s id' m' -> avail (set_uploader (UWritten (JPack id)) s) id' m') as Hav.
        { intros id' m' Ha. unfold avail in *. simpl. rewrite Hu in Ha.
          destruct Ha as [Ha|(b' & F1 & F2 & [F3|F3])]; [by left| |right; eauto].
          injection F3 as <-. congruence. }
        constructor; simpl; try done; try (by apply I); try (by intros ok' E'; apply (inv_done cur s I) in E'; congruence).
        -- destruct (ps_indexer s) eqn:Ei; try done. rewrite Hu in Iphase.
           destruct Iphase as [?|[(j & -> & [?|?])|?]]; try done; auto.
        -- intros ty. eapply out_ok_case; [apply (inv_out cur s I)|done|simpl; eauto|done].
        -- intros id' m' Hx. apply Hav. by apply (inv_avail cur s I).
    + (* the index *)
      rewrite Hu in Iup. destruct Iup as (-> & Ei & Ene & Hall).
      set (s' := set_uploader _ _).
      assert (indexes_published s' cur) as Hpub.
      { unfold indexes_published. simpl. destruct (inv_indexes cur s I) as [->|(E & _)]; [done|].
        unfold indexes_published in E. rewrite E. by rewrite insert_insert. }
      assert (forall id' m', avail s id' m' -> avail s' id' m') as Hav.
      { intros id' m' Ha. unfold avail in *. simpl. rewrite Hu in Ha.
        destruct Ha as [Ha|(b' & F1 & F2 & [F3|F3])]; [by left|done|right; eauto]. }
      constructor; simpl; try done; try (by apply I); try (by intros ok' E'; apply (inv_done cur s I) in E'; congruence).
      * rewrite Ei. auto.
      * intros ty. eapply out_ok_case; [apply (inv_out cur s I)|done|simpl; eauto|done].
      * intros id' m' Hx. apply Hav. by apply (inv_avail cur s I).
      * right. done.
  - (* clearing *)
    exists cur. destruct j as [id|ix]; simpl.
    + rewrite Hu in Iup. destruct Iup as [b Eb].
      set (s' := set_uploader _ _).
      assert (forall id' b', ps_files s !! id' = Some b' ->
        (exists b'', delete id (ps_files s) !! id' = Some b'' /\ manifest_of b'' = manifest_of b') \/ on_backend (ps_back s) id' (manifest_of b')) as Hdel.
      { intros id' b' E. destruct (decide (id' = id)) as [->|Hne].
        - right. exists b. split; [done|]. destruct (inv_back cur s I _ _ Eb) as [F1 F2].
          destruct (inv_files cur s I _ _ E) as [F3 F4]. apply same_manifest; congruence.
        - left. exists b'. by rewrite lookup_delete_ne. }
      assert (forall id' m', avail s id' m' -> avail s' id' m') as Hav.
      { intros id' m' Ha. unfold avail in *. simpl. rewrite Hu in Ha.
        destruct Ha as [Ha|(b' & F1 & F2 & [F3|F3])]; [by left|done|].
        destruct (Hdel _ _ F1) as [(b2 & G1 & G2)|G]; [|left; by rewrite <-F2]. right. exists b2. rewrite G2. auto. }
      constructor; simpl; try done; try (by apply I); try (by intros ok' E'; apply (inv_done cur s I) in E'; congruence).
      * destruct (ps_indexer s) eqn:Ei; try done. rewrite Hu in Iphase.
        destruct Iphase as [?|[(j & -> & [?|?])|?]]; try done; auto.
      * intros ty. eapply out_ok_case; [apply (inv_out cur s I)|done|exact Hdel|done].
      * intros id' m' Hx. apply Hav. by apply (inv_avail cur s I).
      * intros id' b' E. apply lookup_delete_Some in E as [_ E]. by apply (inv_files cur s I).
      * intros id' b' E. destruct (inv_oldfiles cur s I _ _ E) as [(b2 & F1 & F2)|?]; [|auto].
        destruct (Hdel _ _ F1) as [(b3 & G1 & G2)|G]; [left; exists b3; split; [done|congruence]|right; by rewrite <-F2].
      * intros id' b' E. apply lookup_delete_Some in E as [_ E]. by apply (inv_files_from cur s I) in E.
    + rewrite Hu in Iup. destruct Iup as (-> & Ei & Ene & Hall).
      set (s' := set_uploader _ _).
      assert (forall id' m', avail s id' m' -> avail s' id' m') as Hav.
      { intros id' m' Ha. unfold avail in *. simpl. rewrite Hu in Ha.
        destruct Ha as [Ha|(b' & F1 & F2 & [F3|F3])]; [by left|done|right; eauto]. }
      constructor; simpl; try done; try (by apply I); try (by intros ok' E'; apply (inv_done cur s I) in E'; congruence).
      * rewrite Ei. right. right. by apply (inv_written cur s I cur).
      * intros ty. eapply out_ok_case; [apply (inv_out cur s I)|done|simpl; eauto|done].
      * intros id' m' Hx. apply Hav. by apply (inv_avail cur s I).
  - done.
  - (* the uploader leaves *)
    exists cur. set (s' := set_uploader _ _).
    assert (forall id' m', avail s id' m' -> avail s' id' m') as Hav.
    { intros id' m' Ha. unfold avail in *. simpl. rewrite Hu in Ha.
      destruct Ha as [Ha|(b' & F1 & F2 & [F3|F3])]; [by left|done|right; eauto]. }
    constructor; simpl; try done; try (by apply I); try (by intros ok' E'; apply (inv_done cur s I) in E'; congruence).
    + rewrite Hix in *. rewrite Hu in Iphase. destruct Iphase as [?|[(j & -> & [?|?])|?]]; try done; auto.
    + intros ty. eapply out_ok_case; [apply (inv_out cur s I)|done|simpl; eauto|done].
    + intros id' m' Hx. apply Hav. by apply (inv_avail cur s I).
  - (* the main thread has joined them *)
    exists cur. set (s' := set_main _ _).
    assert (forall id' m', avail s id' m' -> avail s' id' m') as Hav.
    { intros id' m' Ha. unfold avail in *. simpl. rewrite Hu, Hm in Ha.
      destruct Ha as [Ha|(b' & F1 & F2 & [F3|F3])]; [by left|done|by apply elem_of_nil in F3]. }
    constructor; simpl; try done; try (by apply I); try (by intros ok' E'; apply (inv_done cur s I) in E'; congruence).
    + rewrite Hix in *. done.
    + intros ty. right. done.
    + intros ty. pose proof (inv_infix cur s I ty) as Hx. by rewrite Hm in Hx.
    + pose proof (inv_conserve cur s I) as Hx. rewrite Hm in Hx. simpl in Hx. by destruct ok.
    + intros ty. eapply out_ok_case; [apply (inv_out cur s I)|done|simpl; eauto|done].
    + intros id' m' Hx. apply Hav. by apply (inv_avail cur s I).
    + destruct ok; [auto|]. apply I.
    + intros E. injection E as ->. done.
Qed.

Lemma inv_reach s : rtc step (pipeline_start target k0 w0 start ups0 bs0) s -> exists cur, inv cur s.
Proof.
  intros Hr. assert (exists cur, inv cur (pipeline_start target k0 w0 start ups0 bs0)) as Hi by (exists start; apply inv_start).
  induction Hr as [s|s1 s2 s3 Hs _ IH]; [done|]. apply IH. destruct Hi as (cur & Hi). by eapply inv_step.
Qed.

End inv.
