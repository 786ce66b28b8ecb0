(** The backup pipeline comes to an end. *)

From stdpp Require Import functions.
From Verif Require Import Base OMap Formats Hashing Pack Index IndexFacts Pipeline PipelineFacts.

(** ** Every schedule ends *)

Definition out_weight (out : list packer_msg) : nat :=
  foldr (fun x n => match x with MsgUpload _ => 3 | MsgIndex _ _ => 1 end + n) 0 out.
Definition worker_weight (w : worker) : nat :=
  match wk_phase w with WRun => 6 | WLast => 1 | WExit => 0 end + out_weight (wk_out w).
Definition main_weight (m : mphase) : nat :=
  match m with MSend ups bs => 2 + 3 * length ups + 5 * length bs | MWait _ => 1 | MDone _ => 0 end.
Definition indexer_weight (i : iphase) : nat :=
  match i with INew _ | IRecv _ => 4 | ISend _ => 3 | IExit => 0 end.
Definition uploader_weight (u : uphase) : nat :=
  match u with UBusy _ => 3 | UWritten _ => 2 | UIdle => 1 | UExit => 0 end.

(** How many more steps are possible. *)
Definition steps_left (s : pstate) : nat :=
  (4 - ps_spawned s) + main_weight (ps_main s) + worker_weight (ps_workers s Chunk)
  + worker_weight (ps_workers s Tree) + indexer_weight (ps_indexer s) + uploader_weight (ps_uploader s).

Lemma steps_left_worker ty w s :
  steps_left (set_worker ty w s) + worker_weight (ps_workers s ty) = steps_left s + worker_weight w.
Proof.
  unfold steps_left. simpl. destruct ty; rewrite ?fn_lookup_insert, ?fn_lookup_insert_ne by done; lia.
Qed.

Lemma steps_left_close H ty closed pk ph s :
  steps_left (close_pack H ty closed pk ph s) + worker_weight (ps_workers s ty)
  <= steps_left s + match ph with WRun => 6 | WLast => 1 | WExit => 0 end + 4.
Proof.
  unfold close_pack. destruct closed as [b|].
  - change (steps_left (set_files ?f ?x)) with (steps_left x). rewrite steps_left_worker.
    unfold worker_weight at 1, pack_msgs, out_weight. simpl. lia.
  - rewrite steps_left_worker. unfold worker_weight at 1. simpl. lia.
Qed.

Lemma pstep_decreases H target live cpus errors s s' :
  pstep H target live cpus errors s s' -> steps_left s' < steps_left s.
Proof.
  intros Hs. destruct Hs as [s Hs Hr|s id ups bs Em Hf Hs Hu|s b bs sz pk closed Em Ht Hph Hout Hpk|s Em|s ups bs Em Ho
    |s ty ok Em Ht Hph Hout|s ty id out Hout Ht Hu|s ty id m out st st' Hout Hix Hrecv|s ty Hph Hout
    |s st Hix Hc Ht|s ix Hix Ht Hu|s j Hu Hl|s j Hu|s j Hu Hl|s ok Hu Ht Hm Hc Htr Hix|s ok Hm Hc Ht Hix Hu].
  - unfold steps_left. destruct (ps_indexer s) eqn:Ei; simpl; rewrite ?Ei; try (simpl; lia).
    case_bool_decide; simpl; rewrite ?Ei; simpl; lia.
  - unfold steps_left. simpl. rewrite Em, Hu. simpl. lia.
  - pose proof (steps_left_close H (b_type b) closed pk WRun (set_main (MSend [] bs) s)) as Hx.
    assert (worker_weight (ps_workers s (b_type b)) = 6) as Ew.
    { unfold worker_weight. by rewrite Hph, Hout. }
    change (ps_workers (set_main (MSend [] bs) s)) with (ps_workers s) in Hx. rewrite Ew in Hx.
    assert (steps_left s = steps_left (set_main (MSend [] bs) s) + 5) as E.
    { unfold steps_left. simpl. rewrite Em. simpl. lia. }
    lia.
  - unfold steps_left. simpl. rewrite Em. simpl. lia.
  - unfold steps_left. simpl. rewrite Em. simpl. lia.
  - pose proof (steps_left_close H ty (packer_finish (wk_packer (ps_workers s ty))) (packer_new target) WLast s) as Hx.
    assert (worker_weight (ps_workers s ty) = 6) as Ew.
    { unfold worker_weight. by rewrite Hph, Hout. }
    cbv iota in Hx. lia.
  - set (w := mkWorker _ _ _). pose proof (steps_left_worker ty w s) as Hx.
    assert (steps_left (set_uploader (UBusy (JPack id)) (set_worker ty w s)) = steps_left (set_worker ty w s) + 2) as E.
    { unfold steps_left. simpl. rewrite Hu. simpl. lia. }
    assert (worker_weight (ps_workers s ty) = worker_weight w + 3) as E2.
    { unfold worker_weight, w. simpl. rewrite Hout. simpl. lia. }
    lia.
  - set (w := mkWorker _ _ _). pose proof (steps_left_worker ty w s) as Hx.
    assert (steps_left (set_indexer (IRecv st') (set_wip (in_wip st') (set_worker ty w s))) = steps_left (set_worker ty w s)) as E.
    { unfold steps_left. simpl. by rewrite Hix. }
    assert (worker_weight (ps_workers s ty) = worker_weight w + 1) as E2.
    { unfold worker_weight, w. simpl. rewrite Hout. simpl. lia. }
    lia.
  - set (w := mkWorker _ _ _). pose proof (steps_left_worker ty w s) as Hx.
    assert (worker_weight (ps_workers s ty) = 1) as E1 by (unfold worker_weight; by rewrite Hph, Hout).
    assert (worker_weight w = 0) as E2 by done. lia.
  - unfold steps_left. destruct ((indexer_end st).2); simpl; rewrite Hix; simpl; lia.
  - unfold steps_left. simpl. rewrite Hix, Hu. simpl. lia.
  - assert (steps_left (set_uploader (UWritten j) (upload_job H j s)) + 1 = steps_left s) as E.
    { unfold steps_left, upload_job. destruct j; simpl; [destruct (ps_files s !! id)|]; simpl; rewrite Hu; simpl; lia. }
    lia.
  - unfold steps_left, clear_job. destruct j; simpl; rewrite Hu; simpl; lia.
  - unfold steps_left, clear_job. destruct j; simpl; rewrite Hu; simpl; lia.
  - unfold steps_left. simpl. rewrite Hu. simpl. lia.
  - unfold steps_left. simpl. rewrite Hm. simpl. lia.
Qed.

(** ** A run that has not ended can go on *)

(** A manifest of consecutive blobs of one type of what is sent. *)
Definition sent_manifest (bs : list blob) (m : manifest) : Prop :=
  exists ty mid, infix_of mid (of_type ty bs) /\ m = manifest_of mid.

Definition loose_entries (s : pstate) : manifest :=
  out_entries (wk_out (ps_workers s Chunk)) ++ out_entries (wk_out (ps_workers s Tree))
  ++ manifest_of (pk_blobs (wk_packer (ps_workers s Chunk))) ++ manifest_of (pk_blobs (wk_packer (ps_workers s Tree)))
  ++ manifest_of (rest_of (ps_main s)).

Section live.
Variable H : bytes -> oid.
Variable target : N.
Variable live : bool.
Variable cpus : nat.
Variable errors : merror.
Variables (k0 : backend) (w0 : workdir) (start : index) (ups0 : list oid) (bs0 : list blob).
Notation step := (pstep H target live cpus errors).

(** The manifests that may meet. *)
Definition live_manifest (m : manifest) : Prop :=
  sent_manifest bs0 m \/ exists id, (id, m) ∈ ix_packs start.

Definition known (l : list (oid * manifest)) : Prop :=
  forall id m, (id, m) ∈ l -> id = pack_id H m /\ live_manifest m.

Record linv (s : pstate) : Prop := {
  li_spawned : ps_spawned s <= 4;
  li_new : if decide (ps_spawned s <= 2) then ps_indexer s = INew start else forall st, ps_indexer s <> INew st;
  li_started : forall ty, ps_spawned s <= tid ty -> wk_phase (ps_workers s ty) = WRun /\ wk_out (ps_workers s ty) = [];
  li_run : forall ty, wk_phase (ps_workers s ty) <> WRun -> forall ups bs, ps_main s <> MSend ups bs;
  li_packer : forall ty, wk_phase (ps_workers s ty) = WRun \/ wk_packer (ps_workers s ty) = packer_new target;
  li_out : forall ty, match wk_out (ps_workers s ty) with
    | [] => True
    | [MsgUpload id; MsgIndex id' m] => id' = id /\ id = pack_id H m /\ m <> [] /\ sent_manifest bs0 m
    | [MsgIndex id m] => id = pack_id H m /\ m <> [] /\ sent_manifest bs0 m
    | _ => False end;
  li_exit_out : forall ty, wk_phase (ps_workers s ty) = WExit -> wk_out (ps_workers s ty) = [];
  li_exits : match ps_indexer s with
    | ISend _ | IExit => forall ty, wk_phase (ps_workers s ty) = WExit
    | _ => True end;
  li_uexit : ps_uploader s = UExit -> ps_indexer s = IExit /\ forall ups bs, ps_main s <> MSend ups bs;
  li_ups : NoDup (ups_of (ps_main s)) /\ forall id, id ∈ ups_of (ps_main s) ->
    is_Some (ps_files s !! id) /\ (forall ty, wk_out (ps_workers s ty) = []) /\
    match ps_uploader s with UBusy (JPack i) | UWritten (JPack i) => i <> id | _ => True end;
  li_infix : forall ty, exists pre post, of_type ty bs0 =
    pre ++ pk_blobs (wk_packer (ps_workers s ty)) ++ of_type ty (rest_of (ps_main s)) ++ post;
  li_packed : forall ty, (0 < pk_in_pack (wk_packer (ps_workers s ty)))%N -> pk_blobs (wk_packer (ps_workers s ty)) <> [];
  li_index : match ps_indexer s with
    | INew st => exists lost, Permutation (entries_of st ++ loose_entries s ++ lost) (entries_of start ++ manifest_of bs0)
    | IRecv st => om_sorted (ix_packs (in_index st)) /\ known (ix_packs (in_index st)) /\
        exists lost, Permutation (entries_of (in_index st) ++ loose_entries s ++ lost) (entries_of start ++ manifest_of bs0)
    | _ => True end;
}.

Hypothesis Hsorted : om_sorted (ix_packs start).
Hypothesis Hcoll : no_pack_collision H live_manifest.
Hypothesis Hstart : forall id m, (id, m) ∈ ix_packs start -> id = pack_id H m.
Hypothesis Hups : NoDup ups0.
Hypothesis Hfiles : forall id, id ∈ ups0 -> is_Some (w_packs w0 !! id).

Local Set Default Proof Using "All".

Lemma linv_start : linv (pipeline_start target k0 w0 start ups0 bs0).
Proof.
  constructor; simpl; try done; auto; try lia.
  - intros ty. exists [], []. simpl. by rewrite app_nil_r.
  - exists []. unfold loose_entries. simpl. by rewrite app_nil_r.
Qed.

Ltac upd ty' ty := destruct (decide (ty' = ty)) as [->|?];
        rewrite ?fn_lookup_insert, ?fn_lookup_insert_ne by done.

Lemma linv_close s ty closed pk ph mn :
  linv s -> wk_out (ps_workers s ty) = [] -> wk_phase (ps_workers s ty) = WRun -> tid ty < ps_spawned s ->
  ups_of mn = [] -> ups_of (ps_main s) = [] ->
  (ph = WRun \/ (ph = WLast /\ pk = packer_new target /\ forall ups bs, mn <> MSend ups bs)) ->
  ((forall ups bs, ps_main s <> MSend ups bs) -> forall ups bs, mn <> MSend ups bs) ->
  ((0 < pk_in_pack pk)%N -> pk_blobs pk <> []) ->
  (exists pre post, of_type ty bs0 = pre ++ pk_blobs pk ++ of_type ty (rest_of mn) ++ post) ->
  (forall ty', ty' <> ty -> of_type ty' (rest_of mn) = of_type ty' (rest_of (ps_main s))) ->
  (forall b, closed = Some b -> infix_of b (of_type ty bs0) /\ b <> []) ->
  (exists lost, Permutation (manifest_of (default [] closed) ++ manifest_of (pk_blobs pk) ++ manifest_of (rest_of mn) ++ lost)
    (manifest_of (pk_blobs (wk_packer (ps_workers s ty))) ++ manifest_of (rest_of (ps_main s)))) ->
  linv (close_pack H ty closed pk ph (set_main mn s)).
Proof.
  intros I Hout Hph Hty Hmn Hmn' Hphase Hmain Hpacked Hinf Hinf' Hclosed (gone & Hperm).
  set (w' := mkWorker pk (match closed with Some b => pack_msgs H b | None => [] end) ph).
  set (files' := match closed with Some b => <[pack_id H (manifest_of b) := b]> (ps_files s) | None => ps_files s end).
  assert (close_pack H ty closed pk ph (set_main mn s) =
    mkPstate mn (<[ty := w']> (ps_workers s)) (ps_indexer s) (ps_uploader s) (ps_spawned s) files' (ps_wip s) (ps_back s)) as ->
    by (by destruct closed).
  set (s' := mkPstate _ _ _ _ _ _ _ _).
  assert (forall st, ps_indexer s = st -> match st with ISend _ | IExit => False | _ => True end) as Hix.
  { intros st E. pose proof (li_exits s I) as Hx. rewrite E in Hx.
    destruct st; try done; specialize (Hx ty); congruence. }
  assert (exists lost, Permutation (loose_entries s' ++ lost) (loose_entries s)) as (lost & Hl).
  { exists gone. unfold loose_entries. simpl.
    assert (out_entries (wk_out w') = manifest_of (default [] closed)) as Ho.
    { unfold w'. simpl. destruct closed; [|done]. unfold out_entries, pack_msgs. simpl. by rewrite app_nil_r. }
    destruct ty; rewrite fn_lookup_insert, fn_lookup_insert_ne by done; rewrite Ho, Hout; simpl.
    + transitivity ((manifest_of (default [] closed) ++ manifest_of (pk_blobs pk) ++ manifest_of (rest_of mn) ++ gone) ++
        out_entries (wk_out (ps_workers s Tree)) ++ manifest_of (pk_blobs (wk_packer (ps_workers s Tree)))); [solve_Permutation|].
      rewrite Hperm. solve_Permutation.
    + transitivity ((manifest_of (default [] closed) ++ manifest_of (pk_blobs pk) ++ manifest_of (rest_of mn) ++ gone) ++
        out_entries (wk_out (ps_workers s Chunk)) ++ manifest_of (pk_blobs (wk_packer (ps_workers s Chunk)))); [solve_Permutation|].
      rewrite Hperm. solve_Permutation. }
  constructor; simpl; try (by apply I).
  - intros ty' Hx. upd ty' ty; [lia|by apply I].
  - intros ty'. upd ty' ty; simpl.
    + destruct Hphase as [->|(-> & _ & Hx)]; done.
    + intros Hx. apply Hmain. by apply (li_run s I ty').
  - intros ty'. upd ty' ty; simpl; [|apply I]. destruct Hphase as [->|(_ & -> & _)]; auto.
  - intros ty'. upd ty' ty; simpl; [|apply I]. destruct closed as [b|]; [|done]. unfold pack_msgs.
    split; [done|]. split; [done|]. destruct (Hclosed b eq_refl) as [Hi Hb]. split.
    { destruct b; done. }
    exists ty, b. done.
  - intros ty'. upd ty' ty; simpl; [|apply I]. destruct Hphase as [->|(-> & _)]; done.
  - specialize (Hix _ eq_refl). destruct (ps_indexer s); done.
  - intros E. apply (li_uexit s I) in E as [E _]. by apply Hix in E.
  - rewrite Hmn. split; [constructor|]. by intros id ?%elem_of_nil.
  - intros ty'. upd ty' ty; simpl; [done|]. rewrite Hinf' by done. apply I.
  - intros ty'. upd ty' ty; simpl; [done|]. apply I.
  - pose proof (li_index s I) as Hx. destruct (ps_indexer s); try done.
    + destruct Hx as (l & Hx). exists (lost ++ l). rewrite <-Hx, <-Hl. solve_Permutation.
    + destruct Hx as (H1 & H2 & l & Hx). split; [done|]. split; [done|].
      exists (lost ++ l). rewrite <-Hx, <-Hl. solve_Permutation.
Qed.

(** The main thread lets go of what it had to send. *)
Lemma linv_main s ok ups bs : linv s -> ps_main s = MSend ups bs -> linv (set_main (MWait ok) s).
Proof.
  intros I Em. constructor; simpl; try (by apply I); try done.
  - intros E. apply (li_uexit s I) in E as [E _]. done.
  - split; [constructor|]. by intros id ?%elem_of_nil.
  - intros ty. destruct (li_infix s I ty) as (pre & post & E). rewrite Em in E. exists pre, (of_type ty bs ++ post). done.
  - pose proof (li_index s I) as Hx.
    assert (Permutation (loose_entries (set_main (MWait ok) s) ++ manifest_of bs) (loose_entries s)) as Hl.
    { unfold loose_entries. simpl. rewrite Em. simpl. solve_Permutation. }
    destruct (ps_indexer s); try done.
    + destruct Hx as (l & Hx). exists (manifest_of bs ++ l). rewrite <-Hx, <-Hl. solve_Permutation.
    + destruct Hx as (H1 & H2 & l & Hx). split; [done|]. split; [done|].
      exists (manifest_of bs ++ l). rewrite <-Hx, <-Hl. solve_Permutation.
Qed.

Lemma known_insert ix id m : known (ix_packs ix) -> id = pack_id H m -> live_manifest m ->
  known (om_insert id m (ix_packs ix)).
Proof.
  intros Hk E Hm id' m' Hx. apply om_insert_keys in Hx as [[= -> ->]|Hx]; auto.
Qed.

Lemma linv_step s s' : linv s -> step s s' -> linv s'.
Proof.
  intros I Hstep.
  destruct Hstep as [s Hs Hr|s id ups bs Em Hf Hs Hu|s b bs sz pk closed Em Ht Hph Hout Hpk|s Em|s ups bs Em Ho
    |s ty ok Em Ht Hph Hout|s ty id out Hout Ht Hu|s ty id m out st st' Hout Hix Hrecv|s ty Hph Hout
    |s st Hix Hc Ht|s ix Hix Ht Hu|s j Hu Hl|s j Hu|s j Hu Hl|s ok Hu Ht Hm Hc Htr Hix|s ok Hm Hc Ht Hix Hu].
  - (* spawn *)
    pose proof (li_new s I) as Hn. pose proof (li_index s I) as Hx. pose proof (li_exits s I) as He.
    destruct (decide (ps_spawned s <= 2)).
    + rewrite Hn in *. case_bool_decide as E2.
      * constructor; simpl; try (by apply I).
        -- lia.
        -- destruct (decide _); [unfold tid_indexer in *; lia|done].
        -- intros ty Hty. apply I. lia.
        -- done.
        -- intros E. apply (li_uexit s I) in E as [E _]. congruence.
        -- unfold indexer_start. destruct (_ && _); simpl; (split; [done|]; split; [|done]);
             intros id m Hi; (split; [by apply Hstart|right; eauto]).
      * constructor; simpl; try (by apply I); try lia; rewrite ?Hn; try done.
        -- destruct (decide _); [done|]. unfold tid_indexer in *. lia.
        -- intros ty Hty. apply I. lia.
    + assert (set_spawned (S (ps_spawned s)) (match ps_indexer s with INew start => if bool_decide (ps_spawned s = tid_indexer)
           then let st := indexer_start live start (ps_wip s) in set_indexer (IRecv st) (set_wip (in_wip st) s) else s
           | _ => s end) = set_spawned (S (ps_spawned s)) s) as ->.
      { destruct (ps_indexer s); try done. by destruct (Hn start0). }
      constructor; simpl; try (by apply I); try lia.
      * destruct (decide _); [lia|done].
      * intros ty Hty. apply I. lia.
  - (* a pack of the working directory *)
    pose proof (li_ups s I) as [Hnd Hin]. rewrite Em in Hnd, Hin. simpl in Hnd, Hin.
    constructor; simpl; try done; try (by apply I).
    + intros ty Hx. exfalso. by eapply (li_run s I ty Hx).
    + apply NoDup_cons in Hnd as [Hni Hnd]. split; [done|]. intros id' Hid'.
      destruct (Hin id') as (E1 & E2 & _); [by right|]. split; [done|]. split; [done|]. intros ->. done.
    + intros ty. pose proof (li_infix s I ty) as Hx. by rewrite Em in Hx.
    + pose proof (li_index s I) as Hx. unfold loose_entries in *. rewrite Em in Hx. done.
  - (* a blob *)
    pose proof (li_infix s I (b_type b)) as (pre & post & Einf). rewrite Em in Einf.
    simpl in Einf. rewrite of_type_cons, bool_decide_true in Einf by done. simpl in Einf.
    apply packer_step_blobs in Hpk as [(-> & Eb & En)|(-> & ->)].
    + apply linv_close; rewrite ?Em; try done; auto.
      * intros Hx. by destruct (Hx [] (b :: bs)).
      * intros _. rewrite Eb. apply not_eq_sym, app_cons_not_nil.
      * exists pre, post. rewrite Eb, Einf. simpl. by rewrite <-!app_assoc.
      * intros ty' Hne. simpl. rewrite of_type_cons, bool_decide_false by done. done.
      * exists []. simpl. rewrite Eb, app_nil_r. unfold manifest_of. rewrite map_app. simpl. by rewrite <-app_assoc.
    + apply linv_close; rewrite ?Em; try done; auto.
      * intros Hx. by destruct (Hx [] (b :: bs)).
      * simpl. exists (pre ++ pk_blobs (wk_packer (ps_workers s (b_type b))) ++ [b]), post.
        rewrite Einf. by rewrite <-!app_assoc.
      * intros ty' Hne. simpl. rewrite of_type_cons, bool_decide_false by done. done.
      * intros b' [= <-]. split; [|apply not_eq_sym, app_cons_not_nil]. exists pre, (of_type (b_type b) bs ++ post). rewrite Einf. by rewrite <-!app_assoc.
      * exists []. simpl. unfold manifest_of. rewrite map_app. simpl. by rewrite <-app_assoc, app_nil_r.
  - by eapply linv_main.
  - by eapply linv_main.
  - (* the last pack *)
    pose proof (li_infix s I ty) as (pre & post & Einf). rewrite Em in Einf. simpl in Einf.
    assert (set_main (ps_main s) s = s) as Es by (by destruct s).
    pose proof (linv_close s ty (packer_finish (wk_packer (ps_workers s ty))) (packer_new target) WLast (ps_main s)) as Hcl.
    rewrite Es in Hcl. apply Hcl; clear Hcl; try done; auto; rewrite ?Em; try done.
    + right. done.
    + simpl. exists (pre ++ pk_blobs (wk_packer (ps_workers s ty))), post. rewrite Einf. by rewrite <-!app_assoc.
    + unfold packer_finish. intros b E. destruct (0 <? _)%N eqn:E0; [|done]. injection E as <-. split.
      * exists pre, post. done.
      * apply (li_packed s I). by apply N.ltb_lt.
    + unfold packer_finish. destruct (0 <? _)%N; simpl.
      * exists []. done.
      * exists (manifest_of (pk_blobs (wk_packer (ps_workers s ty)))). by rewrite app_nil_r.
  - (* a finished pack to the uploader *)
    pose proof (li_out s I ty) as Ho. rewrite Hout in Ho.
    destruct out as [|[id'|id' m] [|]]; try done. destruct Ho as (-> & Eid & Hm & Hsent).
    assert (wk_phase (ps_workers s ty) <> WExit) as Hne.
    { intros E. apply (li_exit_out s I) in E. congruence. }
    constructor; simpl; try done; try (by apply I).
    + intros ty' Hx. destruct (li_started s I ty' Hx) as [E1 E2]. upd ty' ty; [congruence|done].
    + intros ty'. upd ty' ty; apply I.
    + intros ty'. upd ty' ty; apply I.
    + intros ty'. upd ty' ty; [simpl; auto|apply I].
    + intros ty'. upd ty' ty; [simpl; done|apply I].
    + pose proof (li_exits s I) as Hx. destruct (ps_indexer s); try done; by destruct (Hne (Hx ty)).
    + pose proof (li_ups s I) as [Hnd Hin]. split; [done|]. intros id' Hid'. destruct (Hin _ Hid') as (_ & E & _).
      specialize (E ty). congruence.
    + intros ty'. upd ty' ty; apply I.
    + intros ty'. upd ty' ty; apply I.
    + pose proof (li_index s I) as Hx. unfold loose_entries in *. simpl.
      destruct ty; rewrite fn_lookup_insert, fn_lookup_insert_ne by done; simpl; rewrite Hout in Hx; done.
  - (* a finished pack to the indexer *)
    pose proof (li_out s I ty) as Ho. rewrite Hout in Ho.
    destruct out as [|[] ?]; try done. destruct Ho as (Eid & Hm & Hsent).
    assert (wk_phase (ps_workers s ty) <> WExit) as Hne.
    { intros E. apply (li_exit_out s I) in E. congruence. }
    pose proof (li_index s I) as Hx. rewrite Hix in Hx. destruct Hx as (Hso & Hk & lost & Hp).
    assert (om_get id (ix_packs (in_index st)) = None /\
      in_index st' = mkIndex (ix_supersedes (in_index st)) (om_insert id m (ix_packs (in_index st)))) as [Hnone Eix].
    { unfold indexer_recv in Hrecv. apply rbind_ok in Hrecv as (u & E & Hrecv). simpl in *.
      destruct (om_get id (ix_packs (in_index st))); [done|]. destruct (in_resumable st); injection Hrecv as <-; done. }
    constructor; simpl; try done; try (by apply I).
    + pose proof (li_new s I) as Hn. destruct (decide _); [congruence|done].
    + intros ty' Hx. destruct (li_started s I ty' Hx) as [E1 E2]. upd ty' ty; [congruence|done].
    + intros ty'. upd ty' ty; apply I.
    + intros ty'. upd ty' ty; apply I.
    + intros ty'. upd ty' ty; [done|apply I].
    + intros ty'. upd ty' ty; [simpl; done|apply I].
    + intros E. apply (li_uexit s I) in E as [E _]. congruence.
    + pose proof (li_ups s I) as [Hnd Hin]. split; [done|]. intros id' Hid'. destruct (Hin _ Hid') as (_ & E & _).
      specialize (E ty). congruence.
    + intros ty'. upd ty' ty; apply I.
    + intros ty'. upd ty' ty; apply I.
    + rewrite Eix. simpl. split; [by apply om_insert_sorted|]. split; [apply known_insert; auto; by left|].
      exists lost. rewrite <-Hp, entries_insert by done. unfold loose_entries. simpl.
      destruct ty; rewrite fn_lookup_insert, fn_lookup_insert_ne by done; simpl; rewrite Hout;
        change (out_entries [MsgIndex id m]) with (m ++ []); rewrite app_nil_r; solve_Permutation.
  - (* a packer is gone *)
    constructor; simpl; try done; try (by apply I).
    + intros ty' Hx. destruct (li_started s I ty' Hx) as [E1 E2]. upd ty' ty; [congruence|done].
    + intros ty'. upd ty' ty; simpl; [intros _; apply (li_run s I ty); congruence|apply I].
    + intros ty'. upd ty' ty; simpl; [right|apply I]. destruct (li_packer s I ty); [congruence|done].
    + intros ty'. upd ty' ty; simpl; [done|apply I].
    + intros ty'. upd ty' ty; simpl; [done|apply I].
    + pose proof (li_exits s I) as Hx. destruct (ps_indexer s); try done; intros ty'; upd ty' ty; done.
    + pose proof (li_ups s I) as [Hnd Hin]. split; [done|]. intros id' Hid'. destruct (Hin _ Hid') as (E1 & E & E2).
      split; [done|]. split; [|done]. intros ty'; upd ty' ty; done.
    + intros ty'. upd ty' ty; apply I.
    + intros ty'. upd ty' ty; apply I.
    + pose proof (li_index s I) as Hx. unfold loose_entries in *. simpl.
      destruct ty; rewrite fn_lookup_insert, fn_lookup_insert_ne by done; simpl; rewrite Hout in Hx; done.
  - (* the indexer is done *)
    assert (forall ty, wk_phase (ps_workers s ty) = WExit) as Hex by (by intros []).
    assert (forall u, ps_uploader s = UExit -> u = IExit /\ (forall ups bs, ps_main s <> MSend ups bs)) as Hue.
    { intros u E. apply (li_uexit s I) in E as [E _]. congruence. }
    constructor; simpl; try done; try (by apply I).
    + pose proof (li_new s I) as Hn. destruct (decide _); [congruence|]. intros st'. by destruct (in_persisted _).
    + by destruct (in_persisted _).
    + apply Hue.
    + by destruct (in_persisted _).
  - (* the index to the uploader *)
    pose proof (li_exits s I) as Hx. rewrite Hix in Hx.
    constructor; simpl; try done; try (by apply I).
    + pose proof (li_new s I) as Hn. destruct (decide _); [congruence|done].
    + pose proof (li_ups s I) as [Hnd Hin]. split; [done|]. intros id' Hid'. destruct (Hin _ Hid') as (E1 & E & E2). done.
  - (* an upload *)
    assert (linv (set_uploader (UWritten j) s)) as I'.
    { constructor; simpl; try done; try (by apply I).
      pose proof (li_ups s I) as [Hnd Hin]. split; [done|]. intros id' Hid'. destruct (Hin _ Hid') as (E1 & E & E2).
      rewrite Hu in E2. done. }
    unfold upload_job. destruct j; simpl; [destruct (ps_files s !! id)|]; try done;
      (constructor; simpl; by apply I').
  - assert (linv (set_uploader UIdle s)) as I'.
    { constructor; simpl; try done; try (by apply I).
      pose proof (li_ups s I) as [Hnd Hin]. split; [done|]. intros id' Hid'. destruct (Hin _ Hid') as (E1 & E & E2). done. }
    unfold clear_job. destruct j; simpl; [|done].
    constructor; simpl; try (by apply I').
    pose proof (li_ups s I) as [Hnd Hin]. split; [done|]. intros id' Hid'. destruct (Hin _ Hid') as (E1 & E & E2).
    rewrite Hu in E2. by rewrite lookup_delete_ne.
  - assert (linv (set_uploader UIdle s)) as I'.
    { constructor; simpl; try done; try (by apply I).
      pose proof (li_ups s I) as [Hnd Hin]. split; [done|]. intros id' Hid'. destruct (Hin _ Hid') as (E1 & E & E2). done. }
    unfold clear_job. destruct j; simpl; [|done].
    constructor; simpl; try (by apply I').
    pose proof (li_ups s I) as [Hnd Hin]. split; [done|]. intros id' Hid'. destruct (Hin _ Hid') as (E1 & E & E2).
    rewrite Hu in E2. by rewrite lookup_delete_ne.
  - constructor; simpl; try done; try (by apply I).
    + intros _. split; [done|]. by rewrite Hm.
    + rewrite Hm. simpl. split; [constructor|]. by intros id' ?%elem_of_nil.
  - constructor; simpl; try done; try (by apply I).
    + split; [constructor|]. by intros id' ?%elem_of_nil.
    + intros ty. pose proof (li_infix s I ty) as Hx. by rewrite Hm in Hx.
    + rewrite Hix. done.
Qed.

Hypothesis Hcpus : 4 <= cpus.
Hypothesis Hsmall : forall b, b ∈ bs0 -> (N.of_nat (length (b_bytes b)) < 2 ^ 32)%N.
Hypothesis Hnodup : NoDup (entries_of start ++ manifest_of bs0).

Lemma entries_elem id m ix : (id, m) ∈ ix_packs ix -> exists r, Permutation (entries_of ix) (m ++ r).
Proof.
  intros (l1 & l2 & E)%elem_of_list_split. unfold entries_of. rewrite E, map_app, concat_app. simpl.
  exists (concat (map snd l1) ++ concat (map snd l2)). solve_Permutation.
Qed.

Lemma out_elem ty s id m : MsgIndex id m ∈ wk_out (ps_workers s ty) -> exists r, Permutation (loose_entries s) (m ++ r).
Proof.
  intros Hx. assert (exists r, Permutation (out_entries (wk_out (ps_workers s ty))) (m ++ r)) as (r & Hr).
  { apply elem_of_list_split in Hx as (l1 & l2 & ->). unfold out_entries. rewrite map_app, concat_app. simpl.
    exists (out_entries l1 ++ out_entries l2). unfold out_entries. solve_Permutation. }
  unfold loose_entries. destruct ty.
  - exists (r ++ out_entries (wk_out (ps_workers s Tree)) ++ manifest_of (pk_blobs (wk_packer (ps_workers s Chunk)))
      ++ manifest_of (pk_blobs (wk_packer (ps_workers s Tree))) ++ manifest_of (rest_of (ps_main s))). rewrite Hr. solve_Permutation.
  - exists (r ++ out_entries (wk_out (ps_workers s Chunk)) ++ manifest_of (pk_blobs (wk_packer (ps_workers s Chunk)))
      ++ manifest_of (pk_blobs (wk_packer (ps_workers s Tree))) ++ manifest_of (rest_of (ps_main s))). rewrite Hr. solve_Permutation.
Qed.

Lemma index_recv_ok s st ty id m out :
  linv s -> ps_indexer s = IRecv st -> wk_out (ps_workers s ty) = MsgIndex id m :: out ->
  exists st', indexer_recv st (id, m) = Ok st'.
Proof.
  intros I Hix Hout. pose proof (li_index s I) as Hx. rewrite Hix in Hx. destruct Hx as (Hso & Hk & lost & Hp).
  pose proof (li_out s I ty) as Ho. rewrite Hout in Ho. destruct out as [|[] ?]; try done. destruct Ho as (Eid & Hm & Hsent).
  assert (om_get id (ix_packs (in_index st)) = None) as Hnone.
  { destruct (om_get id (ix_packs (in_index st))) as [m'|] eqn:E; [exfalso|done].
    apply om_get_elem in E; [|done]. destruct (Hk _ _ E) as [Eid' Hl].
    assert (m' = m) as ->. { apply Hcoll; [done|by left|congruence]. }
    destruct (entries_elem _ _ _ E) as (r1 & Hr1).
    destruct (out_elem ty s id m) as (r2 & Hr2); [rewrite Hout; left|].
    rewrite Hr1, Hr2 in Hp. rewrite <-Hp in Hnodup. rewrite <-!app_assoc in Hnodup.
    apply NoDup_app in Hnodup as (_ & Hd & _). destruct m as [|e m]; [done|].
    apply (Hd e); [left|]. apply elem_of_app. right. apply elem_of_app. left. left. }
  unfold indexer_recv. simpl. rewrite Hnone. simpl. destruct (in_resumable st); eauto.
Qed.

Lemma packer_step_ok tgt pk b sz : (N.of_nat (length (b_bytes b)) < 2 ^ 32)%N ->
  exists pk' closed, packer_step tgt pk b sz = Ok (pk', closed).
Proof.
  intros Hb%N.ltb_lt. unfold packer_step. rewrite Hb. cbn [rassert rbind].
  destruct (_ <=? _)%N; [eauto|]. destruct (_ <=? _)%N; [|eauto]. destruct (_ <=? _)%N; eauto.
Qed.

(** A finished pack waiting to be sent can be, once every thread runs. *)
Lemma progress_out s ty :
  linv s -> ps_spawned s = 4 -> ps_uploader s = UIdle \/ ps_uploader s = UExit ->
  wk_out (ps_workers s ty) <> [] -> exists s', pstep H target live cpus NoError s s'.
Proof.
  intros I E4 Eu Hne. pose proof (li_out s I ty) as Ho.
  assert (wk_phase (ps_workers s ty) <> WExit) as Hph by (intros E; by apply (li_exit_out s I) in E).
  pose proof (li_exits s I) as Hex. pose proof (li_new s I) as Hn.
  destruct (decide _) as [|_]; [lia|].
  destruct (ps_indexer s) as [st|st|ix|] eqn:Ei; [by destruct (Hn st)| |by destruct (Hph (Hex ty))|by destruct (Hph (Hex ty))].
  destruct (wk_out (ps_workers s ty)) as [|[id|id m] out] eqn:Eo; [done| |].
  - destruct Eu as [Eu|Eu].
    + eexists. eapply St_pack_upload; [done|unfold tid_uploader; lia|done].
    + apply (li_uexit s I) in Eu as [Eu _]. congruence.
  - destruct (index_recv_ok s st ty id m out I Ei Eo) as (st' & Hr). eexists. by eapply St_pack_index.
Qed.

(** A packer that has nothing left to do can finish. *)
Lemma progress_last s ty ok :
  linv s -> ps_spawned s = 4 -> ps_main s = MWait ok -> wk_out (ps_workers s ty) = [] ->
  wk_phase (ps_workers s ty) = WExit \/ exists s', pstep H target live cpus NoError s s'.
Proof.
  intros I E4 Em Ho. destruct (wk_phase (ps_workers s ty)) eqn:Ep; [| |auto]; right.
  - eexists. eapply St_finish; try done. destruct ty; simpl; lia.
  - eexists. by eapply St_pack_exit.
Qed.

Lemma progress s : linv s -> (exists ok, ps_main s = MDone ok) \/ exists s', pstep H target live cpus NoError s s'.
Proof.
  intros I.
  assert (ps_uploader s = UIdle \/ ps_uploader s = UExit \/ exists s', pstep H target live cpus NoError s s') as Hup.
  { destruct (ps_uploader s) as [|j|j|] eqn:Eu; auto; right; right.
    - destruct (bool_decide (live = true)) eqn:El.
      + apply bool_decide_eq_true in El. eexists. by eapply St_up_write.
      + apply bool_decide_eq_false in El. eexists. eapply St_up_dry; [done|]. by destruct live.
    - eexists. by eapply St_up_clear. }
  destruct (decide (ps_spawned s < 4)) as [Hs4|Hs4].
  { right. eexists. apply St_spawn; [done|unfold running; lia]. }
  pose proof (li_spawned s I) as Hsp. assert (ps_spawned s = 4) as E4 by lia. clear Hs4 Hsp.
  assert (tid_uploader < ps_spawned s) as Htu by (unfold tid_uploader; lia).
  destruct Hup as [Eu|[Eu|?]]; [| |by right].
  2:{ destruct (li_uexit s I Eu) as [Ei Hm]. destruct (ps_main s) as [ups bs|ok|ok] eqn:Em; [by destruct (Hm ups bs)| |eauto].
      right. pose proof (li_exits s I) as Hx. rewrite Ei in Hx. eexists. by eapply (St_join _ _ _ _ _ s). }
  destruct (decide (wk_out (ps_workers s Chunk) = [])) as [Oc|Oc]; [|right; eapply progress_out; eauto].
  destruct (decide (wk_out (ps_workers s Tree) = [])) as [Ot|Ot]; [|right; eapply progress_out; eauto].
  pose proof (li_exits s I) as Hex. pose proof (li_new s I) as Hn.
  destruct (decide _) as [|_] in Hn; [lia|].
  destruct (ps_main s) as [[|id ups] [|b bs]|ok|ok] eqn:Em.
  - right. eexists. by apply St_main_drop.
  - right.
    destruct (packer_step_ok target (wk_packer (ps_workers s (b_type b))) b (mkSizes 0 0 0)) as (pk & closed & Ep).
    + destruct (li_infix s I (b_type b)) as (pre & post & E). rewrite Em in E. simpl in E.
      rewrite of_type_cons, bool_decide_true in E by done. apply Hsmall.
      assert (b ∈ of_type (b_type b) bs0) as Hx by (rewrite E; set_solver).
      unfold of_type in Hx. apply elem_of_list_In, filter_In in Hx as [Hx _]. by apply elem_of_list_In.
    + eexists. eapply (St_main_blob _ _ _ _ _ s b bs (mkSizes 0 0 0)); try done.
      * destruct (b_type b); simpl; lia.
      * destruct (wk_phase (ps_workers s (b_type b))) eqn:E; [done| |]; exfalso;
          (eapply (li_run s I (b_type b)); [by rewrite E|done]).
      * destruct (b_type b); done.
  - right. pose proof (li_ups s I) as [_ Hin]. rewrite Em in Hin. destruct (Hin id) as (Hf & _); [left|].
    eexists. by eapply (St_main_upload _ _ _ _ _ s id ups []).
  - right. pose proof (li_ups s I) as [_ Hin]. rewrite Em in Hin. destruct (Hin id) as (Hf & _); [left|].
    eexists. by eapply (St_main_upload _ _ _ _ _ s id ups (b :: bs)).
  - right. destruct (progress_last s Chunk ok I E4 Em Oc) as [Pc|?]; [|done].
    destruct (progress_last s Tree ok I E4 Em Ot) as [Pt|?]; [|done].
    destruct (ps_indexer s) as [st|st|ix|] eqn:Ei; [by destruct (Hn st)| | |].
    + eexists. by eapply St_index_end.
    + eexists. by eapply St_index_upload.
    + eexists. by eapply St_up_exit.
  - eauto.
Qed.

Lemma linv_reach s : during H target live cpus errors k0 w0 start ups0 bs0 s -> linv s.
Proof.
  unfold during. intros Hs. assert (linv (pipeline_start target k0 w0 start ups0 bs0)) as I by apply linv_start.
  induction Hs as [s|s1 s2 s3 H1 H2 IH]; [done|]. apply IH. by eapply linv_step.
Qed.

End live.

(** ** With fewer than four CPUs *)

(** A packer that will have a pack to upload before it can end. *)
Definition owes (s : pstate) (ty : blob_type) : Prop :=
  (exists id out, wk_out (ps_workers s ty) = MsgUpload id :: out) \/
  (wk_out (ps_workers s ty) = [] /\ wk_phase (ps_workers s ty) = WRun /\
    ((0 < pk_in_pack (wk_packer (ps_workers s ty)))%N \/
     exists ups bs b, ps_main s = MSend ups bs /\ b ∈ bs /\ b_type b = ty /\ b_bytes b <> [])).

Record stuck (k : backend) (s : pstate) : Prop := {
  sk_main : forall ok, ps_main s <> MDone ok;
  sk_back : ps_back s = k;
  sk_spawned : ps_spawned s <= 3;
  sk_uploader : ps_uploader s = UIdle;
  sk_indexer : match ps_indexer s with INew _ | IRecv _ => True | _ => False end;
  sk_workers : forall ty, wk_phase (ps_workers s ty) <> WExit /\ owes s ty }.

Lemma packer_step_grows target pk b sz pk' closed :
  packer_step target pk b sz = Ok (pk', closed) -> closed = None ->
  pk_in_pack pk' = (pk_in_pack pk + N.of_nat (length (b_bytes b)))%N.
Proof. intros E ->. apply packer_step_blobs in E as [(_ & _ & E)|[? _]]; done. Qed.

Lemma stuck_step H target live cpus k s s' :
  cpus <= 3 -> stuck k s -> pstep H target live cpus NoError s s' -> stuck k s'.
Proof.
  intros Hc I Hstep. pose proof (sk_uploader k s I) as Su. pose proof (sk_spawned k s I) as Ss. pose proof (sk_indexer k s I) as Si.
  pose proof (sk_workers k s I) as Sw.
  pose proof (sk_main k s I) as Sm. pose proof (sk_back k s I) as Sb.
  destruct Hstep as [s Hs Hr|s id ups bs Em Hf Hs Hu|s b bs sz pk closed Em Ht Hph Hout Hpk|s Em|s ups bs Em Ho
    |s ty ok Em Ht Hph Hout|s ty id out Hout Ht Hu|s ty id m out st st' Hout Hix Hrecv|s ty Hph Hout
    |s st Hix Hch Ht|s ix Hix Ht Hu|s j Hu Hl|s j Hu|s j Hu Hl|s ok Hu Ht Hm Hch Htr Hix|s ok Hm Hch Ht Hix Hu];
    try congruence; try (unfold tid_uploader in *; lia); try (rewrite Hix in Si; done); try done.
  - (* spawn *)
    assert (S (ps_spawned s) <= 3) as Hle.
    { unfold running in Hr. rewrite Su in Hr. destruct (Sw Chunk) as [E1 _]. destruct (Sw Tree) as [E2 _].
      unfold wexited in Hr. destruct (wk_phase (ps_workers s Chunk)), (wk_phase (ps_workers s Tree)); try done;
      destruct (ps_indexer s); try done; simpl in Hr; lia. }
    destruct (ps_indexer s) eqn:Ei; try done.
    + case_bool_decide; constructor; simpl; rewrite ?Ei; done.
    + constructor; simpl; rewrite ?Ei; done.
  - (* a blob *)
    assert (forall bs', (pk_in_pack pk = pk_in_pack (wk_packer (ps_workers s (b_type b))) + N.of_nat (length (b_bytes b)))%N ->
      (exists ups bs b', ps_main s = MSend ups bs /\ b' ∈ bs /\ b_type b' = b_type b /\ b_bytes b' <> []) ->
      bs' = bs ->
      (0 < pk_in_pack pk)%N \/ (exists b', b' ∈ bs' /\ b_type b' = b_type b /\ b_bytes b' <> [])) as Hrest.
    { intros bs' E (ups & bs2 & b' & E1 & E2 & E3 & E4) ->. rewrite Em in E1. injection E1 as <- <-.
      apply elem_of_cons in E2 as [->|E2]; [left|right; eauto]. rewrite E. destruct (b_bytes b); [done|]. simpl. lia. }
    assert (forall ty', ty' <> b_type b -> owes (set_main (MSend [] bs) s) ty') as Hother.
    { intros ty' Hne. destruct (Sw ty') as [_ [(id & out & E)|(E1 & E2 & Hx)]]; [left; eauto|right].
      split; [done|]. split; [done|]. destruct Hx as [Hx|(ups & bs2 & b' & F1 & F2 & F3 & F4)]; [auto|right].
      rewrite Em in F1. injection F1 as <- <-. apply elem_of_cons in F2 as [->|F2]; [done|].
      exists [], bs, b'. done. }
    unfold close_pack. destruct closed as [bb|].
    + constructor; simpl; try done. intros ty'. destruct (decide (ty' = b_type b)) as [->|Hne].
      * rewrite fn_lookup_insert. simpl. split; [done|]. left. simpl. rewrite fn_lookup_insert. simpl. unfold pack_msgs. eauto.
      * rewrite fn_lookup_insert_ne by done. split; [apply Sw|]. specialize (Hother ty' Hne).
        unfold owes in *. simpl in *. by rewrite fn_lookup_insert_ne.
    + apply packer_step_grows in Hpk; [|done]. constructor; simpl; try done. intros ty'. destruct (decide (ty' = b_type b)) as [->|Hne].
      * rewrite fn_lookup_insert. simpl. split; [done|]. right. simpl. rewrite fn_lookup_insert. simpl.
        split; [done|]. split; [done|].
        destruct (Sw (b_type b)) as [_ [(id & out & E)|(_ & _ & [Hx|Hx])]]; [congruence|left; lia|].
        destruct (Hrest bs Hpk Hx eq_refl) as [?|(b' & F1 & F2 & F3)]; [auto|right]. exists [], bs, b'. done.
      * rewrite fn_lookup_insert_ne by done. split; [apply Sw|]. specialize (Hother ty' Hne).
        unfold owes in *. simpl in *. by rewrite fn_lookup_insert_ne.
  - (* main done *)
    constructor; simpl; try done. intros ty. destruct (Sw ty) as [E Ho]. split; [done|].
    destruct Ho as [Ho|(E1 & E2 & [?|(ups & bs2 & b' & F1 & F2 & F3 & F4)])]; [by left|right; auto|].
    rewrite Em in F1. injection F1 as <- <-. by apply elem_of_nil in F2.
  - (* the last pack *)
    assert (0 < pk_in_pack (wk_packer (ps_workers s ty)))%N as Hpos.
    { destruct (Sw ty) as [_ [(id & out & E)|(_ & _ & [Hx|(ups & bs2 & b' & F1 & _)])]]; congruence. }
    unfold packer_finish. apply N.ltb_lt in Hpos. rewrite Hpos. simpl.
    constructor; simpl; try done. intros ty'. destruct (decide (ty' = ty)) as [->|Hne].
    + rewrite fn_lookup_insert. split; [done|]. left. simpl. rewrite fn_lookup_insert. simpl. unfold pack_msgs. eauto.
    + rewrite fn_lookup_insert_ne by done. split; [apply Sw|]. destruct (Sw ty') as [_ Ho].
      unfold owes in *. simpl in *. by rewrite fn_lookup_insert_ne.
  - (* to the indexer *)
    exfalso. destruct (Sw ty) as [_ [(id' & out' & E)|(E & _)]]; congruence.
  - exfalso. destruct (Sw ty) as [_ [(id' & out' & E)|(_ & E & _)]]; congruence.
  - exfalso. by destruct (Sw Chunk).
Qed.

Lemma stuck_reach H target live cpus k w start ups bs s :
  cpus <= 3 -> (forall ty, exists b, b ∈ bs /\ b_type b = ty /\ b_bytes b <> []) ->
  during H target live cpus NoError k w start ups bs s -> stuck k s.
Proof.
  intros Hc Hb Hs. assert (stuck k (pipeline_start target k w start ups bs)) as I.
  { constructor; simpl; try done; [lia|]. intros ty. split; [done|]. right. simpl. split; [done|]. split; [done|]. right.
    destruct (Hb ty) as (b & ?). eauto. }
  unfold during in Hs. induction Hs as [s|s1 s2 s3 H1 H2 IH]; [done|]. apply IH. by eapply stuck_step.
Qed.
