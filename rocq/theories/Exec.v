(** Running the model: one schedule of the pipeline, and the commands as
    functions.  Used to compute examples; nothing here is needed to read a
    theorem. *)

From stdpp Require Import functions.
From Verif Require Import Base OMap Formats Hashing Pack Index Meta Forest FsTree Pipeline Repo.

Section exec.
Variable H : bytes -> oid.
Variable target : N.
Variable live : bool.
Variable cpus : nat.
(** The blobs after which a pack is full. *)
Variable full : blob -> bool.

Definition sizes_of (b : blob) : sizes := if full b then mkSizes target target target else mkSizes 0 0 target.

Definition is_idle (u : uphase) : bool := match u with UIdle => true | _ => false end.
Definition is_run (p : wphase) : bool := match p with WRun => true | _ => false end.
Definition is_wexit (p : wphase) : bool := match p with WExit => true | _ => false end.

Definition try_worker (ty : blob_type) (s : pstate) : option pstate :=
  match wk_out (ps_workers s ty) with
  | MsgUpload id :: out =>
      if bool_decide (tid_uploader < ps_spawned s) && is_idle (ps_uploader s) then
        Some (set_uploader (UBusy (JPack id))
          (set_worker ty (mkWorker (wk_packer (ps_workers s ty)) out (wk_phase (ps_workers s ty))) s))
      else None
  | MsgIndex id m :: out =>
      match ps_indexer s with
      | IRecv st =>
          match indexer_recv st (id, m) with
          | Ok st' => Some (set_indexer (IRecv st') (set_wip (in_wip st')
              (set_worker ty (mkWorker (wk_packer (ps_workers s ty)) out (wk_phase (ps_workers s ty))) s)))
          | _ => None
          end
      | _ => None
      end
  | [] =>
      match wk_phase (ps_workers s ty) with
      | WLast => Some (set_worker ty (mkWorker (wk_packer (ps_workers s ty)) [] WExit) s)
      | WRun =>
          match ps_main s with
          | MWait ok => if bool_decide (tid ty < ps_spawned s)
              then Some (close_pack H ty (packer_finish (wk_packer (ps_workers s ty))) (packer_new target) WLast s)
              else None
          | _ => None
          end
      | WExit => None
      end
  end.

Definition workers_gone (s : pstate) : bool :=
  is_wexit (wk_phase (ps_workers s Chunk)) && is_wexit (wk_phase (ps_workers s Tree)).

Definition try_indexer (s : pstate) : option pstate :=
  match ps_indexer s with
  | IRecv st =>
      if workers_gone s
      then Some (set_indexer (match (indexer_end st).2 with Some ix => ISend ix | None => IExit end)
                   (set_wip (in_wip (indexer_end st).1) s))
      else None
  | ISend ix =>
      if bool_decide (tid_uploader < ps_spawned s) && is_idle (ps_uploader s)
      then Some (set_indexer IExit (set_uploader (UBusy (JIndex ix)) s)) else None
  | _ => None
  end.

Definition try_main (s : pstate) : option pstate :=
  match ps_main s with
  | MSend (id :: ups) bs =>
      if bool_decide (is_Some (ps_files s !! id)) && bool_decide (tid_uploader < ps_spawned s) && is_idle (ps_uploader s)
      then Some (set_main (MSend ups bs) (set_uploader (UBusy (JPack id)) s)) else None
  | MSend [] (b :: bs) =>
      if bool_decide (tid (b_type b) < ps_spawned s) && is_run (wk_phase (ps_workers s (b_type b)))
           && bool_decide (length (wk_out (ps_workers s (b_type b))) = 0)
      then match packer_step target (wk_packer (ps_workers s (b_type b))) b (sizes_of b) with
           | Ok (pk, closed) => Some (close_pack H (b_type b) closed pk WRun (set_main (MSend [] bs) s))
           | _ => None
           end
      else None
  | MSend [] [] => Some (set_main (MWait true) s)
  | MWait ok =>
      if workers_gone s && iexited (ps_indexer s) then
        if uexited (ps_uploader s) then Some (set_main (MDone ok) (set_wip (if ok then None else ps_wip s) s))
        else if is_idle (ps_uploader s) && bool_decide (tid_uploader < ps_spawned s) then Some (set_uploader UExit s) else None
      else None
  | MDone _ => None
  end.

Definition orelse {A} (a b : option A) : option A := match a with Some _ => a | None => b end.

Definition sched (s : pstate) : option pstate :=
  if bool_decide (ps_spawned s < 4) && bool_decide (running s < cpus) then
    Some (set_spawned (S (ps_spawned s))
      (match ps_indexer s with
       | INew start => if bool_decide (ps_spawned s = tid_indexer)
           then let st := indexer_start live start (ps_wip s) in
                set_indexer (IRecv st) (set_wip (in_wip st) s)
           else s
       | _ => s
       end))
  else match ps_uploader s with
  | UBusy j => Some (if live then set_uploader (UWritten j) (upload_job H j s) else set_uploader UIdle (clear_job j s))
  | UWritten j => Some (set_uploader UIdle (clear_job j s))
  | _ => orelse (try_worker Chunk s) (orelse (try_worker Tree s) (orelse (try_indexer s) (try_main s)))
  end.

Fixpoint run (n : nat) (s : pstate) : pstate :=
  match n with
  | O => s
  | S n' => match sched s with Some s' => run n' s' | None => s end
  end.

(** It is one of the schedules there are. *)

Ltac spl := repeat match goal with
  | E : _ && _ = true |- _ => apply andb_true_iff in E as [? ?]
  | E : bool_decide _ = true |- _ => apply bool_decide_eq_true in E
  | E : Some _ = Some _ |- _ => injection E as <-
  | E : None = Some _ |- _ => discriminate E
  end.

Lemma is_idle_inv u : is_idle u = true -> u = UIdle.
Proof. by destruct u. Qed.
Lemma is_run_inv u : is_run u = true -> u = WRun.
Proof. by destruct u. Qed.
Lemma workers_gone_inv s : workers_gone s = true -> wk_phase (ps_workers s Chunk) = WExit /\ wk_phase (ps_workers s Tree) = WExit.
Proof. unfold workers_gone. destruct (wk_phase (ps_workers s Chunk)), (wk_phase (ps_workers s Tree)); done. Qed.

Lemma try_worker_ok ty s s' : try_worker ty s = Some s' -> pstep H target live cpus NoError s s'.
Proof.
  unfold try_worker. destruct (wk_out (ps_workers s ty)) as [|[id|id m] out] eqn:Eo.
  - destruct (wk_phase (ps_workers s ty)) eqn:Ep; [|intros E; spl; by apply St_pack_exit|done].
    destruct (ps_main s) eqn:Em; try done. destruct (bool_decide _) eqn:Eb; intros E; spl. by eapply St_finish.
  - destruct (_ && _) eqn:Eb; intros E; spl. apply St_pack_upload; [done|done|by apply is_idle_inv].
  - destruct (ps_indexer s) as [|st| |] eqn:Ei; try done. destruct (indexer_recv st (id, m)) as [st'| |] eqn:Er; try done.
    intros E; spl. by eapply St_pack_index.
Qed.

Lemma try_indexer_ok s s' : try_indexer s = Some s' -> pstep H target live cpus NoError s s'.
Proof.
  unfold try_indexer. destruct (ps_indexer s) as [|st|ix|] eqn:Ei; try done.
  - destruct (workers_gone s) eqn:Eb; intros E; spl. apply workers_gone_inv in Eb as [? ?]. by apply St_index_end.
  - destruct (_ && _) eqn:Eb; intros E; spl. apply St_index_upload; [done|done|by apply is_idle_inv].
Qed.

Lemma try_main_ok s s' : try_main s = Some s' -> pstep H target live cpus NoError s s'.
Proof.
  unfold try_main. destruct (ps_main s) as [[|id ups] bs|ok|ok] eqn:Em.
  - destruct bs as [|b bs]; [intros E; spl; by apply St_main_drop|].
    destruct (_ && _) eqn:Eb; [|done]. destruct (packer_step _ _ _ _) as [[pk closed]| |] eqn:Ep; try done.
    intros E; spl. eapply St_main_blob; [done|done|by apply is_run_inv|by apply nil_length_inv|done].
  - destruct (_ && _) eqn:Eb; [|done]. intros E; spl. eapply St_main_upload; [done|done|done|by apply is_idle_inv].
  - destruct (workers_gone s && _) eqn:Eb; [|done]. apply andb_true_iff in Eb as [Eb Ei]. apply workers_gone_inv in Eb as [E1 E2].
    assert (ps_indexer s = IExit) as Ei' by (by destruct (ps_indexer s)).
    destruct (uexited (ps_uploader s)) eqn:Eu.
    + intros E; spl. apply St_join; try done. by destruct (ps_uploader s).
    + destruct (_ && _) eqn:Eb; [|done]. intros E; spl. eapply St_up_exit; try done. by apply is_idle_inv.
  - done.
Qed.

Lemma sched_ok s s' : sched s = Some s' -> pstep H target live cpus NoError s s'.
Proof.
  unfold sched. destruct (_ && _) eqn:Eb; [intros E; spl; by apply St_spawn|].
  assert (orelse (try_worker Chunk s) (orelse (try_worker Tree s) (orelse (try_indexer s) (try_main s))) = Some s' ->
    pstep H target live cpus NoError s s') as Ho.
  { unfold orelse. destruct (try_worker Chunk s) eqn:E1; [intros E; spl; by eapply try_worker_ok|].
    destruct (try_worker Tree s) eqn:E2; [intros E; spl; by eapply try_worker_ok|].
    destruct (try_indexer s) eqn:E3; [intros E; spl; by eapply try_indexer_ok|]. apply try_main_ok. }
  destruct (ps_uploader s) eqn:Eu; try done.
  - intros E; spl. destruct live eqn:El; [by apply St_up_write|by apply St_up_dry].
  - intros E; spl. by apply St_up_clear.
Qed.

Lemma run_ok n s : rtc (pstep H target live cpus NoError) s (run n s).
Proof.
  revert s. induction n as [|n IH]; intros s; simpl; [done|]. destruct (sched s) as [s'|] eqn:E; [|done].
  eapply rtc_l; [by apply sched_ok|]. apply IH.
Qed.

Definition is_done (m : mphase) : bool := match m with MDone true => true | _ => false end.
Lemma is_done_inv m : is_done m = true -> m = MDone true.
Proof. by destruct m as [| |[]]. Qed.

(** A command interrupted after [n] steps of this schedule, or finished. *)
Definition start_of (k : backend) (w : workdir) (c : command) : pstate :=
  pipeline_start target k w (c_start c) (c_ups c) (c_blobs c).
Definition run_part (n : nat) (k : backend) (w : workdir) (c : command) : backend * workdir :=
  let s := run n (start_of k w c) in (ps_back s, mkWorkdir (ps_files s) (ps_wip s)).
Definition run_whole (n : nat) (k : backend) (w : workdir) (c : command) : option (backend * workdir) :=
  let s := run n (start_of k w c) in
  if is_done (ps_main s) then Some (apply_ops H (ps_back s) (c_after c), mkWorkdir (ps_files s) (ps_wip s)) else None.

Lemma run_part_ok n k w c : command_reaches H target live cpus NoError k w c (run_part n k w c).1 (run_part n k w c).2.
Proof.
  exists (run n (start_of k w c)), 0. split; [apply run_ok|]. split; [by right|]. split; done.
Qed.
Lemma run_whole_ok n k w c k' w' : run_whole n k w c = Some (k', w') -> command_done H target live cpus k w c k' w'.
Proof.
  unfold run_whole. destruct (is_done _) eqn:Ed; [|done]. intros E. injection E as <- <-.
  exists (run n (start_of k w c)). split; [apply run_ok|]. split; [by apply is_done_inv|]. done.
Qed.

Lemma done_reaches k w c k' w' : command_done H target live cpus k w c k' w' -> command_reaches H target live cpus NoError k w c k' w'.
Proof.
  intros (s & Hs & Hm & -> & ->). exists s, (length (c_after c)). split; [done|]. split; [by left|]. by rewrite firstn_all.
Qed.
End exec.

(** ** The commands *)

Definition not_after (a b : snapshot * oid) : Prop := (sn_time a.1 <= sn_time b.1)%Z.
Global Instance not_after_dec : RelDecision not_after.
Proof. intros a b. unfold not_after. apply _. Defined.
Definition chrono (k : backend) : list (snapshot * oid) :=
  merge_sort not_after
    (map (fun x : oid * snapshot => (x.2, x.1)) (map_to_list (k_snaps k))).
Lemma chrono_ok k : chronological k (chrono k).
Proof.
  unfold chronological, chrono. split; [by rewrite merge_sort_Permutation|].
  apply Sorted_merge_sort. intros a b. unfold not_after. lia.
Qed.

Section commands.
Variable H : bytes -> oid.

Definition get_ok {A} (r : result A) : option A := match r with Ok a => Some a | _ => None end.
Definition get_done {A} (r : option (result A)) : option A := match r with Some (Ok a) => Some a | _ => None end.
Lemma get_ok_inv {A} (r : result A) a : get_ok r = Some a -> r = Ok a.
Proof. destruct r; simpl; congruence. Qed.
Lemma get_done_inv {A} (r : option (result A)) a : get_done r = Some a -> r = Some (Ok a).
Proof. destruct r as [[]|]; simpl; congruence. Qed.

Definition exec_backup (cuts : bytes -> list bytes) (dry deref allow_empty : bool) (filter : bytes -> bool)
    (author tz : bytes) (tags : list bytes) (now : Z) (paths : list fspath) (fuel : nat) (k : backend) (w : workdir)
    : option (option snapshot * forest * command) :=
  _ ← get_ok (reject_matching ∅ (map (fun e : fspath => e.1.2) paths));
  ix ← get_ok (master k);
  bmap ← get_ok (blob_to_pack_map ix);
  let given := map (fun e : fspath => e.1.1) paths in
  let parent := parent_snapshot given (chrono k) in
  pf ← (match parent with
        | None => Some ∅
        | Some p => get_done (load_forest H k bmap fuel (sn_tree p))
        end);
  r ← get_ok (resume k w ix);
  let '(start, ups, packed) := r in
  b ← get_ok (backup_tree H cuts deref filter pf (sn_tree <$> parent) paths packed);
  let '(s, root) := b in
  let sn := mkSnapshot now tz author tags given root in
  Some (parent, pf, mkCommand start (if dry then [] else ups) (bs_sent s)
      (if bool_decide (root = empty_id H) && negb allow_empty then []
       else match last (chrono k) with
            | Some (p, _) =>
                if bool_decide (mkSnapshot now tz (sn_author p) (sn_tags p) (sn_paths p) (sn_tree p) = sn) then []
                else if dry then [] else [PutSnap sn]
            | None => if dry then [] else [PutSnap sn]
            end)).

Lemma exec_backup_ok cuts dry deref allow_empty filter author tz tags now paths fuel k w parent pf c :
  exec_backup cuts dry deref allow_empty filter author tz tags now paths fuel k w = Some (parent, pf, c) ->
  backup_command H cuts dry deref allow_empty filter author tz tags now paths parent pf k w c.
Proof.
  unfold exec_backup. intros E.
  apply bind_Some in E as ([] & E1%get_ok_inv & E). apply bind_Some in E as (ix & E2%get_ok_inv & E).
  apply bind_Some in E as (bmap & E3%get_ok_inv & E). apply bind_Some in E as (pf' & E4 & E).
  apply bind_Some in E as ([[start ups] packed] & E5%get_ok_inv & E).
  apply bind_Some in E as ([s root] & E6%get_ok_inv & E). injection E as E7 E8 E9. subst parent pf'.
  exists ix, bmap, (chrono k), start, ups, packed, s, root. split; [done|]. split; [done|]. split; [done|].
  split; [apply chrono_ok|]. cbv zeta. split; [done|]. split; [|split; [done|split; [done|by rewrite <-E9]]].
  destruct (parent_snapshot _ _) as [p|]; [|by injection E4]. exists fuel. by apply get_done_inv.
Qed.

Definition exec_copy (dry : bool) (filter : bytes -> bool) (src : backend) (chosen : list snapshot) (fuel : nat)
    (k : backend) (w : workdir) : option (list (snapshot * forest) * command) :=
  sx ← get_ok (master src);
  sbmap ← get_ok (blob_to_pack_map sx);
  forests ← get_done (load_forests H src sbmap fuel chosen);
  ix ← get_ok (master k);
  r ← get_ok (resume k w ix);
  let '(start, ups, packed) := r in
  b ← get_done (rewrite_snapshots H filter (repack_chunk src sx sbmap) fuel forests (mkBstate packed []));
  let '(s, sns) := b in
  Some (forests, mkCommand start (if dry then [] else ups) (bs_sent s) (if dry then [] else map PutSnap sns)).

Lemma exec_copy_ok dry filter src chosen fuel k w forests c :
  exec_copy dry filter src chosen fuel k w = Some (forests, c) ->
  copy_command H dry filter src chosen fuel forests k w c.
Proof.
  unfold exec_copy. intros E.
  apply bind_Some in E as (sx & E1%get_ok_inv & E). apply bind_Some in E as (sbmap & E2%get_ok_inv & E).
  apply bind_Some in E as (fo & E3%get_done_inv & E). apply bind_Some in E as (ix & E4%get_ok_inv & E).
  apply bind_Some in E as ([[start ups] packed] & E5%get_ok_inv & E).
  apply bind_Some in E as ([s sns] & E6%get_done_inv & E). injection E as <- <-.
  exists sx, sbmap, ix, start, ups, packed, s, sns. done.
Qed.

Definition exec_filter (dry : bool) (filter : bytes -> bool) (target : snapshot)
    (meta : option (bytes * list bytes * Z * bytes)) (fuel : nat) (k : backend) : option (forest * command) :=
  ix ← get_ok (master k);
  bmap ← get_ok (blob_to_pack_map ix);
  fo ← get_done (load_forest H k bmap fuel (sn_tree target));
  packed ← get_ok (blob_id_set ix);
  b ← get_done (rewrite_tree H filter check_chunk fo fuel [] (sn_tree target) (mkBstate packed []));
  let '(s, root) := b in
  Some (fo, mkCommand index_default [] (bs_sent s)
      (if bool_decide (root = sn_tree target) then []
       else if dry then []
       else match meta with
            | None => [PutSnap (mkSnapshot (sn_time target) (sn_tz target) (sn_author target) (sn_tags target) (sn_paths target) root)]
            | Some (author, tags, now, tz) => [PutSnap (mkSnapshot now tz author tags (sn_paths target) root)]
            end)).

Lemma exec_filter_ok dry filter target meta fuel k fo c :
  exec_filter dry filter target meta fuel k = Some (fo, c) ->
  filter_command H dry filter target meta fuel fo k c.
Proof.
  unfold exec_filter. intros E.
  apply bind_Some in E as (ix & E1%get_ok_inv & E). apply bind_Some in E as (bmap & E2%get_ok_inv & E).
  apply bind_Some in E as (fo' & E3%get_done_inv & E). apply bind_Some in E as (packed & E4%get_ok_inv & E).
  apply bind_Some in E as ([s root] & E6%get_done_inv & E). injection E as <- <-.
  exists ix, bmap, packed, s, root. done.
Qed.

Definition exec_prune (dry : bool) (fuel : nat) (k : backend) (w : workdir) : option (option command) :=
  ix ← get_ok (master k);
  bmap ← get_ok (blob_to_pack_map ix);
  forests ← get_done (load_forests H k bmap fuel (map fst (chrono k)));
  let reachable := reachable_blobs forests in
  let reusable := List.filter (pack_in_use reachable) (ix_packs ix) in
  let to_prune := List.filter (fun pm => negb (pack_in_use reachable pm)) (ix_packs ix) in
  let superseded := os_of_list (map fst (map_to_list (k_indexes k))) in
  if decide (to_prune = []) then Some None
  else
    r ← get_ok (prune_start k w superseded reusable);
    let '(start, ups, packed) := r in
    b ← get_done (rewrite_snapshots H (fun _ => true) (repack_chunk k ix bmap) fuel forests (mkBstate packed []));
    let '(s, sns) := b in
    Some (Some (mkCommand start (if dry then [] else ups) (bs_sent s)
        (if dry then [] else map DelIndex superseded ++ map (fun pm : oid * manifest => DelPack pm.1) to_prune))).

Lemma exec_prune_ok dry fuel k w c : exec_prune dry fuel k w = Some c -> prune_command H dry k w c.
Proof.
  unfold exec_prune. intros E.
  apply bind_Some in E as (ix & E1%get_ok_inv & E). apply bind_Some in E as (bmap & E2%get_ok_inv & E).
  apply bind_Some in E as (fo' & E3%get_done_inv & E).
  exists ix, bmap, (chrono k), fuel, fo'. split; [done|]. split; [done|]. split; [apply chrono_ok|]. split; [done|]. cbv zeta.
  case_decide; [by injection E|].
  apply bind_Some in E as ([[start ups] packed] & E5%get_ok_inv & E).
  apply bind_Some in E as ([s sns] & E6%get_done_inv & E). injection E as <-.
  exists start, ups, packed, s, sns. done.
Qed.

(** The packs in the order of their ids, without an interruption. *)
Definition exec_rebuild (k : backend) : option backend :=
  ix ← get_ok (rebuilt_index k (map fst (map_to_list (k_packs k))));
  if index_is_empty ix then Some k
  else Some (apply_ops H (mkBackend (k_packs k) (<[index_id H ix := ix]> (k_indexes k)) (k_snaps k)) (map DelIndex (ix_supersedes ix))).

Lemma exec_rebuild_ok k k' : exec_rebuild k = Some k' -> rebuild_reaches H k k'.
Proof.
  unfold exec_rebuild. intros E. apply bind_Some in E as (ix & E1%get_ok_inv & E).
  eexists _, ix. split; [reflexivity|]. split; [done|]. destruct (index_is_empty ix); [left; congruence|right].
  split; [done|]. exists (length (ix_supersedes ix)). rewrite <-(map_length DelIndex (ix_supersedes ix)), firstn_all. congruence.
Qed.
End commands.
