(** Several runs at the same time, computed: for the examples of PropsConcurrent.v. *)

From Verif Require Import Base OMap Formats Hashing Pack Index Meta Forest FsTree FsSpec Pipeline Repo RepoSpec RepoFacts Exec History HistoryFacts Witness Concurrent.

(** What happens next: a backup or prune starts in a clean directory; the threads
    of the [n]th run do at most that many steps; what it does afterwards; it stops;
    a snapshot is forgotten; the steps of a rebuild. *)
Inductive move :=
| MBackup (paths : list fspath) (now : Z)
| MPrune
| MThreads (n steps : nat)
| MAfter (n : nat)
| MStop (n : nat)
| MForget (i : oid)
| MList | MRead | MPublish | MRemove | MRebuilt.

#[global] Instance index_eq_dec : EqDecision index.
Proof. solve_decision. Defined.

Section moves.
Variables (H : bytes -> oid) (l : list blob) (cuts : bytes -> list bytes) (prunes rebuilding : bool).
Variable beside : list client -> command -> Prop.
Variable besideb : list client -> command -> bool.
Hypothesis besideb_ok : forall cs c, besideb cs c = true -> beside cs c.

Definition may_run (k : backend) (w : workdir) (c : command) : Prop :=
  if prunes then adds_or_prunes H (in_list l) k w c else adds_to H (in_list l) k w c.

Definition same_files {A} `{EqDecision A} (m m' : gmap oid A) : bool :=
  forallb (fun x : oid * A => match m' !! x.1 with Some y => bool_decide (y = x.2) | None => true end) (map_to_list m).
Lemma same_files_ok {A} `{EqDecision A} (m m' : gmap oid A) i x y :
  same_files m m' = true -> m !! i = Some x -> m' !! i = Some y -> y = x.
Proof.
  unfold same_files. rewrite forallb_forall. intros Hf Hx Hy. specialize (Hf (i, x)). simpl in Hf. rewrite Hy in Hf.
  apply bool_decide_eq_true in Hf; [done|]. by apply elem_of_list_In, elem_of_map_to_list.
Qed.
Definition no_overwriteb (k k' : backend) : bool :=
  same_files (k_packs k) (k_packs k') && same_files (k_indexes k) (k_indexes k') && same_files (k_snaps k) (k_snaps k').
Lemma no_overwriteb_ok k k' : no_overwriteb k k' = true -> no_overwrite k k'.
Proof.
  intros [[H1 H2]%andb_true_iff H3]%andb_true_iff. split; [|split]; intros i x y Hx Hy.
  - by eapply (same_files_ok (k_packs k)).
  - by eapply (same_files_ok (k_indexes k)).
  - by eapply (same_files_ok (k_snaps k)).
Qed.

Definition index_fresh (k : backend) (u : uphase) : bool :=
  match u with UBusy (JIndex ix) => negb (bool_decide (index_id H ix ∈ superseded k)) | _ => true end.
Fixpoint threads (n : nat) (k : backend) (cl : client) : option (backend * client) :=
  match n with
  | O => Some (k, cl)
  | S n' =>
      match sched H (cl_target cl) true (cl_cpus cl) (fun _ => false) (set_back k (cl_threads cl)) with
      | None => Some (k, cl)
      | Some s' => if no_overwriteb k (ps_back s') && index_fresh k (ps_uploader (cl_threads cl))
                   then threads n' (ps_back s') (with_threads s' cl) else None
      end
  end.
Lemma threads_ok n k cl k' cl' before after r : threads n k cl = Some (k', cl') ->
  rtc (together H may_run beside (rebuilding = true)) (mkSystem k (before ++ cl :: after) r) (mkSystem k' (before ++ cl' :: after) r).
Proof.
  revert k cl. induction n as [|n IH]; intros k cl; simpl; [intros E; injection E as <- <-; done|].
  destruct (sched _ _ _ _ _ _) as [s'|] eqn:E; [|intros E'; injection E' as <- <-; done].
  destruct (_ && _) eqn:Ec; [|done]. apply andb_true_iff in Ec as [Hno%no_overwriteb_ok Hfr]. intros Ht.
  eapply rtc_l; [|by apply IH]. apply tg_thread; [by eapply pstep_weaken, sched_ok|done|]. intros ix Eu Hx. unfold index_fresh in Hfr. rewrite Eu in Hfr.
  apply negb_true_iff, bool_decide_eq_false in Hfr. done.
Qed.

Definition is_ready (m : mphase) : bool := match m with MDone true => true | _ => false end.
Fixpoint afterwards (os : list bop) (k : backend) : option backend :=
  match os with
  | [] => Some k
  | o :: os' => if no_overwriteb k (apply_op H k o) then afterwards os' (apply_op H k o) else None
  end.
Lemma afterwards_ok os k k' cl before after r : ps_main (cl_threads cl) = MDone true -> cl_pending cl = os -> afterwards os k = Some k' ->
  rtc (together H may_run beside (rebuilding = true)) (mkSystem k (before ++ cl :: after) r) (mkSystem k' (before ++ with_pending [] cl :: after) r).
Proof.
  intros Em. revert k cl Em. induction os as [|o os IH]; intros k cl Em Ep; simpl.
  - intros E. injection E as <-. destruct cl. simpl in *. by subst.
  - destruct (no_overwriteb _ _) eqn:Eno; [|done]. intros Ha. eapply rtc_l; [eapply tg_after; [done|done|by apply no_overwriteb_ok]|].
    change (with_pending [] cl) with (with_pending [] (with_pending os cl)). by apply IH.
Qed.

(** The [n]th run, with those before and after it. *)
Definition nth_run (n : nat) (cs : list client) : option (list client * client * list client) :=
  match drop n cs with cl :: after => Some (take n cs, cl, after) | [] => None end.
Lemma nth_run_ok n cs a cl b : nth_run n cs = Some (a, cl, b) -> cs = a ++ cl :: b.
Proof. unfold nth_run. intros E. destruct (drop n cs) as [|x ys] eqn:Ed; [done|]. injection E as <- <- <-. by rewrite <-Ed, take_drop. Qed.

Definition perform (y : system) (mv : move) : option system :=
  match mv, y with
  | MBackup paths now, mkSystem k cs r =>
      match backup_of H cuts paths now k clean with
      | Some (parent, pf, c) =>
          if paths_okb cuts false paths && in_listb l (plan_blobs H cuts (fun _ => true) pf (sn_tree <$> parent) paths) &&
             clash_free H k clean c && besideb cs c
          then Some (mkSystem k (cs ++ [new_client 20000 4 k clean c]) r) else None
      | None => None
      end
  | MPrune, mkSystem k cs r =>
      match exec_prune H false 20 k clean with
      | Some (Some c) => if prunes && clash_free H k clean c && besideb cs c then Some (mkSystem k (cs ++ [new_client 20000 4 k clean c]) r) else None
      | _ => None
      end
  | MThreads n steps, mkSystem k cs r =>
      match nth_run n cs with
      | Some (a, cl, b) => match threads steps k cl with Some (k', cl') => Some (mkSystem k' (a ++ cl' :: b) r) | None => None end
      | None => None
      end
  | MAfter n, mkSystem k cs r =>
      match nth_run n cs with
      | Some (a, cl, b) =>
          if is_ready (ps_main (cl_threads cl))
          then match afterwards (cl_pending cl) k with Some k' => Some (mkSystem k' (a ++ with_pending [] cl :: b) r) | None => None end else None
      | None => None
      end
  | MStop n, mkSystem k cs r => match nth_run n cs with Some (a, cl, b) => Some (mkSystem k (a ++ b) r) | None => None end
  | MForget i, mkSystem k cs r => Some (mkSystem (apply_op H k (DelSnap i)) cs r)
  | MList, mkSystem k cs None => if negb rebuilding then None else Some (mkSystem k cs (Some (RListed (os_of_list (map fst (map_to_list (k_indexes k)))))))
  | MRead, mkSystem k cs (Some (RListed old)) =>
      match rebuilt_over old k (map fst (map_to_list (k_packs k))) with Ok ix => Some (mkSystem k cs (Some (RRead ix))) | _ => None end
  | MPublish, mkSystem k cs (Some (RRead ix)) =>
      if negb (index_is_empty ix) && no_overwriteb k (publish H ix k) && negb (bool_decide (index_id H ix ∈ superseded (publish H ix k)))
      then Some (mkSystem (publish H ix k) cs (Some (RRemoving ix (ix_supersedes ix)))) else None
  | MRemove, mkSystem k cs (Some (RRemoving ix (i :: ids))) => Some (mkSystem (apply_op H k (DelIndex i)) cs (Some (RRemoving ix ids)))
  | MRebuilt, mkSystem k cs r => Some (mkSystem k cs None)
  | _, _ => None
  end.

Lemma perform_ok y mv y' : perform y mv = Some y' -> rtc (together H may_run beside (rebuilding = true)) y y'.
Proof using All.
  destruct y as [k cs r], mv as [paths now| |n steps|n|n|i| | | | |]; cbn [perform].
  - destruct (backup_of _ _ _ _ _ _) as [[[parent pf] c]|] eqn:E; [|done]. destruct (_ && _) eqn:Ec; [|done].
    apply andb_true_iff in Ec as [[[Hp%paths_okb_ok Hu%in_listb_ok]%andb_true_iff Hc%clash_free_ok]%andb_true_iff Hb%besideb_ok].
    intros E'. injection E' as <-. apply rtc_once. apply tg_start; [|done].
    assert (adds_to H (in_list l) k clean c) as Ha.
    { eapply ad_backup; [by eapply backup_of_ok|done|done| |done]. split; [|done]. intros p bs Hx. simpl in Hx. by apply lookup_empty_Some in Hx. }
    unfold may_run. destruct prunes; [by left|done].
  - destruct (exec_prune _ _ _ _ _) as [[c|]|] eqn:E; [|done..]. destruct (_ && _) eqn:Ec; [|done].
    apply andb_true_iff in Ec as [[Hp Hc%clash_free_ok]%andb_true_iff Hb%besideb_ok]. intros E'. injection E' as <-.
    apply rtc_once. apply tg_start; [|done]. unfold may_run. rewrite Hp. right. split; [done|]. split; [by eapply exec_prune_ok|done].
  - destruct (nth_run n cs) as [[[a cl] b]|] eqn:E; [|done]. apply nth_run_ok in E as ->.
    destruct (threads steps k cl) as [[k' cl']|] eqn:Et; [|done]. intros E'. injection E' as <-. by eapply threads_ok.
  - destruct (nth_run n cs) as [[[a cl] b]|] eqn:E; [|done]. apply nth_run_ok in E as ->. destruct (is_ready _) eqn:Er; [|done].
    destruct (afterwards (cl_pending cl) k) as [k'|] eqn:Ea; [|done]. intros E'. injection E' as <-. eapply afterwards_ok; [|done|done].
    unfold is_ready in Er. destruct (ps_main (cl_threads cl)) as [| |[]]; done.
  - destruct (nth_run n cs) as [[[a cl] b]|] eqn:E; [|done]. apply nth_run_ok in E as ->. intros E'. injection E' as <-. apply rtc_once, tg_stop.
  - intros E'. injection E' as <-. apply rtc_once, tg_forget.
  - destruct r; [done|]. destruct rebuilding; [|done]. intros E'. injection E' as <-. by apply rtc_once, tg_list.
  - destruct r as [[old| |]|]; try done. destruct (rebuilt_over _ _ _) as [ix| |] eqn:E; [|done..]. intros E'. injection E' as <-. apply rtc_once. by eapply tg_read.
  - destruct r as [[|ix|]|]; try done. destruct (_ && _) eqn:Ec; [|done].
    apply andb_true_iff in Ec as [[Hn%negb_true_iff Hno%no_overwriteb_ok]%andb_true_iff Hfr%negb_true_iff%bool_decide_eq_false].
    intros E'. injection E' as <-. by apply rtc_once, tg_publish.
  - destruct r as [[| |ix [|i ids]]|]; try done. intros E'. injection E' as <-. apply rtc_once, tg_remove.
  - intros E'. injection E' as <-. apply rtc_once, tg_rebuilt.
Qed.

Fixpoint performs (y : system) (mvs : list move) : option system :=
  match mvs with
  | [] => Some y
  | mv :: mvs' => match perform y mv with Some y' => performs y' mvs' | None => None end
  end.
Lemma performs_ok y mvs y' : performs y mvs = Some y' -> rtc (together H may_run beside (rebuilding = true)) y y'.
Proof using All.
  revert y. induction mvs as [|mv mvs IH]; intros y; simpl; [intros E; injection E as <-; done|].
  destruct (perform y mv) as [y1|] eqn:E; [|done]. intros E'. etrans; [by eapply perform_ok|by apply IH].
Qed.
End moves.
