(** Checking the premises of restoring by computation, for the examples. *)

From Verif Require Import Base OMap Formats Hashing Pack Index Meta Forest FsTree FsSpec FsFacts Pipeline Repo RepoSpec Witness Browse BrowseSpec BrowseFacts Restore RestoreSpec RestoreFacts.

(** Everything below. *)
Fixpoint subs (n : fsnode) : list (list bytes * fsnode) :=
  ([], n) :: match n with
             | FsDir _ es => concat (map (fun e : bytes * fsnode => map (fun x : list bytes * fsnode => (e.1 :: x.1, x.2)) (subs e.2)) es)
             | _ => []
             end.
Definition all_of (es : list (bytes * fsnode)) : list (list bytes * fsnode) :=
  concat (map (fun e : bytes * fsnode => map (fun x : list bytes * fsnode => (e.1 :: x.1, x.2)) (subs e.2)) es).

Lemma in_all (es : list (bytes * fsnode)) x n q n' : om_get x es = Some n -> (q, n') ∈ subs n -> (x :: q, n') ∈ all_of es.
Proof.
  intros E Hin. unfold all_of. apply ForestFacts.elem_of_concat. exists (map (fun y : list bytes * fsnode => (x :: y.1, y.2)) (subs n)). split.
  - change (map ?f ?l) with (f <$> l). apply elem_of_list_fmap. by exists (q, n').
  - change (map ?f ?l) with (f <$> l). apply elem_of_list_fmap. exists (x, n). split; [done|]. by apply om_get_in.
Qed.
Lemma subs_in n q n' : fs_sub n q = Some n' -> (q, n') ∈ subs n.
Proof.
  revert n. induction q as [|x q IH]; intros n E; [cbn in E; injection E as <-; destruct n; by left|]. cbn [fs_sub] in E. destruct n as [|m es| |]; try done.
  apply bind_Some in E as (n1 & E1 & E). right. apply (in_all es x n1); [done|by apply IH].
Qed.
Lemma all_in es p n : fs_at es p = Some n -> (p, n) ∈ all_of es.
Proof. destruct p as [|x q]; [done|]. intros (n1 & E1 & E)%bind_Some. eapply in_all; [exact E1|]. by apply subs_in. Qed.

Fixpoint sortedb {A} (es : list (bytes * A)) : bool :=
  match es with
  | [] => true
  | (k, _) :: es' => forallb (fun kv : bytes * A => match bytes_cmp k kv.1 with Lt => true | _ => false end) es' && sortedb es'
  end.
Lemma sortedb_ok {A} (es : list (bytes * A)) : sortedb es = true -> om_sorted es.
Proof.
  induction es as [|[k v] es IH]; [done|]. cbn. intros [Ha Hs]%andb_true_iff. split; [|by apply IH]. apply Forall_forall. intros kv Hin%elem_of_list_In.
  rewrite forallb_forall in Ha. specialize (Ha _ Hin). unfold bytes_lt. by destruct (bytes_cmp k kv.1).
Qed.
Fixpoint shapeb (n : fsnode) : bool :=
  match n with FsDir _ es => sortedb es && forallb (fun e : bytes * fsnode => shapeb e.2) es | _ => true end.
Lemma shapeb_ok n : shapeb n = true -> in_shape n.
Proof.
  induction n as [m c|m es IH|m t|m] using fsnode_ind'; try done. cbn [shapeb]. intros [Hs Ha]%andb_true_iff. cbn [in_shape]. split; [by apply sortedb_ok|].
  clear Hs. induction es as [|e es IHes]; [done|]. cbn in *. apply andb_true_iff in Ha as [H1 H2]. apply Forall_cons in IH as [I1 I2]. split; auto.
Qed.

Definition is_posix (m : metadata) : bool := match m with Posix _ => true | Windows _ => false end.
Definition is_other (n : fsnode) : bool := match n with FsOther _ => true | _ => false end.
Definition is_dir (n : fsnode) : bool := match n with FsDir _ _ => true | _ => false end.
Definition is_none {A} (o : option A) : bool := match o with None => true | _ => false end.

Definition can_restoreb (cuts : bytes -> list bytes) (resolves : list bytes -> bool) (args : restore_args) (output : option (list bytes))
    (sn : snapshot) (es files : list (bytes * fsnode)) : bool :=
  let T := targets sn output in
  forallb (fun p => negb (bool_decide (names_in p = []))) (sn_paths sn) &&
  bool_decide (NoDup (map fst T)) &&
  bool_decide (len_wf (sn_paths sn)) &&
  forallb (fun t : bytes * list bytes => match last t.2 with Some y => bool_decide (text_wf t.1) && bool_decide (text_wf y) | None => true end) T &&
  forallb (fun e : bytes * fsnode => bool_decide (e.1 ∈ map fst T)) es &&
  match output with
  | None => forallb (fun t : bytes * list bytes => negb (is_none (fs_at files t.2)) &&
      forallb (fun u : bytes * list bytes => bool_decide (t.1 = u.1) || negb (bool_decide (t.2 `prefix_of` u.2))) T) T
  | Some to => match T with
      | [_] => match fs_at files to with Some n => negb (is_other n) | None => false end
      | _ => (bool_decide (to = []) || match fs_at files to with Some n => is_dir n | None => false end) &&
             forallb (fun t : bytes * list bytes => match fs_at files t.2 with Some (FsLink _ _) => resolves t.2 | _ => true end) T
      end
  end &&
  (sortedb files && forallb (fun e : bytes * fsnode => shapeb e.2) files) &&
  forallb (fun t : bytes * list bytes => match fs_at files t.2 with Some n => fs_okb cuts false n | None => true end) T &&
  forallb (fun e : list bytes * fsnode => is_posix (fs_meta e.2)) (all_of files) &&
  forallb (fun e : list bytes * fsnode => is_posix (fs_meta e.2)) (all_of es) &&
  (negb (r_times args) || forallb (fun e : list bytes * fsnode => time_taken (meta_mtime (fs_meta e.2)) && time_taken (meta_atime (fs_meta e.2))) (all_of es)) &&
  forallb (fun t : bytes * list bytes => forallb (fun a : list bytes * fsnode => forallb (fun b : list bytes * fsnode =>
    match a.2, b.2 with
    | FsFile m0 c0, FsFile m c =>
        negb (bool_decide (a.1 = t.1 :: drop (length t.2) b.1) && bool_decide (meta_mtime m = meta_mtime m0) && bool_decide (meta_size m = meta_size m0))
        || bool_decide (c = c0)
    | _, _ => true
    end) (all_of files)) (all_of es)) T &&
  forallb (fun t : bytes * list bytes => forallb (fun b : list bytes * fsnode =>
    match b.2 with
    | FsOther _ => negb (bool_decide (t.2 `prefix_of` b.1)) || (negb (r_delete args) && is_none (fs_at es (t.1 :: drop (length t.2) b.1)))
    | _ => true
    end) (all_of files)) T.

Lemma forallb_in {A} (f : A -> bool) l x : forallb f l = true -> x ∈ l -> f x = true.
Proof. rewrite forallb_forall. intros Hf Hin%elem_of_list_In. auto. Qed.
Lemma ent_in es p t m : ent es p = Some (t, m) -> exists n, fs_at es p = Some n /\ (p, n) ∈ all_of es /\ thing_of n = t /\ fs_meta n = m.
Proof. unfold ent. destruct (fs_at es p) as [n|] eqn:E; [|done]. intros [= <- <-]. exists n. split; [done|]. split; [by apply all_in|done]. Qed.

Lemma can_restoreb_ok cuts resolves args output sn es files : can_restoreb cuts resolves args output sn es files = true ->
  can_restore cuts resolves args output sn es files.
Proof.
  unfold can_restoreb. set (T := targets sn output). intros Hb.
  apply andb_true_iff in Hb as [Hb Hspec]. apply andb_true_iff in Hb as [Hb Hhon]. apply andb_true_iff in Hb as [Hb Hti]. apply andb_true_iff in Hb as [Hb Hsux]. apply andb_true_iff in Hb as [Hb Hux].
  apply andb_true_iff in Hb as [Hb Hok]. apply andb_true_iff in Hb as [Hb Hsort]. apply andb_true_iff in Hb as [Hb Hpl]. apply andb_true_iff in Hb as [Hb Htop].
  apply andb_true_iff in Hb as [Hb Htx]. apply andb_true_iff in Hb as [Hb Hfew]. apply andb_true_iff in Hb as [Hnm Hnd].
  constructor; fold T.
  - apply Forall_forall. intros p Hp. apply (forallb_in _ _ _ Hnm) in Hp. by apply negb_true_iff, bool_decide_eq_false in Hp.
  - by apply bool_decide_eq_true in Hnd.
  - by apply bool_decide_eq_true in Hfew.
  - intros x l y Hin Ey. apply (forallb_in _ _ _ Htx) in Hin. cbn [fst snd] in Hin. rewrite Ey in Hin. apply andb_true_iff in Hin as [H1 H2]. by apply bool_decide_eq_true in H1, H2.
  - intros x n E. apply om_get_in, (forallb_in _ _ _ Htop) in E. by apply bool_decide_eq_true in E.
  - destruct output as [to|].
    + fold T in Hpl. assert ((exists e, T = [e]) \/ forall e, T <> [e]) as [[e ET]|Hm].
      { clear. destruct T as [|e [|b r]]; [by right|left; eauto|by right]. }
      * rewrite ET in *. destruct (fs_at files to) as [n|] eqn:En; [|done]. exists (thing_of n), (fs_meta n). unfold ent. rewrite En. split; [done|]. by destruct n.
      * assert ((bool_decide (to = []) || match fs_at files to with Some n => is_dir n | None => false end) = true /\
          forallb (fun t : bytes * list bytes => match fs_at files t.2 with Some (FsLink _ _) => resolves t.2 | _ => true end) T = true) as [H1 H2].
        { destruct T as [|e [|b r]]; [by apply andb_true_iff|by destruct (Hm e)|by apply andb_true_iff]. }
        assert (dir_at files to /\ forall x l t m, (x, l) ∈ T -> ent files l = Some (TLink t, m) -> resolves l = true) as Hgoal.
        { split.
          - apply orb_true_iff in H1 as [H1%bool_decide_eq_true|H1]; [by left|]. right. unfold ent. destruct (fs_at files to) as [[|m es'| |]|]; try done. by exists m.
          - intros x l t m Hin Ee. apply (forallb_in _ _ _ H2) in Hin. cbn [snd] in Hin. unfold ent in Ee. destruct (fs_at files l) as [[]|]; done. }
        destruct T as [|e [|b r]]; [done|by destruct (Hm e)|done].
    + intros x l Hin. apply (forallb_in _ _ _ Hpl) in Hin. cbn [fst snd] in Hin. apply andb_true_iff in Hin as [H1 H2]. split.
      * unfold ent. destruct (fs_at files l); [by eexists|done].
      * intros y l' Hin' Hne. apply (forallb_in _ _ _ H2) in Hin'. cbn [fst snd] in Hin'. apply orb_true_iff in Hin' as [H3%bool_decide_eq_true|H3]; [done|].
        by apply negb_true_iff, bool_decide_eq_false in H3.
  - apply andb_true_iff in Hsort as [H1 H2]. split; [by apply sortedb_ok|]. apply Forall_forall. intros e Hin. apply shapeb_ok. by apply (forallb_in _ _ _ H2) in Hin.
  - intros x l n Hin En. apply (forallb_in _ _ _ Hok) in Hin. cbn [snd] in Hin. rewrite En in Hin. by apply fs_okb_ok.
  - intros x l q t m Hin Ee. apply ent_in in Ee as (n & _ & Hi & _ & <-). apply (forallb_in _ _ _ Hux) in Hi. cbn in Hi. destruct (fs_meta n); [by eexists|done].
  - intros q t m Ee _. apply ent_in in Ee as (n & _ & Hi & _ & <-). apply (forallb_in _ _ _ Hsux) in Hi. cbn in Hi. destruct (fs_meta n); [by eexists|done].
  - intros q t m s Ee Ha Hs. rewrite Ha in Hti. cbn [negb orb] in Hti. apply ent_in in Ee as (n & _ & Hi & _ & <-). apply (forallb_in _ _ _ Hti) in Hi. cbn [snd] in Hi. apply andb_true_iff in Hi as [H1 H2].
    destruct Hs as [Hs|Hs]; rewrite Hs in *; by apply time_taken_spec.
  - intros x l q m0 c0 m c Hin E0 E1 Em Es. apply ent_in in E0 as (n0 & _ & Hi0 & Et0 & Em0). apply ent_in in E1 as (n1 & _ & Hi1 & Et1 & Em1).
    apply (forallb_in _ _ _ Hhon) in Hin. apply (forallb_in _ _ _ Hin) in Hi0. apply (forallb_in _ _ _ Hi0) in Hi1. cbn [fst snd] in Hi1.
    destruct n0 as [m0' c0'| | |]; try done. destruct n1 as [m1' c1'| | |]; try done. cbn in Et0, Em0, Et1, Em1. injection Et0 as ->. injection Et1 as ->. subst m0' m1'.
    rewrite drop_app in Hi1. rewrite !bool_decide_eq_true_2 in Hi1 by done. cbn in Hi1. by apply bool_decide_eq_true in Hi1.
  - intros x l q m Hin E1. apply ent_in in E1 as (n1 & _ & Hi1 & Et1 & Em1). apply (forallb_in _ _ _ Hspec) in Hin. apply (forallb_in _ _ _ Hin) in Hi1. cbn [fst snd] in Hi1.
    destruct n1; try done. rewrite drop_app in Hi1. rewrite bool_decide_eq_true_2 in Hi1 by by apply prefix_app_r. cbn in Hi1. apply andb_true_iff in Hi1 as [H1 H2].
    split; [by destruct (r_delete args)|]. unfold ent. cbn [fs_at] in *. by destruct (om_get x es ≫= _).
Qed.
