(** C73: the numbers a backup shows add up. *)

From Verif Require Import Base OMap Formats Hashing Pack Meta Forest FsTree FsSpec FsFacts BackupStats Toy PropsBackup.

(** ** What there is to say *)

Definition sumN (l : list N) : N := foldr N.add 0%N l.

(** The bytes of the files at a path that are not skipped. *)
Fixpoint kept_bytes (filter : bytes -> bool) (path : bytes) (n : fsnode) : N :=
  if negb (filter path) then 0%N
  else match n with
  | FsFile _ c => N.of_nat (length c)
  | FsDir _ es => sumN (map (fun e : bytes * fsnode => kept_bytes filter (join path e.1) e.2) es)
  | FsLink _ _ | FsOther _ => 0%N
  end.
Definition kept_bytes_in (filter : bytes -> bool) (paths : list fspath) : N :=
  sumN (map (fun e : fspath => kept_bytes filter e.1.1 e.2) paths).

(** The bytes of all the directories' trees; the empty tree is not stored. *)
Definition tree_bytes (is : list item) : N :=
  sumN (map (fun i => match i with ITree (e :: t) => N.of_nat (length (enc_tree (e :: t))) | _ => 0%N end) is).

(** The size of each file is right. *)
Fixpoint sized (n : fsnode) : Prop :=
  match n with
  | FsFile m c => meta_size m = Some (N.of_nat (length c))
  | FsDir _ es => foldr (fun (e : bytes * fsnode) P => sized e.2 /\ P) True es
  | _ => True
  end.

(** Adding up the bytes of some blobs. *)
Definition bytes_in (bs : list blob) : N := sumN (map (fun b => N.of_nat (length (b_bytes b))) bs).

(** ** Proofs *)

Lemma sumN_app l k : sumN (l ++ k) = (sumN l + sumN k)%N.
Proof. induction l as [|x l IH]; cbn [sumN foldr app] in *; [done|]. change (foldr N.add 0%N) with sumN. lia. Qed.
Lemma bytes_in_app l k : bytes_in (l ++ k) = (bytes_in l + bytes_in k)%N.
Proof. unfold bytes_in. by rewrite map_app, sumN_app. Qed.
Lemma tree_bytes_app l k : tree_bytes (l ++ k) = (tree_bytes l + tree_bytes k)%N.
Proof. unfold tree_bytes. by rewrite map_app, sumN_app. Qed.

Lemma packed_gen kind bs n :
  foldl (fun n b => if bool_decide (b_type b = kind) then n + N.of_nat (length (b_bytes b)) else n)%N n bs =
  (n + bytes_in (base.filter (fun b => b_type b = kind) bs))%N.
Proof.
  revert n. induction bs as [|b bs IH]; intros n; [cbn; lia|]. cbn [foldl]. rewrite IH, filter_cons. case_bool_decide as E.
  - rewrite decide_True by done. unfold bytes_in. cbn [map sumN foldr]. change (foldr N.add 0%N) with sumN. lia.
  - by rewrite decide_False.
Qed.
Lemma packed_both bs : (count_packed Chunk bs + count_packed Tree bs = bytes_in bs)%N.
Proof.
  unfold count_packed. rewrite !packed_gen. induction bs as [|b bs IH]; [done|]. rewrite !filter_cons.
  destruct b as [[] i y]; cbn [b_type]; repeat (case_decide; try done); unfold bytes_in in *; cbn [map sumN foldr] in *; change (foldr N.add 0%N) with sumN in *; lia.
Qed.

Definition weigh (s : bstate * N) : N := (bytes_in (bs_sent s.1) + s.2)%N.

Lemma send_counted_spec s b : (send_counted s b).1 = send_new s.1 b /\ weigh (send_counted s b) = (weigh s + N.of_nat (length (b_bytes b)))%N.
Proof.
  unfold send_counted, send_new, weigh. destruct (decide (b_id b ∈ bs_packed s.1)); cbn [fst snd bs_sent]; (split; [done|]); [lia|].
  rewrite bytes_in_app. unfold bytes_in at 2. cbn. lia.
Qed.
Lemma send_all_counted bs s : (foldl send_counted s bs).1 = foldl send_new s.1 bs /\ weigh (foldl send_counted s bs) = (weigh s + bytes_in bs)%N.
Proof.
  revert s. induction bs as [|b bs IH]; intros s; [cbn; split; [done|unfold bytes_in; cbn; lia]|]. cbn [foldl].
  destruct (send_counted_spec s b) as [E1 E2]. destruct (IH (send_counted s b)) as [-> ->]. rewrite E1, E2. split; [done|].
  unfold bytes_in. cbn [map sumN foldr]. change (foldr N.add 0%N) with sumN. lia.
Qed.

(** Counting changes nothing. *)
Definition uncounted {A} (x : (bstate * N) * A) : bstate * A := (x.1.1, x.2).
Definition less {A B} (f : A -> B) (r : result A) : result B := let* x := r in Ok (f x).

Lemma less_rfold {A S T} (d : S -> T) (f : A -> S -> result S) (g : A -> T -> result T) l st :
  (forall a st, a ∈ l -> less d (f a st) = g a (d st)) -> less d (rfold f l st) = rfold g l (d st).
Proof.
  revert st. induction l as [|a l IH]; intros st Hs; [done|]. cbn [rfold]. rewrite <-(Hs a st) by (by left).
  destruct (f a st) as [x| |]; cbn; [|done..]. apply IH. intros b st' Hb. apply Hs. by right.
Qed.

Lemma sized_dir m es : sized (FsDir m es) <-> Forall (fun e : bytes * fsnode => sized e.2) es.
Proof. cbn [sized]. induction es as [|e es IH]; cbn [foldr]; [by split; [constructor|]|]. rewrite Forall_cons, IH. done. Qed.

Section facts.
Variable H : bytes -> oid.
Variable cuts : bytes -> list bytes.
Variable filter : bytes -> bool.
Variable pf : forest.
Variable deref : bool.

Notation cwalk := (walk_entry pf filter [] (counted_visit H cuts deref) (counted_finalize H)).
Notation bwalk := (walk_entry pf filter [] (backup_visit H cuts deref) (backup_finalize H)).
Notation plan := (plan H cuts filter pf).

Lemma visit_uncounted st path name m prev e :
  less uncounted (counted_visit H cuts deref st path name m prev e) = backup_visit H cuts deref (uncounted st) path name m prev e.
Proof.
  destruct st as [[s r] t]. unfold counted_visit, backup_visit, uncounted. cbn [fst snd].
  destruct e as [sub|tg| |c]; cbn [rbind].
  - by destruct (tree_insert name (mkNode (CDir sub) m) t).
  - destruct (rassert (negb deref)); cbn [rbind]; [|done..]. by destruct (tree_insert name (mkNode (CSymlink tg) m) t).
  - destruct (meta_size m), prev as [p|]; cbn [rbind]; try done. by destruct (tree_insert name (mkNode (n_contents p) m) t).
  - destruct (tree_insert name _ t); cbn; [|done..]. by destruct (send_all_counted (chunk_file H cuts c) (s, r)) as [-> _].
Qed.
Lemma finalize_uncounted s t : less uncounted (counted_finalize H s t) = backup_finalize H s.1 t.
Proof.
  destruct t as [|e t]; [done|]. unfold counted_finalize, backup_finalize, uncounted. cbn. by destruct (send_counted_spec s (tree_blob H (e :: t))) as [-> _].
Qed.
Lemma walk_uncounted n path name prev st : less uncounted (cwalk path name prev n st) = bwalk path name prev n (uncounted st).
Proof.
  revert path name prev st. induction n as [m c|m es IH|m tg|m] using fsnode_ind'; intros path name prev st; cbn [walk_entry]; (destruct (negb (filter path)); [done|]).
  - destruct (file_changed m prev) as [ch| |]; cbn [rbind]; [|done..]. apply visit_uncounted.
  - pose proof (less_rfold uncounted (fun (e : bytes * fsnode) st' => cwalk (join path e.1) e.1 ((previous_subtree prev ≫= (fun id => pf !! id)) ≫= om_get e.1) e.2 st')
      (fun (e : bytes * fsnode) st' => bwalk (join path e.1) e.1 ((previous_subtree prev ≫= (fun id => pf !! id)) ≫= om_get e.1) e.2 st') es (st.1, [])) as Hl.
    rewrite Forall_forall in IH. specialize (Hl ltac:(intros a st' Ha; by apply IH)). 
    change (uncounted (st.1, [])) with ((uncounted st).1, @nil (bytes * node)) in Hl. rewrite <-Hl. destruct (rfold _ es (st.1, [])) as [[s i]| |]; cbn [less rbind]; [|done..]. unfold uncounted at 2. cbn [fst snd].
    rewrite <-(finalize_uncounted s i). destruct (counted_finalize H s i) as [[s' t]| |]; cbn [less rbind]; [|done..]. apply visit_uncounted.
  - apply visit_uncounted.
  - done.
Qed.
Lemma tree_uncounted ptree paths packed :
  less uncounted (backup_counted H cuts deref filter pf ptree paths packed) = backup_tree H cuts deref filter pf ptree paths packed.
Proof.
  unfold backup_counted, backup_tree, walk_fs.
  pose proof (less_rfold uncounted (fun (e : fspath) st => cwalk e.1.1 e.1.2 ((ptree ≫= (fun id => pf !! id)) ≫= om_get e.1.2) e.2 st)
    (fun (e : fspath) st => bwalk e.1.1 e.1.2 ((ptree ≫= (fun id => pf !! id)) ≫= om_get e.1.2) e.2 st) paths ((mkBstate packed [], 0%N), [])) as Hl.
  specialize (Hl ltac:(intros a st' Ha; apply walk_uncounted)). change (uncounted _) with (mkBstate packed [], @nil (bytes * node)) in Hl. rewrite <-Hl.
  destruct (rfold _ paths _) as [[s i]| |]; cbn [less rbind]; [|done..]. apply finalize_uncounted.
Qed.

(** What each step adds. *)
Hypothesis Hcuts : forall c, concat (cuts c) = c.
Local Set Default Proof Using "All".
Lemma chunk_bytes c : bytes_in (chunk_file H cuts c) = N.of_nat (length c).
Proof.
  rewrite <-(Hcuts c) at 2. unfold chunk_file, bytes_in. rewrite map_map. cbn [chunk_blob b_bytes].
  induction (cuts c) as [|x l IH]; [done|]. cbn [map sumN foldr concat]. change (foldr N.add 0%N) with sumN. rewrite IH, app_length. lia.
Qed.

Definition items_of (o : option (node * list item)) : list item := match o with Some (_, is) => is | None => [] end.

Lemma loop_weight {A} (key : A -> bytes) (step : A -> (bstate * N) * tree -> result ((bstate * N) * tree))
    (f : A -> option (node * list item)) (w : A -> N) (l : list A) s t s' t' :
  (forall a s t s' t', a ∈ l -> om_get (key a) t = None -> step a (s, t) = Ok (s', t') ->
     t' = match f a with Some (nd, _) => om_insert (key a) nd t | None => t end /\ weigh s' = (weigh s + w a + tree_bytes (items_of (f a)))%N) ->
  NoDup (map key l) -> om_sorted t -> (forall a, a ∈ l -> om_get (key a) t = None) ->
  rfold step l (s, t) = Ok (s', t') ->
  t' = foldl (fun m kv => om_insert kv.1 kv.2 m) t (map (fun x => (x.1, x.2.1)) (collect key f l)) /\
  weigh s' = (weigh s + sumN (map w l) + tree_bytes (concat (map (fun x => x.2.2) (collect key f l))))%N.
Proof.
  revert s t. induction l as [|a l IH]; intros s t Hstep Hnd Hs Ht; cbn [rfold].
  { intros [= -> ->]. split; [done|]. unfold tree_bytes. cbn. lia. }
  cbn [map] in Hnd. apply NoDup_cons in Hnd as [Hk Hnd].
  assert (forall a', a' ∈ l -> key a' <> key a) as Hne.
  { intros a' Ha' Heq. apply Hk. rewrite <-Heq. apply elem_of_list_fmap. eauto. }
  destruct (step a (s, t)) as [[s1 t1]| |] eqn:E; cbn [rbind]; [|done..]. intros E'.
  destruct (Hstep a s t s1 t1 ltac:(by left) ltac:(apply Ht; by left) E) as [Et Ew].
  assert (om_sorted t1 /\ forall a', a' ∈ l -> om_get (key a') t1 = None) as [Hs1 Ht1].
  { rewrite Et. destruct (f a) as [[nd is]|].
    - split; [by apply om_insert_sorted|]. intros a' Ha'. rewrite om_get_insert_ne; [apply Ht; by right|done|]. intros Heq. by apply (Hne a').
    - split; [done|]. intros a' Ha'. apply Ht. by right. }
  destruct (IH s1 t1 ltac:(intros; eapply Hstep; eauto; by right) Hnd Hs1 Ht1 E') as [Et' Ew']. rewrite Et', Ew', Ew. cbn [map sumN foldr]. change (foldr N.add 0%N) with sumN.
  unfold collect. cbn [omap list_omap]. rewrite Et. destruct (f a) as [[nd is]|]; cbn [fmap option_fmap option_map items_of map foldl concat fst snd].
  - split; [done|]. rewrite tree_bytes_app. lia.
  - split; [done|]. unfold tree_bytes at 1. cbn. lia.
Qed.

Lemma finalize_weight s t s' id : counted_finalize H s t = Ok (s', id) -> id = tree_id H t /\ weigh s' = (weigh s + tree_bytes [ITree t])%N.
Proof.
  destruct t as [|e t]; cbn [counted_finalize].
  - intros [= <- <-]. split; [done|]. unfold tree_bytes. cbn. lia.
  - intros [= <- <-]. split; [done|]. destruct (send_counted_spec s (tree_blob H (e :: t))) as [_ ->]. unfold tree_bytes. cbn [map sumN foldr tree_blob b_bytes]. lia.
Qed.

Lemma entry_weight n path name prev s t s' t' :
  forest_sane pf -> fs_ok cuts deref n -> sized n -> prev_sane prev -> om_get name t = None ->
  cwalk path name prev n (s, t) = Ok (s', t') ->
  t' = match plan path prev n with Some (nd, _) => om_insert name nd t | None => t end /\
  weigh s' = (weigh s + kept_bytes filter path n + tree_bytes (items_of (plan path prev n)))%N.
Proof.
  intros Hpf. revert path name prev s t s' t'.
  induction n as [m c|m es IH|m tg|m] using fsnode_ind'; intros path name prev s t s' t' Hok Hsz Hprev Hnew; cbn [walk_entry FsSpec.plan kept_bytes].
  - destruct (negb (filter path)). { intros [= <- <-]. split; [done|]. unfold tree_bytes. cbn. lia. }
    rewrite file_changed_spec by (intros p ->; by apply Hprev). cbn [rbind sized] in *.
    assert (tree_bytes (map IChunk (cuts c)) = 0%N) as Hno by (unfold tree_bytes; rewrite map_map; induction (cuts c); [done|cbn in *; done]).
    destruct prev as [p|].
    + destruct (looks_unchanged (Some p) m); cbn [negb counted_visit].
      * rewrite Hsz. cbn [rbind]. rewrite tree_insert_new by done. intros [= <- <-]. split; [done|]. unfold weigh, tree_bytes. cbn. lia.
      * cbn [rbind]. rewrite tree_insert_new by done. cbn [rbind]. intros [= <- <-]. rewrite map_b_id_chunks. split; [done|].
        destruct (send_all_counted (chunk_file H cuts c) s) as [_ ->]. cbn [items_of]. rewrite Hno, chunk_bytes. lia.
    + cbn [looks_unchanged negb counted_visit rbind]. rewrite tree_insert_new by done. cbn [rbind]. intros [= <- <-]. rewrite map_b_id_chunks. split; [done|].
      destruct (send_all_counted (chunk_file H cuts c) s) as [_ ->]. cbn [items_of]. rewrite Hno, chunk_bytes. lia.
  - destruct (negb (filter path)). { intros [= <- <-]. split; [done|]. unfold tree_bytes. cbn. lia. }
    apply fs_ok_dir in Hok as (Hk & Hm & Hl & Hnd & Hall). apply sized_dir in Hsz.
    destruct (rfold _ es _) as [[s1 t1]| |] eqn:E; cbn [rbind]; [|done..].
    apply (loop_weight fst _ (fun e : bytes * fsnode => plan (join path e.1) (ptree_of pf prev ≫= om_get e.1) e.2) (fun e => kept_bytes filter (join path e.1) e.2)) in E
      as [Et1 Ew1]; [|  |done|done|done].
    2: { intros e s2 t2 s3 t3 He Hnew2 E2. rewrite Forall_forall in IH, Hall, Hsz. destruct (Hall e He) as [_ Hoke].
      apply (IH e He (join path e.1) e.1 _ s2 t2 s3 t3 Hoke (Hsz e He)); [apply ptree_sane; done|done|exact E2]. }
    destruct (counted_finalize H s1 t1) as [[s2 id]| |] eqn:Ef; cbn [rbind]; [|done..]. apply finalize_weight in Ef as [-> Ew2].
    cbn [counted_visit rbind]. rewrite tree_insert_new by done. cbn [rbind]. intros [= <- <-].
    change (foldl _ [] _) with (plan_tree (collect fst (fun e : bytes * fsnode => plan (join path e.1) (ptree_of pf prev ≫= om_get e.1) e.2) es)) in Et1.
    rewrite Et1 in *. split; [done|]. rewrite Ew2, Ew1. cbn [items_of]. unfold plan_items. rewrite tree_bytes_app. change (weigh (s, t).1) with (weigh s). lia.
  - destruct (negb (filter path)). { intros [= <- <-]. split; [done|]. unfold tree_bytes. cbn. lia. }
    destruct Hok as (-> & _ & _ & _). cbn. rewrite tree_insert_new by done. cbn [rbind]. intros [= <- <-]. split; [done|]. unfold tree_bytes. cbn. lia.
  - destruct (negb (filter path)); intros [= <- <-]; (split; [done|]); unfold tree_bytes; cbn; lia.
Qed.

Lemma counted_weight ptree paths packed s root :
  forest_sane pf -> paths_ok cuts deref paths -> Forall (fun e : fspath => sized e.2) paths ->
  backup_counted H cuts deref filter pf ptree paths packed = Ok (s, root) ->
  root = plan_root H cuts filter pf ptree paths /\
  weigh s = (kept_bytes_in filter paths + tree_bytes (plan_all H cuts filter pf ptree paths))%N.
Proof.
  intros Hpf (_ & Hnd & Hall) Hsz. unfold backup_counted, walk_fs.
  destruct (rfold _ paths _) as [[s1 t1]| |] eqn:E; cbn [rbind]; [|done..].
  apply (loop_weight (fun e : fspath => e.1.2) _ (fun e : fspath => plan e.1.1 ((ptree ≫= (fun id => pf !! id)) ≫= om_get e.1.2) e.2)
    (fun e : fspath => kept_bytes filter e.1.1 e.2)) in E as [Et1 Ew1]; [| |done|done|done].
  2: { intros e s2 t2 s3 t3 He Hnew2 E2. rewrite Forall_forall in Hall, Hsz. destruct (Hall e He) as [_ Hoke].
    apply (entry_weight e.2 e.1.1 e.1.2 _ s2 t2 s3 t3 Hpf Hoke (Hsz e He)); [by apply ptree_sane|done|exact E2]. }
  intros Ef. apply finalize_weight in Ef as [-> Ew2].
  change (foldl _ [] _) with (plan_tree (plan_list H cuts filter pf ptree paths)) in Et1.
  rewrite Et1 in *. split; [done|]. rewrite Ew2, Ew1. unfold plan_all, plan_items. rewrite tree_bytes_app.
  change (weigh (mkBstate packed [], 0%N)) with 0%N. unfold kept_bytes_in, plan_list. lia.
Qed.
End facts.

(** The first look. *)
Notation look filter := (walk_entry ∅ filter tt check_visit (fun s i => Ok (s, i))).
Lemma look_spec filter n path name (s : N) i : sized n -> look filter path name None n (s, i) = Ok ((s + kept_bytes filter path n)%N, tt).
Proof.
  revert path name s i. induction n as [m c|m es IH|m tg|m] using fsnode_ind'; intros path name s [] Hsz; cbn [walk_entry kept_bytes];
    (destruct (negb (filter path)); [by rewrite N.add_0_r|]).
  - cbn in *. by rewrite Hsz.
  - apply sized_dir in Hsz. cbn [previous_subtree option_bind mbind fst].
    assert (forall s, rfold (fun (e : bytes * fsnode) st' => look filter (join path e.1) e.1 None e.2 st') es (s, tt) =
      Ok ((s + sumN (map (fun e : bytes * fsnode => kept_bytes filter (join path e.1) e.2) es))%N, tt)) as ->.
    { clear s. induction es as [|e es IHes]; intros s; cbn [rfold map sumN foldr]; [by rewrite N.add_0_r|].
      rewrite Forall_cons in IH, Hsz. destruct IH as [IHe IH], Hsz as [Hsze Hsz]. rewrite IHe by done. cbn [rbind]. rewrite IHes by done.
      change (foldr N.add 0%N) with sumN. by rewrite N.add_assoc. }
    done.
  - cbn. by rewrite N.add_0_r.
  - by rewrite N.add_0_r.
Qed.

Lemma plan_tree_nil (l : list (bytes * (node * list item))) : plan_tree l = [] -> l = [].
Proof.
  unfold plan_tree, om_of_list. assert (forall (k : list (bytes * node)) t, foldl (fun m kv => om_insert kv.1 kv.2 m) t k = [] -> t = []) as Hf.
  { induction k as [|x k IH]; intros t; cbn [foldl]; [done|]. intros Hi%IH. destruct t as [|[a b] t]; [done|]. cbn in Hi. repeat case_match; done. }
  destruct l as [|x l]; [done|]. cbn [map foldl]. intros Hi%Hf. done.
Qed.

(** The two kinds. *)
Lemma send_sublist bs s : exists new, bs_sent (foldl send_new s bs) = bs_sent s ++ new /\ new `sublist_of` bs.
Proof.
  revert s. induction bs as [|b bs IH]; intros s; cbn [foldl]; [exists []; by rewrite app_nil_r|].
  destruct (IH (send_new s b)) as (new & -> & Hsub). unfold send_new. case_decide.
  - exists new. split; [done|by constructor].
  - exists (b :: new). cbn [bs_sent]. split; [by rewrite <-app_assoc|by constructor].
Qed.
Lemma of_kind_sublist kind l k : l `sublist_of` k ->
  (bytes_in (base.filter (fun b => b_type b = kind) l) <= bytes_in (base.filter (fun b => b_type b = kind) k))%N.
Proof.
  induction 1 as [|x l k _ IH|x l k _ IH]; [done| |]; rewrite !filter_cons; case_decide; try done;
    unfold bytes_in in *; cbn [map sumN foldr] in *; change (foldr N.add 0%N) with sumN in *; lia.
Qed.
Lemma tree_blob_bytes H is : bytes_in (base.filter (fun b => b_type b = Tree) (concat (map (item_blobs H) is))) = tree_bytes is.
Proof.
  induction is as [|i is IH]; [done|]. change (i :: is) with ([i] ++ is). rewrite map_app, concat_app, filter_app, bytes_in_app, tree_bytes_app, IH.
  f_equal. destruct i as [c|[|e t]]; cbn [map concat item_blobs app]; [by rewrite filter_cons, decide_False|done|].
  rewrite filter_cons, decide_True by done. done.
Qed.
Definition chunk_part H is : N := bytes_in (base.filter (fun b => b_type b = Chunk) (concat (map (item_blobs H) is))).
Lemma collect_chunks H {A} (key : A -> bytes) (f : A -> option (node * list item)) (w : A -> N) l :
  (forall a, a ∈ l -> chunk_part H (items_of (f a)) <= w a)%N ->
  (chunk_part H (concat (map (fun x => x.2.2) (collect key f l))) <= sumN (map w l))%N.
Proof.
  induction l as [|a l IH]; intros Hw; [done|]. cbn [collect map sumN foldr]. change (foldr N.add 0%N) with sumN.
  assert (chunk_part H (items_of (f a)) <= w a)%N as Ha by (apply Hw; by left).
  specialize (IH ltac:(intros; apply Hw; by right)). destruct (f a) as [[nd is]|]; [|lia].
  cbn [map concat snd items_of] in *. unfold chunk_part in *. rewrite map_app, concat_app, filter_app, bytes_in_app. lia.
Qed.
Lemma plan_chunks H cuts filter pf path prev n : (forall c, concat (cuts c) = c) ->
  (chunk_part H (items_of (plan H cuts filter pf path prev n)) <= kept_bytes filter path n)%N.
Proof.
  intros Hcuts. revert path prev. induction n as [m c|m es IH|m tg|m] using fsnode_ind'; intros path prev; cbn [plan kept_bytes];
    (destruct (negb (filter path)); [done|]); try done.
  - assert (chunk_part H (map IChunk (cuts c)) <= N.of_nat (length c))%N as Hc.
    { rewrite <-(Hcuts c) at 2. unfold chunk_part. induction (cuts c) as [|x l IHl]; [done|]. cbn [map concat item_blobs app].
      rewrite filter_cons, decide_True by done. unfold bytes_in in *. cbn [map sumN foldr concat chunk_blob b_bytes] in *. change (foldr N.add 0%N) with sumN in *.
      rewrite app_length. lia. }
    destruct prev as [p|]; [destruct (looks_unchanged (Some p) m)|]; cbn [items_of]; try done. unfold chunk_part. cbn. lia.
  - cbn [items_of]. unfold plan_items, chunk_part. rewrite map_app, concat_app, filter_app, bytes_in_app.
    replace (bytes_in (base.filter _ (concat (map (item_blobs H) [ITree _])))) with 0%N
      by (destruct (plan_tree _); cbn [map concat item_blobs app]; [done|]; rewrite filter_cons; rewrite decide_False by done; done).
    rewrite N.add_0_r. apply (collect_chunks H). intros e He. rewrite Forall_forall in IH. by apply IH.
Qed.

(** ** C73: what a backup says it did *)

(** Counting does not change what is sent, what the root is, or whether the backup fails. *)
Theorem C73_counting_changes_nothing H cuts deref filter pf ptree paths packed :
  backup_tree H cuts deref filter pf ptree paths packed =
  match backup_counted H cuts deref filter pf ptree paths packed with
  | Ok (s, reused, root) => Ok (s, root)
  | Err => Err
  | Panic => Panic
  end.
Proof. rewrite <-tree_uncounted. by destruct (backup_counted H cuts deref filter pf ptree paths packed) as [[[s r] t]| |]. Qed.

(** New chunk bytes, new tree bytes and reused bytes together are the bytes of all the
    files kept and of all the directories' trees; a blob counted as new was
    not there before and is counted once. *)
Theorem C73_new_and_reused_add_up H cuts deref filter pf ptree paths packed s reused root :
  (forall c, concat (cuts c) = c) -> forest_sane pf -> paths_ok cuts deref paths -> Forall (fun e : fspath => sized e.2) paths ->
  backup_counted H cuts deref filter pf ptree paths packed = Ok (s, reused, root) ->
  (count_packed Chunk (bs_sent s) + count_packed Tree (bs_sent s) + reused =
   kept_bytes_in filter paths + tree_bytes (plan_all H cuts filter pf ptree paths))%N /\
  NoDup (map b_id (bs_sent s)) /\ (forall b, b ∈ bs_sent s -> b_id b ∉ packed).
Proof.
  intros Hcuts Hpf Hok Hsz E. destruct (counted_weight H cuts filter pf deref Hcuts ptree paths packed _ _ Hpf Hok Hsz E) as [_ Hw].
  split; [rewrite packed_both; exact Hw|].
  pose proof (C73_counting_changes_nothing H cuts deref filter pf ptree paths packed) as Es. rewrite E in Es.
  rewrite backup_tree_plan in Es by done. destruct (send_all (plan_blobs H cuts filter pf ptree paths) (mkBstate packed [])) as (new & E' & Hnd & Hnew & _).
  rewrite E' in Es. injection Es as <- _. cbn [bs_sent bs_packed app] in *. split; [done|]. intros b Hb. by apply Hnew.
Qed.

(** The size announced first is the size of the files kept. *)
Theorem C73_first_look filter paths :
  Forall (fun e : fspath => sized e.2) paths -> check_paths filter paths = Ok (kept_bytes_in filter paths).
Proof.
  intros Hsz. unfold check_paths, walk_fs. cbn [option_bind mbind].
  assert (forall s, rfold (fun (e : fspath) st => look filter e.1.1 e.1.2 None e.2 st) paths (s, tt) = Ok ((s + kept_bytes_in filter paths)%N, tt)) as Hl.
  { induction paths as [|e paths IH]; intros s; cbn [rfold]; [unfold kept_bytes_in; cbn; by rewrite N.add_0_r|].
    apply Forall_cons in Hsz as [He Hsz]. rewrite look_spec by done. cbn [rbind]. rewrite IH by done. unfold kept_bytes_in. cbn [map sumN foldr].
    change (foldr N.add 0%N) with sumN. by rewrite N.add_assoc. }
  rewrite Hl. done.
Qed.

(** If the root is the empty tree, nothing was counted: the assertions of
    src/ui/backup.rs:212-218 hold.  The first premise says that the root
    does not share its id with the empty tree unless it is empty. *)
Theorem C73_nothing_backed_up H cuts deref filter pf ptree paths packed s reused :
  (let t := plan_tree (plan_list H cuts filter pf ptree paths) in tree_id H t = empty_id H -> t = []) ->
  (forall c, concat (cuts c) = c) -> forest_sane pf -> paths_ok cuts deref paths -> Forall (fun e : fspath => sized e.2) paths ->
  backup_counted H cuts deref filter pf ptree paths packed = Ok (s, reused, empty_id H) ->
  bs_sent s = [] /\ reused = 0%N /\ kept_bytes_in filter paths = 0%N.
Proof.
  intros Hnc Hcuts Hpf Hok Hsz E. destruct (counted_weight H cuts filter pf deref Hcuts ptree paths packed _ _ Hpf Hok Hsz E) as [Hr Hw].
  symmetry in Hr. apply Hnc, plan_tree_nil in Hr.
  assert (kept_bytes_in filter paths = 0%N) as Hk.
  { unfold plan_list in Hr. unfold kept_bytes_in. clear -Hr. induction paths as [|e paths IH]; [done|]. cbn [collect] in Hr.
    destruct (plan H cuts filter pf _ _ _) eqn:Ep; [done|]. cbn [map sumN foldr]. change (foldr N.add 0%N) with sumN. rewrite IH by done.
    destruct e as [[path name] n]. cbn [fst snd] in *. rewrite N.add_0_r. destruct n; cbn [plan kept_bytes] in *; by destruct (negb (filter path)). }
  rewrite Hk in Hw. unfold plan_all, plan_items in Hw. rewrite Hr in Hw. change (tree_bytes _) with 0%N in Hw. unfold weigh in Hw. cbn [fst snd] in Hw.
  pose proof (C73_counting_changes_nothing H cuts deref filter pf ptree paths packed) as Es. rewrite E in Es.
  rewrite backup_tree_plan in Es by done. injection Es as <- _. split; [|split; [lia|done]].
  unfold plan_blobs, plan_all, plan_items. by rewrite Hr.
Qed.

(** No more chunk bytes are new than there are in the files, and no more tree bytes than in the
    directories' trees. *)
Theorem C73_each_kind H cuts deref filter pf ptree paths packed s reused root :
  (forall c, concat (cuts c) = c) -> forest_sane pf -> paths_ok cuts deref paths ->
  backup_counted H cuts deref filter pf ptree paths packed = Ok (s, reused, root) ->
  (count_packed Chunk (bs_sent s) <= kept_bytes_in filter paths)%N /\
  (count_packed Tree (bs_sent s) <= tree_bytes (plan_all H cuts filter pf ptree paths))%N.
Proof.
  intros Hcuts Hpf Hok E.
  pose proof (C73_counting_changes_nothing H cuts deref filter pf ptree paths packed) as Es. rewrite E in Es.
  rewrite backup_tree_plan in Es by done. injection Es as <- _.
  destruct (send_sublist (plan_blobs H cuts filter pf ptree paths) (mkBstate packed [])) as (new & -> & Hsub).
  cbn [bs_sent app]. unfold count_packed. rewrite !packed_gen, !N.add_0_l. split.
  - etrans; [by apply of_kind_sublist|]. unfold plan_blobs, plan_all, plan_items. rewrite map_app, concat_app, filter_app, bytes_in_app.
    replace (bytes_in (base.filter _ (concat (map (item_blobs H) [ITree _])))) with 0%N
      by (destruct (plan_tree _); cbn [map concat item_blobs app]; [done|]; rewrite filter_cons; rewrite decide_False by done; done).
    rewrite N.add_0_r. unfold kept_bytes_in, plan_list. apply (collect_chunks H). intros e _. by apply plan_chunks.
  - etrans; [by apply of_kind_sublist|]. unfold plan_blobs. by rewrite tree_blob_bytes.
Qed.

(** ** A concrete case: the second of two backups, with one file changed *)

Definition cx_again := backup_counted quick_hash toy_cuts false ex_skip ex_pf1 (Some ex_run1.2) ex_paths2 (dom ex_st1).
Definition cx_none : list fspath := [(ascii_bytes "/home/me/skip", ascii_bytes "skip", FsFile ex_filemeta (ascii_bytes "hello"))].
Definition cx_numbers (r : result (bstate * N * oid)) : option (N * N * N) :=
  match r with
  | Ok (s, reused, _) => Some (count_packed Chunk (bs_sent s), count_packed Tree (bs_sent s), reused)
  | _ => None
  end.

Example C73_witness :
  forest_sane ex_pf1 /\ paths_ok toy_cuts false ex_paths2 /\ Forall (fun e : fspath => sized e.2) ex_paths2 /\
  (match cx_numbers cx_again with Some (c, t, r) => bool_decide (c = 5 /\ r = 5 /\ 0 < t)%N | None => false end) = true /\
  check_paths ex_skip ex_paths2 = Ok 10%N /\
  Forall (fun e : fspath => sized e.2) cx_none /\
  cx_numbers (backup_counted quick_hash toy_cuts false ex_skip ex_pf1 (Some ex_run1.2) cx_none ∅) = Some (0, 0, 0)%N /\
  plan_tree (plan_list quick_hash toy_cuts ex_skip ex_pf1 (Some ex_run1.2) cx_none) = [].
Proof.
  split; [apply ex_pf_sane|]. split; [apply ex_paths_ok; [vm_compute; lia|done]|].
  split; [by repeat constructor|]. split; [vm_compute; reflexivity|]. split; [vm_compute; reflexivity|].
  split; [by repeat constructor|]. split; vm_compute; reflexivity.
Qed.

Print Assumptions C73_counting_changes_nothing.
Print Assumptions C73_new_and_reused_add_up.
Print Assumptions C73_first_look.
Print Assumptions C73_nothing_backed_up.
Print Assumptions C73_each_kind.
