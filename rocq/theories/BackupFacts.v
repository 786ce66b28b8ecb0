(** Reading back what the backup walk sends. *)

From Verif Require Import Base OMap Formats FormatsFacts Hashing Pack Meta Forest FsTree FsSpec FsFacts.

Lemma stored_as_fun H st id t1 t2 : stored_as H st id t1 -> stored_as H st id t2 -> t1 = t2.
Proof.
  unfold stored_as. destruct (decide (id = empty_id H)); [congruence|].
  intros (b1 & E1 & D1) (b2 & E2 & D2). rewrite E1 in E2. injection E2 as <-.
  rewrite D1 in D2. by injection D2.
Qed.

Lemma stored_as_mono H st st' id t : st ⊆ st' -> stored_as H st id t -> stored_as H st' id t.
Proof.
  intros Hs. unfold stored_as. destruct (decide (id = empty_id H)); [done|].
  intros (b & E & D). exists b. split; [|done]. by eapply lookup_weaken.
Qed.

Lemma reads_mono H st st' nd n : st ⊆ st' -> reads H st nd n -> reads H st' nd n.
Proof.
  intros Hs. revert nd. induction n as [m c|m es IH|m tg|m] using fsnode_ind'; intros nd Hr; inversion Hr; subst.
  - constructor. eapply Forall2_impl; [done|]. intros c p E. simpl in *. eapply lookup_weaken; [exact E|exact Hs].
  - eapply reads_dir; [by eapply stored_as_mono|].
    match goal with HF : Forall2 _ _ es |- _ => rename HF into HF0 end.
    clear -IH HF0 Hs. induction HF0 as [|a b t es [E R] HF IHF]; constructor.
    + split; [done|]. apply Forall_cons in IH as [Hb _]. by apply Hb.
    + apply IHF. by apply Forall_cons in IH as [_ ?].
  - constructor.
Qed.

Lemma reads_root_mono H st st' root es : st ⊆ st' -> reads_root H st root es -> reads_root H st' root es.
Proof.
  intros Hs (t & Ht & HF). exists t. split; [by eapply stored_as_mono|].
  eapply Forall2_impl; [done|]. intros a b [E R]. split; [done|]. by eapply reads_mono.
Qed.

Lemma Forall2_om_get {A B} (R : A -> B -> Prop) k a t es :
  Forall2 (fun x y => x.1 = y.1 /\ R x.2 y.2) t es -> om_get k t = Some a ->
  exists b, om_get k es = Some b /\ R a b.
Proof.
  induction 1 as [|[k1 v1] [k2 v2] t es [E R0] HF IH]; simpl in *; [done|]. subst k2.
  destruct (bytes_cmp k k1); intros H; [|done|auto]. injection H as ->. eauto.
Qed.

Section backup.
Variable H : bytes -> oid.
Variable cuts : bytes -> list bytes.
Variable filter : bytes -> bool.
Variable pf : forest.
Variable deref : bool.

(** Files that look unchanged have parent's chunks that read back to their contents. *)
Fixpoint honest (st : store) (path : bytes) (prev : option node) (n : fsnode) : Prop :=
  filter path = true ->
  match n with
  | FsFile m c =>
      looks_unchanged prev m = true ->
      exists p cs ps, prev = Some p /\ n_contents p = CFile cs /\
        Forall2 (fun c p => st !! c = Some (Chunk, p)) cs ps /\ concat ps = c
  | FsDir m es =>
      foldr (fun (e : bytes * fsnode) P =>
        honest st (join path e.1) (ptree_of pf prev ≫= om_get e.1) e.2 /\ P) True es
  | _ => True
  end.

Lemma honest_dir st path prev m es :
  honest st path prev (FsDir m es) <->
  (filter path = true ->
   Forall (fun e : bytes * fsnode => honest st (join path e.1) (ptree_of pf prev ≫= om_get e.1) e.2) es).
Proof.
  simpl. assert (foldr (fun (e : bytes * fsnode) P =>
    honest st (join path e.1) (ptree_of pf prev ≫= om_get e.1) e.2 /\ P) True es <->
    Forall (fun e : bytes * fsnode => honest st (join path e.1) (ptree_of pf prev ≫= om_get e.1) e.2) es) as ->; [|done].
  induction es as [|e es IH]; simpl; [done|]. by rewrite Forall_cons, IH.
Qed.

Lemma honest_mono st st' n path prev : st ⊆ st' -> honest st path prev n -> honest st' path prev n.
Proof.
  intros Hs. revert path prev. induction n as [m c|m es IH|m tg|m] using fsnode_ind'; intros path prev Hh.
  - simpl in *. intros Hf Hu. destruct (Hh Hf Hu) as (p & cs & ps & E1 & E2 & HF & E3).
    exists p, cs, ps. split_and!; try done. eapply Forall2_impl; [done|].
    intros c0 p0 E. simpl in *. eapply lookup_weaken; [exact E|exact Hs].
  - apply honest_dir. intros Hf. apply honest_dir in Hh; [|done].
    apply Forall_forall. intros e He. eapply Forall_forall in IH; [|exact He].
    eapply Forall_forall in Hh; [|exact He]. by apply IH.
  - done.
  - done.
Qed.

(** Two nodes between which size and modification time tell contents apart. *)
Definition node_honest (n0 n : fsnode) : Prop :=
  forall p m0 c0 m c, fs_sub n0 p = Some (FsFile m0 c0) -> fs_sub n p = Some (FsFile m c) ->
    meta_mtime m = meta_mtime m0 -> meta_size m = meta_size m0 -> c = c0.

Lemma stamps_honest_node es0 es nm n0 n :
  stamps_honest es0 es -> om_get nm es0 = Some n0 -> om_get nm es = Some n -> node_honest n0 n.
Proof.
  intros Hh H0 H1 p m0 c0 m c E0 E1. apply (Hh (nm :: p)); simpl; [by rewrite H0|by rewrite H1].
Qed.

Lemma kept_dir_get path m es n' nm n :
  NoDup es.*1 -> kept filter path (FsDir m es) = Some n' -> (nm, n) ∈ es ->
  forall k, kept filter (join path nm) n = Some k ->
  exists es', n' = FsDir m es' /\ om_get nm es' = Some k.
Proof.
  intros Hnd Hk Hin k Hkk. cbn [kept] in Hk. destruct (negb (filter path)); [done|].
  injection Hk as <-. eexists. split; [done|].
  apply om_get_of_list; [by apply collect_nodup|].
  apply collect_elem. exists (nm, n). done.
Qed.

Lemma honest_from st0 n path prev :
  (forall id t, pf !! id = Some t -> stored_as H st0 id t) ->
  fs_ok cuts deref n ->
  (forall p, prev = Some p -> exists n0, reads H st0 p n0 /\
     forall n', kept filter path n = Some n' -> node_honest n0 n') ->
  honest st0 path prev n.
Proof.
  intros Hpf. revert path prev.
  induction n as [m c|m es IH|m tg|m] using fsnode_ind'; intros path prev Hok Hp.
  - simpl. intros Hfil Hun. destruct prev as [p|]; [|done]. simpl in Hun.
    destruct (Hp p eq_refl) as (n0 & Hr & Hh).
    apply andb_true_iff in Hun as [Hun Hsz]. apply andb_true_iff in Hun as [Hk Hmt].
    apply bool_decide_eq_true in Hsz, Hmt, Hk.
    inversion Hr as [m0 cs ps HF|m0 t0|m0 id t es0 Hst HF]; subst; simpl in *; try done.
    exists (mkNode (CFile cs) m0), cs, ps. split_and!; try done.
    symmetry. apply (Hh (FsFile m c)) with (p := []) (m0 := m0) (m := m); try done.
    by rewrite Hfil.
  - apply honest_dir. intros Hfil. apply Forall_forall. intros [nm n] Hin.
    apply fs_ok_dir in Hok as (_ & _ & _ & Hnd & Hall).
    eapply Forall_forall in IH; [|exact Hin]. eapply Forall_forall in Hall as [_ Hok]; [|exact Hin].
    apply IH; [done|]. intros p Hpp. simpl in Hpp.
    destruct prev as [q|]; [|done]. unfold ptree_of in Hpp. simpl in Hpp.
    destruct (n_contents q) as [cs|sub|tg] eqn:Eq; try done. simpl in Hpp.
    destruct (pf !! sub) as [t|] eqn:Et; simpl in Hpp; [|done].
    destruct (Hp q eq_refl) as (n0 & Hr & Hh).
    inversion Hr as [m0 cs ps HF|m0 t0|m0 id t' es0 Hst HF]; subst; simpl in *; try done.
    injection Eq as ->. assert (t' = t) as -> by (eapply stored_as_fun; eauto).
    destruct (Forall2_om_get _ _ _ _ _ HF Hpp) as (n0' & Hg & Hr').
    exists n0'. split; [done|]. intros n' Hn'.
    destruct (kept filter path (FsDir m es)) as [k|] eqn:Ek.
    + destruct (kept_dir_get path m es k nm n Hnd Ek Hin n' Hn') as (es' & -> & Hg').
      assert (kept filter path (FsDir m es) = Some (FsDir m es')) as Ek' by done.
      specialize (Hh _ Ek). intros p' m1 c1 m2 c2 E1 E2. apply (Hh (nm :: p')); simpl.
      { by rewrite Hg. } { by rewrite Hg'. }
    + cbn [kept] in Ek. by rewrite Hfil in Ek.
  - simpl. done.
  - simpl. done.
Qed.

(** A store that has everything a list of items needs. *)
Definition has_items (st : store) (is : list item) : Prop :=
  forall b, b ∈ concat (map (item_blobs H) is) ->
    st !! b_id b = Some (b_type b, b_bytes b) /\ (b_type b = Tree -> b_id b <> empty_id H).

Lemma has_items_app st is1 is2 : has_items st (is1 ++ is2) <-> has_items st is1 /\ has_items st is2.
Proof.
  unfold has_items. setoid_rewrite map_app. setoid_rewrite concat_app. setoid_rewrite elem_of_app. naive_solver.
Qed.

Lemma has_items_concat st (l : list (list item)) is : has_items st (concat l) -> is ∈ l -> has_items st is.
Proof.
  induction l as [|a l IH]; simpl; intros Hh Hin; [by apply elem_of_nil in Hin|].
  apply has_items_app in Hh as [H1 H2]. apply elem_of_cons in Hin as [->|Hin]; auto.
Qed.

Lemma has_items_tree st t : tree_wf t -> has_items st [ITree t] -> stored_as H st (tree_id H t) t.
Proof.
  intros Hwf Hh. unfold stored_as. destruct t as [|kv t].
  - by rewrite decide_True.
  - destruct (Hh (tree_blob H (kv :: t))) as [E Hne].
    { simpl. by left. }
    simpl in *. rewrite decide_False by (by apply Hne). eexists. split; [exact E|].
    rewrite <-(app_nil_r (enc_tree _)). by apply dec_enc_tree.
Qed.

Lemma has_items_chunks st c :
  has_items st (map IChunk (cuts c)) -> Forall2 (fun c p => st !! c = Some (Chunk, p)) (map H (cuts c)) (cuts c).
Proof.
  unfold has_items. induction (cuts c) as [|x l IH]; simpl; intros Hh; constructor.
  - apply (Hh (chunk_blob H x)). by left.
  - apply IH. intros b Hb. apply Hh. by right.
Qed.

Section props.
Hypothesis Hlen : forall x, length (H x) = 28.
Hypothesis Hcuts : forall x, concat (cuts x) = x.
Variable st : store.
Hypothesis Hpf : forest_sane pf.
Local Set Default Proof Using "All".

Definition item_sane (i : item) : Prop := match i with ITree t => tree_sane t | IChunk _ => True end.

Lemma chunks_sane (l : list bytes) : Forall item_sane (map IChunk l).
Proof. induction l; constructor; done. Qed.

(** From single entries to a list of entries. *)
Lemma plan_list_reads {A} (key : A -> bytes) (f : A -> option (node * list item)) (g : A -> option fsnode) (l : list A) :
  len_wf l -> Forall (fun a => text_wf (key a)) l ->
  Forall (fun a => match f a with
    | Some (nd, is) => has_items st is ->
        node_wf nd /\ kind_ok nd /\ Forall item_sane is /\ exists n', g a = Some n' /\ reads H st nd n'
    | None => g a = None
    end) l ->
  has_items st (plan_items (collect key f l)) ->
  Forall item_sane (plan_items (collect key f l)) /\
  stored_as H st (tree_id H (plan_tree (collect key f l))) (plan_tree (collect key f l)) /\
  Forall2 (fun (x : bytes * node) (y : bytes * fsnode) => x.1 = y.1 /\ reads H st x.2 y.2)
    (plan_tree (collect key f l)) (om_of_list (collect key g l)).
Proof.
  intros Hl Htx Hall Hi.
  assert (has_items st (concat (map (fun x => x.2.2) (collect key f l))) ->
    Forall2 (fun (x : bytes * node) (y : bytes * fsnode) => x.1 = y.1 /\ reads H st x.2 y.2)
      (map (fun x => (x.1, x.2.1)) (collect key f l)) (collect key g l) /\
    Forall (fun kv : bytes * node => text_wf kv.1 /\ node_wf kv.2 /\ kind_ok kv.2)
      (map (fun x => (x.1, x.2.1)) (collect key f l)) /\
    Forall item_sane (concat (map (fun x => x.2.2) (collect key f l)))) as Hlist.
  { clear Hl Hi. induction l as [|a l IH]; simpl; [intros _; split_and!; constructor|].
    apply Forall_cons in Hall as [Ha Hall]. apply Forall_cons in Htx as [Hta Htx].
    destruct (f a) as [[nd is]|] eqn:E; simpl.
    - intros [Hi Hi']%has_items_app. destruct (Ha Hi) as (Hw & Hk & Hsn & n' & -> & Hr).
      destruct (IH Htx Hall Hi') as (HF & HA & HS). split_and!; [constructor; auto|constructor; auto|].
      apply Forall_app. auto.
    - intros Hi. rewrite Ha. by apply IH. }
  apply has_items_app in Hi as [Hi Ht]. destruct (Hlist Hi) as (HF & HA & HS).
  assert (tree_wf (plan_tree (collect key f l))) as Htwf.
  { unfold tree_wf, plan_tree. split_and!.
    - unfold len_wf in *. pose proof (om_of_list_length (map (fun x => (x.1, x.2.1)) (collect key f l))) as H1.
      rewrite map_length in H1. pose proof (collect_length key f l). lia.
    - apply Forall_forall. intros kv Hin%om_of_list_subset. eapply Forall_forall in HA; [|exact Hin]. naive_solver.
    - apply om_of_list_is_sorted. }
  split.
  { unfold plan_items. apply Forall_app. split; [done|]. constructor; [|constructor]. split; [done|].
    apply Forall_forall. intros kv Hin%om_of_list_subset. eapply Forall_forall in HA; [|exact Hin].
    destruct HA as (_ & _ & HA). exact HA. }
  split; [by apply has_items_tree|]. by apply om_of_list_Forall2.
Qed.

Lemma plan_reads n path prev :
  fs_ok cuts deref n -> prev_sane prev -> honest st path prev n ->
  match plan H cuts filter pf path prev n with
  | Some (nd, is) => has_items st is ->
      node_wf nd /\ kind_ok nd /\ Forall item_sane is /\ exists n', kept filter path n = Some n' /\ reads H st nd n'
  | None => kept filter path n = None
  end.
Proof.
  revert path prev. induction n as [m c|m es IH|m tg|m] using fsnode_ind'; intros path prev Hok Hprev Hh.
  - cbn [plan kept]. destruct (filter path) eqn:Hfil; simpl; [|done].
    simpl in Hok. destruct Hok as (Hk & Hm & Hsz & Hl).
    assert (has_items st (map IChunk (cuts c)) ->
      node_wf (mkNode (CFile (map H (cuts c))) m) /\ kind_ok (mkNode (CFile (map H (cuts c))) m) /\
      Forall item_sane (map IChunk (cuts c)) /\
      exists n', Some (FsFile m c) = Some n' /\ reads H st (mkNode (CFile (map H (cuts c))) m) n') as Hchg.
    { intros Hi. split; [split; simpl; [|done]|split; [done|]].
      - split; [unfold len_wf in *; by rewrite map_length|].
        apply Forall_forall. intros i (x & -> & _)%elem_of_list_fmap. apply Hlen.
      - split; [apply chunks_sane|].
        eexists. split; [done|]. rewrite <-(Hcuts c) at 2. constructor. by apply has_items_chunks. }
    destruct prev as [p|]; [|exact Hchg].
    destruct (looks_unchanged (Some p) m) eqn:Hun; [|exact Hchg].
    intros _. simpl in Hh. destruct (Hh Hfil Hun) as (p' & cs & ps & [= <-] & Hc & HF & Hcc).
    destruct (Hprev p eq_refl) as [_ [Hwf _]].
    split; [split; simpl; [exact Hwf|done]|]. 
    split; [unfold kind_ok; simpl; by rewrite Hc|]. split; [constructor|].
    eexists. split; [done|]. rewrite Hc, <-Hcc. by constructor.
  - cbn [plan kept]. destruct (filter path) eqn:Hfil; simpl; [|done].
    apply fs_ok_dir in Hok as (Hk & Hm & Hl & Hnd & Hall).
    apply honest_dir in Hh; [|done].
    set (f := fun e : bytes * fsnode => plan H cuts filter pf (join path e.1) (ptree_of pf prev ≫= om_get e.1) e.2).
    set (g := fun e : bytes * fsnode => kept filter (join path e.1) e.2).
    intros Hi. destruct (plan_list_reads fst f g es) as (Hs & Hst & HF); [done| | |done|].
    + eapply Forall_impl; [exact Hall|]. intros e [He _]. exact He.
    + apply Forall_forall. intros [nm n] Hin. eapply Forall_forall in IH; [|exact Hin].
      eapply Forall_forall in Hall as [_ Hok]; [|exact Hin]. eapply Forall_forall in Hh; [|exact Hin].
      unfold f, g. simpl in *. apply IH; [done| |done]. apply (ptree_sane pf _ nm Hpf).
    + split; [split; simpl; [apply Hlen|done]|]. split; [done|]. split; [done|].
      eexists. split; [done|]. eapply reads_dir; [exact Hst|exact HF].
  - cbn [plan kept]. destruct (filter path); simpl; [|done]. intros _.
    destruct Hok as (_ & Hk & Hm & Ht). split; [by split|]. split; [done|]. split; [constructor|]. eexists. split; [done|]. constructor.
  - cbn [plan kept]. by destruct (filter path).
Qed.
End props.
End backup.

(** ** Comparing walks *)

Section compare.
Variable H : bytes -> oid.
Variable cuts : bytes -> list bytes.
Variable filter : bytes -> bool.
Variable deref : bool.

Lemma plan_kept pf n path prev :
  is_Some (plan H cuts filter pf path prev n) <-> is_Some (kept filter path n).
Proof.
  destruct n; cbn [plan kept]; destruct (filter path); simpl; rewrite ?is_Some_alt; done.
Qed.

Lemma plan_tree_get {A} (key : A -> bytes) f (l : list A) a nd is :
  NoDup (map key l) -> a ∈ l -> f a = Some (nd, is) ->
  om_get (key a) (plan_tree (collect key f l)) = Some nd.
Proof.
  intros Hnd Ha Hf. unfold plan_tree. apply om_get_of_list.
  - rewrite <-list_fmap_compose. by apply collect_nodup.
  - apply elem_of_list_fmap. exists (key a, (nd, is)). split; [done|]. apply collect_elem. eauto.
Qed.

Lemma plan_items_sub {A} (key : A -> bytes) f (l : list A) a nd is i :
  a ∈ l -> f a = Some (nd, is) -> i ∈ is -> i ∈ plan_items (collect key f l).
Proof.
  intros Ha Hf Hi. unfold plan_items. apply elem_of_app. left.
  apply elem_of_list_In, in_concat. exists is. split; [|by apply elem_of_list_In].
  apply in_map_iff. exists (key a, (nd, is)). split; [done|]. apply elem_of_list_In, collect_elem. eauto.
Qed.

Definition has_trees (fo : forest) (is : list item) : Prop :=
  forall t, ITree t ∈ is -> fo !! tree_id H t = Some t.

Lemma has_trees_root fo l : has_trees fo (plan_items l) -> fo !! tree_id H (plan_tree l) = Some (plan_tree l).
Proof. intros Hh. apply Hh. unfold plan_items. apply elem_of_app. right. by left. Qed.

(** The contents recorded for a file, given what the parent has in its place. *)
Definition recorded (q : option node) (m : metadata) (c : bytes) : contents :=
  match q with
  | Some q' => if looks_unchanged q m then n_contents q' else CFile (map H (cuts c))
  | None => CFile (map H (cuts c))
  end.

Lemma plan_node_sub pf fo n path prev nd is n' p m c :
  fs_ok cuts deref n -> plan H cuts filter pf path prev n = Some (nd, is) ->
  kept filter path n = Some n' -> has_trees fo is ->
  fs_sub n' p = Some (FsFile m c) ->
  exists nd', node_sub fo nd p = Some nd' /\ n_meta nd' = m /\
    n_contents nd' = recorded (prev ≫= (fun q => node_sub pf q p)) m c.
Proof.
  revert path prev nd is n' p.
  induction n as [m0 c0|m0 es IH|m0 tg|m0] using fsnode_ind'; intros path prev nd is n' p Hok Hp Hk Ht Hs;
    cbn [plan kept] in Hp, Hk; destruct (filter path); simpl in Hp, Hk; try done.
  - injection Hk as <-. destruct p as [|x p]; [|done]. injection Hs as -> ->.
    exists nd. destruct prev as [q|]; simpl.
    + unfold recorded. destruct (looks_unchanged (Some q) m) eqn:El; simpl in El; rewrite El; by injection Hp as <- <-.
    + by injection Hp as <- <-.
  - injection Hk as <-. apply fs_ok_dir in Hok as (_ & _ & _ & Hnd & Hall).
    destruct p as [|x p]; [done|]. cbn [fs_sub] in Hs.
    destruct (om_get x _) as [k|] eqn:Ek; simpl in Hs; [|done].
    apply om_get_of_list in Ek; [|by apply collect_nodup].
    apply collect_elem in Ek as (e & He & <- & Hke).
    injection Hp as <- <-.
    set (f := fun e : bytes * fsnode => plan H cuts filter pf (join path e.1) (ptree_of pf prev ≫= om_get e.1) e.2) in *.
    destruct (f e) as [[nde ise]|] eqn:Ef.
    2: { exfalso. assert (is_Some (f e)) as [y Hy]; [|congruence]. apply plan_kept. eauto. }
    eapply Forall_forall in IH; [|exact He]. eapply Forall_forall in Hall as [_ Hok]; [|exact He].
    destruct (IH (join path e.1) (ptree_of pf prev ≫= om_get e.1) nde ise k p) as (nd' & E1 & E2 & E3); try done.
    { intros t Hin. apply Ht. by eapply plan_items_sub. }
    exists nd'. cbn [node_sub n_contents]. rewrite has_trees_root by done. simpl.
    rewrite (plan_tree_get fst f es e nde ise) by done. simpl. split; [done|]. split; [done|].
    rewrite E3. f_equal. destruct prev as [q|]; simpl; [|done].
    unfold ptree_of. simpl. by destruct (n_contents q); simpl.
  - injection Hk as <-. by destruct p.
Qed.

Lemma collect_map_eq {A B C D} (key : A -> bytes) (f : A -> option B) (g : A -> option C) (u : B -> D) (v : C -> D) l :
  (forall a, a ∈ l -> u <$> f a = v <$> g a) ->
  map (fun x => (x.1, u x.2)) (collect key f l) = map (fun x => (x.1, v x.2)) (collect key g l).
Proof.
  induction l as [|a l IH]; intros E; simpl; [done|].
  pose proof (E a (elem_of_list_here _ _)) as Ea.
  assert (map (fun x => (x.1, u x.2)) (collect key f l) = map (fun x => (x.1, v x.2)) (collect key g l)) as IH'.
  { apply IH. intros a' Ha'. apply E. by right. }
  destruct (f a) as [b|], (g a) as [c|]; simpl in *; try done.
  injection Ea as Ea. by rewrite Ea, IH'.
Qed.

(** A parent whose unchanged-looking files were cut the same way makes no difference. *)
Lemma plan_scratch pf n path prev :
  fs_ok cuts deref n ->
  (forall n' p q m c, kept filter path n = Some n' -> prev ≫= (fun q => node_sub pf q p) = Some q ->
     fs_sub n' p = Some (FsFile m c) -> looks_unchanged (Some q) m = true -> n_contents q = CFile (map H (cuts c))) ->
  fst <$> plan H cuts filter pf path prev n = fst <$> plan H cuts filter ∅ path None n.
Proof.
  revert path prev. induction n as [m c|m es IH|m tg|m] using fsnode_ind'; intros path prev Hok Hh;
    cbn [plan]; cbn [kept] in Hh; destruct (filter path) eqn:Hf; cbn [negb] in *; try done.
  - destruct prev as [q|]; [|done]. destruct (looks_unchanged (Some q) m) eqn:El; [|done]. simpl.
    by rewrite (Hh (FsFile m c) [] q m c).
  - apply fs_ok_dir in Hok as (_ & _ & _ & Hnd & Hall).
    set (f := fun e : bytes * fsnode => plan H cuts filter pf (join path e.1) (ptree_of pf prev ≫= om_get e.1) e.2).
    set (g := fun e : bytes * fsnode => plan H cuts filter ∅ (join path e.1) (ptree_of ∅ None ≫= om_get e.1) e.2).
    cbn [fmap option_fmap option_map fst].
    assert (plan_tree (collect fst f es) = plan_tree (collect fst g es)) as ->; [|done].
    unfold plan_tree. f_equal. apply (collect_map_eq fst f g fst fst).
    intros e He. eapply Forall_forall in IH; [|exact He]. eapply Forall_forall in Hall as [_ Hok]; [|exact He].
    unfold f, g. cbn [ptree_of previous_subtree mbind option_bind].
    apply IH; [done|]. intros n' p q m' c' Hk Hq Hs Hu.
    eapply (Hh _ (e.1 :: p) q m' c' eq_refl); [| |done].
    + rewrite <-Hq. destruct prev as [q0|]; [|done]. simpl. unfold ptree_of. simpl. by destruct (n_contents q0).
    + cbn [fs_sub].
      assert (om_get e.1 (om_of_list (collect fst (fun e0 : bytes * fsnode => kept filter (join path e0.1) e0.2) es))
        = Some n') as ->; [|done].
      apply om_get_of_list; [by apply collect_nodup|]. apply collect_elem. eauto.
Qed.

(** Walking the same files again, over what the first walk made. *)
Lemma collect_again {A} (key : A -> bytes) (f g : A -> option (node * list item)) l :
  (forall a nd is, a ∈ l -> f a = Some (nd, is) ->
     exists is2, g a = Some (nd, is2) /\ forall i, i ∈ is2 -> i ∈ is /\ exists t, i = ITree t) ->
  (forall a, a ∈ l -> f a = None -> g a = None) ->
  plan_tree (collect key g l) = plan_tree (collect key f l) /\
  (forall i, i ∈ plan_items (collect key g l) -> i ∈ plan_items (collect key f l) /\ exists t, i = ITree t).
Proof.
  intros H1 H2.
  assert (plan_tree (collect key g l) = plan_tree (collect key f l)) as Et.
  { unfold plan_tree. f_equal. apply (collect_map_eq key g f fst fst). intros a Ha.
    destruct (f a) as [[nd is]|] eqn:E.
    - destruct (H1 a nd is Ha E) as (is2 & -> & _). done.
    - by rewrite (H2 a Ha E). }
  split; [done|]. intros i Hi. unfold plan_items in Hi. rewrite Et in Hi. apply elem_of_app in Hi as [Hi|Hi].
  - apply elem_of_list_In, in_concat in Hi as (is2 & Hl & Hin). apply in_map_iff in Hl as ([k [nd is2']] & <- & Hc).
    apply elem_of_list_In, collect_elem in Hc as (a & Ha & <- & Hg). apply elem_of_list_In in Hin. simpl in Hin.
    destruct (f a) as [[nd' is]|] eqn:E.
    + destruct (H1 a nd' is Ha E) as (is3 & Hg' & Hsub). rewrite Hg in Hg'. injection Hg' as -> <-.
      destruct (Hsub i Hin) as [Hii Ht]. split; [|done]. by eapply plan_items_sub.
    + rewrite (H2 a Ha E) in Hg. done.
  - apply elem_of_list_singleton in Hi as ->. split; [|eauto]. unfold plan_items. apply elem_of_app. right. by left.
Qed.

Lemma plan_again pf pf2 n path prev nd is :
  fs_ok cuts deref n -> plan H cuts filter pf path prev n = Some (nd, is) -> has_trees pf2 is ->
  exists is2, plan H cuts filter pf2 path (Some nd) n = Some (nd, is2) /\
    forall i, i ∈ is2 -> i ∈ is /\ exists t, i = ITree t.
Proof.
  revert path prev nd is.
  induction n as [m c|m es IH|m tg|m] using fsnode_ind'; intros path prev nd is Hok Hp Ht;
    cbn [plan] in *; destruct (filter path); simpl in *; try done.
  - exists []. split; [|intros i Hi; by apply elem_of_nil in Hi].
    assert (n_meta nd = m /\ contents_kind (n_contents nd) = KFile) as [Hm Hk].
    { destruct prev as [q|]; [|by injection Hp as <- <-].
      destruct (looks_unchanged (Some q) m) eqn:El; [|by injection Hp as <- <-]. simpl in El.
      injection Hp as <- <-. split; [done|]. simpl. apply andb_true_iff in El as [El _].
      apply andb_true_iff in El as [El _]. by apply bool_decide_eq_true in El. }
    rewrite Hk, Hm, !bool_decide_eq_true_2 by done. simpl. by destruct nd as [cc mm]; simpl in *; subst.
  - injection Hp as <- <-. apply fs_ok_dir in Hok as (_ & _ & _ & Hnd & Hall).
    set (f := fun e : bytes * fsnode => plan H cuts filter pf (join path e.1) (ptree_of pf prev ≫= om_get e.1) e.2) in *.
    set (nd := mkNode (CDir (tree_id H (plan_tree (collect fst f es)))) m).
    set (g := fun e : bytes * fsnode => plan H cuts filter pf2 (join path e.1) (ptree_of pf2 (Some nd) ≫= om_get e.1) e.2).
    assert (ptree_of pf2 (Some nd) = Some (plan_tree (collect fst f es))) as Hpt.
    { unfold ptree_of. simpl. by apply has_trees_root. }
    destruct (collect_again fst f g es) as [Et Hi].
    + intros e nde ise He Hfe. unfold g. rewrite Hpt. simpl.
      rewrite (plan_tree_get fst f es e nde ise) by done.
      eapply Forall_forall in IH; [|exact He]. eapply Forall_forall in Hall as [_ Hok]; [|exact He].
      eapply IH; [done|exact Hfe|]. intros t Hin. apply Ht. by eapply plan_items_sub.
    + intros e He Hfe. destruct (g e) as [y|] eqn:Eg; [|done]. exfalso.
      assert (is_Some (f e)) as [z Hz]; [|congruence]. apply plan_kept.
      apply (plan_kept pf2 e.2 (join path e.1) (ptree_of pf2 (Some nd) ≫= om_get e.1)). eauto.
    + exists (plan_items (collect fst g es)). rewrite Et. done.
  - exists []. injection Hp as <- <-. split; [done|]. intros i Hi; by apply elem_of_nil in Hi.
Qed.
End compare.
