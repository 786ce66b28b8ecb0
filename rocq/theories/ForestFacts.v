(** Facts about the tree cache, forests and sizes. *)

From Verif Require Import Base OMap Cbor CborFacts Formats FormatsFacts Hashing Pack PackFacts Index IndexFacts Meta Forest.

(** [b] is named as a subdirectory in the tree stored under [a]. *)
Definition child (store : forest) (a b : oid) : Prop :=
  exists t, store !! a = Some t /\ b ∈ subtrees t.
Notation reach store := (rtc (child store)).

Lemma elem_of_concat {A} (x : A) ls : x ∈ concat ls <-> exists l, x ∈ l /\ l ∈ ls.
Proof. rewrite elem_of_list_In, in_concat. setoid_rewrite <- elem_of_list_In. naive_solver. Qed.

(** ** Loading forests *)

Section forest.
Local Set Default Proof Using "All".
Variable read : forest -> oid -> result (tree * forest).
Hypothesis read_mono : forall c id t c', read c id = Ok (t, c') -> c ⊆ c' /\ c' !! id = Some t.

Lemma fold_append_ok fuel stack :
  (forall id c f c' f', append_tree read fuel stack id (c, f) = Some (Ok (c', f')) ->
    c ⊆ c' /\ forall C, c' ⊆ C ->
      (forall x, reach C id x -> x ∉ stack /\ is_Some (C !! x) /\ ~ tc (child C) x x /\ f' !! x = C !! x) /\
      (forall x, f' !! x = f !! x \/ reach C id x)) ->
  forall ids c f c' f', fold_ids (append_tree read fuel stack) ids (c, f) = Some (Ok (c', f')) ->
    c ⊆ c' /\ forall C, c' ⊆ C ->
      (forall i x, i ∈ ids -> reach C i x -> x ∉ stack /\ is_Some (C !! x) /\ ~ tc (child C) x x /\ f' !! x = C !! x) /\
      (forall x, f' !! x = f !! x \/ exists i, i ∈ ids /\ reach C i x).
Proof.
  intros IH ids. induction ids as [|i ids IHids]; intros c f c' f' E; cbn [fold_ids] in E.
  { injection E as <- <-. split; [done|]. intros C HC. split.
    - intros i x Hi. by apply elem_of_nil in Hi.
    - by left. }
  destruct (append_tree read fuel stack i (c, f)) as [[[c1 f1]| |]|] eqn:E1; try done.
  apply IH in E1 as [Hc1 H1]. apply IHids in E as [Hc2 H2].
  split; [by etrans|]. intros C HC.
  destruct (H2 C HC) as [H2a H2b]. destruct (H1 C) as [H1a H1b]; [by etrans|].
  split.
  - intros j x Hj Hr. apply elem_of_cons in Hj as [->|Hj]; [|eauto].
    destruct (H1a x Hr) as (Hs & Hd & Hcy & Hf). split; [done|]. split; [done|]. split; [done|].
    destruct (H2b x) as [->|(j & Hj & Hr')]; [done|]. by apply (H2a j x).
  - intros x. destruct (H2b x) as [->|(j & Hj & Hr')]; [|right; exists j; set_solver].
    destruct (H1b x) as [->|Hr']; [by left|right; exists i; set_solver].
Qed.

Lemma append_tree_ok fuel stack id c f c' f' :
  append_tree read fuel stack id (c, f) = Some (Ok (c', f')) ->
  c ⊆ c' /\ forall C, c' ⊆ C ->
    (forall x, reach C id x -> x ∉ stack /\ is_Some (C !! x) /\ ~ tc (child C) x x /\ f' !! x = C !! x) /\
    (forall x, f' !! x = f !! x \/ reach C id x).
Proof.
  revert stack id c f c' f'. induction fuel as [|fuel IH]; intros stack id c f c' f' E; [done|].
  cbn [append_tree fst snd] in E. case_decide as Hs; [done|].
  destruct (read c id) as [[t c1]| |] eqn:Er; try done.
  apply read_mono in Er as [Hc1 Ht].
  destruct (fold_append_ok fuel ({[id]} ∪ stack) (IH _) _ _ _ _ _ E) as [Hc2 H2].
  split; [by etrans|]. intros C HC. destruct (H2 C HC) as [Ha Hb].
  assert (C !! id = Some t) as HCid.
  { eapply lookup_weaken; [|exact HC]. by eapply lookup_weaken. }
  assert (forall i, i ∈ subtrees t -> ~ reach C i id) as Hnr.
  { intros i Hi Hr. destruct (Ha i id Hi Hr) as (Hst & _). set_solver. }
  split.
  - intros x Hr. apply rtc_inv in Hr as [<-|(i & (t' & Ht' & Hi) & Hr)].
    + split; [done|]. split; [by eexists|]. split.
      * intros Hcy.
        assert (exists i, i ∈ subtrees t /\ reach C i id) as (i & Hi & Hr).
        { inversion Hcy as [? ? Hch|? i ? Hch Htc]; subst; destruct Hch as (t' & Ht' & Hi).
          - exists id. split; [congruence|done].
          - exists i. split; [congruence|]. by apply tc_rtc. }
        by apply (Hnr i).
      * rewrite HCid. destruct (Hb id) as [->|(i & Hi & Hr)]; [by rewrite lookup_insert|].
        by destruct (Hnr i Hi).
    + assert (t' = t) as -> by congruence.
      destruct (Ha i x Hi Hr) as (? & ? & ? & ?). split; [set_solver|done].
  - intros x. destruct (Hb x) as [->|(i & Hi & Hr)].
    + destruct (decide (id = x)) as [->|Hne]; [by right|]. rewrite lookup_insert_ne by done. by left.
    + right. eapply rtc_l; [|exact Hr]. by exists t.
Qed.

(** Enough fuel: [U] bounds what can be read. *)
Lemma append_tree_fuel (U : gset oid) fuel stack id st :
  (forall c id t c', dom c ⊆ U -> read c id = Ok (t, c') -> id ∈ U /\ dom c' ⊆ U) ->
  dom st.1 ⊆ U ->
  size (U ∖ stack) < fuel ->
  append_tree read fuel stack id st <> None /\
  forall c' f', append_tree read fuel stack id st = Some (Ok (c', f')) -> dom c' ⊆ U.
Proof.
  intros HU. revert stack id st. induction fuel as [|fuel IH]; intros stack id [c f] Hd Hlt; [lia|].
  cbn [append_tree fst snd] in *. case_decide as Hs; [done|].
  destruct (read c id) as [[t c1]| |] eqn:Er; try done.
  apply HU in Er as [Hid Hd1]; [|done].
  assert (size (U ∖ ({[id]} ∪ stack)) < fuel) as Hlt'.
  { assert (U ∖ stack ≡ {[id]} ∪ U ∖ ({[id]} ∪ stack)) as Heq.
    { intros x. destruct (decide (x = id)); set_solver. }
    apply leibniz_equiv in Heq. rewrite Heq in Hlt. rewrite size_union in Hlt by set_solver.
    rewrite size_singleton in Hlt. lia. }
  set (ids := subtrees t). clearbody ids.
  set (f1 := <[id := t]> f). clearbody f1. clear f Hd c.
  revert c1 f1 Hd1. induction ids as [|i ids IHids]; intros c1 f1 Hd1; cbn [fold_ids].
  { split; [done|]. by intros c' f' [= <- <-]. }
  destruct (IH ({[id]} ∪ stack) i (c1, f1)) as [Hne Hok]; [done|done|].
  destruct (append_tree read fuel ({[id]} ∪ stack) i (c1, f1)) as [[[c2 f2]| |]|] eqn:E2; try done.
  apply IHids. by eapply Hok.
Qed.

(** Failures, when reading agrees with a fixed store. *)
Lemma append_tree_err (store : forest) (I : forest -> Prop) fuel stack id st :
  (forall c id, I c -> match read c id with
     | Ok (t, c') => I c' /\ store !! id = Some t
     | Err => store !! id = None
     | Panic => False end) ->
  I st.1 ->
  match append_tree read fuel stack id st with
  | Some Err => exists x, reach store id x /\ (x ∈ stack \/ store !! x = None \/ tc (child store) x x)
  | Some Panic => False
  | Some (Ok st') => I st'.1
  | None => True
  end.
Proof.
  intros HI. revert stack id st. induction fuel as [|fuel IH]; intros stack id [c f] Hc; [done|].
  cbn [append_tree fst snd] in *. case_decide as Hs. { exists id. split; [done|]. by left. }
  specialize (HI c id Hc) as Hr. destruct (read c id) as [[t c1]| |]; [|exists id; split; [done|auto]|done].
  destruct Hr as [Hc1 Ht].
  assert (Forall (fun i => child store id i) (subtrees t)) as Hch.
  { apply Forall_forall. intros i Hi. by exists t. }
  revert Hch. generalize (subtrees t) as ids. intros ids. generalize (<[id := t]> f) as f1.
  revert c1 Hc1. induction ids as [|i ids IHids]; intros c1 Hc1 f1 Hch; cbn [fold_ids]; [done|].
  apply Forall_cons in Hch as [Hi Hch].
  specialize (IH ({[id]} ∪ stack) i (c1, f1) Hc1).
  destruct (append_tree read fuel ({[id]} ∪ stack) i (c1, f1)) as [[[c2 f2]| |]|] eqn:E2; try done.
  - by apply IHids.
  - destruct IH as (x & Hr & Hx).
    destruct (decide (x = id)) as [->|Hne].
    + exists id. split; [done|]. right; right. by eapply tc_rtc_r; [apply tc_once|].
    + exists x. split; [by eapply rtc_l|]. set_solver.
Qed.

End forest.

(** An invariant of the cache is kept by loading. *)
Lemma append_tree_inv (read : forest -> oid -> result (tree * forest)) (I : forest -> Prop) fuel stack id st st' :
  (forall c id t c', I c -> read c id = Ok (t, c') -> I c') -> I st.1 ->
  append_tree read fuel stack id st = Some (Ok st') -> I st'.1.
Proof.
  intros HI. revert stack id st st'. induction fuel as [|fuel IH]; intros stack id [c f] st' Hc E; [done|].
  cbn [append_tree fst snd] in *. case_decide; [done|].
  destruct (read c id) as [[t c1]| |] eqn:Er; try done. apply HI in Er; [|done].
  revert E. generalize (<[id := t]> f) as f1. generalize (subtrees t) as ids. intros ids.
  revert c1 Er. induction ids as [|i ids IHids]; intros c1 H1 f1 E; cbn [fold_ids] in E.
  { by injection E as <-. }
  destruct (append_tree read fuel ({[id]} ∪ stack) i (c1, f1)) as [[[c2 f2]| |]|] eqn:E2; try done.
  eapply IHids; [|exact E]. by apply (IH _ _ (c1, f1) (c2, f2) H1 E2).
Qed.

(** ** The tree cache *)

(** The bytes [t] was decoded from hash to [i]. *)
Definition genuine (H : bytes -> oid) (i : oid) (t : tree) : Prop :=
  exists b rest, H b = i /\ dec_tree (b ++ rest) = Some (t, rest).

Lemma append_entries_inv H m st fo fo' :
  append_entries H m st fo = Ok fo' ->
  fo ⊆ fo' /\ forall i t, fo' !! i = Some t -> fo !! i = Some t \/ i ∈ map e_id m /\ genuine H i t.
Proof.
  revert st fo; induction m as [|e m IH]; intros st fo E; cbn [append_entries] in E.
  { injection E as <-. auto. }
  destruct (bool_decide (e_type e <> Tree) || bool_decide (is_Some (fo !! e_id e))) eqn:Eb.
  - apply rbind_ok in E as ([b st'] & _ & E). apply rbind_ok in E as ([] & _ & E).
    destruct (IH _ _ E) as [H1 H2].
    split; [done|]. intros i t Hi. destruct (H2 i t Hi) as [|[? ?]]; [by left|]. right. set_solver.
  - apply orb_false_iff in Eb as [_ Eb]. apply bool_decide_eq_false in Eb. cbv zeta in E.
    apply rbind_ok in E as ([[t h] r] & E1 & E). apply rbind_ok in E as ([] & E2 & E).
    case_bool_decide as Eh; [|done].
    destruct (IH _ _ E) as [H1 H2]. split.
    + etrans; [|exact H1]. apply insert_subseteq. by apply eq_None_not_Some.
    + intros i t' Hi. destruct (H2 i t' Hi) as [Hl|[? ?]]; [|right; set_solver].
      destruct (decide (e_id e = i)) as [<-|Hne]; [|rewrite lookup_insert_ne in Hl by done; by left].
      rewrite lookup_insert in Hl. injection Hl as <-. right. split; [set_solver|].
      unfold from_hashing_reader in E1. apply rbind_ok in E1 as ([t' r'] & E3 & E1).
      apply (f_equal (fun x => match x with Ok y => y | _ => (t, h, r) end)) in E1. injection E1 as -> <- ->.
      eexists _, r. split; [symmetry; exact Eh|].
      destruct (dec_tree _) as [x|] eqn:E4 in E3; [|done]. injection E3 as ->.
      unfold dec_tree in *. rewrite <- (dec_with_suffix _ _ _ _ E4). exact E4.
Qed.

Lemma append_to_forest_inv H zdec file m fo fo' :
  append_to_forest H zdec file m fo = Ok fo' ->
  fo ⊆ fo' /\ forall i t, fo' !! i = Some t -> fo !! i = Some t \/ i ∈ map e_id m /\ genuine H i t.
Proof. unfold append_to_forest. intros E. rinv. by eapply append_entries_inv. Qed.

Definition ix_ids (ix : index) : gset oid := list_to_set (map (fun pe : oid * entry => e_id pe.2) (index_entries ix)).

Lemma elem_of_index_entries_get ix p e :
  om_sorted (ix_packs ix) ->
  (p, e) ∈ index_entries ix <-> exists m, om_get p (ix_packs ix) = Some m /\ e ∈ m.
Proof.
  intros Hs. unfold index_entries. rewrite elem_of_concat. split.
  - intros (l & Hin & Hl). apply elem_of_list_fmap in Hl as ([p' m] & -> & Hl).
    apply elem_of_list_fmap in Hin as (e' & [= -> ->] & Hin). exists m.
    split; [by apply om_get_elem|done].
  - intros (m & Hm & He). exists (map (fun e => (p, e)) m). split.
    + by apply elem_of_list_fmap_1.
    + apply om_get_elem in Hm; [|done].
      apply (elem_of_list_fmap_1 (fun kv : oid * manifest => map (fun e => (kv.1, e)) kv.2)) in Hm. exact Hm.
Qed.

Lemma cache_read_inv H zdec ix bmap packs c id t c' :
  om_sorted (ix_packs ix) ->
  cache_read H zdec ix bmap packs c id = Ok (t, c') ->
  c ⊆ c' /\ c' !! id = Some t /\
  forall i u, c' !! i = Some u -> c !! i = Some u \/ i ∈ ix_ids ix /\ genuine H i u.
Proof.
  intros Hs. unfold cache_read. destruct (c !! id) eqn:Ec.
  { intros [= <- <-]. auto. }
  intros E. apply rbind_ok in E as (p & _ & E). apply rbind_ok in E as (file & _ & E).
  apply rbind_ok in E as (m & Em & E). destruct (om_get p (ix_packs ix)) as [m'|] eqn:Eg; [|done].
  injection Em as ->. apply rbind_ok in E as (fo' & Ea & E). apply rbind_ok in E as (t' & Et & E).
  injection E as -> ->. destruct (c' !! id) eqn:Ec'; [|done]. injection Et as ->.
  destruct (append_to_forest_inv _ _ _ _ _ _ Ea) as [H1 H2]. split; [done|]. split; [done|].
  intros i u Hi. destruct (H2 i u Hi) as [|[Hi' ?]]; [by left|]. right. split; [|done].
  apply elem_of_list_to_set. apply elem_of_list_fmap in Hi' as (e & -> & He).
  apply (elem_of_list_fmap_1 (fun pe : oid * entry => e_id pe.2) _ (p, e)). apply elem_of_index_entries_get; eauto.
Qed.

(** ** Sizes *)

(** Every occurrence of a blob in the walk of a tree: the tree itself, the
    chunks of its files, and all of its subdirectories, in order. *)
Inductive occurs (fo : forest) : oid -> list oid -> Prop :=
| occurs_tree id t l : fo !! id = Some t -> occurs_nodes fo t l -> occurs fo id (id :: l)
with occurs_nodes (fo : forest) : tree -> list oid -> Prop :=
| occurs_nil : occurs_nodes fo [] []
| occurs_file k m cs t l : occurs_nodes fo t l -> occurs_nodes fo ((k, mkNode (CFile cs) m) :: t) (cs ++ l)
| occurs_link k m tg t l : occurs_nodes fo t l -> occurs_nodes fo ((k, mkNode (CSymlink tg) m) :: t) l
| occurs_dir k m s t l1 l2 : occurs fo s l1 -> occurs_nodes fo t l2 ->
    occurs_nodes fo ((k, mkNode (CDir s) m) :: t) (l1 ++ l2).

(** The total size of a list of blobs, and of a set of blobs. *)
Definition sum_sizes (sm : gmap oid N) (l : list oid) : N :=
  foldr (fun b a => (default 0 (sm !! b) + a)%N) 0%N l.
Definition set_sizes (sm : gmap oid N) (X : gset oid) : N := sum_sizes sm (elements X).

Lemma sum_sizes_app sm l1 l2 : sum_sizes sm (l1 ++ l2) = (sum_sizes sm l1 + sum_sizes sm l2)%N.
Proof. induction l1; simpl; lia. Qed.
Lemma sum_sizes_perm sm l1 l2 : l1 ≡ₚ l2 -> sum_sizes sm l1 = sum_sizes sm l2.
Proof. induction 1; simpl; lia. Qed.
Lemma set_sizes_union sm X Y : X ## Y -> set_sizes sm (X ∪ Y) = (set_sizes sm X + set_sizes sm Y)%N.
Proof.
  intros HD. unfold set_sizes. rewrite <- sum_sizes_app. apply sum_sizes_perm.
  by apply elements_disj_union.
Qed.
Lemma set_sizes_empty sm : set_sizes sm ∅ = 0%N.
Proof. unfold set_sizes. by rewrite elements_empty. Qed.
Lemma set_sizes_singleton sm x : set_sizes sm {[x]} = default 0%N (sm !! x).
Proof. unfold set_sizes. rewrite elements_singleton. simpl. lia. Qed.

(** What walking over the blobs [l] does to the accumulated state. *)
Definition accounts (sm : gmap oid N) (l : list oid) (a b : gset oid * fsizes) : Prop :=
  (forall x, x ∈ l -> is_Some (sm !! x)) /\
  b.1 = list_to_set l ∪ a.1 /\
  fs_introduced b.2 = (fs_introduced a.2 + set_sizes sm (list_to_set l ∖ a.1))%N /\
  (fs_introduced b.2 + fs_reused b.2 = fs_introduced a.2 + fs_reused a.2 + sum_sizes sm l)%N /\
  (fs_tree b.2 + fs_chunk b.2 = fs_tree a.2 + fs_chunk a.2 + sum_sizes sm l)%N.

Lemma accounts_nil sm a : accounts sm [] a a.
Proof.
  unfold accounts. cbn [list_to_set sum_sizes foldr].
  assert ((∅ : gset oid) ∖ a.1 = ∅) as -> by (apply set_eq; set_solver). rewrite set_sizes_empty.
  split; [intros x Hx; by apply elem_of_nil in Hx|]. split; [set_solver|]. lia.
Qed.

Lemma accounts_app sm l1 l2 a b c : accounts sm l1 a b -> accounts sm l2 b c -> accounts sm (l1 ++ l2) a c.
Proof.
  intros (S1 & V1 & I1 & R1 & T1) (S2 & V2 & I2 & R2 & T2). unfold accounts.
  rewrite sum_sizes_app, list_to_set_app_L.
  split; [intros x [?|?]%elem_of_app; auto|]. split; [rewrite V2, V1; set_solver|].
  split; [|lia]. rewrite I2, I1, V1.
  replace ((list_to_set l1 ∪ list_to_set l2) ∖ a.1 : gset oid)
    with (list_to_set l1 ∖ a.1 ∪ list_to_set l2 ∖ (list_to_set l1 ∪ a.1) : gset oid).
  - rewrite set_sizes_union by set_solver. lia.
  - apply set_eq. intros x. destruct (decide (x ∈ (list_to_set l1 : gset oid))); set_solver.
Qed.

Lemma accounts_one sm x n v s :
  sm !! x = Some n ->
  forall ts cs, (ts + cs = fs_tree s + fs_chunk s + n)%N ->
  accounts sm [x] (v, s)
    (if decide (x ∈ v) then (v, mkFsizes ts cs (fs_introduced s) (fs_reused s + n))
     else ({[x]} ∪ v, mkFsizes ts cs (fs_introduced s + n) (fs_reused s))).
Proof.
  intros Hx ts cs Ht. unfold accounts. cbn [list_to_set sum_sizes foldr]. rewrite Hx.
  case_decide as Hv; cbn [fst snd fs_introduced fs_reused fs_tree fs_chunk default from_option id].
  - assert (({[x]} ∪ ∅) ∖ v = ∅) as -> by (apply set_eq; set_solver). rewrite set_sizes_empty.
    split; [intros y ->%elem_of_list_singleton; by exists n|]. split; [set_solver|]. lia.
  - assert (({[x]} ∪ ∅) ∖ v = {[x]}) as -> by (apply set_eq; set_solver).
    rewrite set_sizes_singleton, Hx.
    split; [intros y ->%elem_of_list_singleton; by exists n|]. split; [set_solver|].
    cbn [default from_option id]. lia.
Qed.

Lemma chunk_sizes_ok sm cs a b : chunk_sizes sm cs a = Ok b -> accounts sm cs a b.
Proof.
  revert a; induction cs as [|c cs IH]; intros a E; cbn [chunk_sizes] in E.
  { injection E as ->. apply accounts_nil. }
  apply rbind_ok in E as (a' & E1 & E). apply IH in E.
  change (c :: cs) with ([c] ++ cs). eapply accounts_app; [|exact E].
  unfold chunk_size in E1. destruct a as [v s]. destruct (sm !! c) as [n|] eqn:Ec; [|done].
  cbn [of_option rbind] in E1.
  pose proof (accounts_one sm c n v s Ec (fs_tree s) (fs_chunk s + n)) as Ha.
  destruct (decide (c ∈ v)); injection E1 as <-; apply Ha; lia.
Qed.

Lemma tree_size_ok fo sm fuel id a b :
  tree_size fo sm fuel id a = Some (Ok b) -> exists l, occurs fo id l /\ accounts sm l a b.
Proof.
  revert id a b. induction fuel as [|fuel IH]; intros id a b E; [done|].
  cbn [tree_size] in E. destruct (fo !! id) as [t|] eqn:Et; [|done].
  destruct (sm !! id) as [n|] eqn:En; [|done]. destruct a as [v s].
  set (a' := if decide _ then _ else _) in E.
  assert (accounts sm [id] (v, s) a') as Ha'.
  { apply accounts_one; [done|]. lia. }
  clearbody a'.
  assert (exists l, occurs_nodes fo t l /\ accounts sm l a' b) as (l & Ho & Hl).
  { clear Et Ha' En s v. revert a' E. induction t as [|[k nd] t IHt]; intros a' E; cbn [fold_nodes] in E.
    - injection E as ->. exists []. split; [constructor|]. apply accounts_nil.
    - destruct nd as [[cs|s|tg] m]; cbn [n_contents] in E.
      + destruct (chunk_sizes sm cs a') as [a1| |] eqn:Ec; try done.
        apply chunk_sizes_ok in Ec. destruct (IHt _ E) as (l & Ho & Hl).
        exists (cs ++ l). split; [by constructor|]. by eapply accounts_app.
      + destruct (tree_size fo sm fuel s a') as [[a1| |]|] eqn:Ec; try done.
        apply IH in Ec as (l1 & Ho1 & Hl1). destruct (IHt _ E) as (l & Ho & Hl).
        exists (l1 ++ l). split; [by constructor|]. by eapply accounts_app.
      + destruct (IHt _ E) as (l & Ho & Hl). exists l. split; [by constructor|done]. }
  exists (id :: l). split; [by econstructor|].
  change (id :: l) with ([id] ++ l). by eapply accounts_app.
Qed.

Scheme occurs_mut := Minimality for occurs Sort Prop
  with occurs_nodes_mut := Minimality for occurs_nodes Sort Prop.

Lemma occurs_det fo id l : occurs fo id l -> forall l', occurs fo id l' -> l = l'.
Proof.
  revert id l. apply (occurs_mut fo (fun id l => forall l', occurs fo id l' -> l = l')
    (fun t l => forall l', occurs_nodes fo t l' -> l = l')).
  - intros id t l Ht _ IH l' Ho. inversion Ho; subst. f_equal. apply IH. congruence.
  - intros l' Ho. by inversion Ho.
  - intros k m cs t l _ IH l' Ho. inversion Ho; subst. f_equal. auto.
  - intros k m tg t l _ IH l' Ho. inversion Ho; subst. auto.
  - intros k m s t l1 l2 _ IH1 _ IH2 l' Ho. inversion Ho; subst. f_equal; auto.
Qed.

Lemma subtrees_cons k n t : subtrees ((k, n) :: t) = node_subtree n ++ subtrees t.
Proof. done. Qed.
Lemma tree_chunks_cons k n t : tree_chunks ((k, n) :: t) = node_chunks n ++ tree_chunks t.
Proof. done. Qed.

(** The blobs that occur are the reachable trees and their chunks. *)
Lemma occurs_reach fo id l : occurs fo id l -> forall b, b ∈ l <->
  exists x t, reach fo id x /\ fo !! x = Some t /\ (b = x \/ b ∈ tree_chunks t).
Proof.
  revert id l. apply (occurs_mut fo (fun id l => forall b, b ∈ l <->
      exists x t, reach fo id x /\ fo !! x = Some t /\ (b = x \/ b ∈ tree_chunks t))
    (fun t l => forall b, b ∈ l <-> b ∈ tree_chunks t \/
      exists s x t', s ∈ subtrees t /\ reach fo s x /\ fo !! x = Some t' /\ (b = x \/ b ∈ tree_chunks t'))).
  - intros id t l Ht _ IH b. rewrite elem_of_cons, IH. split.
    + intros [->|[Hb|(s & x & t' & Hs & Hr & Hx & Hb)]].
      * exists id, t. split; [done|]. auto.
      * exists id, t. split; [done|]. auto.
      * exists x, t'. split; [|auto]. eapply rtc_l; [|exact Hr]. by exists t.
    + intros (x & t' & Hr & Hx & Hb). apply rtc_inv in Hr as [<-|(s & (t0 & Ht0 & Hs) & Hr)].
      * assert (t' = t) as -> by congruence. naive_solver.
      * assert (t0 = t) as -> by congruence. right. right. eauto 10.
  - intros b. change (subtrees []) with (@nil oid). change (tree_chunks []) with (@nil oid). set_solver.
  - intros k m cs t l _ IH b. rewrite elem_of_app, IH, tree_chunks_cons, subtrees_cons, elem_of_app.
    cbn [node_chunks node_subtree n_contents app]. naive_solver.
  - intros k m tg t l _ IH b. rewrite IH, tree_chunks_cons, subtrees_cons.
    cbn [node_chunks node_subtree n_contents app]. naive_solver.
  - intros k m s t l1 l2 _ IH1 _ IH2 b. rewrite elem_of_app, IH1, IH2, tree_chunks_cons, subtrees_cons.
    cbn [node_chunks node_subtree n_contents app]. setoid_rewrite elem_of_cons. naive_solver.
Qed.

(** With every blob's size known, sizes can be computed. *)
Lemma chunk_sizes_total sm cs a : (forall c, c ∈ cs -> is_Some (sm !! c)) -> exists b, chunk_sizes sm cs a = Ok b.
Proof.
  revert a; induction cs as [|c cs IH]; intros a Hs; cbn [chunk_sizes]; [by eexists|].
  destruct (Hs c) as [n Hn]; [set_solver|]. unfold chunk_size at 1. destruct a as [v s]. rewrite Hn.
  cbn [of_option rbind]. case_decide; cbn [rbind]; apply IH; set_solver.
Qed.

Lemma tree_size_total (sm : gmap oid N) (F : forest) fuel id a :
  (forall x, reach F id x -> exists t, F !! x = Some t /\ is_Some (sm !! x) /\ forall c, c ∈ tree_chunks t -> is_Some (sm !! c)) ->
  (exists stack read c f c' f', append_tree read fuel stack id (c, f) = Some (Ok (c', f')) /\
     (forall c id t c', read c id = Ok (t, c') -> c ⊆ c' /\ c' !! id = Some t) /\
     (forall x, reach c' id x -> F !! x = c' !! x)) ->
  exists b, tree_size F sm fuel id a = Some (Ok b).
Proof.
  intros Hs (stack & read & c & f & c' & f' & E & Hmono & HF).
  assert (forall C, c' ⊆ C -> (forall x, reach C id x -> F !! x = C !! x) ->
    exists b, tree_size F sm fuel id a = Some (Ok b)) as Hgen; [|by apply (Hgen c')].
  clear HF. revert stack id c f c' f' a Hs E. induction fuel as [|fuel IH]; intros stack id c f c' f' a Hs E C HC HF; [done|].
  pose proof (append_tree_ok read Hmono _ _ _ _ _ _ _ E) as [_ Hok]. destruct (Hok C HC) as [Hok1 _].
  cbn [append_tree fst snd] in E. case_decide; [done|].
  destruct (read c id) as [[t c1]| |] eqn:Er; try done.
  cbn [tree_size]. destruct (Hs id) as (t' & Ht' & [n Hn] & Hch); [done|]. rewrite Ht', Hn.
  apply Hmono in Er as [Hc1 Ht].
  pose proof (fold_append_ok read Hmono fuel _ (append_tree_ok read Hmono fuel _) _ _ _ _ _ E) as [Hc1' _].
  assert (C !! id = Some t) as HCt by (eapply lookup_weaken; [|exact HC]; by eapply lookup_weaken).
  assert (t' = t) as -> by (rewrite HF in Ht' by done; congruence).
  assert (forall s, s ∈ subtrees t -> child F id s) as Hsub by (intros s Hin; by exists t).
  assert (forall s, s ∈ subtrees t -> child C id s) as HsubC by (intros s Hin; by exists t).
  destruct a as [v s0]. set (a' := if decide _ then _ else _). clearbody a'. clear s0 v.
  clear Ht Ht' Hc1' HCt Hok Hok1 Hc1. revert a' c1 E Hch Hsub HsubC. generalize (<[id:=t]> f) as f1.
  induction t as [|[k nd] t IHt]; intros f1 a' c1 E Hch Hsub HsubC; cbn [fold_nodes]; [by eexists|].
  rewrite tree_chunks_cons in Hch. rewrite subtrees_cons in *.
  destruct nd as [[cs|s|tg] m]; cbn [n_contents node_chunks node_subtree app] in *.
  - destruct (chunk_sizes_total sm cs a') as [b Hb]; [set_solver|]. rewrite Hb. eapply IHt; eauto. set_solver.
  - cbn [fold_ids] in E.
    destruct (append_tree read fuel ({[id]} ∪ stack) s (c1, f1)) as [[[c2 f2]| |]|] eqn:E2; try done.
    pose proof (fold_append_ok read Hmono fuel _ (append_tree_ok read Hmono fuel _) _ _ _ _ _ E) as [Hc2 _].
    destruct (IH ({[id]} ∪ stack) s c1 f1 c2 f2 a') with (C := C) as [b Hb]; [|done| | |].
    + intros x Hr. apply Hs. eapply rtc_l; [|exact Hr]. apply Hsub. set_solver.
    + by etrans.
    + intros x Hr. apply HF. eapply rtc_l; [|exact Hr]. apply HsubC. set_solver.
    + rewrite Hb. eapply IHt; eauto; set_solver.
  - eapply IHt; eauto.
Qed.
