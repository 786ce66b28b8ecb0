(** Properties C39 and C40: the cache on disk. *)

From Verif Require Import Base DiskCache.

(** ** C40: what the theorems speak about *)

(** Total size of some files. *)
Definition sum (l : list Z) : Z := foldr Z.add 0%Z l.
Definition total (m : gmap bytes bytes) : Z := sum (map (fun p => size_of p.2) (map_to_list m)).
(** When a file was last used, according to the database. *)
Definition last_used (c : cache) (n : bytes) : option Z := fst <$> ca_rows c !! n.
(** The database knows every file's size. *)
Definition tracked (c : cache) : Prop :=
  (forall n x, ca_files c !! n = Some x -> exists t, ca_rows c !! n = Some (t, size_of x)) /\
  (forall n t s, ca_rows c !! n = Some (t, s) -> 0 <= s)%Z.

(** *** Proofs *)

Lemma sum_perm l l' : l ≡ₚ l' -> sum l = sum l'.
Proof. unfold sum. induction 1; cbn [foldr]; lia. Qed.
Lemma sum_app l l' : sum (l ++ l') = (sum l + sum l')%Z.
Proof. unfold sum. induction l as [|z l IH]; cbn [foldr app]; [lia|]. rewrite IH. lia. Qed.

Lemma total_delete m n x : m !! n = Some x -> total m = (size_of x + total (delete n m))%Z.
Proof.
  intros E. unfold total. rewrite <- (sum_perm (map (fun p => size_of p.2) ((n, x) :: map_to_list (delete n m)))).
  - done.
  - apply fmap_Permutation. by apply map_to_list_delete.
Qed.

(** Files listed among some rows are at most as big as these say. *)
Lemma total_bound (l : list (bytes * (Z * Z))) : forall m,
  (forall n x, m !! n = Some x -> exists t, (n, (t, size_of x)) ∈ l) -> (forall r, r ∈ l -> 0 <= r.2.2)%Z ->
  (total m <= sum (map (fun r => r.2.2) l))%Z.
Proof.
  induction l as [|[k [t s]] l IH]; intros m Hm Hs.
  - assert (m = ∅) as ->.
    { apply map_eq. intros n. rewrite lookup_empty. destruct (m !! n) as [x|] eqn:E; [|done].
      destruct (Hm n x E) as [t Ht]. by apply elem_of_nil in Ht. }
    done.
  - cbn [map sum foldr]. fold (sum (map (fun r : bytes * (Z * Z) => r.2.2) l)).
    assert (0 <= s)%Z as Hs0. { apply (Hs (k, (t, s))). left. }
    assert (forall r, r ∈ l -> 0 <= r.2.2)%Z as Hl. { intros r Hr. apply Hs. by right. }
    assert ((exists x, m !! k = Some x /\ size_of x = s) \/ ~ (exists x, m !! k = Some x /\ size_of x = s)) as [(x & Ex & Es)|Hno].
    { destruct (m !! k) as [x|] eqn:Ex; [|right; by intros (? & ? & _)].
      destruct (decide (size_of x = s)); [left; eauto|right; intros (? & ? & ?); congruence]. }
    + rewrite (total_delete m k x Ex). specialize (IH (delete k m)). cbn [snd].
      enough (total (delete k m) <= sum (map (fun r => r.2.2) l))%Z by lia.
      apply IH; [|done]. intros n y E. apply lookup_delete_Some in E as [Hn E].
      destruct (Hm n y E) as [t' Ht]. apply elem_of_cons in Ht as [Ht|Ht]; [congruence|eauto].
    + enough (total m <= sum (map (fun r => r.2.2) l))%Z by (cbn [snd]; lia).
      apply IH; [|done]. intros n y E. destruct (Hm n y E) as [t' Ht].
      apply elem_of_cons in Ht as [Ht|Ht]; [|eauto]. destruct Hno. exists y. split; congruence.
Qed.

Lemma scan_none limit rows : forall acc o, scan limit acc o rows = None ->
  (acc + sum (map (fun r => r.2.2) rows) < limit)%Z.
Proof.
  induction rows as [|[k [t s]] rows IH]; intros acc o E; cbn [scan] in E; destruct (Z.ltb_spec acc limit) as [Hl|Hl]; try done.
  - cbn. lia.
  - specialize (IH _ _ E). cbn [map sum foldr snd] in *. fold (sum (map (fun r : bytes * (Z * Z) => r.2.2) rows)). lia.
Qed.
Lemma scan_some limit rows : forall acc o o' rest, scan limit acc o rows = Some (o', rest) ->
  (rest = rows /\ o' = o /\ limit <= acc)%Z \/
  exists init k t s, rows = init ++ (k, (t, s)) :: rest /\ o' = Some t /\
    (acc + sum (map (fun r => r.2.2) init) < limit <= acc + sum (map (fun r => r.2.2) init) + s)%Z.
Proof.
  induction rows as [|[k [t s]] rows IH]; intros acc o o' rest E; cbn [scan] in E; destruct (Z.ltb_spec acc limit) as [Hl|Hl]; try done.
  - injection E as <- <-. left. auto.
  - right. apply IH in E as [(-> & -> & Hle)|(init & k' & t' & s' & -> & -> & Hlt)].
    + exists [], k, t, s. split; [done|]. split; [done|]. cbn. lia.
    + exists ((k, (t, s)) :: init), k', t', s'. split; [done|]. split; [done|].
      cbn [map sum foldr snd]. fold (sum (map (fun r : bytes * (Z * Z) => r.2.2) init)). lia.
  - injection E as <- <-. left. auto.
Qed.

Lemma foldr_delete_lookup (rest : list (bytes * (Z * Z))) (m : gmap bytes bytes) n x :
  foldr (fun r m => delete r.1 m) m rest !! n = Some x <-> m !! n = Some x /\ n ∉ rest.*1.
Proof.
  induction rest as [|r rest IH]; cbn [foldr fmap list_fmap].
  - split; [intros E; split; [done|]; intros H; by apply elem_of_nil in H|by intros [? _]].
  - rewrite lookup_delete_Some, IH. rewrite not_elem_of_cons. naive_solver.
Qed.

Lemma sorted_split {A} (R : A -> A -> Prop) l1 a l2 : StronglySorted R (l1 ++ a :: l2) ->
  (forall b, b ∈ l1 -> R b a) /\ (forall b, b ∈ l2 -> R a b) /\ (forall b c, b ∈ l1 -> c ∈ l2 -> R b c).
Proof.
  induction l1 as [|x l1 IH]; cbn [app]; intros Hs; apply StronglySorted_inv in Hs as [Hs Hf].
  - rewrite Forall_forall in Hf. split; [intros b Hb; by apply elem_of_nil in Hb|]. split; [done|].
    intros b c Hb. by apply elem_of_nil in Hb.
  - destruct (IH Hs) as (H1 & H2 & H3). rewrite Forall_forall in Hf. split; [|split; [done|]].
    + intros b Hb. apply elem_of_cons in Hb as [->|Hb]; [|by apply H1]. apply Hf. set_solver.
    + intros b c Hb Hc. apply elem_of_cons in Hb as [->|Hb]; [|by apply H3]. apply Hf. set_solver.
Qed.

Lemma prunes_cases c c' r : (0 < ca_limit c)%Z -> prunes c c' r ->
  (c' = c /\ r = Ok tt /\ (sum (map (fun p => p.2.2) (map_to_list (ca_rows c))) < ca_limit c)%Z) \/
  exists init k t s rest, newest_first (ca_rows c) (init ++ (k, (t, s)) :: rest) /\ r = Ok tt /\
    (sum (map (fun r => r.2.2) init) < ca_limit c <= sum (map (fun r => r.2.2) init) + s)%Z /\
    c' = mkCache (foldr (fun r m => delete r.1 m) (ca_files c) rest) (filter (fun r => ~ (r.2.1 < t)%Z) (ca_rows c)) (ca_limit c).
Proof.
  intros Hl (order & Ho & E). unfold prune_with in E. destruct (scan (ca_limit c) 0 None order) as [[o rest]|] eqn:Es.
  - apply scan_some in Es as [(_ & _ & ?)|(init & k & t & s & -> & -> & Hlt)]; [lia|]. injection E as <- <-. right.
    exists init, k, t, s, rest. split; [done|]. split; [done|]. split; [lia|done].
  - injection E as <- <-. left. split; [done|]. split; [done|]. apply scan_none in Es. destruct Ho as [Hp _].
    rewrite (sum_perm _ (map (fun r => r.2.2) order)); [lia|]. apply fmap_Permutation. by rewrite Hp.
Qed.

(** Pruning keeps the files used last: no file that goes was used after one that
    stays.  Those that stay are unchanged, and, leaving out the one used longest ago,
    fit within the limit with room to spare.  Nothing goes while all fit. *)
Theorem C40_keeps_the_most_recently_used_partial : forall c c' r,
  (0 < ca_limit c)%Z -> tracked c -> prunes c c' r ->
  r = Ok tt /\ tracked c' /\ ca_files c' ⊆ ca_files c /\
  (forall n m tn tm, is_Some (ca_files c' !! n) -> is_Some (ca_files c !! m) -> ca_files c' !! m = None ->
     last_used c n = Some tn -> last_used c m = Some tm -> (tm <= tn)%Z) /\
  ((total (ca_files c') < ca_limit c)%Z \/
   exists k tk, last_used c k = Some tk /\ (total (delete k (ca_files c')) < ca_limit c)%Z /\
     forall n tn, is_Some (ca_files c' !! n) -> last_used c n = Some tn -> (tk <= tn)%Z) /\
  ((sum (map (fun p => p.2.2) (map_to_list (ca_rows c))) < ca_limit c)%Z -> ca_files c' = ca_files c).
Proof.
  intros c c' r Hl [Ht Hs] Hp. apply prunes_cases in Hp as [(-> & -> & Hlt)|(init & k & t & s & rest & [Hperm Hsort] & -> & [Hlt Hge0] & ->)]; [..|done].
  - split; [done|]. split; [done|]. split; [done|]. split.
    { intros n m tn tm _ [y Hy] Hm. congruence. }
    split; [left|done]. eapply Z.le_lt_trans; [|exact Hlt]. apply total_bound.
    + intros n x E. destruct (Ht n x E) as [t Et]. exists t. by apply elem_of_map_to_list.
    + intros [n [t s]] Hr. apply elem_of_map_to_list in Hr. cbn. by eapply Hs.
  - cbn [ca_files ca_rows ca_limit].
    assert (forall n v, ca_rows c !! n = Some v <-> (n, v) ∈ init ++ (k, (t, s)) :: rest) as Hrows.
    { intros n v. rewrite Hperm. by rewrite elem_of_map_to_list. }
    assert (NoDup (init ++ (k, (t, s)) :: rest).*1) as Hnd. { rewrite Hperm. apply NoDup_fst_map_to_list. }
    apply sorted_split in Hsort as (S1 & S2 & S3).
    assert (forall n x, foldr (fun r m => delete r.1 m) (ca_files c) rest !! n = Some x ->
      ca_files c !! n = Some x /\ exists tn, ca_rows c !! n = Some (tn, size_of x) /\ ((n, (tn, size_of x)) ∈ init \/ n = k /\ tn = t) /\ (t <= tn)%Z) as Hkept.
    { intros n x E. apply foldr_delete_lookup in E as [E Hn]. split; [done|]. destruct (Ht n x E) as [tn Etn]. exists tn. split; [done|].
      apply Hrows in Etn as Hin. apply elem_of_app in Hin as [Hin|Hin].
      - split; [by left|]. by apply (S1 (n, (tn, size_of x))).
      - apply elem_of_cons in Hin as [Hin|Hin]; [|destruct Hn; by apply (elem_of_list_fmap_1 fst) in Hin].
        injection Hin as -> -> _. split; [by right|]. lia. }
    split; [done|]. split.
    { split; cbn [ca_files ca_rows].
      - intros n x E. destruct (Hkept n x E) as (_ & tn & Er & _ & Hge). exists tn. apply map_filter_lookup_Some. split; [done|]. cbn. lia.
      - intros n t' s' E. apply map_filter_lookup_Some in E as [E _]. by eapply Hs. }
    split. { apply map_subseteq_spec. intros n x E. by apply Hkept in E as [? _]. }
    split.
    { intros n m tn tm [x Hx] [y Hy] Hm En Em. destruct (Hkept n x Hx) as (_ & tn' & Er & _ & Hge).
      unfold last_used in En, Em. rewrite Er in En. injection En as <-.
      destruct (ca_rows c !! m) as [[tm' sm]|] eqn:Erm; [|done]. injection Em as <-. apply Hrows in Erm.
      apply elem_of_app in Erm as [Hin|Hin].
      - exfalso. assert (foldr (fun r m => delete r.1 m) (ca_files c) rest !! m = Some y) as Hk; [|congruence].
        apply foldr_delete_lookup. split; [done|]. rewrite fmap_app in Hnd. apply NoDup_app in Hnd as (_ & Hd & _).
        intros Hr. apply (Hd m); [by apply (elem_of_list_fmap_1 fst) in Hin|]. right. done.
      - apply elem_of_cons in Hin as [Hin|Hin].
        + injection Hin as -> -> ->. lia.
        + specialize (S2 _ Hin). cbn in S2. lia. }
    split.
    { right. exists k, t. split.
      { unfold last_used. assert (ca_rows c !! k = Some (t, s)) as -> by (apply Hrows; apply elem_of_app; right; left). done. }
      split.
      - eapply Z.le_lt_trans; [|exact Hlt]. apply total_bound.
        + intros n x E. apply lookup_delete_Some in E as [Hn E]. destruct (Hkept n x E) as (_ & tn & _ & [Hin|[? _]] & _); [by exists tn|congruence].
        + intros [n [tn sn]] Hr. cbn. apply (Hs n tn sn). apply Hrows. apply elem_of_app. by left.
      - intros n tn [x Hx] En. destruct (Hkept n x Hx) as (_ & tn' & Er & _ & Hge). unfold last_used in En. rewrite Er in En. injection En as <-. done. }
    intros Hall. apply map_eq. intros n. apply option_eq. intros x. rewrite foldr_delete_lookup.
    split; [by intros [? _]|]. intros E. split; [done|]. intros Hr. exfalso.
    rewrite <- (sum_perm (map (fun r => r.2.2) (init ++ (k, (t, s)) :: rest))) in Hall by (apply fmap_Permutation; by rewrite Hperm).
    rewrite map_app, sum_app in Hall. cbn [map sum foldr snd] in Hall. fold (sum (map (fun r : bytes * (Z * Z) => r.2.2) rest)) in Hall.
    enough (0 <= sum (map (fun r : bytes * (Z * Z) => r.2.2) rest))%Z by lia.
    change 0%Z with (total ∅). apply (total_bound rest ∅); [intros n' x' E'; by rewrite lookup_empty in E'|].
    intros [n' [t' s']] Hr'. cbn. apply (Hs n' t' s'). apply Hrows. apply elem_of_app. right. by right.
Qed.
Print Assumptions C40_keeps_the_most_recently_used_partial.

(** Reading a cached file and putting one in count as using it, and nothing else
    changes the times of the other files. *)
Theorem C40_reading_and_inserting_count_as_use : forall now name x c,
  (forall c', try_read now name c = (Some x, c') ->
     ca_files c !! name = Some x /\ ca_files c' = ca_files c /\ last_used c' name = Some now /\
     (forall n, n <> name -> last_used c' n = last_used c n) /\ (tracked c -> tracked c')) /\
  (let c' := cache_insert now name x c in
     ca_files c' = <[name := x]> (ca_files c) /\ last_used c' name = Some now /\
     (forall n, n <> name -> last_used c' n = last_used c n) /\ (tracked c -> tracked c')) /\
  (forall c', try_read now name c = (None, c') ->
     ca_files c !! name = None /\ ca_files c' = ca_files c /\ last_used c' name = None /\
     (forall n, n <> name -> last_used c' n = last_used c n) /\ (tracked c -> tracked c')).
Proof.
  intros now name x c. split; [|split].
  - intros c' E. unfold try_read in E. destruct (ca_files c !! name) as [y|] eqn:Ey; [|done]. injection E as -> <-.
    unfold bump_row, last_used. cbn [ca_files ca_rows]. split; [done|]. split; [done|]. split; [by rewrite lookup_insert|].
    split; [intros n Hn; by rewrite lookup_insert_ne|]. intros [Ht Hs]. split; cbn [ca_files ca_rows].
    + intros n z Ez. destruct (decide (n = name)) as [->|Hn]; [|rewrite lookup_insert_ne by done; by apply Ht].
      rewrite lookup_insert. exists now. congruence.
    + intros n t s E. apply lookup_insert_Some in E as [[_ E]|[_ E]]; [injection E as _ <-; unfold size_of; lia|by eapply Hs].
  - unfold cache_insert, insert_file, bump_row, last_used. cbn [ca_files ca_rows]. split; [done|]. split; [by rewrite lookup_insert|].
    split; [intros n Hn; by rewrite lookup_insert_ne|]. intros [Ht Hs]. split; cbn [ca_files ca_rows].
    + intros n z Ez. destruct (decide (n = name)) as [->|Hn].
      * rewrite lookup_insert in Ez. injection Ez as ->. exists now. by rewrite lookup_insert.
      * rewrite lookup_insert_ne in Ez by done. rewrite lookup_insert_ne by done. by apply Ht.
    + intros n t s E. apply lookup_insert_Some in E as [[_ E]|[_ E]]; [injection E as _ <-; unfold size_of; lia|by eapply Hs].
  - intros c' E. unfold try_read in E. destruct (ca_files c !! name) as [y|] eqn:Ey; [done|]. injection E as <-.
    unfold last_used. cbn [ca_files ca_rows]. split; [done|]. split; [done|]. split; [by rewrite lookup_delete|].
    split; [intros n Hn; by rewrite lookup_delete_ne|]. intros [Ht Hs]. split; cbn [ca_files ca_rows].
    + intros n z Ez. rewrite lookup_delete_ne by congruence. by apply Ht.
    + intros n t s E. apply lookup_delete_Some in E as [_ E]. by eapply Hs.
Qed.
Print Assumptions C40_reading_and_inserting_count_as_use.

(** So pruning never deletes the file that was read or put in last. *)
Theorem C40_the_file_just_used_stays : forall now name x c c' c'' r,
  (0 < ca_limit c)%Z -> (forall n t, n <> name -> last_used c n = Some t -> (t < now)%Z) ->
  (try_read now name c = (Some x, c') \/ c' = cache_insert now name x c) ->
  prunes c' c'' r -> ca_files c'' !! name = Some x /\ last_used c'' name = Some now.
Proof.
  intros now name x c c' c'' r Hl Hold Hc' Hp.
  assert (ca_files c' !! name = Some x /\ ca_limit c' = ca_limit c /\ last_used c' name = Some now /\ (forall n, n <> name -> last_used c' n = last_used c n)) as (Ex & El & Eu & Eo).
  { destruct (C40_reading_and_inserting_count_as_use now name x c) as (R & I & _). destruct Hc' as [E|E].
    - destruct (R _ E) as (? & E' & ? & ? & _). split; [by rewrite E'|]. split; [|done].
      unfold try_read in E. destruct (ca_files c !! name); [|done]. injection E as _ <-. done.
    - rewrite E. cbv zeta in I. destruct I as (E' & ? & ? & _). split; [by rewrite E', lookup_insert|]. split; [done|]. done. }
  apply prunes_cases in Hp as [(-> & _ & _)|(init & k & t & s & rest & [Hperm Hsort] & _ & _ & ->)]; [done| |by rewrite El].
  apply sorted_split in Hsort as (_ & S2 & _).
  assert (forall n v, ca_rows c' !! n = Some v <-> (n, v) ∈ init ++ (k, (t, s)) :: rest) as Hrows.
  { intros n v. rewrite Hperm. by rewrite elem_of_map_to_list. }
  assert (NoDup (init ++ (k, (t, s)) :: rest).*1) as Hnd. { rewrite Hperm. apply NoDup_fst_map_to_list. }
  assert (ca_rows c' !! k = Some (t, s)) as Ek by (apply Hrows; apply elem_of_app; right; left).
  assert (t <= now)%Z as Hle.
  { destruct (decide (k = name)) as [->|Hk]; [unfold last_used in Eu; rewrite Ek in Eu; injection Eu; lia|].
    enough (t < now)%Z by lia. apply (Hold k); [done|]. rewrite <- Eo by done. unfold last_used. by rewrite Ek. }
  cbn [ca_files]. unfold last_used in *. cbn [ca_rows]. split.
  - apply foldr_delete_lookup. split; [done|]. intros Hr. apply elem_of_list_fmap in Hr as ([n [tn sn]] & En & Hr). cbn [fst] in En. subst n.
    assert (ca_rows c' !! name = Some (tn, sn)) as Er by (apply Hrows; apply elem_of_app; right; by right).
    rewrite Er in Eu. injection Eu as ->. specialize (S2 _ Hr). cbn in S2.
    assert (k <> name) as Hk.
    { intros ->. rewrite fmap_app in Hnd. apply NoDup_app in Hnd as (_ & _ & Hnd). cbn [fmap list_fmap] in Hnd. apply NoDup_cons in Hnd as [Hnd _].
      apply Hnd. by apply (elem_of_list_fmap_1 fst) in Hr. }
    enough (t < now)%Z by lia. apply (Hold k); [done|]. rewrite <- Eo by done. by rewrite Ek.
  - destruct (ca_rows c' !! name) as [[tn sn]|] eqn:Er; [|done]. injection Eu as ->.
    enough (filter (fun r => ~ (r.2.1 < t)%Z) (ca_rows c') !! name = Some (now, sn)) as -> by done.
    apply map_filter_lookup_Some. split; [done|]. cbn. lia.
Qed.
Print Assumptions C40_the_file_just_used_stays.

(** The total can exceed the limit, by as much as the last file that is kept. *)
Definition dc_a : bytes := ascii_bytes "a.pack".
Definition dc_b : bytes := ascii_bytes "b.pack".
Definition dc_c : bytes := ascii_bytes "c.pack".
Definition dc_full : cache :=
  mkCache {[dc_a := ascii_bytes "aaa"; dc_b := ascii_bytes "bbb"; dc_c := ascii_bytes "c"]}
    {[dc_a := (10%Z, 3%Z); dc_b := (20%Z, 3%Z); dc_c := (5%Z, 1%Z)]} 4.
Lemma dc_tracked : tracked dc_full.
Proof.
  unfold dc_full. split; cbn [ca_files ca_rows].
  - intros n x E. apply lookup_insert_Some in E as [[<- <-]|[Ha E]]; [by exists 10%Z|].
    apply lookup_insert_Some in E as [[<- <-]|[Hb E]]; [by exists 20%Z|].
    apply lookup_singleton_Some in E as [<- <-]. by exists 5%Z.
  - intros n t s E. apply lookup_insert_Some in E as [[_ E]|[_ E]]; [injection E; lia|].
    apply lookup_insert_Some in E as [[_ E]|[_ E]]; [injection E; lia|].
    apply lookup_singleton_Some in E as [_ E]. injection E; lia.
Qed.
Definition dc_order : list (bytes * (Z * Z)) := [(dc_b, (20, 3)); (dc_a, (10, 3)); (dc_c, (5, 1))]%Z.
Lemma dc_newest : newest_first (ca_rows dc_full) dc_order.
Proof.
  split.
  - apply NoDup_Permutation; [|apply NoDup_map_to_list|].
    + apply (NoDup_fmap_1 fst). apply (bool_decide_unpack _). by vm_compute.
    + intros [n v]. rewrite elem_of_map_to_list. unfold dc_order, dc_full. cbn [ca_rows].
      rewrite !elem_of_cons, elem_of_nil, !lookup_insert_Some, lookup_singleton_Some. split.
      * intros [E|[E|[E|[]]]]; injection E as -> ->; naive_solver.
      * naive_solver.
  - unfold dc_order. repeat constructor; cbn; lia.
Qed.
Lemma prunes_in_order c order : newest_first (ca_rows c) order -> (0 < ca_limit c)%Z -> prunes c (prune_with order c).1 (Ok tt).
Proof.
  intros Ho Hl. exists order. split; [done|]. unfold prune_with.
  destruct (scan (ca_limit c) 0 None order) as [[o rest]|] eqn:Es; [|done].
  by apply scan_some in Es as [(_ & _ & ?)|(init & k & t & s & -> & -> & Hlt)]; [lia|].
Qed.
Theorem C40_refuted_total_within_the_limit :
  exists c c', (0 < ca_limit c)%Z /\ tracked c /\ prunes c c' (Ok tt) /\ (ca_limit c < total (ca_files c'))%Z.
Proof.
  exists dc_full, (prune_with dc_order dc_full).1. split; [done|]. split; [apply dc_tracked|]. split; [|by vm_compute].
  apply prunes_in_order; [apply dc_newest|done].
Qed.
Print Assumptions C40_refuted_total_within_the_limit.

(** [dc_full] after reading the file used longest ago, at time 30. *)
Example C40_just_used_witness : exists c' c'',
  (forall n t, n <> dc_c -> last_used dc_full n = Some t -> (t < 30)%Z) /\
  try_read 30 dc_c dc_full = (Some (ascii_bytes "c"), c') /\
  prunes c' c'' (Ok tt) /\ ca_files c'' !! dc_c = Some (ascii_bytes "c") /\ ca_files c'' !! dc_a = None.
Proof.
  set (c' := (try_read 30 dc_c dc_full).2).
  set (order := [(dc_c, (30, 1)); (dc_b, (20, 3)); (dc_a, (10, 3))]%Z).
  exists c', (prune_with order c').1. split.
  { intros n t _ E. unfold last_used, dc_full in E. cbn [ca_rows] in E. apply fmap_Some in E as ([t' s] & E & ->). cbn [fst].
    apply lookup_insert_Some in E as [[_ E]|[_ E]]; [injection E; lia|].
    apply lookup_insert_Some in E as [[_ E]|[_ E]]; [injection E; lia|].
    apply lookup_singleton_Some in E as [_ E]. injection E; lia. }
  split; [by vm_compute|]. split; [|by vm_compute].
  apply prunes_in_order; [|done]. split.
  - apply NoDup_Permutation; [|apply NoDup_map_to_list|].
    + apply (NoDup_fmap_1 fst). apply (bool_decide_unpack _). by vm_compute.
    + intros [n v]. rewrite elem_of_map_to_list.
      assert (ca_rows c' = <[dc_c := (30, 1)%Z]> (ca_rows dc_full)) as -> by (by vm_compute).
      unfold order, dc_full. cbn [ca_rows].
      rewrite !elem_of_cons, elem_of_nil, !lookup_insert_Some, lookup_singleton_Some. split.
      * intros [E|[E|[E|[]]]]; injection E as -> ->; naive_solver.
      * naive_solver.
  - unfold order. repeat constructor; cbn; lia.
Qed.

(** With a limit of zero (or one that does not fit an [i64]) every file known to the
    database is deleted, and every read or write that comes by the cache fails. *)
Theorem C40_no_room_at_all : forall c c' r, (ca_limit c <= 0)%Z -> tracked c -> prunes c c' r ->
  r = Err /\ ca_files c' = ∅.
Proof.
  intros c c' r Hl [Ht _] (order & [Hp _] & E). unfold prune_with in E.
  assert (scan (ca_limit c) 0 None order = Some (None, order)) as Es.
  { destruct order; cbn [scan]; destruct (Z.ltb_spec 0 (ca_limit c)); first [lia|done]. }
  rewrite Es in E. injection E as <- <-. split; [done|]. cbn [ca_files]. apply map_eq. intros n. rewrite lookup_empty.
  destruct (foldr _ _ _ !! n) as [x|] eqn:El; [|done]. apply foldr_delete_lookup in El as [El Hn].
  destruct (Ht n x El) as [t Er]. apply elem_of_map_to_list in Er. rewrite <- Hp in Er. destruct Hn.
  by apply (elem_of_list_fmap_1 fst) in Er.
Qed.
Print Assumptions C40_no_room_at_all.

(** A cache with three files and room for two: the hypotheses hold, one file goes. *)
Example C40_witness : (0 < ca_limit dc_full)%Z /\ tracked dc_full /\
  exists c', prunes dc_full c' (Ok tt) /\ ca_files c' !! dc_c = None /\ is_Some (ca_files c' !! dc_a) /\ is_Some (ca_files c' !! dc_b).
Proof.
  split; [done|]. split; [apply dc_tracked|]. exists (prune_with dc_order dc_full).1. split.
  - apply prunes_in_order; [apply dc_newest|done].
  - split; [by vm_compute|]. split; apply (bool_decide_unpack _); by vm_compute.
Qed.

(** ** C39: what the theorems speak about *)

(** A repository without a cache: what an operation puts out, and does. *)
Definition plain (o : op) (works : bool) (repo : gmap bytes bytes) : out * gmap bytes bytes :=
  match o with
  | Read n => (match (if works then repo !! n else None) with Some x => Got x | None => Failed end, repo)
  | Put n x => if works then (Done, <[n := x]> repo) else (Failed, repo)
  | Remove n => match (if works then repo !! n else None) with Some _ => (Done, delete n repo) | None => (Failed, repo) end
  | SetLimit _ => (Done, repo)
  end.
(** When the process is stopped, the operation has been carried out or not. *)
Definition plain_op (o : op) (works : bool) (repo : gmap bytes bytes) (out : option out) (repo' : gmap bytes bytes) : Prop :=
  match out with
  | Some x => plain o works repo = (x, repo')
  | None => repo' = repo \/ repo' = (plain o works repo).2
  end.

(** What happened: an operation, whether the repository answered, what came out. *)
Record happening := mkHap { h_op : op; h_works : bool; h_out : option out }.

Inductive plain_run : list happening -> gmap bytes bytes -> gmap bytes bytes -> Prop :=
| plain_nil r : plain_run [] r r
| plain_cons h hs r r1 r' : plain_op (h_op h) (h_works h) r (h_out h) r1 -> plain_run hs r1 r' -> plain_run (h :: hs) r r'.
Inductive cached_run : list happening -> cached -> cached -> Prop :=
| cached_nil s : cached_run [] s s
| cached_cons b h hs s s1 s' : cached_op b (h_op h) (h_works h) s (h_out h) s1 -> cached_run hs s1 s' -> cached_run (h :: hs) s s'.

(** The same operations and outputs; the cache may answer for a repository that does not. *)
Definition same_seen (h h' : happening) : Prop :=
  h_op h' = h_op h /\ h_out h' = h_out h /\ (h_works h = true -> h_works h' = true).

(** A name says what the content is, as names made from hashes do. *)
Definition op_fine (truth : bytes -> bytes) (o : op) : Prop :=
  match o with Put n x => x = truth n | SetLimit z => (0 < z)%Z | _ => True end.
Definition truthful (truth : bytes -> bytes) (m : gmap bytes bytes) : Prop := forall n x, m !! n = Some x -> x = truth n.

(** *** Proofs *)

Lemma prunes_ok c c' r : (0 < ca_limit c)%Z -> prunes c c' r -> r = Ok tt /\ ca_files c' ⊆ ca_files c /\ ca_limit c' = ca_limit c.
Proof.
  intros Hl Hp. apply prunes_cases in Hp as [(-> & -> & _)|(init & k & t & s & rest & _ & -> & _ & ->)]; [done| |done].
  split; [done|]. split; [|done]. cbn [ca_files]. apply map_subseteq_spec. intros n x E. by apply foldr_delete_lookup in E as [? _].
Qed.

Definition in_step (truth : bytes -> bytes) (s : cached) : Prop :=
  (0 < ca_limit (cd_cache s))%Z /\ ca_files (cd_cache s) ⊆ cd_repo s /\ truthful truth (cd_repo s).

Lemma try_read_cases now n c r c' : try_read now n c = (r, c') -> r = ca_files c !! n /\ ca_files c' = ca_files c /\ ca_limit c' = ca_limit c.
Proof. unfold try_read. destruct (ca_files c !! n); by intros [= <- <-]. Qed.

Lemma truthful_insert (truth : bytes -> bytes) m n x : truthful truth m -> x = truth n -> truthful truth (<[n := x]> m).
Proof. intros Hm Hx k y E. apply lookup_insert_Some in E as [[<- <-]|[_ E]]; [done|by apply Hm]. Qed.
Lemma truthful_sub_insert (truth : bytes -> bytes) (m m' : gmap bytes bytes) n x : m ⊆ m' -> truthful truth m' -> x = truth n -> m ⊆ <[n := x]> m'.
Proof.
  intros Hs Ht Hx. apply map_subseteq_spec. intros k y E. eapply lookup_weaken in E; [|exact Hs]. destruct (decide (k = n)) as [->|Hk].
  - rewrite lookup_insert. rewrite (Ht n y E). by rewrite Hx.
  - by rewrite lookup_insert_ne.
Qed.
Lemma truthful_delete (truth : bytes -> bytes) m n : truthful truth m -> truthful truth (delete n m).
Proof. intros Hm k y E. apply lookup_delete_Some in E as [_ E]. by apply Hm. Qed.

Lemma cached_op_sim (truth : bytes -> bytes) b o works s out s' : cached_op b o works s out s' -> op_fine truth o -> in_step truth s ->
  in_step truth s' /\ exists works', (works = true -> works' = true) /\ plain_op o works' (cd_repo s) out (cd_repo s').
Proof.
  intros Hop Hf (Hl & Hsub & Ht). unfold in_step.
  assert (forall now n c1, (if b then c1 = cd_cache s else try_read now n (cd_cache s) = (None, c1)) ->
    ca_files c1 = ca_files (cd_cache s) /\ ca_limit c1 = ca_limit (cd_cache s)) as Hc1.
  { intros now n c1. destruct b; [by intros ->|]. intros E. by apply try_read_cases in E as (_ & -> & ->). }
  destruct Hop; cbn [cd_repo cd_cache on_cache ca_files ca_limit insert_file delete_file evict op_fine] in *.
  - apply try_read_cases in H0 as (E & -> & ->). split; [done|]. exists true. split; [done|]. cbn.
    by rewrite (lookup_weaken _ _ _ _ (eq_sym E) Hsub).
  - split; [done|]. exists works. split; [done|]. by left.
  - destruct (Hc1 _ _ _ H) as [-> ->]. split; [done|]. exists works. split; [done|]. cbn. by rewrite H0.
  - destruct (Hc1 _ _ _ H) as [-> ->]. split; [|exists works; split; [done|by left]]. split; [done|]. split; [|done].
    by apply insert_subseteq_l.
  - destruct (Hc1 _ _ _ H) as [Ef El].
    apply prunes_ok in H2 as (-> & Hs2 & ->); [|unfold cache_insert, bump_row, insert_file; cbn [ca_limit]; by rewrite El].
    unfold cache_insert, bump_row, insert_file in *. cbn [ca_limit ca_files] in *. rewrite El, Ef in *.
    split; [|exists works; split; [done|]; cbn; by rewrite H0, H1]. split; [done|]. split; [|done].
    etrans; [exact Hs2|]. by apply insert_subseteq_l.
  - split; [done|]. by exists false.
  - split; [done|]. exists works. split; [done|]. by left.
  - split; [|exists true; split; [done|by right]]. split; [done|]. split; [by eapply truthful_sub_insert|by apply truthful_insert].
  - split; [|exists true; split; [done|by right]]. split; [done|]. split; [|by apply truthful_insert].
    apply insert_mono. done.
  - apply prunes_ok in H as (-> & Hs2 & ->); [|done]. cbn [cache_insert bump_row insert_file ca_limit ca_files] in *.
    split; [|by exists true]. split; [done|]. split; [|by apply truthful_insert]. etrans; [exact Hs2|]. by apply insert_mono.
  - split; [|exists works; split; [done|by left]]. split; [done|]. split; [|done]. etrans; [apply delete_subseteq|done].
  - split; [|exists works; split; [done|by left]]. split; [done|]. split; [|done]. etrans; [apply delete_subseteq|done].
  - split; [|exists true; split; [done|right; cbn; by rewrite H]]. split; [done|]. split; [by apply delete_mono|by apply truthful_delete].
  - split; [|exists works; split; [done|cbn; by rewrite H]]. split; [done|]. split; [|done]. etrans; [apply delete_subseteq|done].
  - split; [|exists true; split; [done|cbn; by rewrite H]]. split; [done|]. split; [by apply delete_mono|by apply truthful_delete].
  - split; [done|]. exists works. split; [done|]. done.
Qed.

(** Whatever one user does, with the process stopped wherever it may be, with whatever
    sizes of cache and whatever the clock says: a repository without cache could have
    done the same, with the same outputs and the same files in the end, failing no more
    often.  And the cache has no file that the repository does not. *)
Theorem C39_cache_is_transparent_partial : forall truth hs s s',
  cached_run hs s s' -> Forall (fun h => op_fine truth (h_op h)) hs ->
  (0 < ca_limit (cd_cache s))%Z -> ca_files (cd_cache s) ⊆ cd_repo s -> truthful truth (cd_repo s) ->
  ca_files (cd_cache s') ⊆ cd_repo s' /\
  exists hs', Forall2 same_seen hs hs' /\ plain_run hs' (cd_repo s) (cd_repo s').
Proof.
  intros truth hs s s' Hr Hf Hl Hs Ht. assert (in_step truth s) as Hi by done. clear Hl Hs Ht.
  induction Hr as [s|b h hs s s1 s' Ho Hr IH].
  - split; [apply Hi|]. exists []. split; [constructor|constructor].
  - inversion_clear Hf as [|? ? H1 H2]. destruct (cached_op_sim truth _ _ _ _ _ _ Ho H1 Hi) as (Hi1 & w & Hw & Hp).
    destruct (IH H2 Hi1) as (Hsub & hs' & Hss & Hpr). split; [done|].
    exists (mkHap (h_op h) w (h_out h) :: hs'). split; [by constructor|]. econstructor; [exact Hp|exact Hpr].
Qed.
Print Assumptions C39_cache_is_transparent_partial.

(** A file removed is gone from the cache as well, and reading it fails. *)
Corollary C39_removed_files_are_gone : forall truth hs b n s s1 s' works,
  cached_run hs s s1 -> cached_op b (Remove n) works s1 (Some Done) s' -> Forall (fun h => op_fine truth (h_op h)) hs ->
  (0 < ca_limit (cd_cache s))%Z -> ca_files (cd_cache s) ⊆ cd_repo s -> truthful truth (cd_repo s) ->
  ca_files (cd_cache s') !! n = None /\ cd_repo s' !! n = None /\
  forall b' w out s'', cached_op b' (Read n) w s' (Some out) s'' -> out = Failed.
Proof.
  intros truth hs b n s s1 s' works Hr Ho Hf Hl Hs Ht.
  assert (cd_repo s' !! n = None) as Hn.
  { inversion Ho; subst; cbn [cd_repo]. by rewrite lookup_delete. }
  assert (cached_run (hs ++ [mkHap (Remove n) works (Some Done)]) s s') as Hr'.
  { clear -Hr Ho. induction Hr; [|by econstructor; eauto]. econstructor; [exact Ho|constructor]. }
  destruct (C39_cache_is_transparent_partial truth _ s s' Hr') as (Hsub & hs' & _); try done.
  { apply Forall_app. split; [done|]. by constructor. }
  assert (ca_files (cd_cache s') !! n = None) as Hc.
  { destruct (ca_files (cd_cache s') !! n) as [x|] eqn:E; [|done]. apply (lookup_weaken _ _ _ _ E) in Hsub. congruence. }
  split; [done|]. split; [done|]. intros b' w out s'' Hop.
  inversion Hop; subst; try done.
  - match goal with H : try_read _ _ _ = _ |- _ => apply try_read_cases in H as (E & _) end. congruence.
  - congruence.
Qed.
Print Assumptions C39_removed_files_are_gone.

(** Two packs are written, one is pushed out of the cache, fetched again, and read from
    the cache while the repository does not answer; one is removed. *)
Definition dc_truth (n : bytes) : bytes := if decide (n = dc_a) then ascii_bytes "aaa" else ascii_bytes "bbb".
Definition dc_hs : list happening :=
  [mkHap (Put dc_a (ascii_bytes "aaa")) true (Some Done); mkHap (Put dc_b (ascii_bytes "bbb")) true (Some Done);
   mkHap (Read dc_a) true (Some (Got (ascii_bytes "aaa"))); mkHap (Read dc_a) false (Some (Got (ascii_bytes "aaa")));
   mkHap (Read dc_b) false (Some Failed); mkHap (Remove dc_a) true (Some Done); mkHap (Read dc_a) true (Some Failed)].
Definition dc_zero : cached := mkCached ∅ (mkCache ∅ ∅ 3).
Lemma prunes_by c order : NoDup order.*1 -> length order = size (ca_rows c) -> Forall (fun p => ca_rows c !! p.1 = Some p.2) order ->
  StronglySorted (fun a b => b.2.1 <= a.2.1)%Z order -> (0 < ca_limit c)%Z -> prunes c (prune_with order c).1 (Ok tt).
Proof.
  intros Hnd Hlen Hall Hs Hl. apply prunes_in_order; [|done]. split; [|done].
  apply submseteq_Permutation_length_eq.
  - change (length (map_to_list (ca_rows c))) with (size (ca_rows c)). by rewrite Hlen.
  - apply NoDup_submseteq; [by apply NoDup_fmap_1 in Hnd|]. intros [n v] Hin. apply elem_of_map_to_list. rewrite Forall_forall in Hall. by apply (Hall _ Hin).
Qed.
Definition dc_s1 : cached :=
  mkCached (<[dc_a := ascii_bytes "aaa"]> (cd_repo dc_zero))
    (prune_with [(dc_a, (1, 3))]%Z (cache_insert 1 dc_a (ascii_bytes "aaa") (cd_cache dc_zero))).1.
Definition dc_s2 : cached :=
  mkCached (<[dc_b := ascii_bytes "bbb"]> (cd_repo dc_s1))
    (prune_with [(dc_b, (2, 3)); (dc_a, (1, 3))]%Z (cache_insert 2 dc_b (ascii_bytes "bbb") (cd_cache dc_s1))).1.
Definition dc_s3 : cached :=
  mkCached (cd_repo dc_s2)
    (prune_with [(dc_a, (3, 3)); (dc_b, (2, 3))]%Z (cache_insert 3 dc_a (ascii_bytes "aaa") (try_read 3 dc_a (cd_cache dc_s2)).2)).1.
Definition dc_s4 : cached := mkCached (cd_repo dc_s3) (try_read 4 dc_a (cd_cache dc_s3)).2.
Definition dc_s5 : cached := mkCached (cd_repo dc_s4) (try_read 5 dc_b (cd_cache dc_s4)).2.
Definition dc_s6 : cached := mkCached (delete dc_a (cd_repo dc_s5)) (evict dc_a (cd_cache dc_s5)).
Definition dc_s7 : cached := mkCached (cd_repo dc_s6) (try_read 6 dc_a (cd_cache dc_s6)).2.
Lemma try_read_fst now n c r : ca_files c !! n = r -> try_read now n c = (r, (try_read now n c).2).
Proof. intros <-. unfold try_read. by destruct (ca_files c !! n). Qed.
Local Ltac small := first [by vm_compute | apply (bool_decide_unpack _); by vm_compute | repeat constructor; cbn; lia].
Example C39_witness : cached_run dc_hs dc_zero dc_s7 /\ Forall (fun h => op_fine dc_truth (h_op h)) dc_hs /\
  (0 < ca_limit (cd_cache dc_zero))%Z /\ ca_files (cd_cache dc_zero) ⊆ cd_repo dc_zero /\ truthful dc_truth (cd_repo dc_zero).
Proof.
  split.
  - unfold dc_hs.
    eapply (cached_cons false _ _ _ dc_s1).
    { apply (put_done false dc_a (ascii_bytes "aaa") 1 _ _ (Ok tt)). apply prunes_by; small. }
    eapply (cached_cons false _ _ _ dc_s2).
    { apply (put_done false dc_b (ascii_bytes "bbb") 2 _ _ (Ok tt)). apply prunes_by; small. }
    eapply (cached_cons false _ _ _ dc_s3).
    { apply (read_fetch false dc_a true 3 _ (try_read 3 dc_a (cd_cache dc_s2)).2 (ascii_bytes "aaa") _ (Ok tt)); [apply try_read_fst; small|done|small|].
      apply prunes_by; small. }
    eapply (cached_cons false _ _ _ dc_s4). { apply (read_hit false dc_a false 4); [done|]. apply try_read_fst. small. }
    eapply (cached_cons false _ _ _ dc_s5). { apply (read_missing false dc_b false 5); [|done]. apply try_read_fst. small. }
    eapply (cached_cons false _ _ _ dc_s6). { apply (remove_done false dc_a _ (ascii_bytes "aaa")). small. }
    eapply (cached_cons false _ _ _ dc_s7). { apply (read_missing false dc_a true 6); [apply try_read_fst; small|]. small. }
    constructor.
  - split; [repeat constructor|]. split; [done|]. split; [done|]. intros n x E. cbn [cd_repo dc_zero] in E. by apply lookup_empty_Some in E.
Qed.

(** ** Many users at once *)

Definition held (w : world) (n x : bytes) : Prop :=
  (exists r, wd_repos w r !! n = Some x) \/ wd_files w !! n = Some x \/
  exists t, (exists r, wd_doing w t = Fetched r n x) \/ wd_doing w t = Written n x.

Lemma set_cases {A} (f : nat -> A) i a j b : set f i a j = b -> f j = b \/ (j = i /\ a = b).
Proof. unfold set. case_decide; auto. Qed.

Lemma wstep_held w e w' n x : wstep w e w' -> held w' n x -> held w n x \/ exists r, e = Stored r n x.
Proof.
  intros Hs Hh.
  destruct Hs; unfold held in *; cbn [wd_repos wd_files wd_doing] in *; try (by left);
  destruct Hh as [[r' Hr]|[Hf|(t' & [(r' & Hd)|Hd])]];
  try (apply set_cases in Hd as [Hd|[_ Hd]]; [|try discriminate Hd]);
  try (rewrite lookup_insert_Some in Hf; destruct Hf as [[<- <-]|[_ Hf]]);
  try (rewrite lookup_delete_Some in Hf; destruct Hf as [_ Hf]);
  try (by eauto 10).
  - injection Hd as -> -> ->. eauto.
  - unfold set in Hr. case_decide; [|eauto 6]. apply lookup_insert_Some in Hr as [[<- <-]|[_ Hr]]; eauto 6.
  - injection Hd as -> ->. eauto.
  - unfold set in Hr. case_decide; [|eauto 6]. apply lookup_delete_Some in Hr as [_ Hr]. eauto 6.
Qed.
Lemma wstep_returned w r n x w' : wstep w (Returned r n x) w' -> held w n x.
Proof. inversion 1; subst; unfold held; eauto 10. Qed.

Lemma wrun_held w es w' : wrun w es w' -> forall n x,
  (held w' n x -> held w n x \/ exists r, Stored r n x ∈ es) /\
  ((exists r, Returned r n x ∈ es) -> held w n x \/ exists r, Stored r n x ∈ es).
Proof.
  induction 1 as [w|w e w1 es w' Hs Hr IH]; intros n x.
  - split; [by left|]. intros [r Hin]. by apply elem_of_nil in Hin.
  - destruct (IH n x) as [IH1 IH2].
    assert (held w1 n x \/ (exists r, Stored r n x ∈ es) -> held w n x \/ exists r, Stored r n x ∈ e :: es) as Hgo.
    { intros [Hh|[r Hin]]; [|right; exists r; by right]. apply (wstep_held _ _ _ _ _ Hs) in Hh as [Hh|[r ->]]; [by left|].
      right. exists r. left. }
    split; [intros Hh; apply Hgo; auto|]. intros [r Hin]. apply elem_of_cons in Hin as [<-|Hin].
    + left. by eapply wstep_returned.
    + apply Hgo, IH2. eauto.
Qed.

(** However the steps of any number of threads and processes interleave, with any number
    of repositories behind the cache: a read returns bytes that were stored under that
    name.  Since names say what the content is, they are the right ones; and the cache
    never holds anything else. *)
Theorem C39_reads_return_what_was_stored : forall truth w es w',
  wrun w es w' -> (forall n x, held w n x -> x = truth n) ->
  (forall r n x, Stored r n x ∈ es -> x = truth n) ->
  (forall r n x, Returned r n x ∈ es -> x = truth n /\ (held w n x \/ exists r', Stored r' n x ∈ es)) /\
  truthful truth (wd_files w') /\ forall r, truthful truth (wd_repos w' r).
Proof.
  intros truth w es w' Hr Hw Hes. pose proof (wrun_held w es w' Hr) as Hh. split; [|split].
  - intros r n x Hin. destruct (Hh n x) as [_ H2]. destruct (H2 (ex_intro _ r Hin)) as [H|[r' H]].
    + split; [by apply Hw|by left].
    + split; [by eapply Hes|right; eauto].
  - intros n x E. destruct (Hh n x) as [H1 _]. destruct H1 as [H|[r H]]; [unfold held; eauto|by apply Hw|by eapply Hes].
  - intros r n x E. destruct (Hh n x) as [H1 _]. destruct H1 as [H|[r' H]]; [unfold held; eauto|by apply Hw|by eapply Hes].
Qed.
Print Assumptions C39_reads_return_what_was_stored.

(** But a file removed while someone is fetching it stays in the cache: afterwards, with
    no one doing anything, no repository has it and reads still return it. *)
Definition dc_world (f : gmap bytes bytes) : world := mkWorld (fun r => if decide (r = 0) then f else ∅) ∅ (fun _ => Idle).
Theorem C39_refuted_removed_while_read : exists truth w es w' n x,
  (forall k y, held w k y -> y = truth k) /\ (forall r k y, Stored r k y ∈ es -> y = truth k) /\
  wrun w es w' /\ (forall t, wd_doing w' t = Idle) /\ Removed 0 n ∈ es /\
  (forall r, wd_repos w' r !! n = None) /\ wd_files w' !! n = Some x.
Proof.
  exists (fun _ => ascii_bytes "aaa"), (dc_world {[dc_a := ascii_bytes "aaa"]}).
  exists [Silent; Silent; Silent; Removed 0 dc_a; Returned 0 dc_a (ascii_bytes "aaa")]. eexists. exists dc_a, (ascii_bytes "aaa").
  split.
  { intros k y [[r Hk]|[Hk|(t & [[r Hk]|Hk])]]; try done. unfold dc_world in Hk. cbn [wd_repos] in Hk. case_decide.
    - by apply lookup_singleton_Some in Hk as [_ <-]. - by apply lookup_empty_Some in Hk. }
  split. { intros r k y Hin. repeat (apply elem_of_cons in Hin as [Hin|Hin]; [done|]). by apply elem_of_nil in Hin. }
  split.
  { econstructor; [by apply (w_miss _ 1 0 dc_a)|]. econstructor; [by apply (w_fetch _ 1 0 dc_a (ascii_bytes "aaa"))|].
    econstructor; [by apply (w_evict _ 2 0 dc_a)|]. econstructor; [by apply (w_remove _ 2 0 dc_a)|].
    econstructor; [by apply (w_insert _ 1 0 dc_a (ascii_bytes "aaa"))|]. constructor. }
  cbn [wd_doing wd_repos wd_files dc_world]. split.
  { intros t. unfold set. repeat case_decide; done. }
  split; [do 3 right; left|]. split; [|by rewrite lookup_insert].
  intros r. unfold set. repeat case_decide; subst; try done.
Qed.
Print Assumptions C39_refuted_removed_while_read.

(** And two repositories on one machine share the cache: what one of them does not have
    (any more) is read from it when the other has it, even with one user. *)
Theorem C39_refuted_two_repositories : exists truth w es w' n x,
  (forall k y, held w k y -> y = truth k) /\ (forall r k y, Stored r k y ∈ es -> y = truth k) /\
  wrun w es w' /\ (forall r k y, Stored r k y ∉ es) /\ wd_files w = ∅ /\ (forall t, wd_doing w t = Idle) /\
  wd_repos w 1 !! n = None /\ Returned 1 n x ∈ es.
Proof.
  exists (fun _ => ascii_bytes "aaa"), (dc_world {[dc_a := ascii_bytes "aaa"]}).
  exists [Silent; Silent; Returned 0 dc_a (ascii_bytes "aaa"); Returned 1 dc_a (ascii_bytes "aaa")]. eexists. exists dc_a, (ascii_bytes "aaa").
  split.
  { intros k y [[r Hk]|[Hk|(t & [[r Hk]|Hk])]]; try done. unfold dc_world in Hk. cbn [wd_repos] in Hk. case_decide.
    - by apply lookup_singleton_Some in Hk as [_ <-]. - by apply lookup_empty_Some in Hk. }
  split. { intros r k y Hin. repeat (apply elem_of_cons in Hin as [Hin|Hin]; [done|]). by apply elem_of_nil in Hin. }
  split.
  { econstructor; [by apply (w_miss _ 1 0 dc_a)|]. econstructor; [by apply (w_fetch _ 1 0 dc_a (ascii_bytes "aaa"))|].
    econstructor; [by apply (w_insert _ 1 0 dc_a (ascii_bytes "aaa"))|]. econstructor; [|constructor].
    apply (w_hit _ 1 1 dc_a); [done|]. cbn [wd_files]. by rewrite lookup_insert. }
  split. { intros r k y Hin. repeat (apply elem_of_cons in Hin as [Hin|Hin]; [done|]). by apply elem_of_nil in Hin. }
  split; [done|]. split; [done|]. split; [done|]. do 3 right. left.
Qed.
Print Assumptions C39_refuted_two_repositories.
