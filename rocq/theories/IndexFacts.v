From Verif Require Import Base OMap Cbor CborFacts Formats FormatsFacts Hashing Pack PackFacts Index.

(** ** Files *)

Lemma index_from_reader_ok H zdec ix z :
  index_wf ix -> zstream_of zdec z (enc_index ix) ->
  index_from_reader H zdec (index_file z) = Ok (ix, index_id H ix).
Proof.
  intros Hw Hz. unfold index_from_reader, index_file. rewrite check_magic_ok. cbn [rbind].
  specialize (Hz []). rewrite app_nil_r in Hz. rewrite Hz. cbn [fst].
  rewrite (from_hashing_reader_ok H _ _ _ ix) by by apply dec_enc_index. done.
Qed.


(** ** Combining *)

Lemma fold_os_insert l s :
  os_sorted s -> os_sorted (foldl (fun s k => os_insert k s) s l) /\
  forall x, x ∈ foldl (fun s k => os_insert k s) s l <-> x ∈ s \/ x ∈ l.
Proof.
  revert s; induction l as [|k l IH]; intros s Hs; cbn [foldl].
  - split; [done|]. set_solver.
  - destruct (IH _ (os_insert_sorted k s Hs)) as [H1 H2]. split; [done|].
    intros x. rewrite H2, elem_of_os_insert, elem_of_cons by done. naive_solver.
Qed.

Definition results_wf (rs : results) : Prop := os_sorted (rs_superseded rs) /\ om_sorted (rs_loaded rs).

Lemma results_of_ok rs files :
  results_wf rs -> NoDup (map fst files) ->
  (forall f, f ∈ files -> om_get f.1 (rs_loaded rs) = None) ->
  exists rs', results_of rs files = Ok rs' /\ results_wf rs' /\
    (forall x, x ∈ rs_superseded rs' <-> x ∈ rs_superseded rs \/ exists f, f ∈ files /\ x ∈ ix_supersedes f.2) /\
    (forall k v, om_get k (rs_loaded rs') = Some v <->
       om_get k (rs_loaded rs) = Some v \/ exists f, f ∈ files /\ f.1 = k /\ ix_packs f.2 = v).
Proof.
  revert rs; induction files as [|f files IH]; intros rs [Hs Hl] Hnd Hfree; cbn [results_of].
  { exists rs. split; [done|]. split; [by split|]. split; [|intros]; set_solver. }
  cbn [map] in Hnd. apply NoDup_cons in Hnd as [Hn Hnd].
  unfold results_add. rewrite (Hfree f) by set_solver. cbn [ensure rbind].
  destruct (fold_os_insert (ix_supersedes f.2) _ Hs) as [Hs' Hse].
  destruct (IH (mkResults (foldl (fun s k => os_insert k s) (rs_superseded rs) (ix_supersedes f.2))
    (om_insert f.1 (ix_packs f.2) (rs_loaded rs)))) as (rs' & E & Hw & H1 & H2);
    [split; [exact Hs'|by apply om_insert_sorted]|done| |].
  { intros f' Hin. cbn [rs_loaded]. rewrite om_get_insert_ne; [apply Hfree; set_solver|done|].
    intros Eq. apply Hn. rewrite Eq. by apply elem_of_list_fmap_1. }
  exists rs'. split; [exact E|]. split; [done|]. cbn [rs_superseded rs_loaded] in *. split.
  - intros x. rewrite H1, Hse. setoid_rewrite elem_of_cons. naive_solver.
  - intros k v. rewrite H2, om_get_insert by done. setoid_rewrite elem_of_cons.
    destruct (decide (f.1 = k)) as [<-|Hne].
    + rewrite (Hfree f) by set_solver. split; [|naive_solver].
      intros [[= <-]|(f' & Hin & Ek & Ev)]; naive_solver.
    + naive_solver.
Qed.

Lemma results_of_err rs files :
  results_wf rs -> (~ NoDup (map fst files) \/ exists f, f ∈ files /\ om_get f.1 (rs_loaded rs) <> None) ->
  results_of rs files = Err.
Proof.
  revert rs; induction files as [|f files IH]; intros rs [Hs Hl] Hbad; cbn [results_of].
  { destruct Hbad as [Hn|(f & Hin & _)]; [destruct Hn; constructor|by apply elem_of_nil in Hin]. }
  unfold results_add. destruct (om_get f.1 (rs_loaded rs)) eqn:E; [done|]. cbn [ensure rbind].
  apply IH. { split; [by apply fold_os_insert|by apply om_insert_sorted]. }
  cbn [rs_loaded]. destruct Hbad as [Hn|(f' & [->|Hin]%elem_of_cons & Hf)].
  - destruct (decide (NoDup (map fst files))) as [Hnd|]; [|by left]. right.
    assert (f.1 ∈ map fst files) as Hin.
    { destruct (decide (f.1 ∈ map fst files)); [done|]. destruct Hn. by constructor. }
    apply elem_of_list_fmap in Hin as (f' & Ef & Hin). exists f'. split; [done|].
    by rewrite <- Ef, om_get_insert_eq.
  - done.
  - right. exists f'. split; [done|]. rewrite om_get_insert by done. by case_decide.
Qed.

Lemma fold_om_remove {A} (sup : list oid) (m : list (bytes * A)) :
  om_sorted m -> om_sorted (foldl (fun l s => om_remove s l) m sup) /\
  forall k v, om_get k (foldl (fun l s => om_remove s l) m sup) = Some v <->
    om_get k m = Some v /\ k ∉ sup.
Proof.
  revert m; induction sup as [|s sup IH]; intros m Hs; cbn [foldl].
  - split; [done|]. set_solver.
  - assert (om_sorted (om_remove s m)) as Hs' by by apply om_filter_sorted.
    destruct (IH _ Hs') as [H1 H2]. split; [done|]. intros k v. rewrite H2.
    rewrite om_get_elem by done. unfold om_remove. rewrite elem_of_list_filter.
    rewrite <- om_get_elem by done. simpl. set_solver.
Qed.

Lemma om_append_spec {A} (m m' : list (bytes * A)) :
  om_sorted m -> om_sorted m' -> om_sorted (om_append m m') /\
  forall k, om_get k (om_append m m') = match om_get k m' with Some v => Some v | None => om_get k m end.
Proof.
  unfold om_append. revert m; induction m' as [|[k v] m' IH]; intros m Hm Hm'; cbn [foldl].
  { done. }
  destruct Hm' as [Hall Hm']. cbn [fst snd].
  destruct (IH (om_insert k v m) (om_insert_sorted k v m Hm) Hm') as [H1 H2].
  split; [done|]. intros j. rewrite H2, om_get_insert by done. cbn [om_get].
  destruct (decide (k = j)) as [<-|Hne].
  - rewrite (proj2 (bytes_cmp_eq k k) eq_refl).
    destruct (om_get k m') eqn:E; [|done]. apply om_get_elem in E; [|done].
    rewrite Forall_forall in Hall. apply Hall in E. by apply bytes_lt_irrefl in E.
  - destruct (bytes_cmp j k) eqn:Ec.
    + apply bytes_cmp_eq in Ec. congruence.
    + destruct (om_get j m') eqn:E; [|done]. apply om_get_elem in E; [|done].
      rewrite Forall_forall in Hall. apply Hall in E. simpl in E.
      destruct (bytes_lt_irrefl j). by eapply bytes_lt_trans.
    + done.
Qed.

Lemma fold_om_append {B} (kept : list (B * list (bytes * manifest))) acc :
  om_sorted acc -> Forall (fun kv => om_sorted kv.2) kept ->
  om_sorted (foldl (fun m kv => om_append m kv.2) acc kept) /\
  (forall p m, om_get p (foldl (fun m kv => om_append m kv.2) acc kept) = Some m ->
     om_get p acc = Some m \/ exists kv, kv ∈ kept /\ om_get p kv.2 = Some m) /\
  (forall p, (om_get p acc <> None \/ exists kv, kv ∈ kept /\ om_get p kv.2 <> None) ->
     om_get p (foldl (fun m kv => om_append m kv.2) acc kept) <> None).
Proof.
  revert acc; induction kept as [|[b ps] kept IH]; intros acc Hacc Hall; cbn [foldl].
  { split; [done|]. split; [auto|]. intros p [?|(kv & Hin & _)]; [done|]. by apply elem_of_nil in Hin. }
  apply Forall_cons in Hall as [Hps Hall]. cbn [snd] in *.
  destruct (om_append_spec acc ps Hacc Hps) as [Ha Hg].
  destruct (IH _ Ha Hall) as (H1 & H2 & H3). split; [done|]. split.
  - intros p m Hp. apply H2 in Hp as [Hp|(kv & Hin & Hp)]; [|right; exists kv; set_solver].
    rewrite Hg in Hp. destruct (om_get p ps) eqn:E; [|by left].
    injection Hp as ->. right. exists (b, ps). split; [set_solver|done].
  - intros p Hp. apply H3. rewrite Hg. destruct Hp as [Hp|(kv & [->|Hin]%elem_of_cons & Hp)].
    + left. by destruct (om_get p ps).
    + left. cbn [snd] in Hp. by destruct (om_get p ps).
    + right. by exists kv.
Qed.

(** ** Lookup maps *)

Lemma fold_err {A B} (f : A -> B -> result A) l :
  foldl (fun acc x => let* a := acc in f a x) Err l = Err.
Proof. induction l; simpl; auto. Qed.

Lemma map_fold_ok {V} (val : oid * entry -> V) (l : list (oid * entry)) (m : gmap oid V) :
  NoDup (map (fun pe => e_id pe.2) l) -> (forall pe, pe ∈ l -> m !! e_id pe.2 = None) ->
  exists m', foldl (fun acc (pe : oid * entry) => let* m := acc in
      match m !! e_id pe.2 with Some _ => Err | None => Ok (<[e_id pe.2 := val pe]> m) end) (Ok m) l = Ok m' /\
    forall i v, m' !! i = Some v <-> m !! i = Some v \/ exists pe, pe ∈ l /\ e_id pe.2 = i /\ val pe = v.
Proof.
  revert m; induction l as [|pe l IH]; intros m Hnd Hfree; cbn [foldl].
  { exists m. split; [done|]. set_solver. }
  cbn [map] in Hnd. apply NoDup_cons in Hnd as [Hn Hnd]. cbn [rbind].
  rewrite (Hfree pe) by set_solver.
  destruct (IH (<[e_id pe.2 := val pe]> m) Hnd) as (m' & E & Hm').
  { intros pe' Hin. rewrite lookup_insert_ne; [apply Hfree; set_solver|].
    intros Eq. apply Hn. rewrite Eq. by apply (elem_of_list_fmap_1 (fun pe : oid * entry => e_id pe.2)). }
  exists m'. split; [exact E|]. intros i v. rewrite Hm'. setoid_rewrite elem_of_cons.
  destruct (decide (e_id pe.2 = i)) as [<-|Hne].
  - rewrite lookup_insert. rewrite (Hfree pe) by set_solver. naive_solver.
  - rewrite lookup_insert_ne by done. naive_solver.
Qed.

Lemma map_fold_err {V} (val : oid * entry -> V) (l : list (oid * entry)) (m : gmap oid V) :
  (~ NoDup (map (fun pe => e_id pe.2) l) \/ exists pe, pe ∈ l /\ m !! e_id pe.2 <> None) ->
  foldl (fun acc (pe : oid * entry) => let* m := acc in
      match m !! e_id pe.2 with Some _ => Err | None => Ok (<[e_id pe.2 := val pe]> m) end) (Ok m) l = Err.
Proof.
  revert m; induction l as [|pe l IH]; intros m Hbad; cbn [foldl].
  { destruct Hbad as [Hn|(f & Hin & _)]; [destruct Hn; constructor|by apply elem_of_nil in Hin]. }
  cbn [rbind]. destruct (m !! e_id pe.2) eqn:E; [by apply (fold_err (fun m pe => match m !! e_id pe.2 with Some _ => Err | None => Ok (<[e_id pe.2 := val pe]> m) end))|].
  apply IH. destruct Hbad as [Hn|(f' & [->|Hin]%elem_of_cons & Hf)]; [|congruence|].
  - destruct (decide (NoDup (map (fun pe : oid * entry => e_id pe.2) l))) as [Hnd|]; [|by left]. right.
    assert (e_id pe.2 ∈ map (fun pe : oid * entry => e_id pe.2) l) as Hin.
    { destruct (decide (e_id pe.2 ∈ map (fun pe : oid * entry => e_id pe.2) l)); [done|]. destruct Hn. by constructor. }
    apply elem_of_list_fmap in Hin as (f' & Ef & Hin). exists f'. split; [done|].
    by rewrite <- Ef, lookup_insert.
  - right. exists f'. split; [done|]. destruct (decide (e_id pe.2 = e_id f'.2)) as [->|].
    + by rewrite lookup_insert.
    + by rewrite lookup_insert_ne.
Qed.

Lemma set_fold_ok (l : list (oid * entry)) (s : gset oid) :
  NoDup (map (fun pe : oid * entry => e_id pe.2) l) -> (forall pe, pe ∈ l -> e_id pe.2 ∉ s) ->
  exists s', foldl (fun acc (pe : oid * entry) => let* s := acc in
      if bool_decide (e_id pe.2 ∈ s) then Err else Ok ({[e_id pe.2]} ∪ s)) (Ok s) l = Ok s' /\
    forall i, i ∈ s' <-> i ∈ s \/ exists pe, pe ∈ l /\ e_id pe.2 = i.
Proof.
  revert s; induction l as [|pe l IH]; intros s Hnd Hfree; cbn [foldl].
  { exists s. split; [done|]. set_solver. }
  cbn [map] in Hnd. apply NoDup_cons in Hnd as [Hn Hnd]. cbn [rbind].
  rewrite bool_decide_eq_false_2 by (apply Hfree; set_solver).
  destruct (IH ({[e_id pe.2]} ∪ s) Hnd) as (s' & E & Hs').
  { intros pe' Hin [Eq%elem_of_singleton|Hs]%elem_of_union.
    - apply Hn. rewrite <- Eq. by apply (elem_of_list_fmap_1 (fun pe : oid * entry => e_id pe.2)).
    - apply (Hfree pe'); set_solver. }
  exists s'. split; [exact E|]. intros i. rewrite Hs'. set_solver.
Qed.

Lemma set_fold_err (l : list (oid * entry)) (s : gset oid) :
  (~ NoDup (map (fun pe : oid * entry => e_id pe.2) l) \/ exists pe, pe ∈ l /\ e_id pe.2 ∈ s) ->
  foldl (fun acc (pe : oid * entry) => let* s := acc in
      if bool_decide (e_id pe.2 ∈ s) then Err else Ok ({[e_id pe.2]} ∪ s)) (Ok s) l = Err.
Proof.
  revert s; induction l as [|pe l IH]; intros s Hbad; cbn [foldl].
  { destruct Hbad as [Hn|(f & Hin & _)]; [destruct Hn; constructor|by apply elem_of_nil in Hin]. }
  cbn [rbind]. case_bool_decide as E; [by apply (fold_err (fun s pe => if bool_decide (e_id pe.2 ∈ s) then Err else Ok ({[e_id pe.2]} ∪ s)))|].
  apply IH. destruct Hbad as [Hn|(f' & [->|Hin]%elem_of_cons & Hf)]; [|done|].
  - destruct (decide (NoDup (map (fun pe : oid * entry => e_id pe.2) l))) as [Hnd|]; [|by left]. right.
    assert (e_id pe.2 ∈ map (fun pe : oid * entry => e_id pe.2) l) as Hin.
    { destruct (decide (e_id pe.2 ∈ map (fun pe : oid * entry => e_id pe.2) l)); [done|]. destruct Hn. by constructor. }
    apply elem_of_list_fmap in Hin as (f' & Ef & Hin). exists f'. split; [done|]. set_solver.
  - right. exists f'. set_solver.
Qed.
