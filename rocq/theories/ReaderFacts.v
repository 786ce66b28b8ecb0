(** Facts about reading chunks through the cache. *)

From Verif Require Import Base OMap Formats Hashing Pack PackFacts Index IndexFacts PropsIndex Reader.

(** The bytes held by a cache. *)
Definition held (m : gmap oid stamped) : N :=
  map_fold (fun _ x a => (N.of_nat (length (sc_bytes x)) + a)%N) 0%N m.

Lemma held_insert m i x : m !! i = None -> held (<[i := x]> m) = (N.of_nat (length (sc_bytes x)) + held m)%N.
Proof. intros E. unfold held. rewrite map_fold_insert_L; [done| |done]. intros. lia. Qed.

Lemma held_delete m i x : m !! i = Some x -> held m = (N.of_nat (length (sc_bytes x)) + held (delete i m))%N.
Proof. intros E. rewrite <- (held_insert (delete i m) i x) by apply lookup_delete. by rewrite insert_delete. Qed.

Lemma held_insert_any m i x : held (<[i := x]> m) = (N.of_nat (length (sc_bytes x)) + held (delete i m))%N.
Proof. rewrite <- insert_delete_insert. apply held_insert, lookup_delete. Qed.

Lemma held_bump m i x t : m !! i = Some x -> held (<[i := mkStamped t (sc_bytes x)]> m) = held m.
Proof. intros E. rewrite held_insert_any, (held_delete m i x E). done. Qed.

Lemma held_le m m' : m ⊆ m' -> (held m <= held m')%N.
Proof.
  revert m'. induction m as [|i x m Hi IH] using map_ind; intros m' Hs; [unfold held at 1; rewrite map_fold_empty; lia|].
  rewrite held_insert by done.
  assert (m' !! i = Some x) as E. { eapply lookup_weaken; [apply lookup_insert|done]. }
  rewrite (held_delete m' i x E). assert (m ⊆ delete i m') as Hs'.
  { apply map_subseteq_spec. intros j y Hj. rewrite lookup_delete_Some. split; [congruence|].
    eapply lookup_weaken; [|exact Hs]. rewrite lookup_insert_ne; congruence. }
  specialize (IH _ Hs'). lia.
Qed.

Lemma earliest (m : gmap oid stamped) : m <> ∅ ->
  exists id x, m !! id = Some x /\ forall id' x', m !! id' = Some x' -> (sc_stamp x <= sc_stamp x')%N.
Proof.
  induction m as [|i x m Hi IH] using map_ind; intros Hne; [done|].
  destruct (decide (m = ∅)) as [->|Hm].
  { exists i, x. split; [apply lookup_insert|]. intros id' x'. rewrite insert_empty.
    intros [<- <-]%lookup_singleton_Some. lia. }
  destruct (IH Hm) as (j & y & Hj & Hmin). assert (i <> j) by congruence.
  destruct (decide (sc_stamp x <= sc_stamp y)%N) as [Hle|Hgt].
  - exists i, x. split; [apply lookup_insert|]. intros id' x' [[<- <-]|[_ Ht]]%lookup_insert_Some; [lia|].
    specialize (Hmin _ _ Ht). lia.
  - exists j, y. split; [by rewrite lookup_insert_ne|]. intros id' x' [[<- <-]|[_ Ht]]%lookup_insert_Some; [lia|].
    eauto.
Qed.

Section reader.
Local Set Default Proof Using "All".
Variables (H : bytes -> oid) (zdec : bytes -> bytes * bool) (ix : index) (bmap : gmap oid oid)
  (packs : gmap oid bytes) (clock : nat -> N).
Hypothesis Hclock : forall i j, i < j -> (clock i < clock j)%N.
Hypothesis Hmap : blob_to_pack_map ix = Ok bmap.
Hypothesis Hsorted : om_sorted (ix_packs ix).
(** What is known about a chunk that was read. *)
Variable good : oid -> bytes -> Prop.

Lemma entry_ids_nodup : NoDup (map (fun pe : oid * entry => e_id pe.2) (index_entries ix)).
Proof.
  destruct (decide (NoDup (blob_ids ix))) as [Hn|Hn]; [by rewrite <- blob_ids_entries|].
  destruct (proj2 (C11_lookup_maps ix) Hn) as (E & _). congruence.
Qed.

Lemma entry_unique p e p' e' : (p, e) ∈ index_entries ix -> (p', e') ∈ index_entries ix ->
  e_id e = e_id e' -> p = p' /\ e = e'.
Proof.
  intros H1 H2 E.
  assert ((p, e) = (p', e')) as Eq; [|by injection Eq].
  pose proof entry_ids_nodup as Hn. revert Hn H1 H2. generalize (index_entries ix). intros l.
  induction l as [|z l IH]; intros Hnd Hx Hy; [by apply elem_of_nil in Hx|].
  cbn [map] in Hnd. apply NoDup_cons in Hnd as [Hn Hnd].
  apply elem_of_cons in Hx as [<-|Hx]; apply elem_of_cons in Hy as [<-|Hy]; [done| | |auto].
  - destruct Hn. cbn [snd]. rewrite E. by apply (elem_of_list_fmap_1 (fun pe : oid * entry => e_id pe.2) _ (p', e')).
  - destruct Hn. cbn [snd]. rewrite <- E. by apply (elem_of_list_fmap_1 (fun pe : oid * entry => e_id pe.2) _ (p, e)).
Qed.

Lemma bmap_entry i p : bmap !! i = Some p <-> exists e, (p, e) ∈ index_entries ix /\ e_id e = i.
Proof.
  destruct (map_fold_ok (fun pe => pe.1) (index_entries ix) ∅ entry_ids_nodup) as (mp & E1 & H1); [done|].
  assert (mp = bmap) as ->. { unfold blob_to_pack_map in Hmap. rewrite Hmap in E1. congruence. }
  rewrite H1, lookup_empty. split.
  - intros [?|([p' e] & Hin & <- & <-)]; [done|]. by exists e.
  - intros (e & Hin & <-). right. by exists (p, e).
Qed.

Record reader_ok (s : creader) : Prop := {
  ro_space : cc_space (rd_cache s) = held (cc_map (rd_cache s));
  ro_good : forall id x, cc_map (rd_cache s) !! id = Some x -> good id (sc_bytes x);
  ro_stamp : forall id x, cc_map (rd_cache s) !! id = Some x -> exists j, j < rd_ticks s /\ sc_stamp x = clock j;
  ro_len : forall id x p e, cc_map (rd_cache s) !! id = Some x -> (p, e) ∈ index_entries ix -> e_id e = id ->
    (N.of_nat (length (sc_bytes x)) <= e_len e)%N;
  ro_known : forall id x, cc_map (rd_cache s) !! id = Some x -> exists p e, (p, e) ∈ index_entries ix /\
    e_id e = id /\ e_type e = Chunk }.

Lemma reader_new_ok : reader_ok reader_new.
Proof using Type. split; cbn; try done. Qed.

(** Every chunk that the loop reads from this stream is good. *)
Fixpoint stream_good (m : manifest) (st : bytes * bool) : Prop :=
  match m with
  | [] => True
  | e :: m' =>
      match e_type e with
      | Tree => stream_good m' st
      | Chunk => forall b st', read_take (e_len e) st = Ok (b, st') -> e_id e = H b ->
          good (e_id e) b /\ stream_good m' st'
      end
  end.

(** The part of the cache touched since the clock's reading [t]. *)
Definition since (t : nat) (m : gmap oid stamped) : gmap oid stamped :=
  filter (fun kv : oid * stamped => (clock t <= sc_stamp kv.2)%N) m.

Lemma clock_mono i j : i <= j -> (clock i <= clock j)%N.
Proof. intros Hij. destruct (decide (i = j)) as [->|Hne]; [lia|]. specialize (Hclock i j). lia. Qed.

Lemma since_lookup t m id x : since t m !! id = Some x <-> m !! id = Some x /\ (clock t <= sc_stamp x)%N.
Proof. unfold since. by rewrite map_filter_lookup_Some. Qed.

(** Touching an entry, new or old. *)
Lemma cc_insert_ok s id b p e t : reader_ok s -> t <= rd_ticks s ->
  (p, e) ∈ index_entries ix -> e_id e = id -> e_type e = Chunk -> (N.of_nat (length b) <= e_len e)%N -> good id b ->
  let s' := cc_insert clock id b s in
  reader_ok s' /\ rd_ticks s' = S (rd_ticks s) /\ rd_biggest s' = rd_biggest s /\
  (exists x, cc_map (rd_cache s') !! id = Some x /\ sc_stamp x = clock (rd_ticks s)) /\
  (held (since t (cc_map (rd_cache s'))) <= held (since t (cc_map (rd_cache s))) + e_len e)%N /\
  (forall i x, since t (cc_map (rd_cache s)) !! i = Some x -> is_Some (since t (cc_map (rd_cache s')) !! i)).
Proof.
  intros Hs Ht Hin Hid Hty Hlen Hg. cbn zeta. pose proof (clock_mono t (rd_ticks s) Ht) as Hct.
  unfold cc_insert. destruct (cc_map (rd_cache s) !! id) as [x|] eqn:Ex;
    cbn [rd_cache rd_ticks rd_biggest cc_map cc_space with_map].
  - pose proof (ro_len s Hs id x p e Ex Hin Hid) as Hlx.
    split; [|split; [done|split; [done|split; [|split]]]].
    + destruct Hs as [H1 H2 H3 H4 H5]. split; cbn [rd_cache rd_ticks rd_biggest cc_map cc_space with_map].
      * rewrite H1. symmetry. by apply held_bump.
      * intros i y [[<- <-]|[_ Hy]]%lookup_insert_Some; cbn [sc_bytes]; eauto.
      * intros i y [[<- <-]|[_ Hy]]%lookup_insert_Some; [exists (rd_ticks s); cbn; split; [lia|done]|].
        destruct (H3 i y Hy) as (j & Hj & ->). exists j. split; [lia|done].
      * intros i y p' e' Hy Hin' Hid'. apply lookup_insert_Some in Hy as [[Ei <-]|[_ Hy]]; [|by eapply H4].
        cbn [sc_bytes]. eapply H4; [exact Ex|exact Hin'|congruence].
      * intros i y [[<- <-]|[_ Hy]]%lookup_insert_Some; [exists p, e; done|eauto].
    + eexists. split; [apply lookup_insert|done].
    + unfold since. rewrite map_filter_insert_True by done. rewrite held_insert_any. cbn [sc_bytes].
      assert (delete id (since t (cc_map (rd_cache s))) ⊆ since t (cc_map (rd_cache s))) as Hsub by apply delete_subseteq.
      apply held_le in Hsub. unfold since in *. lia.
    + intros i y Hy. destruct (decide (i = id)) as [->|Hne].
      * eexists. apply since_lookup. split; [apply lookup_insert|done].
      * apply since_lookup in Hy as [Hy Hc]. exists y. apply since_lookup. by rewrite lookup_insert_ne.
  - split; [|split; [done|split; [done|split; [|split]]]].
    + destruct Hs as [H1 H2 H3 H4 H5]. split; cbn [rd_cache rd_ticks rd_biggest cc_map cc_space with_map].
      * rewrite held_insert by done. cbn [sc_bytes]. lia.
      * intros i y [[<- <-]|[_ Hy]]%lookup_insert_Some; cbn [sc_bytes]; eauto.
      * intros i y [[<- <-]|[_ Hy]]%lookup_insert_Some; [exists (rd_ticks s); cbn; split; [lia|done]|].
        destruct (H3 i y Hy) as (j & Hj & ->). exists j. split; [lia|done].
      * intros i y p' e' [[<- <-]|[_ Hy]]%lookup_insert_Some Hin' Hid'; [|eauto]. cbn [sc_bytes].
        destruct (entry_unique p e p' e') as [_ <-]; [done..|congruence|done].
      * intros i y [[<- <-]|[_ Hy]]%lookup_insert_Some; [exists p, e; done|eauto].
    + eexists. split; [apply lookup_insert|done].
    + unfold since. rewrite map_filter_insert_True by done. rewrite held_insert_any. cbn [sc_bytes].
      assert (delete id (since t (cc_map (rd_cache s))) ⊆ since t (cc_map (rd_cache s))) as Hsub by apply delete_subseteq.
      apply held_le in Hsub. unfold since in *. lia.
    + intros i y Hy. apply since_lookup in Hy as [Hy Hc]. exists y. apply since_lookup.
      rewrite lookup_insert_ne by congruence. done.
Qed.

Lemma load_entries_inv p m st read s t : reader_ok s -> t <= rd_ticks s ->
  (forall e, e ∈ m -> (p, e) ∈ index_entries ix) -> stream_good m st ->
  (held (since t (cc_map (rd_cache s))) <= read)%N ->
  let r := load_entries H clock m st read s in
  r.1 <> Panic /\ reader_ok r.2 /\ rd_ticks s <= rd_ticks r.2 /\ rd_biggest r.2 = rd_biggest s /\
  (forall i x, since t (cc_map (rd_cache s)) !! i = Some x -> is_Some (since t (cc_map (rd_cache r.2)) !! i)) /\
  forall n, r.1 = Ok n ->
    (held (since t (cc_map (rd_cache r.2))) <= n)%N /\
    n = (read + foldr (fun e a => (match e_type e with Chunk => e_len e | Tree => 0 end + a)%N) 0%N m)%N /\
    forall e, e ∈ m -> e_type e = Chunk -> is_Some (since t (cc_map (rd_cache r.2)) !! e_id e).
Proof.
  cbn zeta. revert st read s. induction m as [|e m IH]; intros st read s Hs Ht Hm Hg Hh; cbn [load_entries].
  { cbn [fst snd]. split; [done|]. split; [done|]. split; [lia|]. split; [done|]. split; [intros; by eexists|].
    intros n [= <-]. split; [done|]. split; [cbn; lia|]. intros e He. by apply elem_of_nil in He. }
  cbn [stream_good] in Hg. destruct (e_type e) eqn:Ety.
  - destruct (read_take (e_len e) st) as [[b st']| |] eqn:Er; cbn [fst snd].
    + case_bool_decide as Eh; cbn [fst snd].
      * destruct (Hg b st' eq_refl Eh) as [Hgb Hgm].
        apply read_take_inv in Er as Hri.
        assert (N.of_nat (length b) <= e_len e)%N as Hlb.
        { unfold read_take in Er. destruct (N.leb_spec (e_len e) (N.of_nat (length st.1))).
          - injection Er as <- _. rewrite take_length. lia.
          - destruct st.2; [|done]. injection Er as <- _. lia. }
        destruct (cc_insert_ok s (e_id e) b p e t) as (Hs' & Ht' & Hb' & (x & Hx & Hsx) & Hh' & Hk); [done|done|apply Hm; left|done|done|done|done|].
        destruct (IH st' (read + e_len e)%N (cc_insert clock (e_id e) b s)) as (A1 & A2 & A3 & A4 & A5 & A6); [done|lia| |done|lia|].
        { intros e' He'. apply Hm. by right. }
        split; [done|]. split; [done|]. split; [lia|]. split; [congruence|]. split.
        { intros i y Hy. destruct (Hk i y Hy) as [y' Hy']. eauto. }
        intros n Hn. destruct (A6 n Hn) as (B1 & B2 & B3). split; [done|]. split; [cbn [foldr]; rewrite Ety; lia|].
        intros e' He' Hty'. apply elem_of_cons in He' as [->|He']; [|eauto].
        apply (A5 _ x). apply since_lookup. split; [done|]. rewrite Hsx. by apply clock_mono.
      * split; [done|]. split; [done|]. split; [lia|]. split; [done|]. split; [intros; by eexists|]. by intros ? ?.
    + split; [done|]. split; [done|]. split; [lia|]. split; [done|]. split; [intros; by eexists|]. by intros ? ?.
    + exfalso. unfold read_take in Er. destruct (N.leb_spec (e_len e) (N.of_nat (length st.1))); [done|]. by destruct st.2.
  - destruct (IH st read s) as (A1 & A2 & A3 & A4 & A5 & A6); [done|done| |done|done|].
    { intros e' He'. apply Hm. by right. }
    split; [done|]. split; [done|]. split; [done|]. split; [done|]. split; [done|].
    intros n Hn. destruct (A6 n Hn) as (B1 & B2 & B3). split; [done|]. split; [cbn [foldr]; rewrite Ety; lia|].
    intros e' He' Hty'. apply elem_of_cons in He' as [->|He']; [congruence|eauto].
Qed.

(** Shrinking only drops chunks, keeps the count, and ends. *)
Lemma shrinks_inv limit c r : shrinks limit c r -> cc_space c = held (cc_map c) ->
  exists c', r = Ok c' /\ cc_space c' = held (cc_map c') /\ cc_map c' ⊆ cc_map c /\ (cc_space c' <= limit)%N.
Proof.
  induction 1 as [c Hd|c id x r Hl Hx Hmin Hsp _ IH|c id x Hl Hx Hmin Hsp]; intros Hc.
  - exists c. split; [done|]. split; [done|]. split; [done|]. destruct Hd as [Hd|]; [|done].
    rewrite Hc, Hd. unfold held. rewrite map_fold_empty. lia.
  - destruct IH as (c' & -> & H1 & H2 & H3).
    { cbn [cc_space cc_map]. rewrite Hc, (held_delete _ id x Hx). lia. }
    exists c'. split; [done|]. split; [done|]. split; [|done]. etrans; [exact H2|]. apply delete_subseteq.
  - rewrite Hc, (held_delete _ id x Hx) in Hsp. lia.
Qed.

Lemma shrinks_total limit c : cc_space c = held (cc_map c) -> exists c', shrinks limit c (Ok c').
Proof.
  destruct c as [m sp]. cbn [cc_space cc_map]. remember (size m) as n eqn:En.
  revert m sp En. induction n as [n IH] using lt_wf_ind. intros m sp En Hc.
  destruct (decide (m = ∅)) as [->|Hne]. { eexists. constructor. by left. }
  destruct (decide (sp <= limit)%N) as [Hle|Hgt]. { eexists. constructor. by right. }
  destruct (earliest m Hne) as (id & x & Hx & Hmin).
  pose proof (held_delete m id x Hx) as Hh.
  destruct (IH (size (delete id m))) with (m := delete id m) (sp := (sp - N.of_nat (length (sc_bytes x)))%N)
    as (c' & Hs); [|done|lia|].
  { rewrite map_size_delete, Hx. cbn. assert (size m <> 0) by (intros E; by apply map_size_empty_inv in E). lia. }
  exists c'. eapply shrinks_pop; cbn [cc_map cc_space]; [lia|done|done|lia|done].
Qed.

(** What was touched since [t] stays if it fits. *)
Lemma shrinks_keeps t limit c c' : shrinks limit c (Ok c') -> cc_space c = held (cc_map c) ->
  (held (since t (cc_map c)) <= limit)%N ->
  forall i x, since t (cc_map c) !! i = Some x -> cc_map c' !! i = Some x.
Proof.
  remember (Ok c') as r eqn:Er. intros Hsh. revert Er.
  induction Hsh as [c Hd|c id x r Hl Hx Hmin Hsp Hsh IH|c id x Hl Hx Hmin Hsp]; intros Er Hc Hh i y Hy; [| |done].
  - injection Er as <-. apply since_lookup in Hy. tauto.
  - destruct (decide (clock t <= sc_stamp x)%N) as [Hct|Hct].
    + (* everything left was touched, so there is nothing to drop *)
      exfalso. assert (cc_map c ⊆ since t (cc_map c)) as Hsub.
      { apply map_subseteq_spec. intros j z Hj. apply since_lookup. split; [done|].
        specialize (Hmin j z Hj). lia. }
      apply held_le in Hsub. lia.
    + apply IH; [done| | |].
      * cbn [cc_space cc_map]. rewrite Hc, (held_delete _ id x Hx). lia.
      * cbn [cc_map]. assert (since t (delete id (cc_map c)) ⊆ since t (cc_map c)) as Hsub.
        { apply map_subseteq_spec. intros j z Hj. apply since_lookup in Hj as [Hj ?]. apply since_lookup.
          apply lookup_delete_Some in Hj as [_ Hj]. done. }
        apply held_le in Hsub. lia.
      * cbn [cc_map]. apply since_lookup in Hy as [Hy Hcy]. apply since_lookup. split; [|done].
        apply lookup_delete_Some. split; [|done]. intros ->. rewrite Hx in Hy. injection Hy as <-. done.
Qed.

Definition chunk_bytes (m : manifest) : N :=
  foldr (fun e a => (match e_type e with Chunk => e_len e | Tree => 0 end + a)%N) 0%N m.

Lemma cc_get_ok s id x s' : reader_ok s -> cc_get clock id s = (Some x, s') ->
  reader_ok s' /\ good id x /\ rd_biggest s' = rd_biggest s /\ cc_space (rd_cache s') = cc_space (rd_cache s).
Proof.
  unfold cc_get. intros Hs E. destruct (cc_map (rd_cache s) !! id) as [y|] eqn:Ey; [|done].
  injection E as <- <-. split; [|split; [by eapply ro_good|done]].
  destruct Hs as [H1 H2 H3 H4 H5]. split; cbn [rd_cache rd_ticks rd_biggest cc_map cc_space with_map].
  - rewrite H1. symmetry. by apply held_bump.
  - intros i z [[<- <-]|[_ Hz]]%lookup_insert_Some; cbn [sc_bytes]; eauto.
  - intros i z [[<- <-]|[_ Hz]]%lookup_insert_Some; [exists (rd_ticks s); cbn; split; [lia|done]|].
    destruct (H3 i z Hz) as (j & Hj & ->). exists j. split; [lia|done].
  - intros i z p' e' Hz Hin' Hid'. apply lookup_insert_Some in Hz as [[Ei <-]|[_ Hz]]; [|by eapply H4].
    cbn [sc_bytes]. eapply H4; [exact Ey|exact Hin'|congruence].
  - intros i z [[<- <-]|[_ Hz]]%lookup_insert_Some; cbn [sc_bytes]; eauto.
Qed.

(** Every pack's stream yields only good chunks. *)
Hypothesis Hgood : forall p file body m, packs !! p = Some file -> check_magic pack_magic file = Ok body ->
  om_get p (ix_packs ix) = Some m -> stream_good m (zdec body).

Lemma load_pack_inv p s : reader_ok s ->
  let r := load_pack H zdec ix packs clock p s in
  r.1 <> Panic /\ reader_ok r.2 /\ rd_ticks s <= rd_ticks r.2 /\ rd_biggest r.2 = rd_biggest s /\
  forall n, r.1 = Ok n -> exists m, om_get p (ix_packs ix) = Some m /\ n = chunk_bytes m /\
    (held (since (rd_ticks s) (cc_map (rd_cache r.2))) <= n)%N /\
    forall e, e ∈ m -> e_type e = Chunk -> is_Some (since (rd_ticks s) (cc_map (rd_cache r.2)) !! e_id e).
Proof.
  cbn zeta. intros Hs. unfold load_pack.
  destruct (packs !! p) as [file|] eqn:Ep; [|cbn; split; [done|]; split; [done|]; split; [lia|]; split; [done|]; by intros ? ?].
  destruct (check_magic pack_magic file) as [body| |] eqn:Eb;
    [|cbn; split; [done|]; split; [done|]; split; [lia|]; split; [done|]; by intros ? ?..].
  destruct (om_get p (ix_packs ix)) as [m|] eqn:Em;
    [|cbn; split; [done|]; split; [done|]; split; [lia|]; split; [done|]; by intros ? ?].
  destruct (load_entries_inv p m (zdec body) 0 s (rd_ticks s)) as (A1 & A2 & A3 & A4 & A5 & A6); [done|lia| | | |].
  { intros e He. apply elem_of_index_entries. exists m. split; [|done]. by apply om_get_elem. }
  { by eapply Hgood. }
  { assert (since (rd_ticks s) (cc_map (rd_cache s)) = ∅) as ->; [|unfold held; rewrite map_fold_empty; lia].
    apply map_eq. intros i. rewrite lookup_empty. destruct (since _ _ !! i) as [x|] eqn:Ex; [|done].
    apply since_lookup in Ex as [Ex Hc]. destruct (ro_stamp s Hs i x Ex) as (j & Hj & E).
    specialize (Hclock j (rd_ticks s) Hj). lia. }
  split; [done|]. split; [done|]. split; [done|]. split; [done|]. intros n Hn.
  destruct (A6 n Hn) as (B1 & B2 & B3). exists m. split; [done|]. split; [rewrite B2; unfold chunk_bytes; lia|]. done.
Qed.

(** The id, if it is known at all, is a chunk's. *)
Definition no_tree (id : oid) : Prop := forall p e, (p, e) ∈ index_entries ix -> e_id e = id -> e_type e = Chunk.

Definition big_enough (s : creader) : Prop :=
  rd_biggest s = 0%N \/ exists p m, om_get p (ix_packs ix) = Some m /\ rd_biggest s = chunk_bytes m.

Lemma read_blob_inv s id r s' : reader_ok s -> big_enough s -> no_tree id ->
  read_blob H zdec ix bmap packs clock s id r s' ->
  r <> Panic /\ reader_ok s' /\ big_enough s' /\
  forall x, r = Ok x -> good id x /\ is_Some (bmap !! id) /\
    ((cc_space (rd_cache s) <= 2 * rd_biggest s)%N -> (cc_space (rd_cache s') <= 2 * rd_biggest s')%N).
Proof.
  intros Hs Hbig Hnt Hr.
  assert (forall p n, om_get p (ix_packs ix) = Some n -> True) as _ by done.
  destruct Hr as [x s' Eg|Eg Em|p s' Eg Em El|p s' Eg Em El|p s' n Eg Em El Esh|p s' n c x s'' Eg Em El Esh Eg'|p s' n c Eg Em El Esh En].
  - destruct (cc_get_ok s id x s' Hs Eg) as (H1 & H2 & H3 & H4).
    split; [done|]. split; [done|]. split; [unfold big_enough; by rewrite H3|].
    intros ? [= <-]. split; [done|]. split; [|rewrite H3, H4; done].
    unfold cc_get in Eg. destruct (cc_map (rd_cache s) !! id) as [y|] eqn:Ey; [|done].
    destruct (ro_known s Hs id y Ey) as (p & e & He & Hi & _). exists p. apply bmap_entry. by exists e.
  - split; [done|]. split; [done|]. split; [done|]. by intros ? ?.
  - pose proof (load_pack_inv p s Hs) as Hl. rewrite El in Hl. cbn [fst snd] in Hl. destruct Hl as (_ & A2 & _ & A4 & _).
    split; [done|]. split; [done|]. split; [unfold big_enough; by rewrite A4|]. by intros ? ?.
  - pose proof (load_pack_inv p s Hs) as Hl. rewrite El in Hl. cbn [fst snd] in Hl. by destruct Hl.
  - pose proof (load_pack_inv p s Hs) as Hl. rewrite El in Hl. cbn [fst snd] in Hl. destruct Hl as (_ & A2 & _).
    apply shrinks_inv in Esh as (? & ? & _); [done|]. apply A2.
  - pose proof (load_pack_inv p s Hs) as Hl. rewrite El in Hl. cbn [fst snd] in Hl.
    destruct Hl as (_ & A2 & A3 & A4 & A5). destruct (A5 n eq_refl) as (m & Hm & Hn & _ & _).
    destruct (shrinks_inv _ _ _ Esh (ro_space _ A2)) as (c' & [= <-] & B1 & B2 & B3).
    assert (reader_ok (mkReader c (N.max (rd_biggest s) n) (rd_ticks s'))) as Hok.
    { destruct A2 as [H1 H2 H3 H4 H5]. split; cbn [rd_cache rd_ticks rd_biggest]; [done| | | |].
      - intros i y Hy. eapply H2. by eapply lookup_weaken.
      - intros i y Hy. eapply H3. by eapply lookup_weaken.
      - intros i y p' e' Hy. eapply H4. by eapply lookup_weaken.
      - intros i y Hy. eapply H5. by eapply lookup_weaken. }
    destruct (cc_get_ok _ id x s'' Hok Eg') as (H1 & H2 & H3 & H4). cbn [rd_biggest rd_cache] in H3, H4.
    split; [done|]. split; [done|]. split.
    { unfold big_enough. rewrite H3. destruct (N.max_spec (rd_biggest s) n) as [[_ ->]|[_ ->]]; [right; by exists p, m|].
      exact Hbig. }
    intros ? [= <-]. split; [done|]. split; [by exists p|]. intros _. rewrite H3, H4. lia.
  - exfalso. pose proof (load_pack_inv p s Hs) as Hl. rewrite El in Hl. cbn [fst snd] in Hl.
    destruct Hl as (_ & A2 & A3 & A4 & A5). destruct (A5 n eq_refl) as (m & Hm & Hn & Hh & Ht).
    apply bmap_entry in Em as (e & He & Hi).
    assert (e_type e = Chunk) as Hty by (by eapply Hnt).
    assert (e ∈ m) as Hem.
    { apply elem_of_index_entries in He as (m' & Hm' & He). apply om_get_elem in Hm'; [|done]. congruence. }
    destruct (Ht e Hem Hty) as [x Hx]. rewrite Hi in Hx.
    pose proof (shrinks_keeps (rd_ticks s) _ _ _ Esh (ro_space _ A2)) as Hk.
    rewrite (Hk ltac:(lia) id x Hx) in En. done.
Qed.

Lemma read_blob_total s id : reader_ok s -> exists r s', read_blob H zdec ix bmap packs clock s id r s'.
Proof.
  intros Hs. destruct (cc_get clock id s) as [[x|] s1] eqn:Eg; [by exists (Ok x), s1; constructor|].
  assert (s1 = s) as ->. { unfold cc_get in Eg. by destruct (cc_map (rd_cache s) !! id); [|injection Eg]. }
  destruct (bmap !! id) as [p|] eqn:Em; [|by exists Err, s; constructor].
  pose proof (load_pack_inv p s Hs) as Hl.
  destruct (load_pack H zdec ix packs clock p s) as [[n| |] s'] eqn:El; cbn [fst snd] in Hl.
  - destruct Hl as (_ & A2 & _).
    destruct (shrinks_total (N.max (rd_biggest s) n * 2) (rd_cache s') (ro_space _ A2)) as [c Hc].
    destruct (cc_map c !! id) as [y|] eqn:Ey.
    + destruct (cc_get clock id (mkReader c (N.max (rd_biggest s) n) (rd_ticks s'))) as [[x|] s2] eqn:Eg'.
      * exists (Ok x), s2. by eapply read_miss.
      * unfold cc_get in Eg'. cbn [rd_cache] in Eg'. by rewrite Ey in Eg'.
    + eexists _, _. by eapply read_unwrap.
  - exists Err, s'. by eapply read_load_fails.
  - by destruct Hl.
Qed.
End reader.
