(** Property C27: reading chunks through the chunk cache. *)

From Verif Require Import Base OMap Formats Hashing Pack PackFacts Index IndexFacts PropsPack PropsIndex PropsForest
  Reader ReaderFacts Toy.

(** ** What the theorems speak about *)

(** [x] is stored under [id], in a pack of chunks.  ([repo_holds], in
    PropsForest.v, says that the repository holds [content] intact.) *)
Definition in_chunk_pack (content : gmap oid (list blob)) (id : oid) (x : bytes) : Prop :=
  exists p bs b, content !! p = Some bs /\ (forall b', b' ∈ bs -> b_type b' = Chunk) /\
    b ∈ bs /\ b_id b = id /\ b_bytes b = x.
Definition in_no_pack (content : gmap oid (list blob)) (id : oid) : Prop :=
  forall p bs b, content !! p = Some bs -> b ∈ bs -> b_id b <> id.

(** No two readings of the clock are the same. *)
Definition clock_advances (clock : nat -> N) : Prop := forall i j, i < j -> (clock i < clock j)%N.

(** The bytes the cache holds are counted right, and they are at most twice the
    chunks of some pack. *)
Definition within_limit (ix : index) (s : creader) : Prop :=
  cc_space (rd_cache s) = held (cc_map (rd_cache s)) /\
  (held (cc_map (rd_cache s)) = 0%N \/
   exists p m, om_get p (ix_packs ix) = Some m /\ (held (cc_map (rd_cache s)) <= 2 * chunk_bytes m)%N).

Section any.
Local Set Default Proof Using "All".
Variables (H : bytes -> oid) (zdec : bytes -> bytes * bool) (ix : index) (bmap : gmap oid oid)
  (packs : gmap oid bytes) (clock : nat -> N).
Hypothesis Hclock : clock_advances clock.
Hypothesis Hmap : blob_to_pack_map ix = Ok bmap.
Hypothesis Hsorted : om_sorted (ix_packs ix).
Variable good : oid -> bytes -> Prop.
Hypothesis Hgood : forall p file body m, packs !! p = Some file -> check_magic pack_magic file = Ok body ->
  om_get p (ix_packs ix) = Some m -> stream_good H good m (zdec body).

Lemma read_blobs_inv s ids rs s' :
  reader_ok ix clock good s -> big_enough ix s ->
  (forall id, id ∈ ids -> no_tree ix id) ->
  read_blobs H zdec ix bmap packs clock s ids rs s' ->
  reader_ok ix clock good s' /\ big_enough ix s' /\
  Forall2 (fun id r => r <> Panic /\ forall x, r = Ok x -> good id x /\ is_Some (bmap !! id)) ids rs /\
  (Forall (fun r => exists x, r = Ok x) rs -> (cc_space (rd_cache s) <= 2 * rd_biggest s)%N ->
   (cc_space (rd_cache s') <= 2 * rd_biggest s')%N).
Proof.
  intros Hs Hb Hn Hr. induction Hr as [s|s id ids s' Hr|s id ids r rs s' s'' Hr Hp Hrs IH].
  - split; [done|]. split; [done|]. split; [constructor|]. done.
  - destruct (read_blob_inv H zdec ix bmap packs clock Hclock Hmap Hsorted good Hgood s id Panic s' Hs Hb) as (? & _);
      [apply Hn; left|done|done].
  - destruct (read_blob_inv H zdec ix bmap packs clock Hclock Hmap Hsorted good Hgood s id r s' Hs Hb) as (A1 & A2 & A3 & A4);
      [apply Hn; left|done|].
    destruct IH as (B1 & B2 & B3 & B4); [done|done|intros; apply Hn; by right|].
    split; [done|]. split; [done|]. split.
    + constructor; [|done]. split; [done|]. intros x Hx. destruct (A4 x Hx) as (? & ? & _). done.
    + intros Hall. apply Forall_cons in Hall as [[x ->] Hall]. destruct (A4 x eq_refl) as (_ & _ & Hsz). auto.
Qed.

Lemma read_blobs_total s ids : reader_ok ix clock good s -> big_enough ix s ->
  (forall id, id ∈ ids -> no_tree ix id) ->
  exists rs s', read_blobs H zdec ix bmap packs clock s ids rs s'.
Proof.
  revert s. induction ids as [|id ids IH]; intros s Hs Hb Hn; [by exists [], s; constructor|].
  destruct (read_blob_total H zdec ix bmap packs clock Hclock Hmap Hsorted good Hgood s id Hs) as (r & s' & Hr).
  destruct (read_blob_inv H zdec ix bmap packs clock Hclock Hmap Hsorted good Hgood s id r s' Hs Hb) as (A1 & A2 & A3 & A4);
    [apply Hn; left|done|].
  destruct (IH s' A2 A3) as (rs & s'' & Hrs); [intros; apply Hn; by right|].
  exists (r :: rs), s''. by econstructor.
Qed.
End any.

Lemma hash_stream_good (H : bytes -> oid) (zdec : bytes -> bytes * bool) (ix : index) (packs : gmap oid bytes) :
  forall p file body (m : manifest), packs !! p = Some file -> check_magic pack_magic file = Ok body ->
  om_get p (ix_packs ix) = Some m -> stream_good H (fun id x => H x = id) m (zdec body).
Proof.
  intros p file body m _ _ _. generalize (zdec body). induction m as [|e m IH]; intros st; [done|].
  cbn [stream_good]. destruct (e_type e); [|apply IH]. intros b st' _ E. split; [done|apply IH].
Qed.

Lemma within_limit_of ix clock good s : reader_ok ix clock good s -> big_enough ix s ->
  (cc_space (rd_cache s) <= 2 * rd_biggest s)%N -> within_limit ix s.
Proof.
  intros Hs Hb Hl. split; [apply Hs|]. rewrite (ro_space _ _ _ _ Hs) in Hl.
  destruct Hb as [E|(p & m & Hm & E)]; [left; lia|right; exists p, m; split; [done|lia]].
Qed.

(** ** C27 *)

(** Whatever the pack files contain: as long as the ids asked for are not those of
    trees, every read ends without a crash, what it returns has the id asked for
    as its hash, and as long as none failed the cache is within its limit. *)
Theorem C27_never_wrong_never_crashes_partial H zdec ix bmap packs clock ids :
  om_sorted (ix_packs ix) -> blob_to_pack_map ix = Ok bmap -> clock_advances clock ->
  (forall id p m e, id ∈ ids -> om_get p (ix_packs ix) = Some m -> e ∈ m -> e_id e = id -> e_type e = Chunk) ->
  (exists rs s, read_blobs H zdec ix bmap packs clock reader_new ids rs s) /\
  forall rs s, read_blobs H zdec ix bmap packs clock reader_new ids rs s ->
    Forall2 (fun id r => match r with Ok x => H x = id | Err => True | Panic => False end) ids rs /\
    (Forall (fun r => r <> Err) rs -> within_limit ix s).
Proof.
  intros Hs Hm Hc Hids.
  assert (forall id, id ∈ ids -> no_tree ix id) as Hnt.
  { intros id Hid p e Hin He. apply elem_of_index_entries in Hin as (m & Hmm & Hin). apply om_get_elem in Hmm; [|done].
    by eapply Hids. }
  pose proof (reader_new_ok ix clock (fun id x => H x = id)) as Hnew.
  assert (big_enough ix reader_new) as Hb by (by left).
  split.
  - by eapply (read_blobs_total H zdec ix bmap packs clock Hc Hm Hs (fun id x => H x = id) (hash_stream_good H zdec ix packs)).
  - intros rs s Hr.
    destruct (read_blobs_inv H zdec ix bmap packs clock Hc Hm Hs (fun id x => H x = id) (hash_stream_good H zdec ix packs)
      reader_new ids rs s Hnew Hb Hnt Hr) as (A1 & A2 & A3 & A4).
    split.
    + eapply Forall2_impl; [exact A3|]. intros id [x| |] [Hp Hx]; [|done|done]. by destruct (Hx x eq_refl).
    + intros Hall. eapply within_limit_of; [exact A1|exact A2|]. apply A4; [|cbn; lia].
      clear -A3 Hall. induction A3 as [|id r ids rs [Hp Hx] A3 IH]; [constructor|].
      apply Forall_cons in Hall as [Hr Hall]. constructor; [|auto]. destruct r as [x| |]; [by exists x|done|done].
Qed.
Print Assumptions C27_never_wrong_never_crashes_partial.

Section intact.
Local Set Default Proof Using "All".
Variables (H : bytes -> oid) (zdec : bytes -> bytes * bool) (ix : index) (bmap : gmap oid oid)
  (packs : gmap oid bytes) (content : gmap oid (list blob)) (clock : nat -> N).
Hypothesis Hrepo : repo_holds H zdec ix packs content.
Hypothesis Hmap : blob_to_pack_map ix = Ok bmap.

Definition stored_good (id : oid) (x : bytes) : Prop := forall y, in_chunk_pack content id y -> x = y.

Lemma stored_stream_good : forall p file body m, packs !! p = Some file -> check_magic pack_magic file = Ok body ->
  om_get p (ix_packs ix) = Some m -> stream_good H stored_good m (zdec body).
Proof.
  intros p file body m Hf Hb Hm. destruct Hrepo as (Hs & Hix & Hp). rewrite Hix in Hm.
  destruct (content !! p) as [bs|] eqn:Ec; [|done]. injection Hm as <-.
  destruct (Hp p bs Ec) as (Hg & z & zm & Ef & Hz). rewrite Hf in Ef. injection Ef as ->.
  destruct (pack_file_body H zdec z zm) as (r & E & _). rewrite E, check_magic_ok in Hb. injection Hb as <-. rewrite Hz.
  destruct (decide (Forall (fun b => b_type b = Chunk) bs)) as [Hall|Hnot].
  - (* a pack of chunks: every read is aligned *)
    assert (forall b, b ∈ bs -> stored_good (b_id b) (b_bytes b)) as Hstored.
    { intros b Hb y (p' & bs' & b' & Hp' & Hc' & Hb' & Hi' & <-).
      destruct (blob_unique H zdec ix bmap packs content Hrepo Hmap p p' bs bs' b b') as [_ ->]; done. }
    revert Hstored Hall Hg. generalize ((zdec r).1) ((zdec r).2). clear.
    induction bs as [|b bs IH]; intros rest clean Hstored Hall Hg; [done|].
    apply Forall_cons in Hall as [Hb Hall]. apply Forall_cons in Hg as [(Hi & Hn & _) Hg].
    cbn [manifest_of map stream_good entry_of e_type]. rewrite Hb. intros b' st' Hr He.
    cbn [map concat] in Hr. rewrite <- app_assoc, read_take_app in Hr by done. injection Hr as <- <-.
    split; [apply Hstored; left|]. apply IH; [|done|done]. intros b' Hb'. apply Hstored. by right.
  - (* otherwise none of its ids is asked about *)
    assert (forall e, e ∈ manifest_of bs -> forall x, stored_good (e_id e) x) as Hno.
    { intros e He x y (p' & bs' & b' & Hp' & Hc' & Hb' & Hi' & _).
      apply elem_of_list_fmap in He as (b & -> & Hb).
      destruct (blob_unique H zdec ix bmap packs content Hrepo Hmap p p' bs bs' b b') as [<- _]; [done..|].
      rewrite Ec in Hp'. injection Hp' as <-. destruct Hnot. apply Forall_forall. exact Hc'. }
    revert Hno. generalize (manifest_of bs) as m. generalize ((concat (map b_bytes bs) ++ (zdec r).1, (zdec r).2)). clear.
    intros st m. revert st. induction m as [|e m IH]; intros st Hno; [done|]. cbn [stream_good].
    destruct (e_type e).
    + intros b st' _ _. split; [apply Hno; left|]. apply IH. intros e' He'. apply Hno. by right.
    + apply IH. intros e' He'. apply Hno. by right.
Qed.

Lemma load_chunk_pack p bs s : content !! p = Some bs -> (forall b', b' ∈ bs -> b_type b' = Chunk) ->
  (load_pack H zdec ix packs clock p s).1 <> Err.
Proof.
  intros Ec Hc. destruct Hrepo as (Hs & Hix & Hp). destruct (Hp p bs Ec) as (Hg & z & zm & Ef & Hz).
  unfold load_pack. rewrite Ef. destruct (pack_file_body H zdec z zm) as (r & E & _). rewrite E, check_magic_ok.
  rewrite Hix, Ec. cbn [fmap option_fmap option_map]. rewrite Hz. apply Forall_forall in Hc. revert Hc Hg.
  generalize ((zdec r).1) ((zdec r).2) 0%N. clear. intros rest clean n Hc Hg. revert n s.
  induction bs as [|b bs IH]; intros n s; [done|].
  apply Forall_cons in Hc as [Hb Hc]. apply Forall_cons in Hg as [(Hi & Hn & _) Hg].
  cbn [manifest_of map load_entries entry_of e_type e_len e_id concat]. rewrite Hb.
  rewrite <- app_assoc, read_take_app by done. rewrite bool_decide_eq_true_2 by done. by apply IH.
Qed.

Lemma bmap_none id : bmap !! id = None <-> in_no_pack content id.
Proof.
  split.
  - intros E p bs b Hp Hb Hi.
    assert (bmap !! id = Some p) by (apply (bmap_spec H zdec ix bmap packs content Hrepo Hmap); eauto). congruence.
  - intros Hno. destruct (bmap !! id) as [p|] eqn:E; [|done].
    apply (bmap_spec H zdec ix bmap packs content Hrepo Hmap) in E as (bs & b & Hp & Hb & Hi). by destruct (Hno p bs b).
Qed.

Lemma chunk_no_tree id : (exists x, in_chunk_pack content id x) \/ in_no_pack content id -> no_tree ix id.
Proof.
  intros Hid p e Hin He.
  apply (entries_content H zdec ix bmap packs content Hrepo Hmap) in Hin as (bs & b & Hp & Hb & ->).
  destruct Hid as [(x & p' & bs' & b' & Hp' & Hc' & Hb' & Hi' & _)|Hno].
  - destruct (blob_unique H zdec ix bmap packs content Hrepo Hmap p p' bs bs' b b') as [_ ->]; [done..| |].
    + cbn in He. congruence.
    + apply (Hc' b' Hb').
  - by destruct (Hno p bs b).
Qed.

Lemma read_blobs_intact s ids rs s' : clock_advances clock ->
  reader_ok ix clock stored_good s -> big_enough ix s -> (cc_space (rd_cache s) <= 2 * rd_biggest s)%N ->
  (forall id, id ∈ ids -> (exists x, in_chunk_pack content id x) \/ in_no_pack content id) ->
  read_blobs H zdec ix bmap packs clock s ids rs s' ->
  reader_ok ix clock stored_good s' /\ big_enough ix s' /\ (cc_space (rd_cache s') <= 2 * rd_biggest s')%N /\
  Forall2 (fun id r => match r with Ok x => in_chunk_pack content id x | Err => in_no_pack content id | Panic => False end) ids rs.
Proof.
  intros Hclock Hs Hb Hl Hids Hr.
  assert (om_sorted (ix_packs ix)) as Hsorted by apply Hrepo.
  induction Hr as [s|s id ids s' Hr|s id ids r rs s' s'' Hr Hp Hrs IH].
  - split; [done|]. split; [done|]. split; [done|]. constructor.
  - destruct (read_blob_inv H zdec ix bmap packs clock Hclock Hmap Hsorted stored_good stored_stream_good s id Panic s' Hs Hb) as (? & _);
      [apply chunk_no_tree, Hids; left|done|done].
  - destruct (read_blob_inv H zdec ix bmap packs clock Hclock Hmap Hsorted stored_good stored_stream_good s id r s' Hs Hb) as (A1 & A2 & A3 & A4);
      [apply chunk_no_tree, Hids; left|done|].
    assert ((cc_space (rd_cache s') <= 2 * rd_biggest s')%N /\
      match r with Ok x => in_chunk_pack content id x | Err => in_no_pack content id | Panic => False end) as [Hl' Hr'].
    { destruct (Hids id) as [[y Hy]|Hno]; [left| |].
      - destruct r as [x| |]; [| |done].
        + destruct (A4 x eq_refl) as (Hg & _ & Hsz). split; [auto|]. by rewrite (Hg y Hy).
        + exfalso. destruct Hy as (p & bs & b & Hp' & Hc' & Hb' & Hi' & _).
          assert (bmap !! id = Some p) as Em by (apply (bmap_spec H zdec ix bmap packs content Hrepo Hmap); eauto).
          inversion Hr as [|Eg Em'|p' s1 Eg Em' El| | | |]; subst.
          * congruence.
          * rewrite Em in Em'. injection Em' as <-. pose proof (load_chunk_pack p bs s Hp' Hc') as Hne.
            rewrite El in Hne. by destruct Hne.
      - pose proof (proj2 (bmap_none id) Hno) as Em. destruct r as [x| |]; [| |done].
        + destruct (A4 x eq_refl) as (_ & [? ?] & _). congruence.
        + split; [|done]. inversion Hr; subst; [done|congruence]. }
    destruct IH as (B1 & B2 & B3 & B4); [done|done|done|intros; apply Hids; by right|].
    split; [done|]. split; [done|]. split; [done|]. by constructor.
Qed.
End intact.

(** On an intact repository: any sequence of reads of chunks, each in a pack of
    chunks, and of ids that are in no pack, gives for each the bytes stored under
    its id, or a failure if there are none, and never a crash; the cache stays
    within its limit.  Missing: a clock two readings of which may be equal, packs
    with both chunks and trees, ids of trees; the theorems below show that
    the property fails for those. *)
Theorem C27_reads_are_transparent_partial H zdec ix bmap packs content clock ids :
  repo_holds H zdec ix packs content -> blob_to_pack_map ix = Ok bmap -> clock_advances clock ->
  (forall id, id ∈ ids -> (exists x, in_chunk_pack content id x) \/ in_no_pack content id) ->
  (exists rs s, read_blobs H zdec ix bmap packs clock reader_new ids rs s) /\
  forall rs s, read_blobs H zdec ix bmap packs clock reader_new ids rs s ->
    Forall2 (fun id r => match r with
                         | Ok x => in_chunk_pack content id x
                         | Err => in_no_pack content id
                         | Panic => False
                         end) ids rs /\
    within_limit ix s.
Proof.
  intros Hrepo Hmap Hclock Hids. split.
  - eapply (read_blobs_total H zdec ix bmap packs clock Hclock Hmap (proj1 Hrepo) (stored_good content)
      (stored_stream_good H zdec ix bmap packs content clock Hrepo Hmap)); [apply reader_new_ok|by left|].
    intros id Hid. by eapply (chunk_no_tree H zdec ix bmap packs content clock Hrepo Hmap), Hids.
  - intros rs s Hr.
    destruct (read_blobs_intact H zdec ix bmap packs content clock Hrepo Hmap reader_new ids rs s Hclock) as (A1 & A2 & A3 & A4);
      [apply reader_new_ok|by left|cbn; lia|done|done|].
    split; [done|]. by eapply within_limit_of.
Qed.
Print Assumptions C27_reads_are_transparent_partial.

(** *** Concrete repositories: one pack per list of blobs. *)

Definition made_ix (l : list (oid * list blob)) : index := mkIndex [] (prod_map id manifest_of <$> l).
Definition made_packs (l : list (oid * list blob)) : gmap oid bytes := list_to_map (prod_map id ex_file <$> l).
Definition made_content (l : list (oid * list blob)) : gmap oid (list blob) := list_to_map l.

Lemma sorted_prod_map {A B} (f : A -> B) (l : list (bytes * A)) : om_sorted l -> om_sorted (prod_map id f <$> l).
Proof.
  induction l as [|[k v] l IH]; [done|]. intros [Hk Hl]. split; [|by apply IH].
  change (map (prod_map id f) l) with (prod_map id f <$> l). apply Forall_fmap. eapply Forall_impl; [exact Hk|]. by intros [? ?].
Qed.

Lemma made_holds H (l : list (oid * list blob)) : om_sorted l ->
  Forall (fun kb => Forall (good_blob H) kb.2) l ->
  repo_holds H toy_zdec (made_ix l) (made_packs l) (made_content l).
Proof.
  intros Hs Hg. split; [by apply sorted_prod_map|]. split.
  - intros p. unfold made_ix. cbn [ix_packs]. rewrite om_get_list_to_map by (by apply sorted_prod_map).
    rewrite list_to_map_fmap, lookup_fmap. done.
  - intros p bs Hp. split.
    + apply elem_of_list_to_map_2 in Hp. rewrite Forall_forall in Hg. by specialize (Hg _ Hp).
    + eexists _, _. split; [|apply toy_zstream]. unfold made_packs. rewrite list_to_map_fmap, lookup_fmap.
      unfold made_content in Hp. by rewrite Hp.
Qed.

(** The relation, executed: [pick] says which of the chunks to evict. *)
Section run.
Variables (H : bytes -> oid) (zdec : bytes -> bytes * bool) (ix : index) (bmap : gmap oid oid)
  (packs : gmap oid bytes) (clock : nat -> N) (pick : list (oid * stamped) -> option oid).

Fixpoint shrink_run (fuel : nat) (limit : N) (c : ccache) : option ccache :=
  if (match map_to_list (cc_map c) with [] => true | _ => false end || (cc_space c <=? limit)%N)%bool then Some c
  else match fuel with
  | O => None
  | S fuel' =>
      id ← pick (map_to_list (cc_map c));
      x ← cc_map c !! id;
      if (forallb (fun kv : oid * stamped => (sc_stamp x <=? sc_stamp kv.2)%N) (map_to_list (cc_map c)) &&
          (N.of_nat (length (sc_bytes x)) <=? cc_space c)%N)%bool
      then shrink_run fuel' limit (mkCcache (delete id (cc_map c)) (cc_space c - N.of_nat (length (sc_bytes x))))
      else None
  end.

Definition blob_run (s : creader) (id : oid) : option (result bytes * creader) :=
  match cc_get clock id s with
  | (Some x, s') => Some (Ok x, s')
  | (None, _) =>
      match bmap !! id with
      | None => Some (Err, s)
      | Some p =>
          match load_pack H zdec ix packs clock p s with
          | (Err, s') => Some (Err, s')
          | (Panic, s') => Some (Panic, s')
          | (Ok n, s') =>
              c ← shrink_run 99 (N.max (rd_biggest s) n * 2) (rd_cache s');
              let s1 := mkReader c (N.max (rd_biggest s) n) (rd_ticks s') in
              match cc_get clock id s1 with
              | (Some x, s'') => Some (Ok x, s'')
              | (None, _) => Some (Panic, s1)
              end
          end
      end
  end.

Fixpoint blobs_run (s : creader) (ids : list oid) : option (list (result bytes) * creader) :=
  match ids with
  | [] => Some ([], s)
  | id :: ids' =>
      match blob_run s id with
      | None => None
      | Some (Panic, s') => Some ([Panic], s')
      | Some (r, s') => rs ← blobs_run s' ids'; Some (r :: rs.1, rs.2)
      end
  end.

Lemma shrink_run_ok fuel limit c c' : shrink_run fuel limit c = Some c' -> shrinks limit c (Ok c').
Proof.
  revert c. induction fuel as [|fuel IH]; intros c; cbn [shrink_run];
    destruct (_ || _)%bool eqn:E; intros Hr.
  1,3: injection Hr as <-; apply shrinks_done; apply orb_true_iff in E as [E|E]; [left|right; by apply N.leb_le];
      destruct (map_to_list (cc_map c)) eqn:Em; [|done]; by apply map_to_list_empty_iff in Em.
  { done. }
  apply orb_false_iff in E as [_ E]. apply N.leb_gt in E.
  destruct (pick (map_to_list (cc_map c))) as [id|]; cbn [mbind option_bind] in Hr; [|done].
  destruct (cc_map c !! id) as [x|] eqn:Ex; cbn [mbind option_bind] in Hr; [|done].
  destruct (_ && _)%bool eqn:Eb in Hr; [|done]. apply andb_true_iff in Eb as [Ef El].
  eapply shrinks_pop; [done|exact Ex| |by apply N.leb_le|by apply IH].
  intros id' x' E'. apply elem_of_map_to_list, elem_of_list_In in E'.
  rewrite forallb_forall in Ef. specialize (Ef _ E'). cbn in Ef. by apply N.leb_le.
Qed.

Lemma cc_get_none id s s' : cc_get clock id s = (None, s') -> s' = s /\ cc_map (rd_cache s) !! id = None.
Proof. unfold cc_get. destruct (cc_map (rd_cache s) !! id); [done|]. by intros [= <-]. Qed.

Lemma blob_run_ok s id r s' : blob_run s id = Some (r, s') -> read_blob H zdec ix bmap packs clock s id r s'.
Proof.
  unfold blob_run. destruct (cc_get clock id s) as [[x|] s1] eqn:Eg; [intros [= <- <-]; by constructor|].
  destruct (cc_get_none _ _ _ Eg) as [-> _]. destruct (bmap !! id) as [p|] eqn:Ep; [|intros [= <- <-]; by constructor].
  destruct (load_pack H zdec ix packs clock p s) as [[n| |] s1] eqn:El.
  - destruct (shrink_run 99 _ _) as [c|] eqn:Es; cbn [mbind option_bind]; [|done].
    apply shrink_run_ok in Es.
    destruct (cc_get clock id (mkReader c (N.max (rd_biggest s) n) (rd_ticks s1))) as [[x|] s2] eqn:Eg2; intros [= <- <-].
    + by eapply read_miss.
    + destruct (cc_get_none _ _ _ Eg2) as [_ En]. by eapply read_unwrap.
  - intros [= <- <-]. by eapply read_load_fails.
  - intros [= <- <-]. by eapply read_load_panics.
Qed.

Lemma blobs_run_ok s ids rs s' : blobs_run s ids = Some (rs, s') -> read_blobs H zdec ix bmap packs clock s ids rs s'.
Proof.
  revert s rs. induction ids as [|id ids IH]; intros s rs; cbn [blobs_run]; [intros [= <- <-]; constructor|].
  destruct (blob_run s id) as [[r s1]|] eqn:E; [|done]. apply blob_run_ok in E.
  destruct r as [x| |].
  - destruct (blobs_run s1 ids) as [[rs1 s2]|] eqn:E1; cbn [mbind option_bind]; [|done]. intros [= <- <-].
    eapply reads_some; [done|done|by apply IH].
  - destruct (blobs_run s1 ids) as [[rs1 s2]|] eqn:E1; cbn [mbind option_bind]; [|done]. intros [= <- <-].
    eapply reads_some; [done|done|by apply IH].
  - intros [= <- <-]. by apply reads_panic.
Qed.
End run.

Lemma run_get {A B} (r : option (A * B)) a : fst <$> r = Some a -> exists b, r = Some (a, b).
Proof. destruct r as [[a' b]|]; [|done]. intros [= ->]. by exists b. Qed.

(** Evict the earliest, or with equal stamps a given one. *)
Definition pick_first (l : list (oid * stamped)) : option oid :=
  fst <$> foldr (fun kv a => match a with
                             | Some kv' => if (sc_stamp kv'.2 <=? sc_stamp kv.2)%N then a else Some kv
                             | None => Some kv
                             end) None l.

Definition rd_a : blob := ex_chunk "aaa".
Definition rd_b : blob := ex_chunk "bbb".
Definition rd_c : blob := ex_chunk "ccc".
Definition rd_repo : list (oid * list blob) := [(pk x01, [rd_a]); (pk x02, [rd_b]); (pk x03, [rd_c])].
Definition rd_map : gmap oid oid := get_ok ∅ (blob_to_pack_map (made_ix rd_repo)).
Lemma rd_map_ok : blob_to_pack_map (made_ix rd_repo) = Ok rd_map.
Proof. apply result_get. vm_compute. reflexivity. Qed.
Lemma rd_holds : repo_holds toy_hash toy_zdec (made_ix rd_repo) (made_packs rd_repo) (made_content rd_repo).
Proof.
  apply made_holds; [apply (bool_decide_unpack _); vm_compute; exact I|].
  repeat constructor; cbn; done.
Qed.

Lemma rd_stored id : id ∈ [b_id rd_a; b_id rd_b; b_id rd_c] -> exists x, in_chunk_pack (made_content rd_repo) id x.
Proof.
  assert (forall p b, (p, [b]) ∈ rd_repo -> b_type b = Chunk ->
    exists x, in_chunk_pack (made_content rd_repo) (b_id b) x) as Hin.
  { intros p b Hp Ht. exists (b_bytes b), p, [b], b. split.
    - apply elem_of_list_to_map; [|done]. apply om_sorted_nodup, (bool_decide_unpack _). vm_compute. exact I.
    - split; [intros b' ->%elem_of_list_singleton; done|]. split; [left|done]. }
  intros Hid. rewrite !elem_of_cons in Hid. destruct Hid as [->|[->|[->|Hid]]]; [..|by apply elem_of_nil in Hid].
  - apply (Hin (pk x01)); [|done]. left.
  - apply (Hin (pk x02)); [|done]. right. left.
  - apply (Hin (pk x03)); [|done]. right. right. left.
Qed.

(** Four reads, the fourth of a chunk evicted by the third, and one of an unknown id. *)
Example C27_witness :
  (forall id, id ∈ [b_id rd_a; b_id rd_b; b_id rd_c; b_id rd_a; pk x07] ->
     (exists x, in_chunk_pack (made_content rd_repo) id x) \/ in_no_pack (made_content rd_repo) id) /\
  clock_advances N.of_nat /\
  exists s, read_blobs toy_hash toy_zdec (made_ix rd_repo) rd_map (made_packs rd_repo) N.of_nat reader_new
    [b_id rd_a; b_id rd_b; b_id rd_c; b_id rd_a; pk x07]
    [Ok (ascii_bytes "aaa"); Ok (ascii_bytes "bbb"); Ok (ascii_bytes "ccc"); Ok (ascii_bytes "aaa"); Err] s /\
    map fst (map_to_list (cc_map (rd_cache s))) ≡ₚ [b_id rd_a; b_id rd_c].
Proof.
  split; [|split].
  - intros id Hid. rewrite !elem_of_cons in Hid. destruct Hid as [->|[->|[->|[->|[->|Hid]]]]].
    + left. apply rd_stored. left.
    + left. apply rd_stored. right. left.
    + left. apply rd_stored. right. right. left.
    + left. apply rd_stored. left.
    + right. intros p bs b Hp Hb E. apply elem_of_list_to_map_2 in Hp.
      unfold rd_repo in Hp. rewrite !elem_of_cons in Hp.
      destruct Hp as [[= -> ->]|[[= -> ->]|[[= -> ->]|Hp]]]; [..|by apply elem_of_nil in Hp];
        apply elem_of_list_singleton in Hb as ->; vm_compute in E; discriminate.
    + by apply elem_of_nil in Hid.
  - intros i j Hij. lia.
  - destruct (run_get (blobs_run toy_hash toy_zdec (made_ix rd_repo) rd_map (made_packs rd_repo) N.of_nat pick_first reader_new
      [b_id rd_a; b_id rd_b; b_id rd_c; b_id rd_a; pk x07])
      [Ok (ascii_bytes "aaa"); Ok (ascii_bytes "bbb"); Ok (ascii_bytes "ccc"); Ok (ascii_bytes "aaa"); Err]) as (s & Hs);
      [vm_compute; reflexivity|].
    exists s. split; [by eapply blobs_run_ok|].
    assert ((map fst ∘ map_to_list ∘ cc_map ∘ rd_cache ∘ snd) <$>
      blobs_run toy_hash toy_zdec (made_ix rd_repo) rd_map (made_packs rd_repo) N.of_nat pick_first reader_new
      [b_id rd_a; b_id rd_b; b_id rd_c; b_id rd_a; pk x07] = Some [b_id rd_a; b_id rd_c]) as Hk by (vm_compute; reflexivity).
    rewrite Hs in Hk. apply (inj Some) in Hk. unfold compose in Hk. cbn [snd] in Hk. by rewrite Hk.
Qed.

(** A clock that is never late but may stand still: the chunk just loaded can be
    the one evicted, and the program crashes on an intact repository. *)
Theorem C27_refuted_coarse_clock : exists H zdec ix bmap packs content clock ids rs s,
  repo_holds H zdec ix packs content /\ blob_to_pack_map ix = Ok bmap /\
  (forall i j, i < j -> (clock i <= clock j)%N) /\
  (forall id, id ∈ ids -> exists x, in_chunk_pack content id x) /\
  read_blobs H zdec ix bmap packs clock reader_new ids rs s /\ Panic ∈ rs.
Proof.
  exists toy_hash, toy_zdec, (made_ix rd_repo), rd_map, (made_packs rd_repo), (made_content rd_repo), (fun _ => 5%N).
  exists [b_id rd_a; b_id rd_b; b_id rd_c], [Ok (ascii_bytes "aaa"); Ok (ascii_bytes "bbb"); Panic].
  destruct (run_get (blobs_run toy_hash toy_zdec (made_ix rd_repo) rd_map (made_packs rd_repo) (fun _ => 5%N)
    (fun l => if existsb (fun kv : oid * stamped => bool_decide (kv.1 = b_id rd_c)) l then Some (b_id rd_c) else None) reader_new
    [b_id rd_a; b_id rd_b; b_id rd_c])
    [Ok (ascii_bytes "aaa"); Ok (ascii_bytes "bbb"); Panic]) as (s & Hs); [vm_compute; reflexivity|].
  exists s.
  split; [exact rd_holds|]. split; [exact rd_map_ok|]. split; [done|]. split.
  { exact rd_stored. }
  split; [|right; right; left]. eapply blobs_run_ok. exact Hs.
Qed.
Print Assumptions C27_refuted_coarse_clock.

(** A pack with a tree before a chunk: the tree is skipped without reading it, so
    the chunk is not found although it is there. *)
Definition rd_tree : blob := mkBlob Tree (toy_hash (enc_tree [])) (enc_tree []).
Definition rd_mixed : list (oid * list blob) := [(pk x01, [rd_tree; rd_a])].
Theorem C27_refuted_mixed_pack : exists H zdec ix bmap packs content clock p bs b s,
  repo_holds H zdec ix packs content /\ blob_to_pack_map ix = Ok bmap /\ clock_advances clock /\
  content !! p = Some bs /\ b ∈ bs /\ b_type b = Chunk /\
  read_blob H zdec ix bmap packs clock reader_new (b_id b) Err s.
Proof.
  exists toy_hash, toy_zdec, (made_ix rd_mixed), (get_ok ∅ (blob_to_pack_map (made_ix rd_mixed))), (made_packs rd_mixed),
    (made_content rd_mixed), N.of_nat, (pk x01), [rd_tree; rd_a], rd_a.
  destruct (run_get (blob_run toy_hash toy_zdec (made_ix rd_mixed) (get_ok ∅ (blob_to_pack_map (made_ix rd_mixed)))
    (made_packs rd_mixed) N.of_nat pick_first reader_new (b_id rd_a)) Err) as (s & Hs); [vm_compute; reflexivity|].
  exists s. split.
  { apply made_holds; [apply (bool_decide_unpack _); vm_compute; exact I|]. repeat constructor; cbn; try done.
    intros _. exists []. split; [done|]. apply (bool_decide_unpack _). vm_compute. exact I. }
  split; [apply result_get; vm_compute; reflexivity|]. split; [intros i j Hij; lia|].
  split; [vm_compute; reflexivity|]. split; [right; left|]. split; [done|].
  by eapply blob_run_ok.
Qed.
Print Assumptions C27_refuted_mixed_pack.

(** Reading a tree's id as if it were a chunk's crashes. *)
Definition rd_trees : list (oid * list blob) := [(pk x01, [rd_tree])].
Theorem C27_refuted_tree_id : exists H zdec ix bmap packs content clock p bs b s,
  repo_holds H zdec ix packs content /\ blob_to_pack_map ix = Ok bmap /\ clock_advances clock /\
  content !! p = Some bs /\ b ∈ bs /\
  read_blob H zdec ix bmap packs clock reader_new (b_id b) Panic s.
Proof.
  exists toy_hash, toy_zdec, (made_ix rd_trees), (get_ok ∅ (blob_to_pack_map (made_ix rd_trees))), (made_packs rd_trees),
    (made_content rd_trees), N.of_nat, (pk x01), [rd_tree], rd_tree.
  destruct (run_get (blob_run toy_hash toy_zdec (made_ix rd_trees) (get_ok ∅ (blob_to_pack_map (made_ix rd_trees)))
    (made_packs rd_trees) N.of_nat pick_first reader_new (b_id rd_tree)) Panic) as (s & Hs); [vm_compute; reflexivity|].
  exists s. split.
  { apply made_holds; [apply (bool_decide_unpack _); vm_compute; exact I|]. repeat constructor; cbn; try done.
    intros _. exists []. split; [done|]. apply (bool_decide_unpack _). vm_compute. exact I. }
  split; [apply result_get; vm_compute; reflexivity|]. split; [intros i j Hij; lia|].
  split; [vm_compute; reflexivity|]. split; [left|].
  by eapply blob_run_ok.
Qed.
Print Assumptions C27_refuted_tree_id.
