(** Reading a snapshot of an example repository by computation. *)

From Verif Require Import Base OMap Formats Hashing Pack Index Meta Forest FsTree FsSpec FsFacts Pipeline Repo RepoSpec.

Section back.
Variable H : bytes -> oid.
Variable st : store.

Definition back_tree (id : oid) : option tree :=
  if decide (id = empty_id H) then Some []
  else match st !! id with
       | Some (Tree, b) => match dec_tree b with Some (t, []) => Some t | _ => None end
       | _ => None
       end.
Definition back_node (rec : oid -> option (list (bytes * fsnode))) (nd : node) : option fsnode :=
  match n_contents nd with
  | CFile cs => ps ← mapM (fun c => match st !! c with Some (Chunk, p) => Some p | _ => None end) cs; Some (FsFile (n_meta nd) (concat ps))
  | CSymlink t => Some (FsLink (n_meta nd) t)
  | CDir id => es ← rec id; Some (FsDir (n_meta nd) es)
  end.
Fixpoint back (fuel : nat) (id : oid) : option (list (bytes * fsnode)) :=
  match fuel with
  | O => None
  | S fuel' => t ← back_tree id; mapM (fun e : bytes * node => n ← back_node (back fuel') e.2; Some (e.1, n)) t
  end.

Lemma back_tree_ok id t : back_tree id = Some t -> stored_as H st id t.
Proof.
  unfold back_tree, stored_as. case_decide; [congruence|]. destruct (st !! id) as [[[] b]|]; try done.
  destruct (dec_tree b) as [[u []]|] eqn:E; try done. intros [= ->]. by exists b.
Qed.
Lemma back_ok fuel id es : back fuel id = Some es -> reads_root H st id es.
Proof.
  revert id es. induction fuel as [|fuel IH]; intros id es; [done|]. cbn [back]. intros (t & Ht & E)%bind_Some.
  exists t. split; [by apply back_tree_ok|]. apply mapM_Some in E. eapply Forall2_impl; [exact E|]. intros [x nd] [y n] (n' & E' & Eq)%bind_Some.
  cbn [fst snd] in *. injection Eq as -> ->. split; [done|]. unfold back_node in E'. destruct nd as [[cs|d|tg] m]; cbn [n_contents n_meta] in E'.
  - apply bind_Some in E' as (ps & Hps & Eq). injection Eq as <-. constructor. apply mapM_Some in Hps. eapply Forall2_impl; [exact Hps|].
    intros c p Hc. cbn in Hc. destruct (st !! c) as [[[] q]|]; [congruence|done|done].
  - apply bind_Some in E' as (es' & Hes & Eq). injection Eq as <-. apply IH in Hes as (u & Hu & HF). by econstructor.
  - injection E' as <-. constructor.
Qed.
End back.

(** ** A repository with one pack *)

Section single.
Variable H : bytes -> oid.
Variable U : blob -> Prop.

Definition single_index (bs : list blob) : index := mkIndex [] [(pack_id H (manifest_of bs), manifest_of bs)].
Definition single (bs : list blob) (sns : list snapshot) : backend :=
  mkBackend {[ pack_id H (manifest_of bs) := bs ]} {[ index_id H (single_index bs) := single_index bs ]}
    (list_to_map (map (fun sn => (snapshot_id H sn, sn)) sns)).

Lemma single_superseded bs sns : superseded (single bs sns) = [].
Proof. unfold superseded. cbn [k_indexes single]. rewrite map_to_list_singleton. done. Qed.
Lemma single_live bs sns : live_packs (single bs sns) = [(pack_id H (manifest_of bs), manifest_of bs)].
Proof.
  unfold live_packs, live_indexes. rewrite single_superseded. cbn [k_indexes single]. rewrite map_to_list_singleton. cbn [List.filter].
  by rewrite bool_decide_eq_false_2 by (by apply not_elem_of_nil).
Qed.
Lemma single_store bs sns : repo_store (single bs sns) = store_of bs.
Proof.
  unfold repo_store, live_blobs. rewrite single_live. cbn [map concat fst single k_packs]. rewrite lookup_singleton. cbn. by rewrite app_nil_r.
Qed.

Lemma single_sound bs sns : Forall U bs -> NoDup (map b_id bs) -> sound H U (single bs sns).
Proof.
  intros HU Hnd. split.
  - intros p bs' E. cbn [single k_packs] in E. apply lookup_singleton_Some in E as [<- <-]. done.
  - intros i ix E. cbn [single k_indexes] in E. apply lookup_singleton_Some in E as [<- <-]. by repeat split.
  - intros i ix p m E Hin. cbn [single k_indexes] in E. apply lookup_singleton_Some in E as [<- <-]. cbn [single_index ix_packs] in Hin.
    apply elem_of_list_singleton in Hin. injection Hin as -> ->. exists bs. split; [|done]. cbn [single k_packs]. by rewrite lookup_singleton.
  - rewrite single_live. intros p m p' m' n n' e e' Hin Hin' En En' Eid.
    apply elem_of_list_singleton in Hin. apply elem_of_list_singleton in Hin'. injection Hin as -> ->. injection Hin' as -> ->. split; [done|].
    unfold manifest_of in En, En'. change (map ?f ?l) with (f <$> l) in *. apply list_lookup_fmap_Some in En as (b & Eb & ->). apply list_lookup_fmap_Some in En' as (b' & Eb' & ->).
    eapply (NoDup_lookup (b_id <$> bs)); [exact Hnd| |]; apply list_lookup_fmap_Some; [exists b|exists b']; done.
  - intros i sn E. cbn [single k_snaps] in E. apply elem_of_list_to_map_2 in E. apply elem_of_list_fmap in E as (sn' & E & _). by injection E as -> ->.
Qed.
Lemma single_in_order bs sns : Forall U bs -> NoDup (map b_id bs) ->
  (forall sn, sn ∈ sns -> exists es, reads_root H (store_of bs) (sn_tree sn) es) -> in_order H U (single bs sns).
Proof.
  intros HU Hnd Hsn. destruct (single_sound bs sns HU Hnd) as [S1 S2 S3 S4 S5]. split; try done.
  - intros i sn E. cbn [single k_snaps] in E. apply elem_of_list_to_map_2 in E. apply elem_of_list_fmap in E as (sn' & E & Hin). injection E as -> ->.
    destruct (Hsn _ Hin) as [es Hes]. exists es. unfold restores. by rewrite single_store.
Qed.
Lemma single_master bs sns : master (single bs sns) = Ok (single_index bs).
Proof.
  unfold master. cbn [k_indexes single]. rewrite map_to_list_singleton. unfold build_master_index, single_index.
  generalize (pack_id H (manifest_of bs)) as p. generalize (manifest_of bs) as m. intros m p.
  generalize (index_id H (mkIndex [] [(p, m)])) as i. intros i. cbn. reflexivity.
Qed.
End single.
