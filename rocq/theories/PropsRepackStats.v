(** C76: the numbers copy and prune show add up. *)

From Verif Require Import Base OMap Cbor Formats FormatsFacts Hashing Pack Index Meta Forest ForestFacts FsTree FsSpec FsFacts BackupFacts
  PropsIndex PropsBackup Pipeline PipelineFacts Repo RepoSpec RepoFacts RewriteFacts CommandFacts History HistoryFacts BackupStats PropsBackupStats RepackStats
  Exec Witness Toy PropsRepo.

(** ** What there is to say *)

(** The bytes of the files in a snapshot that are not skipped; [es] is what restoring it gives. *)
Definition snapshot_bytes (filter : bytes -> bool) (es : list (bytes * fsnode)) : N :=
  sumN (map (fun e : bytes * fsnode => kept_bytes filter e.1 e.2) es).

(** The bytes of the directories' trees among some blobs. *)
Definition of_kind (kind : blob_type) (bs : list blob) : N := bytes_in (base.filter (fun b => b_type b = kind) bs).

(** ** Proofs *)

Definition uncount {A} (r : option (result (bstate * N * A))) : option (result (bstate * A)) :=
  match r with
  | Some (Ok (s, a)) => Some (Ok (s.1, a))
  | Some Err => Some Err
  | Some Panic => Some Panic
  | None => None
  end.

Section uncounted.
Variables (H : bytes -> oid) (filter : bytes -> bool).
Variable cchunk : oid -> bstate * N -> result (bstate * N).
Variable uchunk : oid -> bstate -> result bstate.
Hypothesis Hsame : forall c s, less fst (cchunk c s) = uchunk c s.1.
Local Set Default Proof Using "All".

Lemma nodes_uncounted crec urec path l s t :
  (forall p id s, uncount (crec p id s) = urec p id s.1) ->
  uncount (counted_nodes filter cchunk crec path l s t) = rewrite_nodes filter uchunk urec path l s.1 t.
Proof.
  intros Hrec. revert s t. induction l as [|[name nd] l IH]; intros s t; cbn [counted_nodes rewrite_nodes]; [done|]. cbv zeta.
  destruct (negb (filter (join path name))); [apply IH|].
  destruct (n_contents nd) as [cs|sub|tg].
  - rewrite <-(less_rfold fst cchunk uchunk cs s) by (intros; apply Hsame). destruct (rfold cchunk cs s); cbn [less rbind]; [|done..].
    destruct (om_get name t); [done|]. apply IH.
  - rewrite <-Hrec. destruct (crec (join path name) sub s) as [[[s' i]| |]|]; cbn [uncount]; [|done..].
    destruct (om_get name t); [done|]. apply IH.
  - destruct (om_get name t); [done|]. apply IH.
Qed.

Lemma retree_uncounted fo fuel path id s :
  uncount (counted_tree H filter cchunk fo fuel path id s) = rewrite_tree H filter uchunk fo fuel path id s.1.
Proof.
  revert path id s. induction fuel as [|fuel IH]; intros path id s; cbn [counted_tree rewrite_tree]; [done|].
  destruct (fo !! id) as [t|]; [|done]. rewrite <-(nodes_uncounted (counted_tree H filter cchunk fo fuel)) by apply IH.
  destruct (counted_nodes _ _ _ _ _ _ _) as [[[s' t']| |]|]; cbn [uncount]; [|done..].
  by destruct (send_counted_spec s' (tree_blob H t')) as [<- _].
Qed.

Lemma snapshots_uncounted fuel l s :
  uncount (counted_snapshots H filter cchunk fuel l s) = rewrite_snapshots H filter uchunk fuel l s.1.
Proof.
  revert s. induction l as [|[sn fo] l IH]; intros s; cbn [counted_snapshots rewrite_snapshots]; [done|].
  rewrite <-retree_uncounted. destruct (counted_tree _ _ _ _ _ _ _ _) as [[[s' i]| |]|]; cbn [uncount]; [|done..].
  rewrite <-IH. by destruct (counted_snapshots _ _ _ _ _ _) as [[[s'' sns]| |]|].
Qed.
End uncounted.

Lemma chunk_uncounted k ix bmap c s : less fst (counted_chunk k ix bmap c s) = repack_chunk k ix bmap c s.1.
Proof.
  unfold counted_chunk, repack_chunk. destruct (decide _).
  - by destruct (blob_size ix bmap c).
  - by destruct (read_chunk k bmap c).
Qed.

(** The counted walk adds the bytes of everything in the plan. *)
Section weight.
Variables (H : bytes -> oid) (filter : bytes -> bool) (chunk : oid -> bytes) (fo : forest).
Variable cchunk : oid -> bstate * N -> result (bstate * N).
Hypothesis Hchunk : forall id t c s, fo !! id = Some t -> c ∈ tree_chunks t ->
  cchunk c s = Ok (send_counted s (mkBlob Chunk c (chunk c))).
Local Set Default Proof Using "All".

Lemma cfold_chunks id t cs s : fo !! id = Some t -> (forall c, c ∈ cs -> c ∈ tree_chunks t) ->
  rfold cchunk cs s = Ok (foldl send_counted s (map (fun c => mkBlob Chunk c (chunk c)) cs)).
Proof.
  intros Et. revert s. induction cs as [|c cs IH]; intros s Hc; cbn [rfold map foldl]; [done|].
  rewrite (Hchunk id t) by (try done; apply Hc; by left). cbn [rbind]. apply IH. intros c' Hc'. apply Hc. by right.
Qed.

Lemma nodes_weight id t crec prec path l s acc s' t' :
  fo !! id = Some t -> (exists l0, t = l0 ++ l) ->
  (forall p sub s s' i, crec p sub s = Some (Ok (s', i)) -> exists bs, prec p sub = Some (i, bs) /\ weigh s' = (weigh s + bytes_in bs)%N) ->
  om_sorted acc -> om_sorted l -> Forall (fun a : bytes * node => Forall (fun b : bytes * node => bytes_lt a.1 b.1) l) acc ->
  counted_nodes filter cchunk crec path l s acc = Some (Ok (s', t')) ->
  exists lp, rplan_nodes filter chunk prec path l = Some lp /\ t' = acc ++ rplan_tree lp /\
    weigh s' = (weigh s + bytes_in (concat (map (fun x => x.2.2) lp)))%N.
Proof.
  intros Et Hl Hrec. revert s acc Hl. induction l as [|[name nd] l IH]; intros s acc [l0 Hl] Ha Hso Hacc; cbn [counted_nodes rplan_nodes].
  { intros [= <- <-]. exists []. split; [done|]. split; [by rewrite app_nil_r|]. unfold bytes_in. cbn. lia. }
  cbv zeta. assert (exists l1, t = l1 ++ l) as Hl' by (exists (l0 ++ [(name, nd)]); by rewrite <-app_assoc).
  destruct Hso as [Hlt Hso].
  assert (Forall (fun a : bytes * node => Forall (fun b : bytes * node => bytes_lt a.1 b.1) l) acc) as Hacc1.
  { eapply Forall_impl; [exact Hacc|]. intros a Hx. by apply Forall_cons in Hx as [_ ?]. }
  destruct (filter (join path name)); cbn [negb]; [|by apply IH].
  assert (Forall (fun a : bytes * node => bytes_lt a.1 name) acc) as Hname.
  { eapply Forall_impl; [exact Hacc|]. intros a Hx. by apply Forall_cons in Hx as [? _]. }
  destruct (om_get name acc) eqn:Eg.
  { destruct (n_contents nd); [by destruct (rfold _ _ _)| |done]. by destruct (crec _ _ _) as [[[]| |]|]. }
  assert (forall s1 nd1, counted_nodes filter cchunk crec path l s1 (om_insert name nd1 acc) = Some (Ok (s', t')) ->
    exists lp, rplan_nodes filter chunk prec path l = Some lp /\ t' = acc ++ (name, nd1) :: rplan_tree lp /\
      weigh s' = (weigh s1 + bytes_in (concat (map (fun x => x.2.2) lp)))%N) as Hgo.
  { intros s1 nd1 E. assert (om_sorted (om_insert name nd1 acc)) as Ha1 by (by apply om_insert_sorted). rewrite om_insert_last in E, Ha1 by done.
    apply IH in E as (lp & Elp & -> & Hw); [|done..|]; [|apply Forall_app; split; [done|by repeat constructor]].
    exists lp. split; [done|]. split; [by rewrite <-app_assoc|done]. }
  destruct (n_contents nd) as [cs|sub|tg] eqn:En.
  - rewrite (cfold_chunks id t); [|done|].
    2: { intros c Hc. rewrite Hl. unfold tree_chunks. rewrite map_app, concat_app. apply elem_of_app. right.
      cbn [map concat]. apply elem_of_app. left. unfold node_chunks. cbn [snd]. by rewrite En. }
    intros (lp & -> & -> & Hw)%Hgo. eexists. split; [done|]. split; [done|]. rewrite Hw. cbn [map concat snd]. rewrite bytes_in_app.
    destruct (send_all_counted (map (fun c => mkBlob Chunk c (chunk c)) cs) s) as [_ ->]. lia.
  - destruct (crec (join path name) sub s) as [[[s1 i]| |]|] eqn:Er; [|done..]. apply Hrec in Er as (bs & -> & Hw1).
    intros (lp & -> & -> & Hw)%Hgo. eexists. split; [done|]. split; [done|]. rewrite Hw, Hw1. cbn [map concat snd]. rewrite bytes_in_app. lia.
  - intros (lp & -> & -> & Hw)%Hgo. eexists. split; [done|]. split; [done|]. rewrite Hw. cbn [map concat snd app]. done.
Qed.

Hypothesis Hsorted : forall id t, fo !! id = Some t -> om_sorted t.
Lemma retree_weight fuel path id s s' i :
  counted_tree H filter cchunk fo fuel path id s = Some (Ok (s', i)) ->
  exists bs, rplan H filter chunk fo fuel path id = Some (i, bs) /\ weigh s' = (weigh s + bytes_in bs)%N.
Proof.
  revert path id s s' i. induction fuel as [|fuel IH]; intros path id s s' i; cbn [counted_tree rplan]; [done|].
  destruct (fo !! id) as [t|] eqn:Et; [|done].
  destruct (counted_nodes _ _ _ _ _ _ _) as [[[s1 t1]| |]|] eqn:E; [|done..]. intros [= <- <-].
  apply (nodes_weight id t _ (rplan H filter chunk fo fuel)) in E as (lp & -> & -> & Hw); [|done|by exists []|done|done|by eapply Hsorted|done].
  eexists. split; [done|]. destruct (send_counted_spec s1 (tree_blob H ([] ++ rplan_tree lp))) as [_ ->]. rewrite Hw, bytes_in_app.
  unfold bytes_in at 3. cbn [map sumN foldr app]. lia.
Qed.
End weight.

Lemma snapshots_weight H filter chunk cchunk fuel l s s' sns :
  (forall sn fo, (sn, fo) ∈ l ->
     (forall id t c s, fo !! id = Some t -> c ∈ tree_chunks t -> cchunk c s = Ok (send_counted s (mkBlob Chunk c (chunk c)))) /\
     (forall id t, fo !! id = Some t -> om_sorted t)) ->
  counted_snapshots H filter cchunk fuel l s = Some (Ok (s', sns)) ->
  weigh s' = (weigh s + bytes_in (rplan_all H filter chunk fuel l))%N /\
  Forall (fun x : snapshot * forest => is_Some (rplan H filter chunk x.2 fuel [] (sn_tree x.1))) l.
Proof.
  revert s s' sns. induction l as [|[sn fo] l IH]; intros s s' sns Hall E; cbn [counted_snapshots] in E.
  { injection E as <- <-. unfold rplan_all, bytes_in. cbn. split; [lia|done]. }
  destruct (Hall sn fo) as [Hc Ho]; [by left|].
  destruct (counted_tree _ _ _ _ _ _ _ _) as [[[s1 i]| |]|] eqn:Et; [|done..].
  apply (retree_weight H filter chunk fo cchunk Hc Ho) in Et as (bs & Er & Hw).
  destruct (counted_snapshots _ _ _ _ _ _) as [[[s2 sns2]| |]|] eqn:E2; [|done..]. injection E as <- <-.
  apply IH in E2 as [Hw2 HF]; [|intros sn' fo' Hx; apply (Hall sn' fo'); by right]. split; [|by constructor; [eexists; exact Er|]].
  unfold rplan_all in *. cbn [map concat fst snd]. rewrite Er, bytes_in_app, Hw2, Hw. lia.
Qed.

(** The chunk bytes of a plan are the bytes of the files. *)
Lemma of_kind_app kind l k : of_kind kind (l ++ k) = (of_kind kind l + of_kind kind k)%N.
Proof. unfold of_kind. by rewrite filter_app, bytes_in_app. Qed.
Lemma both_kinds bs : (of_kind Chunk bs + of_kind Tree bs = bytes_in bs)%N.
Proof. rewrite <-packed_both. unfold count_packed, of_kind. rewrite !packed_gen. lia. Qed.

Lemma chunks_kind (chunk : oid -> bytes) (st : store) cs ps :
  (forall c x, st !! c = Some (Chunk, x) -> chunk c = x) -> Forall2 (fun c p => st !! c = Some (Chunk, p)) cs ps ->
  of_kind Chunk (map (fun c => mkBlob Chunk c (chunk c)) cs) = N.of_nat (length (concat ps)).
Proof.
  intros Hch. induction 1 as [|c p cs ps Hc HF IH]; [done|]. cbn [map concat]. rewrite app_length, Nat2N.inj_add, <-IH, <-(Hch _ _ Hc).
  unfold of_kind. rewrite filter_cons, decide_True by done. done.
Qed.

Lemma rplan_chunk_bytes (H : bytes -> oid) (filter : bytes -> bool) (chunk : oid -> bytes) (fo : forest) (st : store) fuel path id id' bs es :
  (forall id t, fo !! id = Some t -> stored_as H st id t) ->
  (forall c x, st !! c = Some (Chunk, x) -> chunk c = x) ->
  rplan H filter chunk fo fuel path id = Some (id', bs) -> reads_root H st id es ->
  of_kind Chunk bs = sumN (map (fun e : bytes * fsnode => kept_bytes filter (join path e.1) e.2) es).
Proof.
  intros Hfo Hch. revert path id id' bs es. induction fuel as [|fuel IH]; intros path id id' bs es E Hr; [done|].
  apply rplan_inv in E as (t & lp & Et & El & -> & ->).
  pose proof (Hfo _ _ Et) as Hst. destruct Hr as (t0 & Ht0 & HF).
  assert (t0 = t) as -> by (by eapply stored_as_fun). rewrite of_kind_app.
  replace (of_kind Chunk [tree_blob H (rplan_tree lp)]) with 0%N by (unfold of_kind; rewrite filter_cons, decide_False by done; done).
  rewrite N.add_0_r. clear Et Hst Ht0. revert lp El.
  induction HF as [|[nm nd] [nm' n] t es [Hn Hr] HF IHF]; intros lp El; cbn [rplan_nodes] in El; [by injection El as <-|].
  cbn [fst snd] in Hn, Hr. subst nm'. cbv zeta in El. cbn [map sumN foldr fst snd]. change (foldr N.add 0%N) with sumN.
  destruct (filter (join path nm)) eqn:Ef; cbn [negb] in El.
  2: { rewrite IHF by done. assert (kept_bytes filter (join path nm) n = 0%N) as ->; [|done]. destruct n; cbn [kept_bytes]; by rewrite Ef. }
  destruct (match n_contents nd with CFile _ => _ | _ => _ end) as [[nd' bs']|] eqn:Ex; [|done].
  destruct (rplan_nodes filter chunk _ path t) as [rest|] eqn:Er; [|done]. injection El as <-.
  cbn [map concat snd]. rewrite of_kind_app, (IHF rest) by done. f_equal.
  inversion Hr as [m cs parts Hp E1 E2|m tg E1 E2|m sub t' es' Hs' HF' E1 E2]; subst nd n; cbn [n_contents] in Ex; cbn [kept_bytes]; rewrite Ef; cbn [negb].
  - injection Ex as <- <-. by eapply chunks_kind.
  - injection Ex as <- <-. done.
  - destruct (rplan H filter chunk fo fuel (join path nm) sub) as [[i2 bs2]|] eqn:Es; [|done]. injection Ex as <- <-.
    eapply IH; [exact Es|by exists t'].
Qed.

Lemma rplan_all_chunk_bytes (H : bytes -> oid) (filter : bytes -> bool) (chunk : oid -> bytes) (fuel : nat) (l : list (snapshot * forest)) (files : list (list (bytes * fsnode))) (st : store) :
  (forall sn fo, (sn, fo) ∈ l -> forall id t, fo !! id = Some t -> stored_as H st id t) ->
  (forall c x, st !! c = Some (Chunk, x) -> chunk c = x) ->
  Forall (fun x : snapshot * forest => is_Some (rplan H filter chunk x.2 fuel [] (sn_tree x.1))) l ->
  Forall2 (fun (x : snapshot * forest) es => reads_root H st (sn_tree x.1) es) l files ->
  of_kind Chunk (rplan_all H filter chunk fuel l) = sumN (map (snapshot_bytes filter) files).
Proof.
  intros Hfo Hch Hsome HF. induction HF as [|[sn fo] es l files Hr HF IH]; [done|].
  apply Forall_cons in Hsome as [[[i bs] E] Hsome]. unfold rplan_all in *. cbn [map concat fst snd] in *. rewrite E, of_kind_app.
  cbn [sumN foldr]. change (foldr N.add 0%N) with sumN. rewrite IH; [|intros sn' fo' Hx; apply (Hfo sn' fo'); by right|done]. f_equal.
  unfold snapshot_bytes. rewrite (rplan_chunk_bytes H filter chunk fo st fuel [] (sn_tree sn) i bs es); [|apply (Hfo sn fo); by left|done..].
  done.
Qed.

Lemma blob_size_is H U k ix bmap c x : universe H U -> structured H U k -> master k = Ok ix -> blob_to_pack_map ix = Ok bmap ->
  repo_store k !! c = Some (Chunk, x) -> blob_size ix bmap c = Ok (N.of_nat (length x)).
Proof.
  intros HU Hk Hix Hbm Ec. apply (repo_store_lookup H U HU) in Ec; [|apply Hk].
  pose proof Ec as Hb0. apply elem_of_live_blobs in Ec as (p & m & bs & Hm & Ek & Hb).
  unfold blob_size. assert (bmap !! c = Some p) as -> by (apply (bmap_lookup H U HU k Hk ix bmap Hix Hbm); eauto 10). cbn [of_option rbind].
  destruct (master_ok H U HU k Hk) as (ix' & E' & [_ Hs] & Hp). rewrite Hix in E'. injection E' as <-.
  assert (om_get p (ix_packs ix) = Some m) as -> by (apply om_get_elem; [done|by apply Hp]). cbn [of_option rbind].
  destruct (live_pack_bs H U HU k Hk p m Hm) as (bs' & Ek' & <-). assert (bs' = bs) as -> by congruence.
  destruct (List.find _ (manifest_of bs)) as [e|] eqn:Ef; cbn [of_option rbind].
  - apply find_some in Ef as [He Eid%bool_decide_eq_true]. apply elem_of_list_In, elem_of_list_fmap in He as (b & -> & Hb').
    assert (Forall U bs) as HF by (by apply (st_packs _ _ _ Hk p)). rewrite Forall_forall in HF.
    assert (b = mkBlob Chunk c x) as -> by (apply (un_inj _ _ HU); auto). done.
  - eapply find_none in Ef; [|apply elem_of_list_In, (elem_of_list_fmap_1 entry_of); exact Hb].
    by apply bool_decide_eq_false in Ef.
Qed.

Lemma counted_chunk_ok H U k ix bmap c s x : universe H U -> structured H U k -> master k = Ok ix -> blob_to_pack_map ix = Ok bmap ->
  repo_store k !! c = Some (Chunk, x) ->
  counted_chunk k ix bmap c s = Ok (send_counted s (mkBlob Chunk c (chunk_of (repo_store k) c))).
Proof.
  intros HU Hk Hix Hbm Ec. unfold counted_chunk, send_counted, chunk_of. rewrite Ec. cbn [b_id b_bytes]. destruct (decide (c ∈ bs_packed s.1)) as [Hin|Hin].
  - by rewrite (blob_size_is H U k ix bmap c x).
  - apply (read_chunk_spec H U HU k Hk ix bmap Hix Hbm) in Ec. by rewrite Ec.
Qed.

(** Both commands. *)
Lemma walk_adds_up H U filter k ix bmap chosen fuel forests packed s reused sns files :
  universe H U -> (forall x, length (H x) = 28) -> in_order H U k ->
  (forall sn, sn ∈ chosen -> exists i, k_snaps k !! i = Some sn) ->
  master k = Ok ix -> blob_to_pack_map ix = Ok bmap -> load_forests H k bmap fuel chosen = Some (Ok forests) ->
  counted_snapshots H filter (counted_chunk k ix bmap) fuel forests (mkBstate packed [], 0%N) = Some (Ok (s, reused, sns)) ->
  Forall2 (program_reads H k) chosen files ->
  let trees := of_kind Tree (rplan_all H filter (chunk_of (repo_store k)) fuel forests) in
  (count_packed Chunk (bs_sent s) + count_packed Tree (bs_sent s) + reused = sumN (map (snapshot_bytes filter) files) + trees)%N /\
  (count_packed Chunk (bs_sent s) <= sumN (map (snapshot_bytes filter) files))%N /\ (count_packed Tree (bs_sent s) <= trees)%N /\
  NoDup (map b_id (bs_sent s)) /\ (forall b, b ∈ bs_sent s -> b_id b ∉ packed).
Proof.
  intros HU Hlen Hk Hch Hix Hbm Ef E HF trees. pose proof (in_order_structured _ _ _ Hk) as Hst.
  destruct (load_forests_inv _ _ _ _ _ _ Ef) as [<- HL].
  assert (forall sn fo, (sn, fo) ∈ forests ->
    (forall id t, fo !! id = Some t -> stored_as H (repo_store k) id t) /\
    (forall id t c s, fo !! id = Some t -> c ∈ tree_chunks t -> counted_chunk k ix bmap c s = Ok (send_counted s (mkBlob Chunk c (chunk_of (repo_store k) c)))) /\
    (forall id t, fo !! id = Some t -> om_sorted t)) as Hin.
  { intros sn fo Hx. destruct (Hch sn) as [i Hi]; [apply elem_of_list_fmap; by exists (sn, fo)|].
    rewrite Forall_forall in HL. specialize (HL _ Hx). cbn [fst snd] in HL.
    destruct (forest_facts H U HU Hlen k ix bmap fuel sn fo i Hk Hix Hbm Hi HL) as (_ & F2 & _ & _ & F5). split_and!.
    - intros id t Ht. by apply F2.
    - intros id t c s' Ht Hc. destruct (F5 id t c Ht Hc) as [x Hx']. by eapply counted_chunk_ok.
    - intros id t Ht. by destruct (F2 id t Ht) as (_ & [(_ & _ & ?) _] & _). }
  pose proof (snapshots_weight H filter (chunk_of (repo_store k)) _ _ _ _ _ _ (fun sn fo Hx => proj2 (Hin sn fo Hx)) E) as [Hw Hsome].
  assert (Forall2 (fun (x : snapshot * forest) es => reads_root H (repo_store k) (sn_tree x.1) es) forests files) as HR.
  { eapply Forall2_impl; [exact (proj1 (Forall2_fmap_l fst (program_reads H k) forests files) HF)|]. intros [sn fo] es Hr.
    by apply (program_reads_iff H U HU Hlen k sn es Hk) in Hr. }
  pose proof (rplan_all_chunk_bytes H filter (chunk_of (repo_store k)) fuel forests files (repo_store k)
    (fun sn fo Hx => proj1 (Hin sn fo Hx)) (chunk_of_spec H U HU Hlen (repo_store k)) Hsome HR) as Hc.
  pose proof (snapshots_uncounted H filter _ _ (chunk_uncounted k ix bmap) fuel forests (mkBstate packed [], 0%N)) as Eu.
  rewrite E in Eu. cbn [uncount fst] in Eu. symmetry in Eu.
  assert (s = foldl send_new (mkBstate packed []) (rplan_all H filter (chunk_of (repo_store k)) fuel forests)) as Es.
  { apply (rewrite_snapshots_plan H filter (chunk_of (repo_store k)) (repack_chunk k ix bmap) packed fuel forests _ s sns); [|done|done].
    intros sn fo Hx. destruct (Hin sn fo Hx) as (_ & F & Fs). split; [|done]. intros id t c s' Ht Hc' _.
    pose proof (chunk_uncounted k ix bmap c (s', 0%N)) as Ec. rewrite (F id t) in Ec by done. cbn [less rbind fst] in Ec. rewrite <-Ec. f_equal.
    by destruct (send_counted_spec (s', 0%N) (mkBlob Chunk c (chunk_of (repo_store k) c))). }
  split; [|split; [|split]].
  - rewrite packed_both. change (weigh (s, reused) = (sumN (map (snapshot_bytes filter) files) + trees)%N). rewrite Hw, <-both_kinds, Hc.
    change (weigh (mkBstate packed [], 0%N)) with 0%N. done.
  - rewrite <-Hc, Es. destruct (send_sublist (rplan_all H filter (chunk_of (repo_store k)) fuel forests) (mkBstate packed [])) as (new & -> & Hsub).
    cbn [bs_sent app]. unfold count_packed. rewrite packed_gen, N.add_0_l. by apply of_kind_sublist.
  - rewrite Es. destruct (send_sublist (rplan_all H filter (chunk_of (repo_store k)) fuel forests) (mkBstate packed [])) as (new & -> & Hsub).
    cbn [bs_sent app]. unfold count_packed. rewrite packed_gen, N.add_0_l. by apply of_kind_sublist.
  - destruct (send_all (rplan_all H filter (chunk_of (repo_store k)) fuel forests) (mkBstate packed [])) as (new & E' & Hnd & Hnew & _).
    rewrite E' in Es. subst s. cbn [bs_sent bs_packed app] in *. split; [done|]. intros b Hb. by apply Hnew.
Qed.

(** With nothing skipped, what is gone through is what the sizes of the snapshots say (C26). *)
Section shown.
Variables (H : bytes -> oid) (filter : bytes -> bool) (chunk : oid -> bytes) (fo : forest) (sm : gmap oid N).
Hypothesis Hall : forall p, filter p = true.
Hypothesis Hid : forall id t, fo !! id = Some t -> id = tree_id H t.
Hypothesis Hct : forall id t c n, fo !! id = Some t -> c ∈ tree_chunks t -> sm !! c = Some n -> n = N.of_nat (length (chunk c)).
Hypothesis Htt : forall id t n, fo !! id = Some t -> sm !! id = Some n -> n = N.of_nat (length (enc_tree t)).
Local Set Default Proof Using "All".

Definition total (s : fsizes) : N := (fs_tree s + fs_chunk s)%N.

Lemma chunks_shown id t cs v s v' s' : fo !! id = Some t -> (forall c, c ∈ cs -> c ∈ tree_chunks t) ->
  chunk_sizes sm cs (v, s) = Ok (v', s') -> total s' = (total s + bytes_in (map (fun c => mkBlob Chunk c (chunk c)) cs))%N.
Proof.
  intros Et. revert v s. induction cs as [|c cs IH]; intros v s Hc; cbn [chunk_sizes map].
  { intros [= -> ->]. unfold bytes_in. cbn. lia. }
  unfold chunk_size. destruct (sm !! c) as [n|] eqn:En; cbn [of_option rbind]; [|done].
  apply (Hct id t) in En; [|done|apply Hc; by left]. unfold bytes_in. cbn [map sumN foldr b_bytes]. change (foldr N.add 0%N) with sumN.
  change (sumN (map (fun b => N.of_nat (length (b_bytes b))) (map (fun c => mkBlob Chunk c (chunk c)) cs))) with (bytes_in (map (fun c => mkBlob Chunk c (chunk c)) cs)).
  case_decide; cbn [rbind]; intros E; apply IH in E; try (intros c' Hc'; apply Hc; by right); rewrite E, En; unfold total; cbn; lia.
Qed.

Lemma tree_shown n m path id id' bs v s v' s' :
  tree_size fo sm n id (v, s) = Some (Ok (v', s')) -> rplan H filter chunk fo m path id = Some (id', bs) ->
  total s' = (total s + bytes_in bs)%N.
Proof.
  revert m path id id' bs v s v' s'. induction n as [|n IH]; intros m path id id' bs v s v' s'; cbn [tree_size]; [done|].
  destruct (fo !! id) as [t|] eqn:Et; [|done]. destruct (sm !! id) as [sz|] eqn:Esz; [|done]. intros E Er.
  pose proof (rplan_same H filter chunk fo m path id id' bs Hall Hid Er) as [-> _].
  destruct m as [|m]; [done|]. apply rplan_inv in Er as (t0 & lp & Et0 & El & Eid & ->).
  rewrite Et in Et0. injection Et0 as <-.
  assert (rplan_tree lp = t) as ->.
  { clear -El Hall Hid. revert lp El. induction t as [|[nm nd] t IHt]; intros lp El; cbn [rplan_nodes] in El.
    { by injection El as <-. }
    cbv zeta in El. rewrite Hall in El. cbn [negb] in El.
    destruct (match n_contents nd with CFile _ => _ | _ => _ end) as [[nd' bs']|] eqn:Ex; [|done].
    destruct (rplan_nodes filter chunk _ path t) as [rest|] eqn:Er; [|done]. injection El as <-.
    unfold rplan_tree in *. cbn [map fst snd]. rewrite IHt by done. f_equal. f_equal. destruct nd as [c m']. cbn [n_contents n_meta] in Ex.
    destruct c as [cs|sub|tg]; [by injection Ex as <- <-| |by injection Ex as <- <-].
    destruct (rplan _ _ _ _ _ _ sub) as [[i bs]|] eqn:Es; [|done]. injection Ex as <- <-.
    by destruct (rplan_same H filter chunk fo _ _ _ _ _ Hall Hid Es) as [-> _]. }
  apply (Htt id t) in Esz; [|done]. rewrite bytes_in_app.
  assert (bytes_in [tree_blob H t] = sz) as -> by (rewrite Esz; unfold bytes_in; cbn; lia).
  assert (forall l a v1 s1, (exists l0, t = l0 ++ l) -> fold_nodes (tree_size fo sm n) (chunk_sizes sm) l a = Some (Ok (v1, s1)) ->
    forall lp, rplan_nodes filter chunk (rplan H filter chunk fo m) path l = Some lp ->
    total s1 = (total a.2 + bytes_in (concat (map (fun x => x.2.2) lp)))%N) as Hfold.
  { clear -IH Hct Htt Hid Et Hall. induction l as [|[nm nd] l IHl]; intros [v0 s0] v1 s1 [l0 Hl]; cbn [fold_nodes rplan_nodes].
    { intros [= -> ->] lp [= <-]. unfold bytes_in. cbn. lia. }
    assert (exists l1, t = l1 ++ l) as Hl' by (exists (l0 ++ [(nm, nd)]); by rewrite <-app_assoc).
    cbv zeta. rewrite Hall. cbn [negb]. intros E lp El.
    destruct (match n_contents nd with CFile _ => Some (nd, _) | _ => _ end) as [[nd' bs']|] eqn:Ex; [|done].
    destruct (rplan_nodes filter chunk _ path l) as [rest|] eqn:Er; [|done]. injection El as <-. cbn [map concat snd]. rewrite bytes_in_app.
    destruct (n_contents nd) as [cs|sub|tg] eqn:En.
    - injection Ex as <- <-. destruct (chunk_sizes sm cs (v0, s0)) as [[v2 s2]| |] eqn:Ec; try done.
      apply (IHl (v2, s2) v1 s1 Hl') with (lp := rest) in E; [|done].
      apply (chunks_shown id t) in Ec; [|done|]. { rewrite E. cbn [snd]. lia. }
      intros c Hc. rewrite Hl. unfold tree_chunks. rewrite map_app, concat_app. apply elem_of_app. right.
      cbn [map concat]. apply elem_of_app. left. unfold node_chunks. cbn [snd]. by rewrite En.
    - destruct (rplan H filter chunk fo m (join path nm) sub) as [[i2 bs2]|] eqn:Es; [|done]. injection Ex as <- <-.
      destruct (tree_size fo sm n sub (v0, s0)) as [[[v2 s2]| |]|] eqn:Ec; try done.
      apply (IHl (v2, s2) v1 s1 Hl') with (lp := rest) in E; [|done]. apply (IH m (join path nm) sub i2 bs2) in Ec; [|done].
      rewrite E. cbn [snd]. lia.
    - injection Ex as <- <-. apply (IHl (v0, s0) v1 s1 Hl') with (lp := rest) in E; [|done]. rewrite E. cbn [snd]. unfold bytes_in at 2. cbn. lia. }
  assert (forall a, fold_nodes (tree_size fo sm n) (chunk_sizes sm) t a = Some (Ok (v', s')) -> total s' = (total a.2 + bytes_in (concat (map (fun x => x.2.2) lp)))%N) as Hf.
  { intros a Ha. apply (Hfold t a v' s'); [by exists []|done|done]. }
  cbv zeta in E. case_decide; apply Hf in E; rewrite E; unfold total; cbn; lia.
Qed.
End shown.

Lemma all_shown (H : bytes -> oid) (filter : bytes -> bool) (chunk : oid -> bytes) (n m : nat) (sm : gmap oid N) (l : list (snapshot * forest)) v v' ss :
  (forall p, filter p = true) ->
  (forall sn fo, (sn, fo) ∈ l ->
     (forall id t, fo !! id = Some t -> id = tree_id H t) /\
     (forall id t c n, fo !! id = Some t -> c ∈ tree_chunks t -> sm !! c = Some n -> n = N.of_nat (length (chunk c))) /\
     (forall id t n, fo !! id = Some t -> sm !! id = Some n -> n = N.of_nat (length (enc_tree t)))) ->
  Forall (fun x : snapshot * forest => is_Some (rplan H filter chunk x.2 m [] (sn_tree x.1))) l ->
  sizes_all n sm (map (fun x : snapshot * forest => (sn_tree x.1, x.2)) l) v = Some (Ok (v', ss)) ->
  sumN (map total ss) = bytes_in (rplan_all H filter chunk m l).
Proof.
  intros Hall. revert v v' ss. induction l as [|[sn fo] l IH]; intros v v' ss Hin Hsome; cbn [map sizes_all fst snd].
  { by intros [= <- <-]. }
  apply Forall_cons in Hsome as [[[i bs] Er] Hsome]. unfold forest_sizes.
  destruct (tree_size fo sm n (sn_tree sn) (v, fsizes_zero)) as [[[v1 s1]| |]|] eqn:Et; try done.
  destruct (Hin sn fo) as (F1 & F2 & F3); [by left|]. cbn [fst snd] in Er.
  apply (tree_shown H filter chunk fo sm Hall F1 F2 F3 n m [] (sn_tree sn) i bs) in Et; [|done].
  destruct (fs_tree s1 + fs_chunk s1 =? fs_introduced s1 + fs_reused s1)%N; [|done].
  destruct (sizes_all n sm _ v1) as [[[v2 ss2]| |]|] eqn:Es; try done. intros [= <- <-].
  apply IH in Es; [|intros sn' fo' Hx; apply (Hin sn' fo'); by right|done]. cbn [map sumN foldr]. change (foldr N.add 0%N) with sumN.
  unfold rplan_all in *. cbn [map concat fst snd]. rewrite Er, bytes_in_app, Es, Et. done.
Qed.

Lemma size_map_is H U k ix sm c ty x n : universe H U -> structured H U k -> master k = Ok ix -> blob_to_size_map ix = Ok sm ->
  repo_store k !! c = Some (ty, x) -> sm !! c = Some n -> n = N.of_nat (length x).
Proof.
  intros HU Hk Hix Hsm Ec Hn.
  assert (NoDup (blob_ids ix)) as Hnd.
  { destruct (decide (NoDup (blob_ids ix))) as [Hd|Hd]; [done|]. destruct (proj2 (C11_lookup_maps ix) Hd) as (_ & _ & E). congruence. }
  destruct (proj1 (C11_lookup_maps ix) Hnd) as (mp & st & sz & _ & _ & Esz & _ & _ & Hset). rewrite Hsm in Esz. injection Esz as <-.
  apply Hset in Hn as (p & m & e & Hm & He & Eid & <-).
  destruct (master_ok H U HU k Hk) as (ix' & E' & [_ Hs] & Hp). rewrite Hix in E'. injection E' as <-.
  apply Hp in Hm. destruct (live_pack_bs H U HU k Hk p m Hm) as (bs & Ek & <-). apply elem_of_list_fmap in He as (b & -> & Hb).
  assert (b ∈ live_blobs k) as Hl by (apply elem_of_live_blobs; eauto 10). destruct b as [ty' i y]. cbn in Eid. subst i.
  apply (repo_store_lookup H U HU) in Hl; [|apply Hk]. rewrite Ec in Hl. by injection Hl as <- <-.
Qed.

(** With nothing skipped, the three numbers together are the sizes that `usage` and
    `snapshots --sizes` give for the snapshots gone through (C26), if they give any. *)
Lemma walk_is_shown H U filter k ix bmap sm chosen fuel forests packed s reused sns n v v' ss :
  universe H U -> (forall x, length (H x) = 28) -> in_order H U k ->
  (forall sn, sn ∈ chosen -> exists i, k_snaps k !! i = Some sn) -> (forall p, filter p = true) ->
  master k = Ok ix -> blob_to_pack_map ix = Ok bmap -> load_forests H k bmap fuel chosen = Some (Ok forests) ->
  counted_snapshots H filter (counted_chunk k ix bmap) fuel forests (mkBstate packed [], 0%N) = Some (Ok (s, reused, sns)) ->
  blob_to_size_map ix = Ok sm -> sizes_all n sm (map (fun x : snapshot * forest => (sn_tree x.1, x.2)) forests) v = Some (Ok (v', ss)) ->
  (count_packed Chunk (bs_sent s) + count_packed Tree (bs_sent s) + reused = sumN (map total ss))%N.
Proof.
  intros HU Hlen Hk Hch Hall Hix Hbm Ef E Hsm Es. pose proof (in_order_structured _ _ _ Hk) as Hst.
  destruct (load_forests_inv _ _ _ _ _ _ Ef) as [<- HL].
  assert (forall sn fo, (sn, fo) ∈ forests ->
    (forall id t, fo !! id = Some t -> stored_as H (repo_store k) id t /\ tree_sane t /\ id = tree_id H t) /\
    (forall id t c, fo !! id = Some t -> c ∈ tree_chunks t -> exists x, repo_store k !! c = Some (Chunk, x))) as Hin.
  { intros sn fo Hx. destruct (Hch sn) as [i Hi]; [apply elem_of_list_fmap; by exists (sn, fo)|].
    rewrite Forall_forall in HL. specialize (HL _ Hx). cbn [fst snd] in HL.
    destruct (forest_facts H U HU Hlen k ix bmap fuel sn fo i Hk Hix Hbm Hi HL) as (_ & F2 & _ & _ & F5). done. }
  edestruct (snapshots_weight H filter (chunk_of (repo_store k)) (counted_chunk k ix bmap)) as [Hw Hsome]; [|exact E|].
  { intros sn fo Hx. destruct (Hin sn fo Hx) as [F2 F5]. split.
    - intros id t c s' Ht Hc. destruct (F5 id t c Ht Hc) as [x Hx']. by eapply counted_chunk_ok.
    - intros id t Ht. by destruct (F2 id t Ht) as (_ & [(_ & _ & ?) _] & _). }
  eapply (all_shown H filter (chunk_of (repo_store k)) n fuel sm forests v v' ss) in Es; [|done| |done].
  - rewrite packed_both, Es. exact Hw.
  - intros sn fo Hx. destruct (Hin sn fo Hx) as [F2 F5]. split_and!.
    + intros id t Ht. by apply F2.
    + intros id t c n' Ht Hc Hn. destruct (F5 id t c Ht Hc) as [x Hx']. rewrite (chunk_of_spec H U HU Hlen _ _ _ Hx').
      by eapply size_map_is.
    + intros id t n' Ht Hn. destruct (F2 id t Ht) as (F & [F3 _] & F4). unfold stored_as in F. case_decide as Hd.
      * subst t. assert (exists x ty, repo_store k !! id = Some (ty, x) /\ U (mkBlob ty id x)) as (x & ty & Hx' & HUx).
        { assert (NoDup (blob_ids ix)) as Hnd.
          { destruct (decide (NoDup (blob_ids ix))) as [Hd'|Hd']; [done|]. destruct (proj2 (C11_lookup_maps ix) Hd') as (_ & _ & E'). congruence. }
          destruct (proj1 (C11_lookup_maps ix) Hnd) as (mp & st & sz & _ & _ & Esz & _ & _ & Hset). rewrite Hsm in Esz. injection Esz as <-.
          apply Hset in Hn as (p & m & e & Hm & He & Eid & <-).
          destruct (master_ok H U HU k Hst) as (ix' & E' & [_ Hs] & Hp). rewrite Hix in E'. injection E' as <-.
          apply Hp in Hm. destruct (live_pack_bs H U HU k Hst p m Hm) as (bs & Ek & <-). apply elem_of_list_fmap in He as (b & -> & Hb).
          assert (b ∈ live_blobs k) as Hl by (apply elem_of_live_blobs; eauto 10). destruct b as [ty' i y]. cbn in Eid. subst i.
          apply (repo_store_lookup H U HU) in Hl; [|apply Hst]. exists y, ty'. split; [done|].
          assert (Forall U bs) as HF by (by apply (st_packs _ _ _ Hst p)). rewrite Forall_forall in HF. by apply HF. }
        rewrite (size_map_is H U k ix sm id ty x n' HU Hst Hix Hsm Hx' Hn).
        assert (mkBlob ty id x = tree_blob H []) as Heq by (apply (un_inj _ _ HU); [done|apply (un_none _ _ HU)|by rewrite Hd]).
        by injection Heq as _ _ ->.
      * destruct F as (x & Hx' & Hdec). rewrite (size_map_is H U k ix sm id Tree x n' HU Hst Hix Hsm Hx' Hn).
        apply (repo_store_lookup H U HU) in Hx'; [|apply Hst].
        destruct (live_tree H U HU k Hst _ Hx' eq_refl) as (t' & _ & Eb & Hdec'). destruct (Hdec' _ _ Hdec) as [-> _].
        by injection Eb as _ ->.
Qed.

(** ** C76: what copy and prune say they did *)

(** Counting does not change what the commands do. *)
Theorem C76_counting_changes_nothing H dry filter src chosen fuel forests k w c :
  (copy_command H dry filter src chosen fuel forests k w c <-> exists reused, copy_counted H dry filter src chosen fuel forests k w c reused) /\
  (prune_command H dry k w (Some c) <-> exists snaps n fs reused, prune_counted H dry snaps n fs k w c reused).
Proof.
  assert (forall f ix bmap n fs s s' sns, rewrite_snapshots H f (repack_chunk src ix bmap) n fs s.1 = Some (Ok (s', sns)) ->
    exists r, counted_snapshots H f (counted_chunk src ix bmap) n fs s = Some (Ok (s', r, sns))) as Hto.
  { intros f ix bmap n fs s s' sns E. rewrite <-(snapshots_uncounted H f _ _ (chunk_uncounted src ix bmap)) in E.
    destruct (counted_snapshots _ _ _ _ _ _) as [[[[s1 r] sns1]| |]|]; try done. injection E as <- <-. by exists r. }
  assert (forall k f ix bmap n fs s s' r sns, counted_snapshots H f (counted_chunk k ix bmap) n fs s = Some (Ok (s', r, sns)) ->
    rewrite_snapshots H f (repack_chunk k ix bmap) n fs s.1 = Some (Ok (s', sns))) as Hfrom.
  { intros k0 f ix bmap n fs s s' r sns E. rewrite <-(snapshots_uncounted H f _ _ (chunk_uncounted k0 ix bmap)), E. done. }
  assert (forall k f ix bmap n fs s s' sns, rewrite_snapshots H f (repack_chunk k ix bmap) n fs s.1 = Some (Ok (s', sns)) ->
    exists r, counted_snapshots H f (counted_chunk k ix bmap) n fs s = Some (Ok (s', r, sns))) as Hto'.
  { intros k0 f ix bmap n fs s s' sns E. rewrite <-(snapshots_uncounted H f _ _ (chunk_uncounted k0 ix bmap)) in E.
    destruct (counted_snapshots _ _ _ _ _ _) as [[[[s1 r] sns1]| |]|]; try done. injection E as <- <-. by exists r. }
  split; split.
  - intros (sx & sbm & ix & start & ups & packed & s & sns & E1 & E2 & E3 & E4 & E5 & E6 & ->).
    destruct (Hto _ _ _ _ _ (mkBstate packed [], 0%N) _ _ E6) as [r E]. exists r, sx, sbm, ix, start, ups, packed, s, sns. done.
  - intros (r & sx & sbm & ix & start & ups & packed & s & sns & E1 & E2 & E3 & E4 & E5 & E6%Hfrom & ->).
    exists sx, sbm, ix, start, ups, packed, s, sns. done.
  - intros (ix & bmap & snaps & n & fs & E1 & E2 & E3 & E4 & E). cbv zeta in E. case_decide as Hd; [done|].
    destruct E as (start & ups & packed & s & sns & E5 & E6 & [= ->]).
    destruct (Hto' _ _ _ _ _ _ (mkBstate packed [], 0%N) _ _ E6) as [r E].
    exists snaps, n, fs, r, ix, bmap. split_and!; try done. cbv zeta. split; [done|]. exists start, ups, packed, s, sns. done.
  - intros (snaps & n & fs & r & ix & bmap & E1 & E2 & E3 & E4 & Hd & start & ups & packed & s & sns & E5 & E6%Hfrom & ->).
    exists ix, bmap, snaps, n, fs. split_and!; try done. cbv zeta. rewrite decide_False by done. exists start, ups, packed, s, sns. done.
Qed.

(** New chunk bytes, new tree bytes and reused bytes together are the bytes of all the
    files copied and of the trees of all their directories, each as often as it occurs in the
    snapshots asked for.  A blob is counted as new once, and only if the destination did not have it. *)
Theorem C76_copy_adds_up H U dry filter src chosen files fuel forests k w c reused :
  universe H U -> (forall x, length (H x) = 28) ->
  in_order H U src -> (forall sn, sn ∈ chosen -> exists i, k_snaps src !! i = Some sn) ->
  in_order H U k ->
  copy_counted H dry filter src chosen fuel forests k w c reused ->
  Forall2 (program_reads H src) chosen files ->
  let trees := of_kind Tree (rplan_all H filter (chunk_of (repo_store src)) fuel forests) in
  (count_packed Chunk (c_blobs c) + count_packed Tree (c_blobs c) + reused = sumN (map (snapshot_bytes filter) files) + trees)%N /\
  (count_packed Chunk (c_blobs c) <= sumN (map (snapshot_bytes filter) files))%N /\ (count_packed Tree (c_blobs c) <= trees)%N /\
  NoDup (map b_id (c_blobs c)) /\ (forall b b', b ∈ c_blobs c -> b' ∈ live_blobs k -> b_id b' <> b_id b).
Proof.
  intros HU Hlen Hsrc Hch Hk (sx & sbm & ix & start & ups & packed & s & sns & E1 & E2 & E3 & E4 & E5 & E6 & ->) HF trees. cbn [c_blobs].
  destruct (walk_adds_up H U filter src sx sbm chosen fuel forests packed s reused sns files HU Hlen Hsrc Hch E1 E2 E3 E6 HF) as (A1 & A2 & A3 & A4 & A5).
  split_and!; try done. intros b b' Hb Hb' Eid. apply (A5 b Hb). rewrite <-Eid.
  unfold resume in E5. apply rbind_ok in E5 as (p0 & Ep & E5). 
  assert (b_id b' ∈ p0) as Hin.
  { pose proof (in_order_structured _ _ _ Hk) as Hst. apply elem_of_live_blobs in Hb' as (p & m & bs & Hm & Ek & Hb').
    destruct (proj2 (listed_live H U HU k Hst ix p (b_id b') E4)) as [n Hl]; [eauto 10|].
    assert (NoDup (blob_ids ix)) as Hnd.
    { destruct (decide (NoDup (blob_ids ix))) as [Hn|Hn]; [done|]. destruct (proj2 (C11_lookup_maps ix) Hn) as (_ & Eset & _). congruence. }
    destruct (proj1 (C11_lookup_maps ix) Hnd) as (mp & st & sz & _ & Eset & _ & _ & Hset & _). rewrite Ep in Eset. injection Eset as <-. apply Hset.
    eauto. }
  apply rbind_ok in E5 as ([[wip ups']|] & _ & E5); injection E5 as _ _ <-; [|done]. apply elem_of_union. by right.
Qed.

(** The same for a prune that has something to do; nothing is skipped. *)
Theorem C76_prune_adds_up H U dry snaps files fuel forests k w c reused :
  universe H U -> (forall x, length (H x) = 28) -> in_order H U k ->
  prune_counted H dry snaps fuel forests k w c reused ->
  Forall2 (program_reads H k) (map fst snaps) files ->
  let trees := of_kind Tree (rplan_all H (fun _ => true) (chunk_of (repo_store k)) fuel forests) in
  (count_packed Chunk (c_blobs c) + count_packed Tree (c_blobs c) + reused = sumN (map (snapshot_bytes (fun _ => true)) files) + trees)%N /\
  (count_packed Chunk (c_blobs c) <= sumN (map (snapshot_bytes (fun _ => true)) files))%N /\ (count_packed Tree (c_blobs c) <= trees)%N /\
  NoDup (map b_id (c_blobs c)).
Proof.
  intros HU Hlen Hk (ix & bmap & E1 & E2 & [E3 _] & E4 & _ & start & ups & packed & s & sns & E5 & E6 & ->) HF trees. cbn [c_blobs].
  assert (forall sn, sn ∈ map fst snaps -> exists i, k_snaps k !! i = Some sn) as Hch.
  { intros sn ([sn' i] & -> & Hx)%elem_of_list_fmap. exists i. rewrite <-E3 in Hx. apply elem_of_list_fmap in Hx as ([i' sn1] & [= -> ->] & Hx).
    by apply elem_of_map_to_list in Hx. }
  destruct (walk_adds_up H U (fun _ => true) k ix bmap (map fst snaps) fuel forests packed s reused sns files HU Hlen Hk Hch E1 E2 E4 E6 HF) as (A1 & A2 & A3 & A4 & _).
  done.
Qed.

(** When nothing is skipped, the same sum is what the size column of `snapshots` and `usage`
    shows for these snapshots together (C26): data and directories of each, each as often as it occurs. *)
Theorem C76_copy_total_is_the_size_shown H U dry src chosen fuel forests k w c reused ix sizes n v v' ss :
  universe H U -> (forall x, length (H x) = 28) ->
  in_order H U src -> (forall sn, sn ∈ chosen -> exists i, k_snaps src !! i = Some sn) ->
  copy_counted H dry (fun _ => true) src chosen fuel forests k w c reused ->
  master src = Ok ix -> blob_to_size_map ix = Ok sizes ->
  sizes_all n sizes (map (fun x : snapshot * forest => (sn_tree x.1, x.2)) forests) v = Some (Ok (v', ss)) ->
  (count_packed Chunk (c_blobs c) + count_packed Tree (c_blobs c) + reused = sumN (map (fun s => fs_tree s + fs_chunk s) ss))%N.
Proof.
  intros HU Hlen Hsrc Hch (sx & sbm & ix' & start & ups & packed & s & sns & E1 & E2 & E3 & E4 & E5 & E6 & ->) Eix Esm Es. cbn [c_blobs].
  rewrite E1 in Eix. injection Eix as <-.
  exact (walk_is_shown H U (fun _ => true) src sx sbm sizes chosen fuel forests packed s reused sns n v v' ss HU Hlen Hsrc Hch
    (fun _ => eq_refl) E1 E2 E3 E6 Esm Es).
Qed.

Theorem C76_prune_total_is_the_size_shown H U dry snaps fuel forests k w c reused ix sizes n v v' ss :
  universe H U -> (forall x, length (H x) = 28) -> in_order H U k ->
  prune_counted H dry snaps fuel forests k w c reused ->
  master k = Ok ix -> blob_to_size_map ix = Ok sizes ->
  sizes_all n sizes (map (fun x : snapshot * forest => (sn_tree x.1, x.2)) forests) v = Some (Ok (v', ss)) ->
  (count_packed Chunk (c_blobs c) + count_packed Tree (c_blobs c) + reused = sumN (map (fun s => fs_tree s + fs_chunk s) ss))%N.
Proof.
  intros HU Hlen Hk (ix' & bmap & E1 & E2 & [E3 _] & E4 & _ & start & ups & packed & s & sns & E5 & E6 & ->) Eix Esm Es. cbn [c_blobs].
  rewrite E1 in Eix. injection Eix as <-.
  assert (forall sn, sn ∈ map fst snaps -> exists i, k_snaps k !! i = Some sn) as Hch.
  { intros sn ([sn' i] & -> & Hx)%elem_of_list_fmap. exists i. rewrite <-E3 in Hx. apply elem_of_list_fmap in Hx as ([i' sn1] & [= -> ->] & Hx).
    by apply elem_of_map_to_list in Hx. }
  exact (walk_is_shown H U (fun _ => true) k ix' bmap sizes (map fst snaps) fuel forests packed s reused sns n v v' ss HU Hlen Hk Hch
    (fun _ => eq_refl) E1 E2 E4 E6 Esm Es).
Qed.

(** ** Concrete cases: copying two snapshots that share a file; pruning after the first is forgotten *)

Definition exec_copy_counted (filter : bytes -> bool) (src : backend) (chosen : list snapshot) (fuel : nat) (k : backend) (w : workdir)
    : option (list (snapshot * forest) * command * N) :=
  sx ← get_ok (master src);
  sbmap ← get_ok (blob_to_pack_map sx);
  forests ← get_done (load_forests quick_hash src sbmap fuel chosen);
  ix ← get_ok (master k);
  r ← get_ok (resume k w ix);
  let '(start, ups, packed) := r in
  b ← get_done (counted_snapshots quick_hash filter (counted_chunk src sx sbmap) fuel forests (mkBstate packed [], 0%N));
  let '(s, n, sns) := b in
  Some (forests, mkCommand start ups (bs_sent s) (map PutSnap sns), n).
Lemma exec_copy_counted_ok filter src chosen fuel k w forests c n :
  exec_copy_counted filter src chosen fuel k w = Some (forests, c, n) -> copy_counted quick_hash false filter src chosen fuel forests k w c n.
Proof.
  unfold exec_copy_counted. intros E.
  apply bind_Some in E as (sx & E1%get_ok_inv & E). apply bind_Some in E as (sbmap & E2%get_ok_inv & E).
  apply bind_Some in E as (fo & E3%get_done_inv & E). apply bind_Some in E as (ix & E4%get_ok_inv & E).
  apply bind_Some in E as ([[start ups] packed] & E5%get_ok_inv & E).
  apply bind_Some in E as ([[s n'] sns] & E6%get_done_inv & E). injection E as <- <- <-.
  exists sx, sbmap, ix, start, ups, packed, s, sns. done.
Qed.

Definition exec_prune_counted (fuel : nat) (k : backend) (w : workdir) : option (list (snapshot * forest) * command * N) :=
  ix ← get_ok (master k);
  bmap ← get_ok (blob_to_pack_map ix);
  forests ← get_done (load_forests quick_hash k bmap fuel (map fst (chrono k)));
  let reachable := reachable_blobs forests in
  let reusable := List.filter (pack_in_use reachable) (ix_packs ix) in
  let to_prune := List.filter (fun pm => negb (pack_in_use reachable pm)) (ix_packs ix) in
  let superseded := os_of_list (map fst (map_to_list (k_indexes k))) in
  if decide (to_prune = []) then None
  else
    r ← get_ok (prune_start k w superseded reusable);
    let '(start, ups, packed) := r in
    b ← get_done (counted_snapshots quick_hash (fun _ => true) (counted_chunk k ix bmap) fuel forests (mkBstate packed [], 0%N));
    let '(s, n, sns) := b in
    Some (forests, mkCommand start ups (bs_sent s) (map DelIndex superseded ++ map (fun pm : oid * manifest => DelPack pm.1) to_prune), n).
Lemma exec_prune_counted_ok fuel k w forests c n :
  exec_prune_counted fuel k w = Some (forests, c, n) -> prune_counted quick_hash false (chrono k) fuel forests k w c n.
Proof.
  unfold exec_prune_counted. intros E.
  apply bind_Some in E as (ix & E1%get_ok_inv & E). apply bind_Some in E as (bmap & E2%get_ok_inv & E).
  apply bind_Some in E as (fo' & E3%get_done_inv & E). cbv zeta in E. case_decide as Hd; [done|].
  apply bind_Some in E as ([[start ups] packed] & E5%get_ok_inv & E).
  apply bind_Some in E as ([[s n'] sns] & E6%get_done_inv & E). injection E as <- <- <-.
  exists ix, bmap. split; [done|]. split; [done|]. split; [apply chrono_ok|]. split; [done|]. cbv zeta. split; [done|].
  exists start, ups, packed, s, sns. done.
Qed.

Lemma all_read k chosen : in_order quick_hash (in_list ex_blobs) k -> (forall sn, sn ∈ chosen -> exists i, k_snaps k !! i = Some sn) ->
  exists files, Forall2 (program_reads quick_hash k) chosen files.
Proof.
  intros Hk. induction chosen as [|sn l IH]; intros Hch; [by exists []|].
  destruct IH as [files HF]; [intros; apply Hch; by right|]. destruct (Hch sn) as [i Hi]; [by left|].
  destruct (io_snaps _ _ _ Hk i sn Hi) as [es Hes]. exists (es :: files). constructor; [|done].
  by apply (program_reads_iff quick_hash (in_list ex_blobs) ex_universe quick_hash_length).
Qed.
Opaque exec_copy_counted exec_prune_counted.

Example C76_copy_witness : exists files forests c reused,
  in_order quick_hash (in_list ex_blobs) two_kw.1 /\ (forall sn, sn ∈ both -> exists i, k_snaps two_kw.1 !! i = Some sn) /\
  in_order quick_hash (in_list ex_blobs) other_kw.1 /\
  copy_counted quick_hash false (fun _ => true) two_kw.1 both 20 forests other_kw.1 other_kw.2 c reused /\
  Forall2 (program_reads quick_hash two_kw.1) both files /\
  (0 < reused)%N /\ (0 < count_packed Chunk (c_blobs c))%N /\ (0 < count_packed Tree (c_blobs c))%N.
Proof.
  assert (holds (exec_copy_counted (fun _ => true) two_kw.1 both 20 other_kw.1 other_kw.2) (fun r =>
    (0 <? r.2)%N && (0 <? count_packed Chunk (c_blobs r.1.2))%N && (0 <? count_packed Tree (c_blobs r.1.2))%N) = true) as Hx
    by (vm_compute; reflexivity).
  apply holds_inv in Hx as ([[forests c] n] & E%exec_copy_counted_ok & Hx).
  apply andb_true_iff in Hx as [[H1%N.ltb_lt H2%N.ltb_lt]%andb_true_iff H3%N.ltb_lt]. cbn [fst snd] in *.
  destruct (ex_fine two_backups) as [Hk _]; [vm_compute; reflexivity|].
  destruct (ex_fine [Backup [fz] 3 None]) as [Ho _]; [vm_compute; reflexivity|].
  assert (forall sn, sn ∈ both -> exists i, k_snaps two_kw.1 !! i = Some sn) as Hch.
  { intros sn [->|[->|[]%elem_of_nil]%elem_of_cons]%elem_of_cons;
      [exists (ex_sid [fa; fb] 1)|exists (ex_sid [fa] 2)]; apply snap_at_inv; vm_compute; reflexivity. }
  destruct (all_read two_kw.1 both Hk Hch) as [files HF]. exists files, forests, c, n.
  split; [exact Hk|]. split; [exact Hch|]. split; [exact Ho|]. split; [exact E|]. split; [exact HF|]. split; [exact H1|]. split; [exact H2|exact H3].
Qed.

Example C76_prune_witness : exists snaps files forests c reused,
  in_order quick_hash (in_list ex_blobs) garbage_kw.1 /\
  prune_counted quick_hash false snaps 20 forests garbage_kw.1 garbage_kw.2 c reused /\
  Forall2 (program_reads quick_hash garbage_kw.1) (map fst snaps) files /\
  (0 < reused + count_packed Chunk (c_blobs c) + count_packed Tree (c_blobs c))%N.
Proof.
  assert (holds (exec_prune_counted 20 garbage_kw.1 garbage_kw.2) (fun r =>
    (0 <? r.2 + count_packed Chunk (c_blobs r.1.2) + count_packed Tree (c_blobs r.1.2))%N) = true) as Hx
    by (vm_compute; reflexivity).
  apply holds_inv in Hx as ([[forests c] n] & E%exec_prune_counted_ok & Hx%N.ltb_lt). cbn [fst snd] in *.
  destruct (ex_fine with_garbage) as [Hk _]; [vm_compute; reflexivity|].
  destruct (all_read garbage_kw.1 (map fst (chrono garbage_kw.1)) Hk) as [files HF].
  { intros sn ([sn' i] & -> & Hx')%elem_of_list_fmap. exists i. destruct (chrono_ok garbage_kw.1) as [Hp _]. rewrite <-Hp in Hx'.
    apply elem_of_list_fmap in Hx' as ([i' sn1] & Heq & Hx'). injection Heq as -> ->. by apply elem_of_map_to_list in Hx'. }
  exists (chrono garbage_kw.1), files, forests, c, n. split; [exact Hk|]. split; [exact E|]. split; [exact HF|exact Hx].
Qed.

(** Copying the two snapshots, and the sizes shown for them. *)
Definition exec_copy_shown : option (list (snapshot * forest) * command * N * index * gmap oid N * gset oid * list fsizes) :=
  r ← exec_copy_counted (fun _ => true) two_kw.1 both 20 other_kw.1 other_kw.2;
  ix ← get_ok (master two_kw.1);
  sizes ← get_ok (blob_to_size_map ix);
  z ← get_done (sizes_all 20 sizes (map (fun x : snapshot * forest => (sn_tree x.1, x.2)) r.1.1) ∅);
  Some (r, ix, sizes, z.1, z.2).

Example C76_shown_witness : exists forests c reused ix sizes v ss,
  copy_counted quick_hash false (fun _ => true) two_kw.1 both 20 forests other_kw.1 other_kw.2 c reused /\
  master two_kw.1 = Ok ix /\ blob_to_size_map ix = Ok sizes /\
  sizes_all 20 sizes (map (fun x : snapshot * forest => (sn_tree x.1, x.2)) forests) ∅ = Some (Ok (v, ss)) /\
  length ss = 2 /\ (0 < sumN (map (fun s => fs_tree s + fs_chunk s) ss))%N.
Proof.
  assert (holds exec_copy_shown (fun r => (length r.2 =? 2) && (0 <? sumN (map (fun s => fs_tree s + fs_chunk s) r.2))%N) = true) as Hx
    by (vm_compute; reflexivity).
  apply holds_inv in Hx as ([[[[[[forests c] n] ix] sizes] v] ss] & E & Hx).
  apply andb_true_iff in Hx as [H1%Nat.eqb_eq H2%N.ltb_lt]. cbn [fst snd] in *.
  unfold exec_copy_shown in E. apply bind_Some in E as ([[fo c'] n'] & E1%exec_copy_counted_ok & E).
  apply bind_Some in E as (ix' & E2%get_ok_inv & E). apply bind_Some in E as (sz & E3%get_ok_inv & E).
  apply bind_Some in E as ([v0 z] & E4%get_done_inv & E). cbn [fst snd] in *. injection E as <- <- <- <- <- <- <-.
  exists fo, c', n', ix', sz, v0, z. split; [exact E1|]. split; [exact E2|]. split; [exact E3|]. split; [exact E4|]. split; [exact H1|exact H2].
Qed.

Print Assumptions C76_counting_changes_nothing.
Print Assumptions C76_copy_adds_up.
Print Assumptions C76_prune_adds_up.
Print Assumptions C76_copy_total_is_the_size_shown.
Print Assumptions C76_prune_total_is_the_size_shown.
