(** C75: which snapshots a command sees does not depend on the threads that load them. *)

From Verif Require Import Base OMap Cbor CborFacts Formats FormatsFacts Hashing HashingFacts Pack PackFacts Meta Check Pipeline Repo RepoSpec
  Parallel ParallelFacts PropsParallel Locations PropsLocations History Bytes BytesFacts PropsBytes Select PropsSelect LoadSnapshots Toy Witness.

(** ** What the theorems say *)

(** A listing of the snapshots with their lengths, in any order. *)
Definition listing (st : fstore) (l : list (bytes * N)) : Prop :=
  map fst l ≡ₚ list_objects st ASnapshot /\
  forall p n, (p, n) ∈ l -> exists x, st !! p = Some x /\ n = N.of_nat (length x).

(** These bytes are this snapshot: after the eight letters the version, and then, up to whatever
    follows, what the id is the hash of.  Version 1 has the time as text, read in one of two ways. *)
Definition is_snapshot (H : bytes -> oid) (iso old : bytes -> option (Z * bytes)) (file : bytes) (s : snapshot) (id : oid) : Prop :=
  exists body rest, H body = id /\
    ((file = ascii_bytes "MKBAKSNP2" ++ body ++ rest /\ dec_snapshot (body ++ rest) = Some (s, rest)) \/
     (exists s1, file = ascii_bytes "MKBAKSNP1" ++ body ++ rest /\ dec_snapshot1 (body ++ rest) = Some (s1, rest) /\
       (iso (s1_time s1) = Some (sn_time s, sn_tz s) \/
        iso (s1_time s1) = None /\ old (s1_time s1) = Some (sn_time s, sn_tz s)) /\
       s1_author s1 = sn_author s /\ s1_tags s1 = sn_tags s /\ s1_paths s1 = sn_paths s /\ s1_tree s1 = sn_tree s)).

(** This file's name is the id, and the object of that id is this snapshot. *)
Definition holds_snapshot (H : bytes -> oid) (iso old : bytes -> option (Z * bytes)) (st : fstore) (p : bytes) (s : snapshot) (id : oid) : Prop :=
  oid_wf id /\ file_stem p = Some (oid_print id) /\
  exists x, st !! location ASnapshot id = Some x /\ is_snapshot H iso old x s id.

(** The program at some point while it loads the snapshots listed, on [cpus] processors. *)
Definition loading (H : bytes -> oid) (iso old : bytes -> option (Z * bytes)) (st : fstore) (l : list (bytes * N)) (cpus : N) (s : state (list (snapshot * oid) * N)) : Prop :=
  (cpus < 2 ^ 32)%N /\ comes_up (map (load_job H iso old st) l) keep cpus ([], 0%N) s.

(** No two have the same time. *)
Definition times_differ (l : list (snapshot * oid)) : Prop :=
  forall x y, x ∈ l -> y ∈ l -> sn_time x.1 = sn_time y.1 -> x = y.

Definition total (ns : list N) : N := foldr N.add 0%N ns.

(** ** Lemmas *)

Lemma read_suffix {A} (d : cbor -> option A) b a r : dec_with d b = Some (a, r) -> exists p, b = p ++ r.
Proof.
  unfold dec_with. destruct (decode b) as [[v r']|] eqn:E; [|done]. cbn. destruct (d v); [|done]. cbn. intros [= _ <-].
  by apply decode_suffix in E.
Qed.

Lemma hashed_read H {A} (dec : bytes -> option (A * bytes)) :
  (forall b a r, dec b = Some (a, r) -> exists p, b = p ++ r) ->
  forall b a id r, from_hashing_reader H dec b = Ok (a, id, r) <-> exists p, b = p ++ r /\ dec (p ++ r) = Some (a, r) /\ id = H p.
Proof.
  intros Hs b a id r. unfold from_hashing_reader. split.
  - destruct (dec b) as [[a' r']|] eqn:E; [|done]. cbn [of_option rbind]. intros [= <- <- <-].
    destruct (Hs _ _ _ E) as [p ->]. exists p. rewrite app_length, Nat.add_sub. rewrite take_app. done.
  - intros (p & -> & E & ->). rewrite E. cbn [of_option rbind]. rewrite app_length, Nat.add_sub. by rewrite take_app.
Qed.

Lemma magic2 (b : bytes) : ascii_bytes "MKBAKSNP2" ++ b = snapshot_magic ++ x32 :: b.
Proof. reflexivity. Qed.
Lemma magic1 (b : bytes) : ascii_bytes "MKBAKSNP1" ++ b = snapshot_magic ++ x31 :: b.
Proof. reflexivity. Qed.

Section jobs.
Variable H : bytes -> oid.
Variables (iso old : bytes -> option (Z * bytes)).
Variable st : fstore.
Local Set Default Proof Using "All".

Lemma load_is id file s :
  (let* a := snapshot_load H id file in undisk iso old a) = Ok s <-> is_snapshot H iso old file s id.
Proof.
  unfold snapshot_load, snapshot_from_reader. split.
  - destruct (check_magic snapshot_magic file) as [body| |] eqn:Em; [|done..]. apply check_magic_inv in Em as ->. cbn [rbind].
    destruct body as [|v r]; [done|]. case_bool_decide as E1; [|case_bool_decide as E2; [|done]].
    + subst v. destruct (from_hashing_reader H dec_snapshot1 r) as [[[s1 i] r']| |] eqn:Ef; [|done..].
      apply (hashed_read H dec_snapshot1 (read_suffix _)) in Ef as (p & -> & Ed & ->). cbn [rbind].
      case_bool_decide as Ei; [|done]. cbn [ensure rbind undisk]. unfold deserialize_zoned.
      intros Ez. exists p, r'. split; [done|]. right. exists s1. rewrite magic1. split; [done|]. split; [done|].
      destruct (iso (s1_time s1)) as [[t z]|] eqn:E1; cbn [of_option rbind fst snd] in Ez.
      * injection Ez as <-. cbn. split; [by left|done].
      * destruct (old (s1_time s1)) as [[t z]|] eqn:E2; [|done]. cbn [of_option rbind fst snd] in Ez. injection Ez as <-. cbn. split; [by right|done].
    + subst v. destruct (from_hashing_reader H dec_snapshot r) as [[[s1 i] r']| |] eqn:Ef; [|done..].
      apply (hashed_read H dec_snapshot (read_suffix _)) in Ef as (p & -> & Ed & ->). cbn [rbind].
      case_bool_decide as Ei; [|done]. cbn [ensure rbind undisk]. intros [= ->]. exists p, r'. split; [done|]. left. by rewrite magic2.
  - intros (body & rest & <- & [[-> Ed]|(s1 & -> & Ed & Ht & Ha & Hg & Hp & Hr)]).
    + rewrite magic2, check_magic_ok. cbn [rbind]. rewrite bool_decide_eq_false_2, bool_decide_eq_true_2 by done.
      rewrite (proj2 (hashed_read H dec_snapshot (read_suffix _) (body ++ rest) s (H body) rest)) by eauto. cbn [rbind].
      by rewrite bool_decide_eq_true_2.
    + rewrite magic1, check_magic_ok. cbn [rbind]. rewrite bool_decide_eq_true_2 by done.
      rewrite (proj2 (hashed_read H dec_snapshot1 (read_suffix _) (body ++ rest) s1 (H body) rest)) by eauto. cbn [rbind].
      rewrite bool_decide_eq_true_2 by done. cbn [ensure rbind undisk]. unfold deserialize_zoned.
      destruct Ht as [->|[-> ->]]; cbn [of_option rbind fst snd]; rewrite Ha, Hg, Hp, Hr; by destruct s.
Qed.

Lemma load_job_is p n s id m : load_job H iso old st (p, n) = Ok (s, id, m) <-> m = n /\ holds_snapshot H iso old st p s id.
Proof.
  unfold load_job, holds_snapshot. cbn [fst snd]. unfold id_from_path. split.
  - destruct (file_stem p) as [stem|] eqn:Es; [|done]. cbn [of_option rbind]. destruct (oid_parse stem) as [i|] eqn:Ep; [|done].
    cbn [of_option rbind]. destruct (oid_print_parse _ _ Ep) as [<- Hw]. rewrite (get_location st ASnapshot i Hw).
    destruct (st !! location ASnapshot i) as [x|] eqn:Ex; [|done]. cbn [of_option rbind].
    pose proof (load_is i x) as Hl. destruct (snapshot_load H i x) as [a| |]; [|done..]. cbn [rbind] in *.
    destruct (undisk iso old a) as [s'| |]; [|done..]. cbn [rbind]. intros [= -> -> ->]. split; [done|]. split; [done|].
    split; [done|]. exists x. split; [done|]. by apply Hl.
  - intros (-> & Hw & -> & x & Ex & Hx). cbn [of_option rbind]. rewrite oid_parse_print by done. cbn [of_option rbind].
    rewrite (get_location st ASnapshot id Hw), Ex. cbn [of_option rbind]. apply load_is in Hx.
    destruct (snapshot_load H id x) as [a| |]; [|done..]. cbn [rbind] in *. rewrite Hx. done.
Qed.
End jobs.

Lemma load_job_calm H iso old st f : load_job H iso old st f <> Panic.
Proof.
  destruct f as [p n]. unfold load_job, id_from_path. cbn [fst snd]. destruct (file_stem p) as [stem|]; [|done]. cbn [of_option rbind].
  destruct (oid_parse stem) as [i|] eqn:Ep; [|done]. cbn [of_option rbind]. destruct (oid_print_parse _ _ Ep) as [_ Hw].
  rewrite (get_location st ASnapshot i Hw). destruct (st !! location ASnapshot i) as [x|]; [|done]. cbn [of_option rbind].
  unfold snapshot_load, snapshot_from_reader, check_magic. case_bool_decide; cbn [rbind]; [|done]. destruct (drop _ x) as [|v r]; [done|].
  unfold from_hashing_reader. case_bool_decide; [|case_bool_decide; [|done]].
  - destruct (dec_snapshot1 r) as [[s1 r']|]; [|done]. cbn [of_option rbind]. case_bool_decide; [|done]. cbn [ensure rbind undisk].
    by destruct (deserialize_zoned iso old (s1_time s1)).
  - destruct (dec_snapshot r) as [[s1 r']|]; [|done]. cbn [of_option rbind]. by case_bool_decide.
Qed.

Lemma keep_sequence vs l n : (n < 2 ^ 64)%N ->
  in_sequence keep vs (l, n) = Ok (l ++ map fst vs, ((n + total (map snd vs)) mod 2 ^ 64)%N).
Proof.
  revert l n. induction vs as [|v vs IH]; intros l n Hn; cbn [in_sequence map].
  - rewrite app_nil_r. cbn [total foldr]. rewrite N.add_0_r, N.mod_small by done. done.
  - unfold keep at 1. cbn [fst snd rbind]. rewrite IH by (apply N.mod_lt; done). rewrite <-app_assoc. cbn [app]. f_equal. f_equal.
    change (total (v.2 :: map snd vs)) with (v.2 + total (map snd vs))%N. rewrite N.add_mod_idemp_l by done. f_equal. lia.
Qed.
Lemma total_perm ns ns' : ns ≡ₚ ns' -> total ns = total ns'.
Proof. unfold total. induction 1; simpl; lia. Qed.

Lemma loading_returned H iso old st l cpus s : loading H iso old st l cpus s -> boss s = MReturned ->
  exists found, Forall2 (fun f x => holds_snapshot H iso old st f.1 x.1 x.2) l found /\
    (shared s).1 ≡ₚ found /\ (shared s).2 = (total (map snd l) mod 2 ^ 64)%N.
Proof.
  intros [Hc Hr] Hret. destruct (C65_returning_means_all_done_once _ _ cpus _ s Hc Hr) as [_ Hx].
  destruct (Hx Hret) as (vs & order & E & HP & Hs). rewrite keep_sequence in Hs by done. injection Hs as Hs. exists (map fst vs).
  assert (Forall2 (fun f v => load_job H iso old st f = Ok v) l vs) as HF.
  { clear -E. revert vs E. induction l as [|f l IH]; intros [|v vs] E; [constructor|done..|]. cbn [map] in E. injection E as E1 E2.
    constructor; [done|by apply IH]. }
  rewrite <-Hs. cbn [fst snd app]. split; [|split].
  - apply Forall2_fmap_r. eapply Forall2_impl; [exact HF|]. intros [p n] [[sp i] m] [_ Hh]%load_job_is. exact Hh.
  - by rewrite HP.
  - rewrite N.add_0_l. f_equal. rewrite (total_perm _ (map snd vs)) by (by rewrite HP). f_equal. clear -HF.
    induction HF as [|[p n] [[sp i] m] l vs [-> _]%load_job_is HF IH]; [done|]. cbn. by rewrite IH.
Qed.

Lemma sorted_alike l l' : StronglySorted by_time l -> StronglySorted by_time l' -> l ≡ₚ l' -> times_differ l -> l = l'.
Proof.
  revert l'. induction l as [|x l IH]; intros l' Hs Hs' HP Ht; [by apply Permutation_nil in HP|].
  destruct l' as [|y l']; [symmetry in HP; by apply Permutation_nil in HP|].
  apply StronglySorted_inv in Hs as [Hs Hx]. apply StronglySorted_inv in Hs' as [Hs' Hy]. rewrite Forall_forall in Hx, Hy.
  assert (y ∈ x :: l) as Hyin by (rewrite HP; left). assert (x ∈ y :: l') as Hxin by (rewrite <-HP; left).
  assert (x = y) as <-.
  { apply elem_of_cons in Hyin as [->|Hyin]; [done|]. apply elem_of_cons in Hxin as [->|Hxin]; [done|].
    apply Ht; [left|by right|]. specialize (Hx y Hyin). specialize (Hy x Hxin). unfold by_time in *. lia. }
  f_equal. apply IH; [done|done|by eapply Permutation_cons_inv|]. intros u v Hu Hv. apply Ht; by right.
Qed.
Lemma sorted_result l : StronglySorted by_time (sort_by_time l).
Proof. apply Sorted_StronglySorted; [exact by_time_trans|apply sort_by_time_sorted]. Qed.

Lemma holds_fun H iso old st p p' s s' id : holds_snapshot H iso old st p s id -> holds_snapshot H iso old st p' s' id -> s = s'.
Proof.
  intros (_ & _ & x & Ex & Hx) (_ & _ & x' & Ex' & Hx'). rewrite Ex in Ex'. injection Ex' as <-.
  apply (load_is H iso old st) in Hx, Hx'. rewrite Hx in Hx'. by injection Hx'.
Qed.

(** ** C75 *)

(** When loading returns, every file listed was a whole snapshot of its id, the result has just
    these, each once, oldest first, and the size is that of all together.  The program ends
    with an error only if some file listed is not one.  It never panics. *)
Theorem C75_all_of_them_or_an_error H iso old st l cpus s : loading H iso old st l cpus s ->
  (boss s = MReturned ->
    StronglySorted by_time (load_result (shared s)).1 /\
    (exists found, Forall2 (fun f x => holds_snapshot H iso old st f.1 x.1 x.2) l found /\ (load_result (shared s)).1 ≡ₚ found) /\
    (load_result (shared s)).2 = (total (map snd l) mod 2 ^ 64)%N) /\
  (boss s = MGone -> exists p n, (p, n) ∈ l /\ forall sp id, ~ holds_snapshot H iso old st p sp id) /\
  boss s <> MPanicked.
Proof.
  intros Hl. assert (forall before v r, in_sequence keep (before ++ [v]) ([], 0%N) = r -> exists x, r = Ok x) as Hok.
  { intros before v r <-. rewrite keep_sequence by done. eauto. }
  pose proof Hl as [Hc Hr]. destruct (C65_failures_have_a_reason _ _ cpus _ s Hc Hr) as [Hg Hp]. split_and!.
  - intros Hret. destruct (loading_returned _ _ _ _ _ _ _ Hl Hret) as (found & HF & HP & Ht). split; [apply sorted_result|].
    split; [|done]. exists found. split; [done|]. cbn [load_result fst]. by rewrite sort_by_time_perm.
  - intros E. destruct (Hg E) as [He|(v & before & rest & _ & Hs)]; [|by destruct (Hok _ _ _ Hs)].
    apply elem_of_list_fmap in He as ([p n] & He & Hin). exists p, n. split; [done|]. intros sp id Hh.
    assert (load_job H iso old st (p, n) = Ok (sp, id, n)) as E' by (by apply load_job_is). congruence.
  - intros E. destruct (Hp E) as [He|(v & before & rest & _ & Hs)]; [|by destruct (Hok _ _ _ Hs)].
    apply elem_of_list_fmap in He as (f & He & _). by apply (load_job_calm H iso old st f).
Qed.
Print Assumptions C75_all_of_them_or_an_error.

(** However the files are listed, on however many processors and whatever the threads do: two runs
    that return have the same snapshots and size; and if no two snapshots have the same time, the
    same list, so that every name means the same.  If one run returns, no other ends with an error. *)
Theorem C75_threads_do_not_matter_partial H iso old st l l' cpus cpus' s s' :
  l ≡ₚ l' -> loading H iso old st l cpus s -> loading H iso old st l' cpus' s' -> boss s = MReturned ->
  boss s' <> MGone /\
  (boss s' = MReturned ->
    (load_result (shared s)).1 ≡ₚ (load_result (shared s')).1 /\ (load_result (shared s)).2 = (load_result (shared s')).2 /\
    (times_differ (load_result (shared s)).1 -> load_result (shared s) = load_result (shared s'))).
Proof.
  intros HP Hl Hl' Hret. destruct (loading_returned _ _ _ _ _ _ _ Hl Hret) as (found & HF & HPf & Ht). split.
  - intros E. destruct (C75_all_of_them_or_an_error _ _ _ _ _ _ _ Hl') as (_ & Hg & _). destruct (Hg E) as (p & n & Hin & Hno).
    rewrite <-HP in Hin. apply elem_of_list_lookup in Hin as [i Hi]. destruct (Forall2_lookup_l _ _ _ _ _ HF Hi) as (x & _ & Hx).
    by apply (Hno x.1 x.2).
  - intros Hret'. destruct (loading_returned _ _ _ _ _ _ _ Hl' Hret') as (found' & HF' & HPf' & Ht').
    assert (found ≡ₚ found') as HPP.
    { clear -HP HF HF'. revert found found' HF HF'. induction HP as [|f l l' HP IH|f g l|l l' l'' HP1 IH1 HP2 IH2]; intros found found' HF HF'.
      - apply Forall2_nil_inv_l in HF, HF'. by subst.
      - apply Forall2_cons_inv_l in HF as ([sx ix] & fs & Hx & HF & ->). apply Forall2_cons_inv_l in HF' as ([sy iy] & fs' & Hy & HF' & ->).
        cbn [fst snd] in *. assert (ix = iy) as <-.
        { destruct Hx as (Hw & Es & _), Hy as (Hw' & Es' & _). rewrite Es in Es'. injection Es' as Es'.
          pose proof (oid_parse_print _ Hw) as P1. rewrite Es', oid_parse_print in P1 by done. by injection P1. }
        rewrite (holds_fun _ _ _ _ _ _ _ _ _ Hx Hy). constructor. by apply IH.
      - apply Forall2_cons_inv_l in HF as (x1 & fs & Hx1 & HF & ->). apply Forall2_cons_inv_l in HF as (x2 & fs2 & Hx2 & HF & ->).
        apply Forall2_cons_inv_l in HF' as (y1 & fs' & Hy1 & HF' & ->). apply Forall2_cons_inv_l in HF' as (y2 & fs2' & Hy2 & HF' & ->).
        assert (forall f a b, holds_snapshot H iso old st f a.1 a.2 -> holds_snapshot H iso old st f b.1 b.2 -> a = b) as Hone.
        { intros h [sa ia] [sb ib] Ha Hb. cbn [fst snd] in *. assert (ia = ib) as <-; [|f_equal; by eapply holds_fun].
          destruct Ha as (Hw & Es & _), Hb as (Hw' & Es' & _). rewrite Es in Es'. injection Es' as Es'.
          pose proof (oid_parse_print _ Hw) as P1. rewrite Es', oid_parse_print in P1 by done. by injection P1. }
        rewrite (Hone _ _ _ Hx1 Hy2), (Hone _ _ _ Hx2 Hy1). assert (fs2 = fs2') as ->; [|apply Permutation_swap].
        clear -HF HF' Hone. revert fs2' HF'. induction HF as [|h a l fs Ha HF IH]; intros fs2' HF'; [by apply Forall2_nil_inv_l in HF'|].
        apply Forall2_cons_inv_l in HF' as (b & fs' & Hb & HF' & ->). f_equal; [by eapply Hone|by apply IH].
      - assert (exists found2, Forall2 (fun f x => holds_snapshot H iso old st f.1 x.1 x.2) l' found2) as [found2 HF2].
        { assert (Forall (fun f => exists x, holds_snapshot H iso old st f.1 x.1 x.2) l') as Hall.
          { rewrite <-HP1. clear -HF. induction HF; constructor; eauto. }
          clear -Hall. induction Hall as [|f l [x Hx] _ [fs IH]]; [by exists []|]. exists (x :: fs). by constructor. }
        etrans; [by apply IH1|by apply IH2]. }
    assert ((load_result (shared s)).1 ≡ₚ (load_result (shared s')).1) as HPr.
    { cbn [load_result fst]. by rewrite !sort_by_time_perm, HPf, HPf', HPP. }
    assert ((load_result (shared s)).2 = (load_result (shared s')).2) as Htot.
    { cbn [load_result snd]. rewrite Ht, Ht'. f_equal. apply total_perm. by rewrite HP. }
    split; [done|]. split; [done|]. intros Hd. apply injective_projections; [|done].
    apply sorted_alike; [apply sorted_result|apply sorted_result|done|done].
Qed.
Print Assumptions C75_threads_do_not_matter_partial.

(** Naming a snapshot by its id or the beginning of it does not depend on the order, even if times
    are the same; only LAST and the like do. *)
Theorem C75_ids_mean_the_same_in_any_order snaps snaps' name : own_ids snaps -> snaps ≡ₚ snaps' -> (forall n, ~ says_last name n) ->
  find_snapshot snaps name = find_snapshot snaps' name.
Proof.
  intros Ho HP Hn. assert (own_ids snaps') as Ho' by (destruct Ho as [H1 H2]; split; by rewrite <-HP).
  destruct (C32_prefix_names_the_only_match snaps name Ho Hn) as [H1 N1], (C32_prefix_names_the_only_match snaps' name Ho' Hn) as [H2 N2].
  assert (forall x, find_snapshot snaps name = Ok x <-> find_snapshot snaps' name = Ok x) as Hx.
  { intros x. rewrite H1, H2. by setoid_rewrite HP. }
  destruct (find_snapshot snaps name) as [x| |] eqn:E; [by rewrite (proj1 (Hx x) eq_refl)| |done].
  destruct (find_snapshot snaps' name) as [x| |] eqn:E'; [by discriminate (proj2 (Hx x) eq_refl)|done|done].
Qed.
Print Assumptions C75_ids_mean_the_same_in_any_order.

(** From the files of a repository, whatever the threads do, come its snapshots in order of time,
    which is what the theorems about commands start from; the size is that of the files. *)
Theorem C75_as_the_repository_has_them H iso old zdec k w st l cpus s :
  (forall x, length (H x) = 28) -> tidy H (k, w) -> fits k -> stored_in zdec st k -> listing st l ->
  loading H iso old st l cpus s ->
  boss s <> MGone /\
  (boss s = MReturned ->
    chronological k (load_result (shared s)).1 /\
    (load_result (shared s)).2 = (total (map (fun x => N.of_nat (length (snapshot_bytes x.2))) (map_to_list (k_snaps k))) mod 2 ^ 64)%N).
Proof.
  intros Hlen (Tp & _ & Ti & Ts) Hfit Hst [Hl1 Hl2] Hl. cbn [fst snd] in *. destruct (found_exists zdec st k Hst) as [d Hd].
  pose proof (snapshot_loads H zdec Hlen k st d Ti Ts Tp Hfit Hst Hd) as Hload.
  destruct C50_locations_one_to_one as (_ & Hinj & Hid & Hstem).
  assert (forall i sp, k_snaps k !! i = Some sp -> oid_wf i) as Hwf by (intros i sp E; rewrite (Ts i sp E); apply Hlen).
  assert (forall p n, (p, n) ∈ l -> exists i sp, k_snaps k !! i = Some sp /\ p = location ASnapshot i /\ n = N.of_nat (length (snapshot_bytes sp)) /\
    holds_snapshot H iso old st p sp i) as Hone.
  { intros p n Hin. destruct (Hl2 p n Hin) as (x & Ex & ->).
    assert (p ∈ list_objects st ASnapshot) as Hp. { rewrite <-Hl1. apply elem_of_list_fmap. by exists (p, N.of_nat (length x)). }
    apply (list_locations zdec st k ASnapshot p Hst) in Hp as (i & x' & Hi & Ex' & ->). rewrite Ex in Ex'. injection Ex' as <-.
    pose proof (si_snaps _ _ _ Hst i Hi) as Es. rewrite Ex in Es. destruct (k_snaps k !! i) as [sp|] eqn:Ek; [|done]. injection Es as ->.
    exists i, sp. split; [done|]. split; [done|]. split; [done|]. split; [done|].
    split; [exact (proj2 (Hstem _ _ (Hid ASnapshot i Hi)))|].
    exists (snapshot_bytes sp). split; [done|]. apply load_is; [exact st|]. by rewrite (Hload _ _ Ek). }
  split.
  - intros E. destruct (C75_all_of_them_or_an_error _ _ _ _ _ _ _ Hl) as (_ & Hg & _). destruct (Hg E) as (p & n & Hin & Hno).
    destruct (Hone p n Hin) as (i & sp & _ & _ & _ & Hh). by apply (Hno sp i).
  - intros Hret. destruct (loading_returned _ _ _ _ _ _ _ Hl Hret) as (found & HF & HP & Ht).
    assert (Forall2 (fun f x => f.1 = location ASnapshot x.2 /\ k_snaps k !! x.2 = Some x.1 /\ f.2 = N.of_nat (length (snapshot_bytes x.1))) l found) as HF2.
    { apply Forall2_same_length_lookup in HF as [Hlg HF]. apply Forall2_same_length_lookup. split; [done|]. intros j [p n] [sp i] Ef Ex.
      specialize (HF j _ _ Ef Ex). cbn [fst snd] in *. destruct (Hone p n) as (i' & sp' & Ek & -> & -> & Hh); [by eapply elem_of_list_lookup_2|].
      assert (i = i') as <-.
      { destruct HF as (Hw & Es & _), Hh as (Hw' & Es' & _). rewrite Es in Es'. injection Es' as Es'.
        pose proof (oid_parse_print _ Hw) as P1. rewrite Es', oid_parse_print in P1 by done. by injection P1. }
      rewrite (holds_fun _ _ _ _ _ _ _ _ _ HF Hh). done. }
    assert (map fst l = map (fun x => location ASnapshot x.2) found) as El.
    { clear -HF2. induction HF2 as [|? ? ? ? (E & _) _ IH]; [done|]. cbn [map]. by rewrite E, IH. }
    assert (NoDup found) as Hnd.
    { apply (NoDup_fmap_1 (fun x : snapshot * oid => location ASnapshot x.2)). change (NoDup (map (fun x : snapshot * oid => location ASnapshot x.2) found)).
      rewrite <-El, Hl1. unfold list_objects, be_list. apply NoDup_filter. apply (NoDup_fst_map_to_list st). }
    assert (forall sp i, (sp, i) ∈ found <-> k_snaps k !! i = Some sp) as Hin.
    { intros sp i. split.
      - intros [j Hj]%elem_of_list_lookup. destruct (Forall2_lookup_r _ _ _ _ _ HF2 Hj) as (f & _ & _ & E & _). done.
      - intros E. pose proof (Hwf i sp E) as Hi. assert (location ASnapshot i ∈ list_objects st ASnapshot) as Hlo.
        { apply (list_locations zdec st k ASnapshot _ Hst). exists i, (snapshot_bytes sp). split; [done|]. split; [|done].
          rewrite (si_snaps _ _ _ Hst i Hi), E. done. }
        rewrite <-Hl1, El in Hlo. apply elem_of_list_fmap in Hlo as ([sp' i'] & Eloc & Hin). cbn [snd] in *.
        assert (k_snaps k !! i' = Some sp') as E'.
        { apply elem_of_list_lookup in Hin as [j Hj]. destruct (Forall2_lookup_r _ _ _ _ _ HF2 Hj) as (f & _ & _ & E' & _). done. }
        destruct (Hinj ASnapshot i ASnapshot i' Hi (Hwf _ _ E') Eloc) as [_ <-]. rewrite E in E'. by injection E' as <-. }
    assert (map (fun x : oid * snapshot => (x.2, x.1)) (map_to_list (k_snaps k)) ≡ₚ found) as HPk.
    { apply NoDup_Permutation; [|done|].
      - apply NoDup_fmap_2; [|apply NoDup_map_to_list]. intros [a b] [c e] [= -> ->]. done.
      - intros [sp i]. rewrite Hin. rewrite elem_of_list_fmap. split.
        + intros ([a b] & [= -> ->] & Hx). by apply elem_of_map_to_list in Hx.
        + intros E. exists (i, sp). split; [done|]. by apply elem_of_map_to_list. }
    split; [split|].
    + rewrite HPk. cbn [load_result fst]. by rewrite sort_by_time_perm.
    + apply StronglySorted_Sorted, sorted_result.
    + cbn [load_result snd]. rewrite Ht. f_equal. apply total_perm.
      transitivity (map (fun x : snapshot * oid => N.of_nat (length (snapshot_bytes x.1))) found).
      * clear -HF2. induction HF2 as [|? ? ? ? (_ & _ & E) _ IH]; [done|]. cbn [map]. by rewrite E, IH.
      * rewrite <-HPk, map_map. done.
Qed.
Print Assumptions C75_as_the_repository_has_them.

(** *** A concrete case *)

(** Two functions and two permits: either may be the first to end. *)
Lemma either_first {T S} (a b : T) (add : T -> S -> result S) s0 s1 s2 (first : bool) :
  add (if first then a else b) s0 = Ok s1 -> add (if first then b else a) s1 = Ok s2 ->
  exists s, comes_up [Ok a; Ok b] add 2 s0 s /\ boss s = MReturned /\ shared s = s2.
Proof.
  intros E1 E2. set (jobs := [Ok a; Ok b]).
  assert (forall n m l s s' s'', step jobs add l s s' -> run jobs add n m s' s'' -> exists n' m', run jobs add n' m' s s'') as Hgo0.
  { intros n m l s s' s'' Hs Hr. revert s Hs. induction Hr as [s'|n m l' q0 q1 q2 Hr IH Hs2]; intros s Hs.
    - eexists _, _. eapply run_snoc; [apply run_nil|done].
    - destruct (IH s Hs) as (n' & m' & Hr'). eexists _, _. eapply run_snoc; [done|done]. }
  assert (forall l s s' s'', step jobs add l s s' -> (exists n m, run jobs add n m s' s'') -> exists n m, run jobs add n m s s'') as Hgo.
  { intros l s s' s'' Hs (n & m & Hr). by eapply Hgo0. }
  eexists (mkState _ MReturned _ s2). split; [|done]. unfold comes_up, begin.
  eapply Hgo; [apply st_next; simpl; lia|].
  eapply Hgo; [exact (st_cas_fail _ _ 2 1 [] _)|]. eapply Hgo; [apply st_cas|]. eapply Hgo; [apply st_spawn|].
  eapply Hgo; [apply st_next; simpl; lia|]. eapply Hgo; [apply st_cas|]. eapply Hgo; [apply st_spawn|].
  eapply Hgo; [by apply st_last|]. cbn -[N.modulo N.add].
  destruct first.
  - eapply Hgo; [by eapply (st_ok _ _ _ _ _ _ 0 a)|]. eapply Hgo; [by eapply (st_ok _ _ _ _ _ _ 1 b)|].
    eapply Hgo; [by apply (st_release _ _ _ _ _ _ 0 false)|]. eapply Hgo; [by apply (st_release _ _ _ _ _ _ 1 false)|].
    eapply Hgo; [by apply (st_wake _ _ _ _ _ _ 0 false)|].
    eapply Hgo; [apply st_join; repeat constructor; eauto|]. eexists 0, 0. apply run_nil.
  - eapply Hgo; [by eapply (st_ok _ _ _ _ _ _ 1 b)|]. eapply Hgo; [by eapply (st_ok _ _ _ _ _ _ 0 a)|].
    eapply Hgo; [by apply (st_release _ _ _ _ _ _ 0 false)|]. eapply Hgo; [by apply (st_release _ _ _ _ _ _ 1 false)|].
    eapply Hgo; [by apply (st_wake _ _ _ _ _ _ 0 false)|].
    eapply Hgo; [apply st_join; repeat constructor; eauto|]. eexists 0, 0. apply run_nil.
Qed.

(** Files of two snapshots. *)
Definition lx_st (a b : snapshot * oid) : fstore :=
  <[location ASnapshot a.2 := snapshot_bytes a.1]> (<[location ASnapshot b.2 := snapshot_bytes b.1]> ∅).
Definition lx_listing (a b : snapshot * oid) : list (bytes * N) :=
  [(location ASnapshot a.2, N.of_nat (length (snapshot_bytes a.1))); (location ASnapshot b.2, N.of_nat (length (snapshot_bytes b.1)))].
Definition no_time : bytes -> option (Z * bytes) := fun _ => None.
Definition lx_old := snap_of 2 x02.
Definition lx_same := snap_of 2 x03.
Definition lx_new := snap_of 5 x03.

Lemma lx_jobs : map (load_job quick_hash no_time no_time (lx_st lx_old lx_same)) (lx_listing lx_old lx_same) =
  [Ok (lx_old, N.of_nat (length (snapshot_bytes lx_old.1))); Ok (lx_same, N.of_nat (length (snapshot_bytes lx_same.1)))].
Proof. vm_compute. reflexivity. Qed.
Lemma lx_jobs_new : map (load_job quick_hash no_time no_time (lx_st lx_new lx_old)) (lx_listing lx_new lx_old) =
  [Ok (lx_new, N.of_nat (length (snapshot_bytes lx_new.1))); Ok (lx_old, N.of_nat (length (snapshot_bytes lx_old.1)))].
Proof. vm_compute. reflexivity. Qed.
Lemma lx_listed a b : (location ASnapshot a.2 <> location ASnapshot b.2) ->
  list_objects (lx_st a b) ASnapshot ≡ₚ map fst (lx_listing a b) -> listing (lx_st a b) (lx_listing a b).
Proof.
  intros Hne HP. split; [by symmetry|]. intros p n Hin. unfold lx_listing in Hin. apply elem_of_cons in Hin as [[= -> ->]|Hin].
  - exists (snapshot_bytes a.1). split; [|done]. unfold lx_st. by rewrite lookup_insert.
  - apply elem_of_list_singleton in Hin as [= -> ->]. exists (snapshot_bytes b.1). split; [|done]. unfold lx_st. rewrite lookup_insert_ne by done. by rewrite lookup_insert.
Qed.

(** If two snapshots have the same time, as after filter-snapshot --keep-metadata, which differ in
    nothing but the tree, it is up to the threads which of the two is LAST. *)
Theorem C75_refuted_same_time : exists H iso old st l cpus s s' a b,
  (forall x, length (H x) = 28) /\ listing st l /\ loading H iso old st l cpus s /\ loading H iso old st l cpus s' /\
  boss s = MReturned /\ boss s' = MReturned /\
  find_snapshot (load_result (shared s)).1 (ascii_bytes "LAST") = Ok a /\
  find_snapshot (load_result (shared s')).1 (ascii_bytes "LAST") = Ok b /\ a <> b /\
  sn_time a.1 = sn_time b.1 /\ sn_author a.1 = sn_author b.1 /\ sn_tags a.1 = sn_tags b.1 /\ sn_paths a.1 = sn_paths b.1.
Proof.
  destruct (either_first (lx_old, N.of_nat (length (snapshot_bytes lx_old.1))) (lx_same, N.of_nat (length (snapshot_bytes lx_same.1)))
    keep ([], 0%N) _ _ true eq_refl eq_refl) as (s & Hs & Hret & Hsh).
  destruct (either_first (lx_old, N.of_nat (length (snapshot_bytes lx_old.1))) (lx_same, N.of_nat (length (snapshot_bytes lx_same.1)))
    keep ([], 0%N) _ _ false eq_refl eq_refl) as (s' & Hs' & Hret' & Hsh').
  exists quick_hash, no_time, no_time, (lx_st lx_old lx_same), (lx_listing lx_old lx_same), 2%N, s, s', lx_same, lx_old.
  split; [exact quick_hash_length|]. split.
  { apply lx_listed; [vm_compute; discriminate|]. apply (bool_decide_unpack _). vm_compute. exact I. }
  unfold loading. rewrite lx_jobs. split; [done|]. split; [done|]. split; [done|]. split; [done|]. rewrite Hsh, Hsh'.
  split; [vm_compute; reflexivity|]. split; [vm_compute; reflexivity|]. split; [vm_compute; discriminate|]. done.
Qed.
Print Assumptions C75_refuted_same_time.

(** Two snapshots of different times, listed the newer first, loaded in either order. *)
Example C75_witness : exists s s',
  listing (lx_st lx_new lx_old) (lx_listing lx_new lx_old) /\
  loading quick_hash no_time no_time (lx_st lx_new lx_old) (lx_listing lx_new lx_old) 2 s /\ boss s = MReturned /\
  loading quick_hash no_time no_time (lx_st lx_new lx_old) (lx_listing lx_new lx_old) 2 s' /\ boss s' = MReturned /\
  (shared s).1 = [lx_new; lx_old] /\ (shared s').1 = [lx_old; lx_new] /\
  times_differ (load_result (shared s)).1 /\ (load_result (shared s)).1 = [lx_old; lx_new] /\
  load_result (shared s) = load_result (shared s').
Proof.
  destruct (either_first (lx_new, N.of_nat (length (snapshot_bytes lx_new.1))) (lx_old, N.of_nat (length (snapshot_bytes lx_old.1)))
    keep ([], 0%N) _ _ true eq_refl eq_refl) as (s & Hs & Hret & Hsh).
  destruct (either_first (lx_new, N.of_nat (length (snapshot_bytes lx_new.1))) (lx_old, N.of_nat (length (snapshot_bytes lx_old.1)))
    keep ([], 0%N) _ _ false eq_refl eq_refl) as (s' & Hs' & Hret' & Hsh').
  exists s, s'. split.
  { apply lx_listed; [vm_compute; discriminate|]. apply (bool_decide_unpack _). vm_compute. exact I. }
  unfold loading. rewrite lx_jobs_new. rewrite Hsh, Hsh'. split; [done|]. split; [done|]. split; [done|]. split; [done|].
  split; [reflexivity|]. split; [reflexivity|]. split; [|split; [reflexivity|]].
  - change (load_result _).1 with [lx_old; lx_new]. intros x y Hx Hy E. apply elem_of_cons in Hx as [->|Hx%elem_of_list_singleton];
      apply elem_of_cons in Hy as [->|Hy%elem_of_list_singleton]; subst; try done; discriminate E.
  - vm_compute. reflexivity.
Qed.

(** Loading can always go on to its end, and does so after a bounded number of steps but for those
    taken for no reason (C65). *)
Lemma run_on {T S} (jobs : list (result T)) (add : T -> S -> result S) cpus s0 n m s :
  (0 < cpus < 2 ^ 32)%N -> run jobs add n m (begin cpus s0) s -> exists n' s', run jobs add n' m (begin cpus s0) s' /\ final s'.
Proof.
  intros Hc. remember (100 * length jobs + 5 + 4 * m - n) as d eqn:Ed. revert n s Ed. induction d as [d IH] using lt_wf_ind. intros n s -> Hr.
  destruct (C65_calls_end _ _ _ _ _ _ _ Hc Hr) as [Hn [Hf|[s' Hs]]]; [eauto|].
  assert (run jobs add (1 + n) m (begin cpus s0) s') as Hr' by exact (run_snoc _ _ _ _ true _ _ _ Hr Hs).
  destruct (C65_calls_end _ _ _ _ _ _ _ Hc Hr') as [Hn' _]. eapply IH; [|reflexivity|exact Hr']. lia.
Qed.
Theorem C75_whole_files_load H iso old st l cpus :
  (0 < cpus < 2 ^ 32)%N -> (forall p n, (p, n) ∈ l -> exists sp id, holds_snapshot H iso old st p sp id) ->
  exists s, loading H iso old st l cpus s /\ boss s = MReturned.
Proof.
  intros Hc Hall. destruct (run_on (map (load_job H iso old st) l) keep cpus ([], 0%N) 0 0 _ Hc (run_nil _ _ _)) as (n & s & Hr & Hf).
  assert (loading H iso old st l cpus s) as Hl by (split; [by apply Hc|by exists n, 0]). exists s. split; [done|].
  destruct (C75_all_of_them_or_an_error _ _ _ _ _ _ _ Hl) as (_ & Hg & Hp). destruct Hf as [?|[?|E]]; [done|done|].
  destruct (Hg E) as (p & m & Hin & Hno). destruct (Hall p m Hin) as (sp & id & Hh). by destruct (Hno sp id).
Qed.
Print Assumptions C75_whole_files_load.

(** A repository after a backup, as files, and its snapshots loaded. *)
Example C75_repository_witness : exists k w st l s,
  tidy quick_hash (k, w) /\ fits k /\ stored_in toy_zdec st k /\ listing st l /\ size (k_snaps k) = 1 /\
  loading quick_hash no_time no_time st l 4 s /\ boss s = MReturned.
Proof.
  destruct C64_witness as (k0 & w0 & parent & pf & c & k & w & st & d & _ & _ & _ & _ & _ & _ & _ & _ & _ & Ht & Hfit & Hst & _ & _ & _ & Hsz & _).
  set (l := map (fun p => (p, N.of_nat (length (default [] (st !! p))))) (list_objects st ASnapshot)).
  assert (listing st l) as Hl.
  { split; [unfold l; rewrite map_map; cbn [fst]; by rewrite map_id|]. intros p n Hin. unfold l in Hin.
    apply elem_of_list_fmap in Hin as (q & [= -> ->] & Hq). apply (list_locations toy_zdec st k ASnapshot q Hst) in Hq as (i & x & _ & Ex & ->).
    exists x. by rewrite Ex. }
  destruct (run_on (map (load_job quick_hash no_time no_time st) l) keep 4 ([], 0%N) 0 0 _ ltac:(done) (run_nil _ _ _)) as (n & s & Hr & Hf).
  assert (loading quick_hash no_time no_time st l 4 s) as Hld by (split; [done|by exists n, 0]).
  exists k, w, st, l, s. do 6 (split; [done|]).
  destruct (C75_as_the_repository_has_them _ _ _ _ _ _ _ _ _ _ quick_hash_length Ht Hfit Hst Hl Hld) as [Hg _].
  destruct (C75_all_of_them_or_an_error _ _ _ _ _ _ _ Hld) as (_ & _ & Hp). by destruct Hf as [?|[?|?]].
Qed.
