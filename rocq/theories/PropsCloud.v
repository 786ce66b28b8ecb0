(** C42: a failed upload is retried without damage; C54: listings of a bucket come in pages. *)

From Verif Require Import Base Formats CloudStore.
From stdpp Require Import sorting.

(** ** The body: the contents and their hash, however it is read *)
Definition to_come (hex_sha1 : bytes -> bytes) (r : hreader) : bytes :=
  match r with
  | Contents rest seen => rest ++ hex_sha1 (seen ++ rest)
  | HashSuffix rest => rest
  end.
Lemma hread_to_come hex_sha1 r n x r' : hread hex_sha1 r n x r' -> to_come hex_sha1 r = x ++ to_come hex_sha1 r'.
Proof.
  destruct 1 as [rest seen n k|seen n|rest n]; cbn.
  - by rewrite <- (assoc_L (++) seen), !(take_drop k), (assoc_L (++)), (take_drop k).
  - by rewrite app_nil_r, (take_drop n).
  - by rewrite take_drop.
Qed.
Lemma hread_nothing hex_sha1 r n x r' : hread hex_sha1 r n x r' -> x = [] -> to_come hex_sha1 r = [].
Proof.
  destruct 1 as [rest seen n k Hk Hkn Hl|seen n Hn|rest n Hn]; intros E; cbn.
  - exfalso. apply (f_equal (@length _)) in E. rewrite take_length in E. cbn in E. lia.
  - rewrite app_nil_r. destruct n; [lia|]. by destruct (hex_sha1 seen).
  - destruct n; [lia|]. by destruct rest.
Qed.
Theorem C42_body_is_contents_and_hash (hex_sha1 : bytes -> bytes) (x body : bytes) :
  hread_all hex_sha1 (Contents x []) body -> body = x ++ hex_sha1 x.
Proof.
  change (x ++ hex_sha1 x) with (to_come hex_sha1 (Contents x [])).
  induction 1 as [r n r' Hr|r n y r' z Hr _ _ IH].
  - by erewrite hread_nothing.
  - by erewrite hread_to_come, <- IH.
Qed.
Print Assumptions C42_body_is_contents_and_hash.

(** ** Uploads *)
Section upload.
Local Set Default Proof Using "Type".
Variable hex_sha1 : bytes -> bytes.
Lemma accepts_whole (len : nat) (z x : bytes) : (forall w : bytes, length (hex_sha1 w) = 40) ->
  accepts hex_sha1 (len + 40) (z ++ hex_sha1 z) = Some x -> length z = len /\ x = z.
Proof.
  intros Hhex. unfold accepts. case_bool_decide as E; [|done]. rewrite app_length, Hhex in E.
  rewrite app_length, Hhex. replace (length z + 40 - 40) with (length z) by lia.
  rewrite take_app, drop_app. case_bool_decide; [|done]. intros [= <-]. split; [lia|done].
Qed.

(** What is known at any time: nothing of [x] is stored but all of it; once something was
    read from the source it cannot become complete again. *)
Definition uinv (x : bytes) (s : upload) : Prop :=
  Forall (eq x) (up_stored s)
  /\ (exists k, up_rest s = drop k x)
  /\ (x <> [] -> up_rest s = x /\ up_stored s = [] \/ length (up_rest s) < length x /\ length (up_stored s) <= 1
      \/ up_rest s = x /\ up_stored s = []).
Lemma put_keeps (x : bytes) s r s' : (forall w : bytes, length (hex_sha1 w) = 40) ->
  put_attempt hex_sha1 (length x) s r s' -> uinv x s ->
  uinv x s' /\ (r = Answer tt -> exists old, up_stored s' = old ++ [x]).
Proof.
  intros Hhex Hp (Hf & (k & Hk) & Hx).
  assert (forall y, accepts hex_sha1 (length x + 40) (up_rest s ++ hex_sha1 (up_rest s)) = Some y ->
    y = x /\ uinv x (mkUpload [] (up_stored s ++ [y]))) as Hacc.
  { intros y Hy. apply accepts_whole in Hy as [Hl ->]; [|done].
    assert (up_rest s = x) as E.
    { rewrite Hk in *. rewrite drop_length in Hl. destruct (decide (x = [])) as [->|Hne]; [by rewrite drop_nil|].
      assert (0 < length x) by (by destruct x; [|cbn; lia]). assert (k = 0) as -> by lia. done. }
    rewrite E. split; [done|]. split; [|split].
    - cbn. apply Forall_app. split; [done|]. by constructor.
    - exists (length x). cbn. by rewrite drop_all.
    - intros Hne. cbn. right; left. assert (0 < length x) by (by destruct x; [|cbn; lia]).
      split; [done|]. rewrite app_length. cbn.
      destruct (Hx Hne) as [[_ ->]|[[Hlt _]|[_ ->]]]; cbn; [lia| |lia]. rewrite E in Hlt. lia. }
  destruct Hp as [s y Hy|s y Hy|s j].
  - destruct (Hacc y Hy) as [-> Hu]. split; [done|]. intros _. cbn. by eexists.
  - destruct (Hacc y Hy) as [-> Hu]. split; [done|]. intros [=].
  - split; [|done]. split; [done|]. cbn. split; [exists (k + j); by rewrite Hk, drop_drop|].
    intros Hne. rewrite drop_length. assert (0 < length x) by (by destruct x; [|cbn; lia]).
    destruct (decide (j = 0)) as [->|Hj]; [rewrite drop_0; by rewrite Nat.sub_0_r; apply Hx|].
    right; left. assert (length (up_rest s) <= length x) by (rewrite Hk, drop_length; lia).
    split; [lia|]. destruct (Hx Hne) as [[_ ->]|[[_ ?]|[_ ->]]]; cbn; lia.
Qed.
Lemma uinv_start (x : bytes) : uinv x (mkUpload x []).
Proof. split; [by constructor|]. split; [by exists 0|]. intros _. by left. Qed.
End upload.

(** However many attempts there have been, and wherever each of them failed: what is
    stored under the name is the file, whole, and (if not empty) once. *)
Theorem C42_stored_whole (hex_sha1 : bytes -> bytes) (x : bytes) (s : upload) :
  (forall w : bytes, length (hex_sha1 w) = 40) ->
  rtc (fun s s' => exists r, put_attempt hex_sha1 (length x) s r s') (mkUpload x []) s ->
  (forall y, y ∈ up_stored s -> y = x) /\ (x <> [] -> length (up_stored s) <= 1).
Proof.
  intros Hhex Hr. assert (uinv x s) as (Hf & _ & Hx).
  { pose proof (uinv_start x) as Hi. induction Hr as [|? ? ? [r Hp] _ IH]; [done|]. apply IH.
    eapply put_keeps in Hp; [|done..]. apply Hp. }
  split.
  - intros y Hy. rewrite Forall_forall in Hf. symmetry. by apply Hf.
  - intros Hne. destruct (Hx Hne) as [[_ ->]|[[_ ?]|[_ ->]]]; cbn; lia.
Qed.
Print Assumptions C42_stored_whole.

(** And a write that returns has stored it. *)
Theorem C42_success_means_stored (hex_sha1 : bytes -> bytes) (x : bytes) n r (s : upload) :
  (forall w : bytes, length (hex_sha1 w) = 40) ->
  cloud_write hex_sha1 (length x) (mkUpload x []) n r s ->
  r = Ok tt /\ last (up_stored s) = Some x /\ (forall y, y ∈ up_stored s -> y = x).
Proof.
  intros Hhex Hw. unfold cloud_write in Hw. pose proof (uinv_start x) as Hi. revert Hw Hi.
  generalize (mkUpload x []) as s0. intros s0 Hw.
  induction Hw as [s a s' Hp|s s' Hp|s s1 n r s' Hp _ IH]; intros Hi.
  - destruct (put_keeps _ _ _ _ _ Hhex Hp Hi) as [(Hf & _) Ho]. destruct a. destruct (Ho eq_refl) as [old E].
    split; [done|]. split; [by rewrite E, last_snoc|]. intros y Hy. rewrite Forall_forall in Hf. symmetry. by apply Hf.
  - inversion Hp.
  - apply IH. by destruct (put_keeps _ _ _ _ _ Hhex Hp Hi).
Qed.
Print Assumptions C42_success_means_stored.

(** ** But no failure is reported *)
Theorem C42_refuted_failures_are_reported :
  (forall hex_sha1 len s n s', ~ cloud_write hex_sha1 len s n Err s')
  /\ (forall b name n, ~ retry_run (get_attempt b name) tt n Err tt)
  /\ (forall name b n b', ~ retry_run (delete_attempt name) b n Err b').
Proof.
  split; [|split].
  - intros hex_sha1 len s n s' Hw. unfold cloud_write in Hw. remember (@Err unit) as r eqn:E.
    induction Hw as [| ? ? Hp | ]; [done|inversion Hp|auto].
  - intros b name n Hw. remember (@Err bytes) as r eqn:E.
    induction Hw as [| ? ? Hp | ]; [done|inversion Hp|auto].
  - intros name b n b' Hw. remember (@Err unit) as r eqn:E.
    induction Hw as [| ? ? Hp | ]; [done|inversion Hp|auto].
Qed.
Print Assumptions C42_refuted_failures_are_reported.

(** A write whose first attempt failed after reading at least one byte never returns, even
    if everything works from then on: the source is not read again from its start. *)
Theorem C42_refuted_failed_uploads_succeed_later (hex_sha1 : bytes -> bytes) (x : bytes) (k : nat) stored n r (s : upload) :
  (forall w : bytes, length (hex_sha1 w) = 40) -> 0 < k -> x <> [] ->
  ~ cloud_write hex_sha1 (length x) (mkUpload (drop k x) stored) n r s.
Proof.
  intros Hhex Hk Hne Hw. assert (length (up_rest (mkUpload (drop k x) stored)) < length x) as Hlt.
  { cbn. rewrite drop_length. destruct x; [done|]. cbn. lia. }
  unfold cloud_write in Hw. revert Hw Hlt. generalize (mkUpload (drop k x) stored) as s0. intros s0 Hw.
  induction Hw as [s a s' Hp|s s' Hp|s s1 n r s' Hp _ IH]; intros Hlt.
  - inversion Hp as [? y Hy| |]; subst. apply accepts_whole in Hy as [? _]; [lia|done].
  - inversion Hp.
  - apply IH. inversion Hp as [|? y Hy|? j]; subst; cbn.
    + destruct x; [done|cbn; lia].
    + rewrite drop_length. lia.
Qed.
Print Assumptions C42_refuted_failed_uploads_succeed_later.

(** Nor does reading a file that is not there, or removing one that is stored twice, or one
    that was removed although the answer was lost. *)
Theorem C42_refuted_missing_files_are_reported (b : bucket) (name : bytes) n r :
  b !! name = None -> ~ retry_run (get_attempt b name) tt n r tt.
Proof.
  intros Hb Hw. assert (forall u, u = tt) as Hu by by intros [].
  induction Hw as [? a ? Hp|? ? Hp|? s1 n r ? Hp _ IH]; [inversion Hp; congruence|inversion Hp|done].
Qed.
Print Assumptions C42_refuted_missing_files_are_reported.
Theorem C42_refuted_removals_end (name : bytes) (b b' : bucket) n r :
  length (versions b name) <> 1 -> ~ retry_run (delete_attempt name) b n r b'.
Proof.
  intros Hb Hw. induction Hw as [b a b' Hp|b b' Hp|b b1 n r b' Hp _ IH].
  - inversion Hp as [? v Hv| | | |]; subst. by rewrite Hv in Hb.
  - inversion Hp.
  - apply IH. inversion Hp as [|? Hv|? v1 v2 vs Hv|? v Hv|]; subst; try done. by rewrite Hv in Hb.
Qed.
Print Assumptions C42_refuted_removals_end.

(** ** What does return is right *)
Theorem C42_reads_and_removals_are_right (b b' : bucket) (name x : bytes) n :
  (retry_run (get_attempt b name) tt n (Ok x) tt -> exists vs, b !! name = Some vs /\ last vs = Some x)
  /\ (retry_run (delete_attempt name) b n (Ok tt) b' -> b' = delete name b).
Proof.
  split; intros Hw.
  - remember (Ok x) as r eqn:E. induction Hw as [? a ? Hp|? ? Hp|? s1 n r ? Hp _ IH]; [|done|auto].
    injection E as ->. inversion Hp; subst; eauto.
  - remember (@Ok unit tt) as r eqn:E. induction Hw as [b a b' Hp|? ? Hp|b b1 n r b' Hp Hrest IH]; [by inversion Hp|done|].
    inversion Hp as [|? Hv|? v1 v2 vs Hv|? v Hv|]; subst; try by apply IH.
    rewrite (IH eq_refl). apply delete_idemp.
Qed.
Print Assumptions C42_reads_and_removals_are_right.

(** ** A case: refused twice before anything was read, then accepted; or refused halfway *)
Definition hex40 (x : bytes) : bytes := replicate 40 (hd x30 x).
Example C42_witness :
  (forall w : bytes, length (hex40 w) = 40)
  /\ cloud_write hex40 2 (mkUpload [x61; x62] []) 3 (Ok tt) (mkUpload [] [[x61; x62]])
  /\ (forall n r s, ~ cloud_write hex40 2 (mkUpload [x62] []) n r s)
  /\ hread_all hex40 (Contents [x61; x62] []) ([x61; x62] ++ hex40 [x61; x62]).
Proof.
  split; [|split; [|split]].
  - intros w. apply replicate_length.
  - apply retry_again with (mkUpload [x61; x62] []); [apply (put_fails _ _ (mkUpload [x61; x62] []) 0)|].
    apply retry_again with (mkUpload [x61; x62] []); [apply (put_fails _ _ (mkUpload [x61; x62] []) 0)|].
    apply retry_ok. by apply (put_ok _ _ (mkUpload [x61; x62] [])).
  - intros n r s. apply (C42_refuted_failed_uploads_succeed_later hex40 [x61; x62] 1); [|lia|done].
    intros w. apply replicate_length.
  - apply (hread_more _ _ 1 [x61] (Contents [x62] [x61])); [apply (hread_contents _ [x61; x62] [] 1 1); cbn; lia|done|].
    apply (hread_more _ _ 7 [x62] (Contents [] [x61; x62])); [apply (hread_contents _ [x62] [x61] 7 1); cbn; lia|done|].
    apply (hread_more _ _ 39 (take 39 (hex40 [x61; x62])) (HashSuffix [x61]) [x61]); [apply (hread_turn hex40 [x61; x62] 39); lia|done|].
    apply (hread_more _ _ 5 [x61] (HashSuffix []) []); [apply (hread_suffix _ [x61] 5); lia|done|].
    apply (hread_end _ _ 5 (HashSuffix [])). apply (hread_suffix _ [] 5); lia.
Qed.

Example C42_witness_removals :
  let b : bucket := {[ [x61] := [[x62]; [x63]]; [x64] := [[x65]] ]} in
  length (versions b [x61]) = 2 /\ length (versions b [x66]) = 0
  /\ retry_run (delete_attempt [x64]) b 2 (Ok tt) (delete [x64] b).
Proof.
  cbn zeta. split; [by vm_compute|]. split; [by vm_compute|].
  eapply retry_again; [apply delete_fails|]. apply retry_ok. apply (delete_ok _ _ [x65]). by vm_compute.
Qed.

(** ** C54: listings *)
Notation in_order := (StronglySorted (fun e e' => bytes_lt (en_name e) (en_name e'))).
Lemma in_order_filter (P : entry -> Prop) `{!forall e, Decision (P e)} (l : list entry) : in_order l -> in_order (filter P l).
Proof.
  induction 1 as [|e l Hs IH Hf]; [constructor|]. rewrite filter_cons. case_decide; [|done].
  constructor; [done|]. rewrite Forall_forall in *. intros e' He'. apply elem_of_list_filter in He' as [_ He']. by apply Hf.
Qed.
Lemma page_spec many files prefix start es next : in_order files -> 0 < many ->
  page many files prefix start = (es, next) ->
  in_order es
  /\ (forall e, e ∈ es -> e ∈ files /\ begins_with prefix (en_name e) = true
       /\ (forall s, start = Some s -> bytes_ltb (en_name e) s = false)
       /\ (forall s, next = Some s -> bytes_lt (en_name e) s))
  /\ (forall s s', start = Some s -> next = Some s' -> bytes_ltb s' s = false)
  /\ (forall e, e ∈ files -> begins_with prefix (en_name e) = true ->
       (forall s, start = Some s -> bytes_ltb (en_name e) s = false) ->
       e ∈ es \/ exists s, next = Some s /\ bytes_ltb (en_name e) s = false).
Proof.
  intros Ho Hm. unfold page. set (all := filter _ files). 
  set (rest := match start with None => all | Some s => _ end). intros [= <- <-].
  assert (in_order rest) as Hr.
  { subst rest all. destruct start; repeat apply in_order_filter; done. }
  assert (forall e, e ∈ rest <-> e ∈ files /\ begins_with prefix (en_name e) = true
    /\ (forall s, start = Some s -> bytes_ltb (en_name e) s = false)) as Hin.
  { intros e. subst rest all. destruct start as [s|]; rewrite !elem_of_list_filter; naive_solver. }
  clearbody rest. rewrite <- (take_drop many rest) in Hr. split; [|split; [|split]].
  - by eapply StronglySorted_app_inv_l.
  - intros e He. assert (e ∈ rest) as Hd by (rewrite <- (take_drop many rest); apply elem_of_app; by left).
    apply Hin in Hd as (? & ? & ?). split; [done|]. split; [done|]. split; [done|].
    intros s Hs. destruct (drop many rest) as [|e' more] eqn:E; [done|]. cbn in Hs. injection Hs as <-.
    eapply (elem_of_StronglySorted_app _ _ _ _ _ Hr); [done|by left].
  - intros s s' -> Hs. destruct (drop many rest) as [|e' more] eqn:E; [done|]. cbn in Hs. injection Hs as <-.
    assert (e' ∈ rest) as Hd by (rewrite <- (take_drop many rest), E; apply elem_of_app; right; by left).
    apply Hin in Hd as (_ & _ & H). by apply H.
  - intros e H1 H2 H3. assert (e ∈ rest) as Hd by (apply Hin; done).
    rewrite <- (take_drop many rest) in Hd. apply elem_of_app in Hd as [?|Hd]; [by left|right].
    apply StronglySorted_app_inv_r in Hr. destruct (drop many rest) as [|e' more] eqn:E; [by apply elem_of_nil in Hd|].
    exists (en_name e'). split; [done|]. apply elem_of_cons in Hd as [->|Hd].
    + destruct (bytes_ltb _ _) eqn:El; [|done]. apply bytes_ltb_lt in El. by apply bytes_lt_irrefl in El.
    + inversion Hr as [|? ? _ Hall]; subst. rewrite Forall_forall in Hall. specialize (Hall e Hd).
      destruct (bytes_ltb _ _) eqn:El; [|done]. apply bytes_ltb_lt in El.
      exfalso. eapply bytes_lt_irrefl, bytes_lt_trans; done.
Qed.
Lemma elem_of_shown n l es : (n, l) ∈ shown es <-> mkEntry n true l ∈ es.
Proof.
  unfold shown. change (map ?f ?l) with (f <$> l). rewrite elem_of_list_fmap. setoid_rewrite elem_of_list_filter. split.
  - intros ([n' u l'] & [= -> ->] & Hu & He). cbn in Hu. by subst u.
  - intros He. by exists (mkEntry n true l).
Qed.
Lemma shown_in_order es : in_order es -> StronglySorted (fun a b => bytes_lt a.1 b.1) (shown es).
Proof.
  intros Ho. unfold shown. apply (in_order_filter (fun e => en_upload e = true)) in Ho.
  induction Ho as [|e l Hs IH Hf]; [constructor|]. cbn. constructor; [done|].
  rewrite Forall_forall in Hf. rewrite Forall_forall. intros x Hx. change (map ?f ?l) with (f <$> l) in Hx.
  apply elem_of_list_fmap in Hx as (e' & -> & He'). cbn. by apply Hf.
Qed.
Lemma sorted_app {A} (R : A -> A -> Prop) l1 l2 : StronglySorted R l1 -> StronglySorted R l2 ->
  (forall a b, a ∈ l1 -> b ∈ l2 -> R a b) -> StronglySorted R (l1 ++ l2).
Proof.
  intros H1 H2 Hab. induction H1 as [|a l1 Hs IH Hf]; [done|]. cbn. constructor.
  - apply IH. intros x y Hx Hy. apply Hab; [by right|done].
  - apply Forall_app. split; [done|]. rewrite Forall_forall. intros b Hb. apply Hab; [by left|done].
Qed.
Lemma list_pages_spec prefix states start out : list_pages prefix states start out -> Forall in_order states ->
  StronglySorted (fun a b => bytes_lt a.1 b.1) out
  /\ (forall n l, (n, l) ∈ out -> begins_with prefix n = true /\ (exists files, files ∈ states /\ mkEntry n true l ∈ files)
       /\ (forall s, start = Some s -> bytes_ltb n s = false))
  /\ (forall n l, (forall files, files ∈ states -> mkEntry n true l ∈ files) -> begins_with prefix n = true ->
       (forall s, start = Some s -> bytes_ltb n s = false) -> (n, l) ∈ out).
Proof.
  induction 1 as [many files start es Hm Hp|many files states start es s rest Hm Hp _ IH]; intros Ho.
  - apply Forall_cons in Ho as [Ho Ho']. eapply page_spec in Hp as (H1 & H2 & _ & H3); [|done..].
    split; [by apply shown_in_order|]. split.
    + intros n l Hn. apply elem_of_shown, H2 in Hn as (? & ? & ? & _). split; [done|]. split; [|done].
      exists files. split; [by left|done].
    + intros n l Hn Hb Hs. apply elem_of_shown.
      destruct (H3 (mkEntry n true l)) as [?|(? & ? & _)]; [apply Hn; by left|done..].
  - apply Forall_cons in Ho as [Ho Ho']. eapply page_spec in Hp as (H1' & H2' & Hnx & H3'); [|done..].
    destruct IH as (I1 & I2 & I3); [done|]. split; [|split].
    + apply sorted_app; [by apply shown_in_order|done|]. intros [n l] [n' l'] Hn Hn'. cbn.
      apply elem_of_shown, H2' in Hn as (_ & _ & _ & Hlt). apply I2 in Hn' as (_ & _ & Hge).
      specialize (Hlt s eq_refl). specialize (Hge s eq_refl). cbn in Hlt.
      destruct (bytes_lt_total n' s) as [Hl|[->|Hl]]; [|done|by eapply bytes_lt_trans].
      apply bytes_ltb_lt in Hl. congruence.
    + intros n l Hn. apply elem_of_app in Hn as [Hn|Hn].
      * apply elem_of_shown, H2' in Hn as (? & ? & ? & _). split; [done|]. split; [|done].
        exists files. split; [by left|done].
      * apply I2 in Hn as (? & (f & Hf & He) & Hge). split; [done|]. split.
        { exists f. split; [by right|done]. }
        intros s' ->. specialize (Hge s eq_refl). specialize (Hnx s' s eq_refl eq_refl).
        destruct (bytes_ltb n s') eqn:E; [|done]. apply bytes_ltb_lt in E.
        destruct (bytes_lt_total n s) as [Hl|[->|Hl]].
        -- apply bytes_ltb_lt in Hl. congruence.
        -- apply bytes_ltb_lt in E. congruence.
        -- assert (bytes_lt s s') as Hl' by by eapply bytes_lt_trans. apply bytes_ltb_lt in Hl'. congruence.
    + intros n l Hn Hb Hs. apply elem_of_app.
      destruct (H3' (mkEntry n true l)) as [?|(s' & [= <-] & Hge)]; [apply Hn; by left|done..| |].
      * left. by apply elem_of_shown.
      * right. apply I3; [|done|]. { intros f Hf. apply Hn. by right. } by intros s' [= <-].
Qed.

(** What a listing shows, if others upload and remove files meanwhile: no name twice and
    in order; only files with the prefix, that were there at some time; and all those that
    were there all the time. *)
Theorem C54_listings_are_complete (prefix : bytes) (states : list (list entry)) (out : list (bytes * N)) :
  Forall in_order states -> list_pages prefix states None out ->
  NoDup (map fst out)
  /\ (forall n l, (n, l) ∈ out -> begins_with prefix n = true /\ exists files, files ∈ states /\ mkEntry n true l ∈ files)
  /\ (forall n l, (forall files, files ∈ states -> mkEntry n true l ∈ files) -> begins_with prefix n = true -> (n, l) ∈ out).
Proof.
  intros Ho Hl. apply list_pages_spec in Hl as (H1 & H2 & H3); [|done]. split; [|split].
  - clear -H1. induction H1 as [|[n l] out Hs IH Hf]; cbn; constructor; [|done].
    intros Hn. change (map ?f ?l) with (f <$> l) in Hn. apply elem_of_list_fmap in Hn as (x & E & Hx).
    rewrite Forall_forall in Hf. apply Hf in Hx. cbn in *. subst n. by apply bytes_lt_irrefl in Hx.
  - intros n l Hn. by apply H2 in Hn as (? & ? & _).
  - intros n l Hn Hb. by apply H3.
Qed.
Print Assumptions C54_listings_are_complete.

(** If nothing changes: exactly the files with the prefix, whatever the size of the pages. *)
Theorem C54_undisturbed_listings_are_exact (prefix : bytes) (files : list entry) (k : nat) (out : list (bytes * N)) :
  in_order files -> list_pages prefix (replicate k files) None out ->
  forall n l, (n, l) ∈ out <-> mkEntry n true l ∈ files /\ begins_with prefix n = true.
Proof.
  intros Ho Hl n l. assert (Forall in_order (replicate k files)) as Hf by by apply Forall_replicate.
  apply C54_listings_are_complete in Hl as (_ & H2 & H3); [|done]. split.
  - intros Hn. apply H2 in Hn as (? & f & Hin & He). apply elem_of_replicate in Hin as [-> _]. done.
  - intros [He Hb]. apply H3; [|done]. by intros f [-> _]%elem_of_replicate.
Qed.
Print Assumptions C54_undisturbed_listings_are_exact.

(** Listing undisturbed comes to an end: each page is followed by fewer names. *)
Lemma page_progress many files prefix start es s : in_order files -> 0 < many ->
  page many files prefix start = (es, Some s) ->
  length (filter (fun e => bytes_ltb (en_name e) s = false) (filter (fun e => begins_with prefix (en_name e) = true) files))
  < length (match start with None => filter (fun e => begins_with prefix (en_name e) = true) files
            | Some s0 => filter (fun e => bytes_ltb (en_name e) s0 = false) (filter (fun e => begins_with prefix (en_name e) = true) files) end).
Proof.
  intros Ho Hm Hp. pose proof Hp as Hq. apply page_spec in Hq as (_ & H2 & H3 & _); [|done..].
  unfold page in Hp. set (all := filter (fun e => begins_with prefix (en_name e) = true) files) in *.
  set (rest := match start with None => all | Some s => _ end) in *. injection Hp as E1 E2.
  assert (length (filter (fun e => bytes_ltb (en_name e) s = false) all) <= length (drop many rest)) as Hsub.
  2: { rewrite drop_length in Hsub.
       assert (0 < length rest); [|lia]. destruct rest; [by rewrite drop_nil in E2|cbn; lia]. }
  assert (filter (fun e => bytes_ltb (en_name e) s = false) all = filter (fun e => bytes_ltb (en_name e) s = false) rest) as ->.
  { subst rest. destruct start as [s0|]; [|done]. specialize (H3 s0 s eq_refl eq_refl).
    rewrite list_filter_filter. apply list_filter_iff. intros e. split; [|by intros [? _]]. intros He. split; [done|].
    destruct (bytes_ltb (en_name e) s0) eqn:E; [|done]. apply bytes_ltb_lt in E. 
    destruct (bytes_lt_total s s0) as [Hl|[->|Hl]].
    - apply bytes_ltb_lt in Hl. congruence.
    - apply bytes_ltb_lt in E. congruence.
    - assert (bytes_lt (en_name e) s) as Hl' by by eapply bytes_lt_trans. apply bytes_ltb_lt in Hl'. congruence. }
  rewrite <- (take_drop many rest) at 1. rewrite filter_app.
  assert (filter (fun e => bytes_ltb (en_name e) s = false) (take many rest) = []) as ->; [|apply filter_length].
  destruct (filter _ (take many rest)) as [|e l] eqn:E; [done|]. exfalso.
  assert (e ∈ e :: l) as He by left. rewrite <- E in He. apply elem_of_list_filter in He as [Hse He]. rewrite E1 in He. apply H2 in He as (_ & _ & _ & Hlt).
  specialize (Hlt s eq_refl). apply bytes_ltb_lt in Hlt. congruence.
Qed.
Theorem C54_listings_end (prefix : bytes) (files : list entry) (many : nat) :
  in_order files -> 0 < many ->
  exists k out, list_pages prefix (replicate k files) None out.
Proof.
  intros Ho Hm. generalize (@None bytes) as start.
  assert (forall m start, length (match start with None => filter (fun e => begins_with prefix (en_name e) = true) files
            | Some s0 => filter (fun e => bytes_ltb (en_name e) s0 = false) (filter (fun e => begins_with prefix (en_name e) = true) files) end) < m ->
    exists k out, list_pages prefix (replicate k files) start out) as H; [|intros start; eapply (H (S _)); apply Nat.lt_succ_diag_r].
  induction m as [|m IH]; intros start Hlt; [lia|].
  destruct (page many files prefix start) as [es [s|]] eqn:E.
  - destruct (IH (Some s)) as (k & out & Hk).
    { apply page_progress in E; [|done..]. lia. }
    exists (S k), (shown es ++ out). cbn. by eapply list_next.
  - exists 1, (shown es). by eapply list_last.
Qed.
Print Assumptions C54_listings_end.

(** ** A case: four names, one hidden, two to the page, and one removed meanwhile *)
Example C54_witness :
  let e n u := mkEntry [x61; n] u 7 in
  let files := [e x31 true; e x32 false; e x33 true; e x34 true] in
  in_order files
  /\ list_pages [x61] [files; files] None [([x61; x31], 7%N); ([x61; x33], 7%N); ([x61; x34], 7%N)]
  /\ list_pages [x61] [files; take 3 files] None [([x61; x31], 7%N); ([x61; x33], 7%N)].
Proof.
  cbn zeta. set (e := fun n u => mkEntry [x61; n] u 7). split; [|split].
  - repeat constructor.
  - apply (list_next [x61] 2 _ [_] None [e x31 true; e x32 false] [x61; x33] [_; _]); [lia|done|].
    apply (list_last [x61] 2 _ _ [e x33 true; e x34 true]); [lia|done].
  - apply (list_next [x61] 2 _ [_] None [e x31 true; e x32 false] [x61; x33] [_]); [lia|done|].
    apply (list_last [x61] 2 _ _ [e x33 true]); [lia|done].
Qed.
