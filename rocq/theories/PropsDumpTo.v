(** C72: where dump writes, and what it leaves there when it fails. *)

From Verif Require Import Base OMap Formats FormatsFacts Hashing Pack Index IndexFacts Meta Forest FsTree FsSpec FsFacts BackupFacts
  Pipeline Repo RepoSpec RepoFacts RewriteFacts ReadFacts Browse BrowseSpec BrowseFacts BrowseRepo DumpTo Exec Witness Toy PropsBrowse.

(** ** What there is to say *)

(** Reading gives what is stored, or fails. *)
Definition may_fail {A B C} (good bad : A -> B -> result C) : Prop := forall a b x, bad a b = Ok x -> good a b = Ok x.

(** Where the text goes. *)
Definition printed (output : option bytes) : Prop := output = None \/ output = Some (ascii_bytes "-").
Definition goes_to (output : option bytes) (b : bytes) (s s' : outputs) : Prop :=
  (printed output -> on_stdout s' = on_stdout s ++ b /\ in_file s' = in_file s) /\
  (~ printed output -> on_stdout s' = on_stdout s /\ in_file s' = Some b).

(** Nothing changed. *)
Definition as_it_was (s s' : outputs) : Prop := on_stdout s' = on_stdout s /\ in_file s' = in_file s.

(** No write fails: each takes something, if perhaps not all. *)
Definition can_be_written (s : outputs) : Prop := Forall (fun w => exists n, w = Some (S n)) (writes s).

(** ** Proofs *)
Lemma to_stdout_spec o : to_stdout o = true <-> printed o.
Proof.
  unfold printed. destruct o as [p|]; cbn; [rewrite bool_decide_eq_true|]; split; [intros ->; by right|intros [?|[= ->]]; done|by left|done].
Qed.
Lemma opened_only o creatable s s1 : open_writer creatable o s = Ok s1 -> goes_to o [] s s1 /\ writes s1 = writes s.
Proof.
  unfold open_writer, goes_to. rewrite <-to_stdout_spec. destruct (to_stdout o); [|destruct creatable]; intros [= <-]; split; try done; split; intros Hx; try done.
  by rewrite app_nil_r.
Qed.

Lemma put_spec b ws taken ws' ok : put ws b = (taken, ws', ok) ->
  taken `prefix_of` b /\ (ok = true -> taken = b) /\
  (Forall (fun w => exists n, w = Some (S n)) ws -> ok = true /\ Forall (fun w => exists n, w = Some (S n)) ws').
Proof.
  revert b taken ws' ok. induction ws as [|w ws IH]; intros b taken ws' ok; (destruct b as [|x b]; [intros [= <- <- <-]; done|]); cbn [put].
  { intros [= <- <- <-]. done. }
  assert (forall X Y : bytes, ([] : bytes) = X -> X `prefix_of` Y) as Hnil by (intros ??<-; apply prefix_nil).
  destruct w as [[|n]|].
  1,3: intros [= <- <- <-]; split; [apply prefix_nil|]; split; [done|]; intros [(m & Hm) _]%Forall_cons; discriminate.
  destruct (put ws (drop (S n) (x :: b))) as [[tk ws2] al] eqn:E. intros [= <- <- <-].
  destruct (IH _ _ _ _ E) as (Hp & Ha & Hg). split_and!.
  - destruct Hp as [rest Hp]. exists rest. change (x :: b = (take (S n) (x :: b) ++ tk) ++ rest). by rewrite <-app_assoc, <-Hp, take_drop.
  - intros Eal. rewrite (Ha Eal). apply (take_drop (S n) (x :: b)).
  - intros [_ Hw]%Forall_cons. by apply Hg.
Qed.

Lemma write_to_spec o acc b s s1 : goes_to o acc s s1 ->
  exists taken, goes_to o (acc ++ taken) s (write_to o b s1).1 /\ taken = (put (writes s1) b).1.1 /\
    (write_to o b s1).2 = (put (writes s1) b).2 /\ writes (write_to o b s1).1 = (put (writes s1) b).1.2.
Proof.
  unfold goes_to, write_to. setoid_rewrite <-to_stdout_spec. intros [H1 H2]. destruct (put (writes s1) b) as [[tk ws] al]. exists tk. cbn [fst snd].
  destruct (to_stdout o); cbn [fst snd on_stdout in_file writes]; (split; [|done]); split; intros Hx; try done.
  - destruct (H1 Hx) as [-> ->]. by rewrite app_assoc.
  - destruct (H2 Hx) as [-> ->]. done.
Qed.

Lemma flush_spec o acc s w : goes_to o acc s w.2 ->
  exists pre, goes_to o (acc ++ pre) s (flush o w).1.2 /\ w.1 = pre ++ (flush o w).1.1 /\
    ((flush o w).2 = true -> (flush o w).1.1 = []) /\
    (can_be_written w.2 -> (flush o w).2 = true /\ can_be_written (flush o w).1.2).
Proof.
  intros Hg. destruct (write_to_spec o acc w.1 s w.2 Hg) as (tk & Ht & Etk & _ & Ew). unfold flush, can_be_written.
  destruct (put (writes w.2) w.1) as [[tk' ws] al] eqn:E. cbn [fst snd] in Etk, Ew |- *. subst tk'.
  destruct (put_spec _ _ _ _ _ E) as (Hp & Ha & Hgood). exists tk. split; [done|]. destruct Hp as [rest Hp]. rewrite Hp at 1 2. rewrite drop_app. split; [done|].
  rewrite Ew. split; [|done]. intros Eal. apply Ha in Eal. rewrite Eal, drop_all. done.
Qed.

Lemma buf_write_spec o cap b acc s w : goes_to o acc s w.2 ->
  exists acc', goes_to o acc' s (buf_write cap o b w).1.2 /\
    (acc' ++ (buf_write cap o b w).1.1) `prefix_of` (acc ++ w.1 ++ b) /\
    ((buf_write cap o b w).2 = true -> acc' ++ (buf_write cap o b w).1.1 = acc ++ w.1 ++ b) /\
    (can_be_written w.2 -> (buf_write cap o b w).2 = true /\ can_be_written (buf_write cap o b w).1.2).
Proof.
  intros Hg. unfold buf_write. case_bool_decide as H1.
  { cbn [fst snd]. exists acc. done. }
  assert (exists acc1 w1 ok, (if bool_decide (cap - length w.1 < length b) then flush o w else (w, true)) = (w1, ok) /\
    goes_to o acc1 s w1.2 /\ acc1 ++ w1.1 = acc ++ w.1 /\ (ok = true -> cap <= length b -> w1.1 = [] \/ b = []) /\
    (can_be_written w.2 -> ok = true /\ can_be_written w1.2)) as (acc1 & w1 & ok & -> & Hg1 & E1 & Hempty & Hgood).
  { case_bool_decide as H2.
    - destruct (flush_spec o acc s w Hg) as (pre & Hf & Ew & Hd & Hgo). exists (acc ++ pre), (flush o w).1, (flush o w).2.
      split; [by destruct (flush o w)|]. split; [done|]. split; [by rewrite <-app_assoc, <-Ew|]. split; [|done]. intros Eok _. left. by apply Hd.
    - exists acc, w, true. split; [done|]. split; [done|]. split; [done|]. split; [|done]. intros _ Hc.
      destruct (decide (length b = 0)) as [E0|E0]; [right; by apply nil_length_inv|]. left. apply nil_length_inv. lia. }
  rewrite (app_assoc acc), <-E1. destruct ok; cbn [fst snd].
  - case_bool_decide as H3.
    + destruct (write_to_spec o acc1 b s w1.2 Hg1) as (tk & Ht & Etk & Eal & Ews).
      destruct (put (writes w1.2) b) as [[tk' ws] al] eqn:E. cbn [fst snd] in Etk, Eal, Ews. subst tk'.
      destruct (put_spec _ _ _ _ _ E) as (Hp & Ha & Hgo). destruct (write_to o b w1.2) as [s2 al'] eqn:E2. cbn [fst snd] in *. subst al'.
      exists (acc1 ++ tk). split; [done|].
      assert ((acc1 ++ tk) ++ w1.1 = (acc1 ++ w1.1) ++ tk) as Esw.
      { destruct (Hempty eq_refl H3) as [->| ->]; [by rewrite !app_nil_r|]. apply prefix_nil_inv in Hp as ->. by rewrite !app_nil_r. }
      rewrite Esw. split; [by apply prefix_app|]. split; [by intros ->%Ha|]. intros Hc. unfold can_be_written. rewrite Ews. apply Hgo. by apply Hgood.
    + exists acc1. cbn [fst snd]. rewrite app_assoc. split; [done|]. split; [done|]. split; [done|]. intros Hc. split; [done|]. by apply Hgood.
  - exists acc1. split; [done|]. split; [by apply prefix_app_r|]. split; [done|]. intros Hc. by destruct (Hgood Hc).
Qed.

Lemma pieces_written o cap ps ts : Forall2 (fun (p : result bytes) t => forall b, p = Ok b -> b = t) ps ts ->
  forall acc s w, goes_to o acc s w.2 ->
  let r := write_pieces cap o ps w in
  exists acc', goes_to o acc' s r.1.2 /\ (acc' ++ r.1.1) `prefix_of` (acc ++ w.1 ++ concat ts) /\
    (r.2 = Ok tt -> acc' ++ r.1.1 = acc ++ w.1 ++ concat ts) /\
    (can_be_written w.2 -> Forall (fun p => exists b, p = Ok b) ps -> r.2 = Ok tt /\ can_be_written r.1.2).
Proof.
  induction 1 as [|p t ps ts Hpt HF IH]; intros acc s w Hg; cbn [write_pieces concat].
  { cbn zeta. exists acc. cbn [fst snd]. rewrite app_nil_r. done. }
  destruct p as [b| |].
  - specialize (Hpt b eq_refl). subst t. destruct (buf_write_spec o cap b acc s w Hg) as (acc1 & Hg1 & Hp & Heq & Hgo).
    destruct (buf_write cap o b w) as [w1 ok]. cbn [fst snd] in *. destruct ok.
    + destruct (IH acc1 s w1 Hg1) as (acc2 & Hg2 & Hp2 & Heq2 & Hgo2). rewrite (app_assoc acc1), (Heq eq_refl) in Hp2, Heq2. rewrite <-!app_assoc in Hp2, Heq2.
      exists acc2. split; [done|]. split; [done|]. split; [done|]. intros Hc [_ HF']%Forall_cons. apply Hgo2; [by apply Hgo|done].
    + cbn zeta. exists acc1. cbn [fst snd]. split; [done|]. split.
      { destruct Hp as [rest Hp]. exists (rest ++ concat ts). rewrite (app_assoc w.1), (app_assoc acc), Hp. by rewrite <-!app_assoc. }
      split; [done|]. intros Hc _. by destruct (Hgo Hc).
  - cbn zeta. exists acc. cbn [fst snd]. split; [done|]. split; [apply prefix_app, prefix_app_r; done|]. split; [done|]. intros _ [[? ?] _]%Forall_cons. done.
  - cbn zeta. exists acc. cbn [fst snd]. split; [done|]. split; [apply prefix_app, prefix_app_r; done|]. split; [done|]. intros _ [[? ?] _]%Forall_cons. done.
Qed.

Lemma out_written o cap creatable ps ts s : Forall2 (fun (p : result bytes) t => forall b, p = Ok b -> b = t) ps ts ->
  let r := write_out cap creatable o ps s in
  ((as_it_was s r.1 /\ r.2 <> Ok tt) \/ exists pre, goes_to o pre s r.1 /\ pre `prefix_of` concat ts /\ (r.2 = Ok tt -> pre = concat ts)) /\
  (can_be_written s -> Forall (fun p => exists b, p = Ok b) ps -> creatable = true \/ printed o -> r.2 = Ok tt).
Proof.
  intros HF. unfold write_out. destruct (open_writer creatable o s) as [s1| |] eqn:Eo; cbn zeta.
  2,3: split; [left; split; [done|]; done|]; intros _ _ Hc; exfalso; revert Eo; unfold open_writer;
    (destruct (to_stdout o) eqn:Et; [done|]); (destruct Hc as [->|Hc%to_stdout_spec]; [done|congruence]).
  destruct (opened_only _ _ _ _ Eo) as [Hg Ew].
  destruct (pieces_written o cap ps ts HF [] s ([], s1) Hg) as (acc & Hg1 & Hp & Heq & Hgo). cbn [fst snd app] in Hp, Heq, Hgo.
  destruct (write_pieces cap o ps ([], s1)) as [w r] eqn:Er. cbn [fst snd] in *.
  assert (exists w' r' pre', match r with Ok _ => let '(w1, ok) := flush o w in (w1, if ok then Ok tt else Err) | _ => (w, r) end = (w', r') /\
    goes_to o pre' s w'.2 /\ (pre' ++ w'.1) `prefix_of` concat ts /\ (r' = Ok tt -> pre' = concat ts /\ w'.1 = []) /\
    (can_be_written s -> Forall (fun p => exists b, p = Ok b) ps -> r' = Ok tt)) as (w' & r' & pre' & -> & Hg2 & Hp2 & Heq2 & Hgo2).
  { destruct r as [[]| |].
    - destruct (flush_spec o acc s w Hg1) as (pre & Hf & Ew' & Hd & Hgf). destruct (flush o w) as [w1 ok]. cbn [fst snd] in *.
      exists w1, (if ok then Ok tt else Err), (acc ++ pre). split; [done|]. split; [done|]. rewrite <-(Heq eq_refl), Ew', app_assoc.
      split; [done|]. split.
      { destruct ok; [|done]. intros _. rewrite (Hd eq_refl), app_nil_r. done. }
      intros Hc HFo. destruct (Hgf ltac:(apply Hgo; [unfold can_be_written; by rewrite Ew|done])) as [-> _]. done.
    - exists w, Err, acc. split; [done|]. split; [done|]. split; [done|]. split; [done|]. intros Hc HFo. apply Hgo; [unfold can_be_written; by rewrite Ew|done].
    - exists w, Panic, acc. split; [done|]. split; [done|]. split; [done|]. split; [done|]. intros Hc HFo. apply Hgo; [unfold can_be_written; by rewrite Ew|done]. }
  cbn [fst snd]. split; [|intros Hc HFo _; by apply Hgo2]. right.
  destruct (flush_spec o pre' s w' Hg2) as (pre & Hf & Ew' & _). exists (pre' ++ pre). split; [done|]. split.
  { rewrite Ew', app_assoc in Hp2. etrans; [|exact Hp2]. by apply prefix_app_r. }
  intros Er'. destruct (Heq2 Er') as [E1 E2]. rewrite E2 in Ew'. symmetry in Ew'. apply app_eq_nil in Ew' as [-> _]. by rewrite app_nil_r.
Qed.

Lemma concat_dir p t : concat (dir_pieces p t) = dump_dir p t.
Proof.
  unfold dir_pieces, dump_dir. rewrite concat_app. cbn [concat]. rewrite <-!app_assoc. cbn [app]. f_equal. f_equal. f_equal.
  induction t as [|[x n] t IH]; [done|]. cbn [map concat]. 
  rewrite concat_app, IH. f_equal. cbn [concat fst snd app]. rewrite concat_app. cbn [concat]. rewrite app_nil_r. f_equal. f_equal. f_equal.
  by destruct (n_contents n); cbn [concat app]; rewrite ?app_nil_r, <-?app_assoc.
Qed.
Lemma concat_symlink p t : concat (symlink_pieces p t) = dump_symlink p t.
Proof. unfold symlink_pieces, dump_symlink. cbn [concat]. by rewrite app_nil_r. Qed.

Section facts.
Variables (H : bytes -> oid) (U : blob -> Prop).
Hypothesis HU : universe H U.
Hypothesis Hlen : forall x, length (H x) = 28.
Variables (k : backend) (ix : index) (bmap : gmap oid oid).
Hypothesis Hk : in_order H U k.
Hypothesis Eix : master k = Ok ix.
Hypothesis Ebm : blob_to_pack_map ix = Ok bmap.
Variables (rt : forest -> oid -> result (tree * forest)) (rch : oid -> result bytes).
Hypothesis Hrt : may_fail (read_tree k bmap) rt.
Hypothesis Hrc : forall c b, rch c = Ok b -> read_chunk k bmap c = Ok b.
Variables (cap : nat) (creatable : bool) (o : option bytes).
Local Set Default Proof Using "All".

Definition no_failure (s : outputs) : Prop :=
  (forall c i, rt c i = read_tree k bmap c i) /\ (forall c, rch c = read_chunk k bmap c) /\ (creatable = true \/ printed o) /\ can_be_written s.

Definition outcome (s : outputs) (found : option bytes) (r : outputs * result unit) : Prop :=
  match found with
  | None => as_it_was s r.1 /\ r.2 <> Ok tt
  | Some b =>
      ((as_it_was s r.1 /\ r.2 <> Ok tt) \/ exists pre, goes_to o pre s r.1 /\ pre `prefix_of` b /\ (r.2 = Ok tt -> pre = b)) /\
      (no_failure s -> r.2 = Ok tt)
  end.

Lemma failed s found r : r <> Ok tt -> (found <> None -> ~ no_failure s) -> outcome s found (s, r).
Proof.
  intros Hr Hn. destruct found as [b|]; [|done]. split; [by left|]. intros Hx. by destruct (Hn ltac:(done) Hx).
Qed.
Lemma out_outcome s ps ts b : Forall2 (fun (p : result bytes) t => forall b, p = Ok b -> b = t) ps ts -> concat ts = b ->
  (no_failure s -> Forall (fun p => exists b, p = Ok b) ps) -> outcome s (Some b) (write_out cap creatable o ps s).
Proof.
  intros HF <- Hok. destruct (out_written o cap creatable ps ts s HF) as [H1 H2]. split; [exact H1|]. intros Hn. apply H2; [apply Hn|by apply Hok|apply Hn].
Qed.
Lemma text_outcome s ps b : concat ps = b -> outcome s (Some b) (write_out cap creatable o (Ok <$> ps) s).
Proof.
  intros E. apply (out_outcome _ _ ps); [|done|].
  - apply Forall2_fmap_l, Forall_Forall2_diag, Forall_forall. intros t _ b' [= ->]. done.
  - intros _. apply Forall_fmap, Forall_forall. intros t _. by exists t.
Qed.

Lemma dump_to_names p c cur es sofar s : good_cache H k c -> reads_root H (repo_store k) cur es -> p <> [] -> no_link_before es p ->
  outcome s ((fun n => shown_as (render (sofar ++ p)) n) <$> fs_at es p) (dump_to_loop rt rch cap creatable o c cur sofar (map Normal p) s).
Proof.
  revert c cur es sofar. induction p as [|x p IH]; intros c cur es sofar Hc Hr Hp Hn; [done|]. clear Hp.
  cbn [map dump_to_loop]. destruct (step_tree H U HU Hlen k ix bmap Hk Eix Ebm c cur es x Hc Hr) as (t & c' & E & Hc' & Hx).
  destruct (rt c cur) as [[t0 c0]| |] eqn:Ert; [|apply failed; [done|]; intros _ (Hx' & _); rewrite Hx', E in Ert; done..].
  apply Hrt in Ert as E'. rewrite E in E'. injection E' as <- <-. cbn [fs_at].
  destruct (om_get x t) as [nd|], (om_get x es) as [n|] eqn:Ge; try done. cbn [mbind option_bind].
  destruct (no_link_step es x n p Hn Ge) as [Hn1 Hn2].
  destruct Hx as [m cs ps HF|m tg|m id u es' Hs HF]; cbn [n_contents].
  - destruct p as [|y p]; cbn [map]; [|by apply failed]. cbn [fs_sub fmap option_fmap option_map shown_as].
    assert (Forall2 (fun c p => read_chunk k bmap c = Ok p) cs ps) as HF'.
    { eapply Forall2_impl; [exact HF|]. intros ch q Hq. by apply (read_chunk_spec H U HU k (in_order_structured _ _ _ Hk) ix bmap Eix Ebm) in Hq. }
    apply (out_outcome _ _ ps); [|done|].
    + apply Forall2_fmap_l. eapply Forall2_impl; [exact HF'|]. intros ch q Hq b Eb%Hrc. congruence.
    + intros (_ & Hx & _). apply Forall_fmap. eapply Forall2_Forall_l; [exact HF'|]. apply Forall_forall. intros q _ ch Hq. exists q. by rewrite <-Hq, <-Hx.
  - destruct p as [|y p]; cbn [map]; [|by destruct (Hn1 ltac:(done) m tg)].
    pose proof (text_outcome s _ _ (concat_symlink (sofar ++ [x]) tg)) as Ht.
    destruct (write_out cap creatable o (Ok <$> symlink_pieces (sofar ++ [x]) tg) s) as [s1 [[]| |]]; exact Ht.
  - destruct p as [|y p].
    + cbn [map]. destruct (read_tree_total H U HU Hlen k ix bmap (in_order_structured _ _ _ Hk) Eix Ebm c' id u Hc' Hs) as (c2 & E2 & _).
      destruct (rt c' id) as [[t2 c3]| |] eqn:Ert2; [|apply failed; [done|]; intros _ (Hx' & _); rewrite Hx', E2 in Ert2; done..].
      apply Hrt in Ert2. rewrite E2 in Ert2. injection Ert2 as <- <-.
      cbn [fs_sub fmap option_fmap option_map]. rewrite <-(dump_dir_ok H U HU Hlen k ix bmap Hk Eix Ebm _ _ _ HF m). apply text_outcome, concat_dir.
    + cbn [map fs_sub]. change (Normal y :: map Normal p) with (map Normal (y :: p)).
      pose proof (IH c' id es' (sofar ++ [x]) Hc' ltac:(by exists u) ltac:(done) (Hn2 _ _ eq_refl)) as Hx. rewrite <-app_assoc in Hx. exact Hx.
Qed.
End facts.

(** ** The theorems *)

(** A path into the snapshot that goes down and through no link.  If nothing is there,
    dump fails and leaves everything as it was.  Otherwise, if dump succeeds, what it shows has gone to the
    standard output, or replaced what was in the file; and it does succeed if reading and
    writing do and the file can be made.  If it fails, it leaves a beginning of what it shows, or what was there. *)
Theorem C72_where_dump_writes H U k ix bmap snap es path rt rch capacity creatable output s :
  universe H U -> (forall x, length (H x) = 28) -> in_order H U k ->
  master k = Ok ix -> blob_to_pack_map ix = Ok bmap ->
  restores H k snap es -> clean_names es ->
  may_fail (read_tree k bmap) rt -> (forall c b, rch c = Ok b -> read_chunk k bmap c = Ok b) ->
  goes_down path -> names_in path <> [] -> no_link_before es (names_in path) ->
  let r := dump_to rt rch capacity creatable output (cache_new H) (sn_tree snap) path s in
  match fs_at es (names_in path) with
  | None => as_it_was s r.1 /\ r.2 <> Ok tt
  | Some n =>
      (r.2 = Ok tt -> goes_to output (shown (names_in path) n) s r.1) /\
      (r.2 <> Ok tt -> as_it_was s r.1 \/ exists some, goes_to output some s r.1 /\ some `prefix_of` shown (names_in path) n) /\
      ((forall c i, rt c i = read_tree k bmap c i) -> (forall c, rch c = read_chunk k bmap c) ->
       creatable = true \/ printed output -> can_be_written s -> r.2 = Ok tt)
  end.
Proof.
  intros HU Hlen Hk Eix Ebm Hr Hcl Hrt Hrc Hd Hne Hnl r.
  assert (outcome k bmap rt rch creatable output s ((fun n => shown_as (render (names_in path)) n) <$> fs_at es (names_in path)) r) as Ho.
  { unfold r, dump_to. destruct (components_shape path Hd) as [->| ->]; [|cbn [dump_to_loop]].
    all: apply (dump_to_names H U HU Hlen k ix bmap Hk Eix Ebm rt rch Hrt Hrc capacity creatable output (names_in path) (cache_new H) (sn_tree snap) es nil s);
      [exact (good_new H U HU Hlen k ix bmap Hk Eix Ebm)|exact Hr|done|done]. }
  destruct (fs_at es (names_in path)) as [n|] eqn:En; [|exact Ho]. cbn [fmap option_fmap option_map outcome] in Ho.
  rewrite (shown_text _ _ _ Hcl En) in Ho. destruct Ho as [H1 H2]. split_and!.
  - intros Eo. destruct H1 as [[_ ?]|(pre & Hg & _ & Hp)]; [done|]. by rewrite <-(Hp Eo).
  - intros Eo. destruct H1 as [[? _]|(pre & Hg & Hp & _)]; [by left|right; by exists pre].
  - intros A B C D. apply H2. done.
Qed.

(** If the path names nothing, as [.], dump succeeds without making the file. *)
Theorem C72_naming_nothing rt rch capacity creatable output cache root path s :
  goes_down path -> names_in path = [] -> dump_to rt rch capacity creatable output cache root path s = (s, Ok tt).
Proof. intros Hd Hn. unfold dump_to. by destruct (components_shape path Hd) as [->| ->]; rewrite Hn. Qed.

(** Paths that start at the root or go up are never dumped. *)
Theorem C72_only_down rt rch capacity creatable output cache root path s :
  ~ goes_down path -> (dump_to rt rch capacity creatable output cache root path s).2 <> Ok tt.
Proof.
  rewrite <-components_down. unfold dump_to. generalize (components path) as cs. intros cs Hn.
  assert (RootOrParent ∈ cs) as Hin by (destruct (decide (RootOrParent ∈ cs)); [done|by destruct Hn]). clear Hn.
  generalize (@nil bytes) as sofar. revert cache root s.
  induction cs as [|[|c|] cs IH]; intros cache root s sofar; [by apply elem_of_nil in Hin| | |done].
  { apply elem_of_cons in Hin as [?|Hin]; [done|]. cbn [dump_to_loop]. by apply IH. }
  apply elem_of_cons in Hin as [?|Hin]; [done|]. cbn [dump_to_loop].
  destruct (rt cache root) as [[t c1]| |]; [|done..]. destruct (om_get c t) as [n|]; [|done].
  destruct (n_contents n) as [chunks|sub|tg].
  - destruct cs; [by apply elem_of_nil in Hin|done].
  - destruct cs as [|y cs]; [by apply elem_of_nil in Hin|]. by apply IH.
  - destruct (write_out capacity creatable output (Ok <$> symlink_pieces (sofar ++ [c]) tg) s) as [s1 [u| |]]; [|cbn; intros E; discriminate E..]. by apply IH.
Qed.

(** Nothing is promised about a file there was when dump fails: if a chunk cannot be read,
    it has been emptied by then. *)
Theorem C72_refuted_the_file_survives : exists H U k ix bmap snap es path n rt rch capacity out s,
  universe H U /\ (forall x, length (H x) = 28) /\ in_order H U k /\
  master k = Ok ix /\ blob_to_pack_map ix = Ok bmap /\
  restores H k snap es /\ clean_names es /\
  may_fail (read_tree k bmap) rt /\ (forall c b, rch c = Ok b -> read_chunk k bmap c = Ok b) /\
  fs_at es (names_in path) = Some n /\ can_be_written s /\ in_file s = Some (tx "precious") /\
  dump_to rt rch capacity true (Some out) (cache_new H) (sn_tree snap) path s = (mkOutputs (on_stdout s) (Some []) [], Err).
Proof.
  exists quick_hash, (in_list bx_blobs), bx_k, bx_ix, bx_map, (bx_snap bx_before 1), bx_before, (tx "t/f"), (FsFile ex_filemeta (tx "hello")),
    (read_tree bx_k bx_map), (fun _ => Err), 8, (tx "out"), (mkOutputs [] (Some (tx "precious")) []).
  split; [apply bx_universe|]. split; [apply quick_hash_length|]. split; [apply bx_in_order|]. split; [apply bx_maps|]. split; [apply bx_maps|].
  split; [apply bx_restores|]. split; [apply bx_clean|]. split; [by intros ???|]. split; [done|]. split; [vm_compute; reflexivity|].
  split; [by apply Forall_nil|]. split; [done|]. vm_compute. reflexivity.
Qed.

(** ** An example *)

Definition dumped (creatable : bool) (output : option bytes) (ws : list (option nat)) (path : bytes) : bytes * option bytes * result unit :=
  let r := dump_to (read_tree bx_k bx_map) (read_chunk bx_k bx_map) 8 creatable output (cache_new quick_hash) (bx_root bx_before) path
    (mkOutputs (tx "> ") (Some (tx "old")) ws) in
  (on_stdout r.1, in_file r.1, r.2).

(** The last: three bytes are taken, then the disk is full. *)
Example C72_shown :
  dumped true (Some (tx "out")) [] (tx "./t//d/x") = (tx "> ", Some (tx "in d"), Ok tt) /\
  dumped true (Some (tx "-")) [] (tx "./t//d/x") = (tx "> in d", Some (tx "old"), Ok tt) /\
  dumped true None [Some 1; Some 2] (tx "t/l") = (tx "> t/l -> f" ++ [x0a], Some (tx "old"), Ok tt) /\
  dumped true (Some (tx "out")) [] (tx "t/f/x") = (tx "> ", Some (tx "old"), Err) /\
  dumped false (Some (tx "out")) [] (tx "t/f") = (tx "> ", Some (tx "old"), Err) /\
  dumped true (Some (tx "out")) [] (tx "t/../t/f") = (tx "> ", Some (tx "old"), Err) /\
  dumped true (Some (tx "out")) [] (tx ".") = (tx "> ", Some (tx "old"), Ok tt) /\
  dumped true (Some (tx "out")) [Some 3; None; None] (tx "t/f") = (tx "> ", Some (tx "hel"), Err).
Proof. split_and!; vm_compute; reflexivity. Qed.

Example C72_witness :
  universe quick_hash (in_list bx_blobs) /\ in_order quick_hash (in_list bx_blobs) bx_k /\
  master bx_k = Ok bx_ix /\ blob_to_pack_map bx_ix = Ok bx_map /\
  restores quick_hash bx_k (bx_snap bx_before 1) bx_before /\ clean_names bx_before /\
  goes_down (tx "./t//d/x") /\ names_in (tx "./t//d/x") = [tx "t"; tx "d"; tx "x"] /\ no_link_before bx_before [tx "t"; tx "d"; tx "x"] /\
  fs_at bx_before [tx "t"; tx "d"; tx "x"] = Some (FsFile ex_filemeta (tx "in d")).
Proof.
  destruct C45_witness as (H1 & H2 & H3 & _).
  split; [apply bx_universe|]. split; [apply bx_in_order|]. split; [apply bx_maps|]. split; [apply bx_maps|].
  split; [apply bx_restores|]. split; [apply bx_clean|]. split_and!; [exact H2|exact H1|exact H3|vm_compute; reflexivity].
Qed.

Print Assumptions C72_where_dump_writes.
Print Assumptions C72_naming_nothing.
Print Assumptions C72_only_down.
Print Assumptions C72_refuted_the_file_survives.
