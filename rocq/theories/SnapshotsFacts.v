(** Facts about listing snapshots. *)

From Verif Require Import PropsIndex PropsForest.
From Verif Require Import Base OMap Formats Hashing Pack Index IndexFacts Meta Forest ForestFacts FsTree FsSpec FsFacts BackupFacts
  Pipeline PipelineFacts Repo RepoSpec RepoFacts RewriteFacts PropsPipeline PublishFacts CommandFacts PruneFacts ReadFacts History HistoryFacts
  Browse BrowseSpec BrowseFacts DiffFacts BrowseRepo Select Snapshots SnapshotsSpec.

(** ** Visiting is listing *)

Definition visit {St} (v : list bytes -> node -> St -> St) (s : St) (b : list line) : St :=
  foldl (fun s (x : line) => v x.1.2 x.2 s) s b.
Lemma visit_app {St} (v : list bytes -> node -> St -> St) s b1 b2 : visit v s (b1 ++ b2) = visit v (visit v s b1) b2.
Proof. apply foldl_app. Qed.

Section visit.
Variable fo : forest.
Variable pre : bytes.
Context {St : Type}.
Variable v : list bytes -> node -> St -> St.

Lemma walk_tree_visit d p id ls0 ls1 : walk_tree fo (see pre) d p id ls0 = Some (Ok ls1) ->
  exists b, ls1 = ls0 ++ b /\ Forall (fun x : line => x.1.1 = pre) b /\ forall s, walk_tree fo v d p id s = Some (Ok (visit v s b)).
Proof.
  revert p id ls0 ls1. induction d as [|d IH]; intros p id ls0 ls1 E; [done|]. cbn [walk_tree] in *.
  destruct (fo !! id) as [t|]; [|done]. revert ls0 E. induction t as [|[x n] t IHt]; intros ls0 E; cbn [ofold] in *.
  { injection E as <-. exists []. by rewrite app_nil_r. }
  cbn [fst snd] in *. unfold walk_node_with in *. cbv zeta in *.
  assert (exists ls2 b, (match n_contents n with CDir sub => walk_tree fo (see pre) d (p ++ [x]) sub (see pre (p ++ [x]) n ls0) | _ => Some (Ok (see pre (p ++ [x]) n ls0)) end) = Some (Ok ls2) /\
    ls2 = ls0 ++ b /\ Forall (fun x : line => x.1.1 = pre) b /\
    forall s, (match n_contents n with CDir sub => walk_tree fo v d (p ++ [x]) sub (v (p ++ [x]) n s) | _ => Some (Ok (v (p ++ [x]) n s)) end) = Some (Ok (visit v s b)))
    as (ls2 & b & E2 & -> & Hp & Hv).
  { destruct (n_contents n) as [cs|sub|tg].
    - eexists _, [(pre, p ++ [x], n)]. split; [done|]. split; [done|]. by split; [constructor|].
    - destruct (walk_tree fo (see pre) d (p ++ [x]) sub (see pre (p ++ [x]) n ls0)) as [[ls2| |]|] eqn:Ew; try done.
      apply IH in Ew as (b & -> & Hp & Hv). eexists _, ((pre, p ++ [x], n) :: b). split; [done|].
      split; [unfold see; by rewrite <-app_assoc|]. split; [by constructor|]. intros s. apply Hv.
    - eexists _, [(pre, p ++ [x], n)]. split; [done|]. split; [done|]. by split; [constructor|]. }
  rewrite E2 in E. apply IHt in E as (b' & -> & Hp' & Hv'). exists (b ++ b'). rewrite app_assoc.
  split; [done|]. split; [by apply Forall_app|]. intros s. rewrite Hv, Hv', visit_app. done.
Qed.

Lemma walk_node_visit d p n ls0 ls1 : walk_node fo (see pre) d p n ls0 = Some (Ok ls1) ->
  exists b, ls1 = ls0 ++ b /\ Forall (fun x : line => x.1.1 = pre) b /\ forall s, walk_node fo v d p n s = Some (Ok (visit v s b)).
Proof.
  unfold walk_node, walk_node_with. destruct (n_contents n) as [cs|sub|tg].
  - intros [= <-]. exists [(pre, p, n)]. split; [done|]. by split; [constructor|].
  - intros (b & -> & Hp & Hv)%walk_tree_visit. exists ((pre, p, n) :: b). split; [unfold see; by rewrite <-app_assoc|].
    split; [by constructor|]. intros s. apply Hv.
  - intros [= <-]. exists [(pre, p, n)]. split; [done|]. by split; [constructor|].
Qed.
End visit.

(** ** The two passes of [--stat] visit the lines of [diff] *)

Lemma printer_fail gr pad sizes pre p n (r : result (list item)) : (forall o, r <> Ok o) -> printer gr pad sizes pre p n r = r.
Proof. by destruct r as [o| |]; [intros Hr; destruct (Hr o)|..]. Qed.
Lemma printers_fail gr pad sizes (b : list line) (r : result (list item)) : (forall o, r <> Ok o) ->
  foldl (fun (out : result (list item)) (x : line) => printer gr pad sizes (x20 :: x.1.1) x.1.2 x.2 out) r b = r.
Proof. intros Hr. induction b as [|x b IH]; [done|]. cbn [foldl]. by rewrite printer_fail. Qed.

Section passes.
Variable gr : bytes -> nat.
Variables fo1 fo2 : forest.
Variable fuel : nat.
Variable show_meta : bool.
Variable pad : nat.
Variable sizes : option (gmap (list bytes) (N * N)).
Local Set Default Proof Using "All".

Notation step := (fun (out : result (list item)) (x : line) => printer gr pad sizes (x20 :: x.1.1) x.1.2 x.2 out).

Lemma print_stat_visits p e ls0 ls1 :
  (forall n1 n2, e = Changed n1 n2 -> same_leaf n1 n2 = true) ->
  print_diff fo1 fo2 fuel show_meta p e ls0 = Ok ls1 ->
  exists b, ls1 = ls0 ++ b /\
    (forall m, measure gr fo1 fo2 fuel show_meta p e m = Ok (visit (longer gr) m b)) /\
    (forall o, print_stat gr fo1 fo2 fuel show_meta pad sizes p e o = foldl step (Ok o) b).
Proof.
  intros Hleaf E.
  assert (forall fo pre n ls0 ls1, or_panic (print_node fo fuel pre p n ls0) = Ok ls1 ->
    exists b, ls1 = ls0 ++ b /\ (forall m, measure_node gr fuel fo p n m = Ok (visit (longer gr) m b)) /\
    (forall o, stat_node gr fuel pad sizes fo (x20 :: pre) p n o = foldl step (Ok o) b)) as Hnode.
  { clear. intros fo pre n ls0 ls1 E. unfold print_node in E. destruct (walk_node fo (see pre) fuel p n ls0) as [r|] eqn:Ew; [|done]. cbn in E. subst r.
    destruct (walk_node_visit _ _ (longer gr) _ _ _ _ _ Ew) as (b & Eb & Hp & Hm).
    destruct (walk_node_visit _ _ (printer gr pad sizes (x20 :: pre)) _ _ _ _ _ Ew) as (b' & Eb' & _ & Hs).
    assert (b' = b) as -> by (subst ls1; by apply app_inv_head in Eb'). exists b. split; [done|]. split.
    - intros m. unfold measure_node. by rewrite Hm.
    - intros o. unfold stat_node. rewrite Hs. cbn [or_panic rbind]. unfold visit. clear -Hp. revert o. generalize (Ok (A := list item)) as mk.
      intros mk o. generalize (mk o) as r. clear mk o. induction Hp as [|[[pr q] m] b Hx Hb IH]; intros r; [done|]. cbn [foldl fst snd] in *. subst pr. apply IH. }
  destruct e as [n|n|n1 n2|n1 n2|n|n1 n2]; cbn [print_diff measure print_stat] in *.
  - apply Hnode in E as (b & -> & Hm & Hs). exists b. split; [done|]. split; [done|]. intros o. exact (Hs o).
  - apply Hnode in E as (b & -> & Hm & Hs). exists b. split; [done|]. split; [done|]. intros o. exact (Hs o).
  - rewrite (Hleaf _ _ eq_refl). destruct (n_contents n1) as [cs|d|tg].
    + injection E as <-. exists [(ascii_bytes "C ", p, n1)]. done.
    + injection E as <-. exists [(ascii_bytes "C ", p, n1)]. done.
    + injection E as <-. exists [(ascii_bytes "- ", p, n1); (ascii_bytes "+ ", p, n2)]. split; [by unfold see; rewrite <-app_assoc|]. done.
  - destruct show_meta.
    + destruct (meta_diff_char (n_meta n1) (n_meta n2)) as [c|]; [|done]. injection E as <-. exists [(mark_char c ++ ascii_bytes " ", p, n2)]. done.
    + injection E as <-. exists []. by rewrite app_nil_r.
  - injection E as <-. exists []. by rewrite app_nil_r.
  - destruct (or_panic (print_node fo1 fuel (ascii_bytes "- ") p n1 ls0)) as [ls2| |] eqn:E1; try done. cbn [rbind] in E.
    apply Hnode in E1 as (b1 & -> & Hm1 & Hs1). apply Hnode in E as (b2 & -> & Hm2 & Hs2). exists (b1 ++ b2). split; [by rewrite app_assoc|]. split.
    + intros m. rewrite Hm1. cbn [rbind]. by rewrite Hm2, visit_app.
    + intros o. change (ascii_bytes " - ") with (x20 :: ascii_bytes "- "). change (ascii_bytes " + ") with (x20 :: ascii_bytes "+ ").
      rewrite Hs1, foldl_app. destruct (foldl step (Ok o) b1) as [o1| |] eqn:Eo; cbn [rbind]; [apply Hs2| |].
      * by rewrite printers_fail.
      * by rewrite printers_fail.
Qed.

Lemma run_visits l ls0 ls1 :
  (forall p n1 n2, (p, Changed n1 n2) ∈ l -> same_leaf n1 n2 = true) ->
  run_events (print_diff fo1 fo2 fuel show_meta) l ls0 = Ok ls1 ->
  exists b, ls1 = ls0 ++ b /\
    (forall m, run_events (measure gr fo1 fo2 fuel show_meta) l m = Ok (visit (longer gr) m b)) /\
    (forall o, run_events (print_stat gr fo1 fo2 fuel show_meta pad sizes) l o = foldl step (Ok o) b).
Proof.
  unfold run_events. revert ls0. induction l as [|[p e] l IH]; intros ls0 Hl E; cbn [rfold fst snd] in *.
  { injection E as <-. exists []. by rewrite app_nil_r. }
  destruct (print_diff fo1 fo2 fuel show_meta p e ls0) as [ls2| |] eqn:E1; try done. cbn [rbind] in E.
  apply print_stat_visits in E1 as (b1 & -> & Hm1 & Hs1); [|intros n1 n2 ->; eapply Hl; by left].
  apply IH in E as (b2 & -> & Hm2 & Hs2); [|intros q n1 n2 Hin; eapply Hl; by right].
  exists (b1 ++ b2). split; [by rewrite app_assoc|]. split.
  - intros m. rewrite Hm1. cbn [rbind]. by rewrite Hm2, visit_app.
  - intros o. rewrite Hs1, foldl_app. destruct (foldl step (Ok o) b1) as [o1| |] eqn:Eo; cbn [rbind]; [apply Hs2| |].
    + by rewrite printers_fail.
    + by rewrite printers_fail.
Qed.
End passes.

Notation steps gr pad sizes := (foldl (fun (out : result (list item)) (x : line) => printer gr pad sizes (x20 :: x.1.1) x.1.2 x.2 out)).

Lemma verdict_leaf o1 o2 n1 n2 : verdict o1 o2 = Some (Changed n1 n2) -> same_leaf n1 n2 = true.
Proof.
  destruct o1 as [a|], o2 as [b|]; try done. intros E. unfold verdict in E.
  destruct (n_contents a) eqn:C1, (n_contents b) eqn:C2; repeat case_bool_decide; cbn [negb] in E; try done;
    injection E as <- <-; unfold same_leaf; rewrite C1, C2; reflexivity.
Qed.

Section stat.
Local Set Default Proof Using "All".
Variable gr : bytes -> nat.
Variables fo1 fo2 : forest.
Hypothesis Hsane1 : map_Forall (fun _ (t : tree) => om_sorted t /\ Forall (fun e : bytes * node => meta_kind (n_meta e.2) = contents_kind (n_contents e.2)) t) fo1.
Hypothesis Hsane2 : map_Forall (fun _ (t : tree) => om_sorted t /\ Forall (fun e : bytes * node => meta_kind (n_meta e.2) = contents_kind (n_contents e.2)) t) fo2.
Hypothesis Hsame : same_ids fo1 fo2.
Variable fuel : nat.
Variable show_meta : bool.
Variables id1 id2 : oid.
Hypothesis L1 : loaded fo1 fuel id1.
Hypothesis L2 : loaded fo2 fuel id2.

Lemma stat_of_diff : exists ls, NoDup ls /\
  (forall pre p n, (pre, p, n) ∈ ls <-> belongs show_meta (node_at fo1 id1 p) (node_at fo2 id2 p) pre n) /\
  measure_path_pad gr fo1 fo2 fuel show_meta id1 id2 = Some (Ok (visit (longer gr) 0 ls)) /\
  forall pad sizes, tree_diff gr fo1 fo2 fuel show_meta pad sizes id1 id2 = Some (steps gr pad sizes (Ok []) ls).
Proof.
  destruct (diff_lines fo1 fo2 Hsane1 Hsane2 Hsame fuel show_meta id1 id2 L1 L2) as (ls & Ed & Hnd & Hin).
  exists ls. split; [done|]. split; [done|].
  destruct (compare_trees_total fo1 fo2 Hsane1 Hsane2 Hsame fuel show_meta id1 id2 L1 L2 note fuel id1 id2 [] [] ltac:(by eexists) L1 L2) as [s E].
  destruct (compare_trees_report fo1 fo2 Hsane1 Hsane2 Hsame _ _ _ _ _ _ _ _ L1 L2 E) as (l & Es & Hr).
  assert (forall p n1 n2, (p, Changed n1 n2) ∈ l -> same_leaf n1 n2 = true) as Hleaf.
  { intros p n1 n2 Hp. destruct Hr as (_ & Hs & _). destruct (Hs _ _ Hp) as (_ & _ & Hv). by eapply verdict_leaf. }
  assert (forall {St} (cb : list bytes -> event -> St -> result St) s0, compare_trees fo1 fo2 cb fuel id1 id2 [] s0 = Some (run_events cb l s0)) as Hrun.
  { intros St cb s0. destruct (compare_trees_runs fo1 fo2 cb _ _ _ _ _ _ E) as (l' & Es' & Hrun).
    assert (l' = l) as ->; [|done].
    cbn [app] in Es, Es'. subst s. rewrite <-Es'. unfold at_path. rewrite <-map_id. apply map_ext. by intros []. }
  unfold diff in Ed. rewrite Hrun in Ed. injection Ed as Ed. split.
  - destruct (run_visits gr fo1 fo2 fuel show_meta 0 None l [] ls Hleaf Ed) as (b & -> & Hm & _). unfold measure_path_pad. by rewrite Hrun, Hm.
  - intros pad sizes. destruct (run_visits gr fo1 fo2 fuel show_meta pad sizes l [] ls Hleaf Ed) as (b & -> & _ & Hp). unfold tree_diff. by rewrite Hrun, Hp.
Qed.
End stat.

Lemma steps_plain gr ls o : steps gr 0 None (Ok o) ls = Ok (o ++ map (fun l => PathLine (indented l) None) ls).
Proof.
  revert o. induction ls as [|[[pre p] n] ls IH]; intros o; cbn [foldl map fst snd]; [by rewrite app_nil_r|].
  cbn [printer rbind Nat.eqb]. rewrite IH, <-app_assoc. done.
Qed.
Lemma steps_padded gr width m ls o : 0 < width -> (forall l, l ∈ ls -> gr (shown_path l.1.2 l.2) <= width) ->
  steps gr width (Some m) (Ok o) ls =
  Ok (o ++ map (fun l : line => PathLine (indented l) (Some (width - gr (shown_path l.1.2 l.2), m !! l.1.2))) ls).
Proof.
  intros Hw. revert o. induction ls as [|[[pre p] n] ls IH]; intros o Hl; cbn [foldl map fst snd]; [by rewrite app_nil_r|].
  unfold printer at 2. cbn [rbind]. rewrite (proj2 (Nat.eqb_neq width 0)) by lia.
  rewrite (proj2 (Nat.leb_le _ _)) by (apply (Hl (pre, p, n)); by left).
  rewrite IH by (intros; apply Hl; by right). by rewrite <-app_assoc.
Qed.
Lemma longest_max gr ls m : m <= visit (longer gr) m ls /\ forall l, l ∈ ls -> path_length gr l.1.2 l.2 <= visit (longer gr) m ls.
Proof.
  revert m. induction ls as [|x ls IH]; intros m; [by split; [|intros l Hl%elem_of_nil]|].
  unfold visit. cbn [foldl]. fold (visit (longer gr) (longer gr x.1.2 x.2 m) ls). destruct (IH (longer gr x.1.2 x.2 m)) as [H1 H2].
  unfold longer in H1 at 1. split; [lia|]. intros l [->|Hl]%elem_of_cons; [|by apply H2]. lia.
Qed.
Lemma shown_fits gr p n : counts_graphemes gr -> gr (shown_path p n) <= path_length gr p n.
Proof.
  intros [Happ Hsl Har _]. unfold shown_path, path_length. destruct (n_contents n) as [cs|d|tg].
  - rewrite app_nil_r. lia.
  - case_bool_decide; [rewrite app_nil_r; lia|]. etrans; [apply Happ|]. lia.
  - pose proof (Happ (render p) (ascii_bytes " -> " ++ tg)). pose proof (Happ (ascii_bytes " -> ") tg). lia.
Qed.

(** ** Forests and the store *)

Lemma stored_as_tree (H : bytes -> oid) (st : store) id t : stored_as H st id t <-> stored_tree H st id = Some t.
Proof.
  unfold stored_as, stored_tree. case_decide; [naive_solver|]. split.
  - intros (b & -> & ->). done.
  - destruct (st !! id) as [[[] b]|]; try done. destruct (dec_tree b) as [[t' [|]]|] eqn:E; try done. intros [= ->]. by exists b.
Qed.
Lemma stored_at_forest (H : bytes -> oid) (st : store) (fo : forest) d root p :
  (forall id t, fo !! id = Some t -> stored_as H st id t) -> map_Forall (fun _ (t : tree) => om_sorted t) fo ->
  loaded fo d root -> node_at fo root p = stored_at H st root p.
Proof.
  intros Hfo Hs. revert d root. induction p as [|x p IH]; intros d root Hl; [done|].
  destruct d as [|d]; [done|]. destruct Hl as (t & Ht & Hl). cbn [node_at stored_at].
  rewrite (proj1 (stored_as_tree H st root t) (Hfo _ _ Ht)), Ht. cbn [mbind option_bind].
  destruct (om_get x t) as [n|] eqn:En; [|done]. cbn [mbind option_bind]. destruct p as [|y p]; [done|].
  destruct (n_contents n) as [cs|s|tg] eqn:C; cbn [node_sub]; rewrite C; [done| |done].
  rewrite <-(IH d s); [done|]. apply Hl. apply om_get_elem in En; [|by apply (Hs root)]. by eapply node_subtree_in.
Qed.
Lemma stored_at_empty (H : bytes -> oid) (st : store) p : stored_at H st (empty_id H) p = None.
Proof. destruct p; [done|]. cbn [stored_at]. unfold stored_tree. by rewrite decide_True. Qed.

(** ** Blocks of output *)

Lemma filter_rev_list {A} (P : A -> bool) l : List.filter P (rev l) = rev (List.filter P l).
Proof.
  induction l as [|x l IH]; [done|]. cbn [rev List.filter]. rewrite List.filter_app, IH. cbn [List.filter]. destruct (P x); [done|by rewrite app_nil_r].
Qed.
Lemma filter_same {A} (P Q : A -> bool) l : (forall x, x ∈ l -> P x = Q x) -> List.filter P l = List.filter Q l.
Proof.
  induction l as [|x l IH]; intros Hx; [done|]. cbn [List.filter]. rewrite (Hx x) by (by left). rewrite IH by (intros; apply Hx; by right). done.
Qed.
Lemma ofold_blocks {A} (f : A -> list item -> option (result (list item))) (P : A -> bool) (Q : A -> list item -> Prop) l out :
  (forall x o, x ∈ l -> P x = true -> exists b, f x o = Some (Ok (o ++ b)) /\ Q x b) ->
  (forall x o, x ∈ l -> P x = false -> f x o = Some (Ok o)) ->
  exists bs, ofold f l out = Some (Ok (out ++ concat bs)) /\ Forall2 Q (List.filter P l) bs.
Proof.
  revert out. induction l as [|x l IH]; intros out Hy Hn; cbn [ofold List.filter].
  { exists []. rewrite app_nil_r. by split. }
  destruct (P x) eqn:Ex.
  - destruct (Hy x out) as (b & -> & Hb); [by left|done|].
    destruct (IH (out ++ b)) as (bs & -> & HF); [intros; apply Hy; [by right|done]|intros; apply Hn; [by right|done]|].
    exists (b :: bs). cbn [concat]. rewrite app_assoc. split; [done|by constructor].
  - rewrite (Hn x out) by (done || by left).
    destruct (IH out) as (bs & -> & HF); [intros; apply Hy; [by right|done]|intros; apply Hn; [by right|done]|]. by exists bs.
Qed.
Lemma elem_of_numbered {A} (l : list A) x : x ∈ imap pair l <-> l !! x.1 = Some x.2.
Proof. rewrite elem_of_lookup_imap. destruct x as [i y]. cbn. naive_solver. Qed.

(** ** Sizes, one thing after the other *)

Section sizing.
Variable sm : gmap oid N.

Definition size_of (x : oid) : N := default 0%N (sm !! x).
Definition count_tree (id : oid) (a : gset oid * fsizes * list file_size) : gset oid * fsizes * list file_size :=
  let '(visited, s, files) := a in
  let n := size_of id in
  if decide (id ∈ visited)
  then (visited, mkFsizes (fs_tree s + n) (fs_chunk s) (fs_introduced s) (fs_reused s + n), files)
  else ({[id]} ∪ visited, mkFsizes (fs_tree s + n) (fs_chunk s) (fs_introduced s + n) (fs_reused s), files).
Definition count_file (p : list bytes) (cs : list oid) (a : gset oid * fsizes * list file_size) : gset oid * fsizes * list file_size :=
  let '(visited, s, files) := a in
  let i := set_sizes sm (list_to_set cs ∖ visited) in
  let r := (sum_sizes sm cs - i)%N in
  (visited ∪ list_to_set cs, mkFsizes (fs_tree s) (fs_chunk s + sum_sizes sm cs) (fs_introduced s + i) (fs_reused s + r), files ++ [(p, (i, r))]).
Definition count_node (p : list bytes) (n : node) (a : gset oid * fsizes * list file_size) : gset oid * fsizes * list file_size :=
  match n_contents n with
  | CFile cs => count_file p cs a
  | CDir sub => count_tree sub a
  | CSymlink _ => a
  end.

Lemma file_chunks_ok cs v i r : (forall c, c ∈ cs -> is_Some (sm !! c)) ->
  exists d, file_chunks sm cs v i r = Ok (v ∪ list_to_set cs, ((i + set_sizes sm (list_to_set cs ∖ v))%N, (r + d)%N)) /\
    (set_sizes sm (list_to_set cs ∖ v) + d = sum_sizes sm cs)%N.
Proof.
  revert v i r. induction cs as [|c cs IH]; intros v i r Hs; cbn [file_chunks list_to_set].
  - exists 0%N. assert ((∅ : gset oid) ∖ v = ∅) as -> by (apply set_eq; set_solver).
    assert (v ∪ ∅ = v) as -> by (apply set_eq; set_solver). rewrite set_sizes_empty. split; [f_equal; f_equal; f_equal; lia|done].
  - destruct (Hs c) as [n En]; [by left|]. rewrite En. cbn [of_option rbind].
    assert (forall c, c ∈ cs -> is_Some (sm !! c)) as Hs' by (intros x Hx; apply Hs; by right). case_decide as Hc.
    + destruct (IH v i (r + n)%N Hs') as (d & -> & Ed). exists (n + d)%N.
      assert (({[c]} ∪ list_to_set cs) ∖ v = list_to_set cs ∖ v) as -> by (apply set_eq; set_solver).
      assert (v ∪ ({[c]} ∪ list_to_set cs) = v ∪ list_to_set cs) as -> by (apply set_eq; set_solver).
      split; [f_equal; f_equal; f_equal; lia|]. cbn [sum_sizes foldr]. rewrite En. fold (sum_sizes sm cs). cbn. lia.
    + destruct (IH ({[c]} ∪ v) (i + n)%N r Hs') as (d & -> & Ed). exists d.
      assert (({[c]} ∪ list_to_set cs) ∖ v = {[c]} ∪ (list_to_set cs ∖ ({[c]} ∪ v))) as ->.
      { apply set_eq. intros x. destruct (decide (x = c)); set_solver. }
      assert (v ∪ ({[c]} ∪ list_to_set cs) = {[c]} ∪ v ∪ list_to_set cs) as -> by (apply set_eq; set_solver).
      rewrite set_sizes_union by set_solver. rewrite set_sizes_singleton, En. cbn [default from_option id].
      split; [f_equal; f_equal; f_equal; lia|]. cbn [sum_sizes foldr]. rewrite En. fold (sum_sizes sm cs). cbn. lia.
Qed.

Lemma set_sizes_le cs v : (set_sizes sm (list_to_set cs ∖ v) <= sum_sizes sm cs)%N.
Proof.
  revert v. induction cs as [|c cs IH]; intros v; cbn [list_to_set].
  - assert ((∅ : gset oid) ∖ v = ∅) as -> by (apply set_eq; set_solver). by rewrite set_sizes_empty.
  - cbn [sum_sizes foldr]. fold (sum_sizes sm cs). destruct (decide (c ∈ v)).
    + assert (({[c]} ∪ list_to_set cs) ∖ v = list_to_set cs ∖ v) as -> by (apply set_eq; set_solver). specialize (IH v). lia.
    + assert (({[c]} ∪ list_to_set cs) ∖ v = {[c]} ∪ (list_to_set cs ∖ ({[c]} ∪ v))) as ->.
      { apply set_eq. intros x. destruct (decide (x = c)); set_solver. }
      rewrite set_sizes_union by set_solver. rewrite set_sizes_singleton. specialize (IH ({[c]} ∪ v)). lia.
Qed.

Definition node_ids (n : node) : list oid := node_subtree n ++ node_chunks n.

Lemma tree_size_visit (fo : forest) pre d p id ls0 ls1 : walk_tree fo (see pre) d p id ls0 = Some (Ok ls1) ->
  exists b, ls1 = ls0 ++ b /\ forall a, is_Some (sm !! id) -> (forall l x, l ∈ b -> x ∈ node_ids l.2 -> is_Some (sm !! x)) ->
    tree_size_at fo sm d p id a = Some (Ok (visit count_node (count_tree id a) b)).
Proof.
  revert p id ls0 ls1. induction d as [|d IH]; intros p id ls0 ls1 E; [done|]. cbn [walk_tree tree_size_at] in *.
  destruct (fo !! id) as [t|]; [|done].
  assert (exists b, ls1 = ls0 ++ b /\ forall a, (forall l x, l ∈ b -> x ∈ node_ids l.2 -> is_Some (sm !! x)) ->
    ofold (fun (e : bytes * node) a => node_size_with sm (tree_size_at fo sm d) (p ++ [e.1]) e.2 a) t a = Some (Ok (visit count_node a b))) as (b & -> & Hb).
  2:{ exists b. split; [done|]. intros [[v s] files] [n En] Hs. rewrite En. rewrite Hb by done. unfold count_tree, size_of. rewrite En. done. }
  revert ls0 E. induction t as [|[x n] t IHt]; intros ls0 E; cbn [ofold] in *.
  { injection E as <-. exists []. by rewrite app_nil_r. }
  cbn [fst snd] in *. unfold walk_node_with in E at 1. cbv zeta in E.
  assert (exists ls2 b, (match n_contents n with CDir sub => walk_tree fo (see pre) d (p ++ [x]) sub (see pre (p ++ [x]) n ls0) | _ => Some (Ok (see pre (p ++ [x]) n ls0)) end) = Some (Ok ls2) /\
    ls2 = ls0 ++ b /\ forall a, (forall l x, l ∈ b -> x ∈ node_ids l.2 -> is_Some (sm !! x)) ->
    node_size_with sm (tree_size_at fo sm d) (p ++ [x]) n a = Some (Ok (visit count_node a b))) as (ls2 & b & E2 & -> & Hv).
  { unfold node_size_with. destruct (n_contents n) as [cs|sub|tg] eqn:En.
    - eexists _, [(pre, p ++ [x], n)]. split; [done|]. split; [done|]. intros [[v s] files] Hs.
      destruct (file_chunks_ok cs v 0 0) as (dd & -> & Ed).
      { intros c Hc. apply (Hs _ c (elem_of_list_here _ _)). unfold node_ids, node_chunks, node_subtree. cbn [snd]. by rewrite En. }
      cbn [rbind visit foldl fst snd]. unfold count_node. rewrite En. unfold count_file.
      replace (sum_sizes sm cs - set_sizes sm (list_to_set cs ∖ v))%N with dd by lia. rewrite <-Ed, !N.add_0_l. done.
    - destruct (walk_tree fo (see pre) d (p ++ [x]) sub (see pre (p ++ [x]) n ls0)) as [[ls2| |]|] eqn:Ew; try done.
      apply IH in Ew as (b & -> & Hv). eexists _, ((pre, p ++ [x], n) :: b). split; [done|].
      split; [unfold see; by rewrite <-app_assoc|]. intros a Hs. rewrite Hv.
      + change (visit count_node a ((pre, p ++ [x], n) :: b)) with (visit count_node (count_node (p ++ [x]) n a) b).
        replace (count_node (p ++ [x]) n a) with (count_tree sub a); [by destruct a as [[v s] files]|]. unfold count_node. by rewrite En.
      + apply (Hs _ sub (elem_of_list_here _ _)). unfold node_ids, node_chunks, node_subtree. cbn [snd]. rewrite En. by left.
      + intros l y Hl. apply Hs. by right.
    - eexists _, [(pre, p ++ [x], n)]. split; [done|]. split; [done|]. intros [[v s] files] Hs. cbn [visit foldl fst snd]. unfold count_node. by rewrite En. }
  rewrite E2 in E. apply IHt in E as (b' & -> & Hv'). exists (b ++ b'). rewrite app_assoc.
  split; [done|]. intros a Hs. rewrite Hv, Hv', visit_app; [done|..]; intros l y Hl; apply Hs; rewrite elem_of_app; auto.
Qed.

Lemma count_tree_accounts i v s files : is_Some (sm !! i) ->
  exists v' s', count_tree i (v, s, files) = (v', s', files) /\ accounts sm [i] (v, s) (v', s') /\
    fs_tree s' = (fs_tree s + sum_sizes sm [i])%N /\ fs_chunk s' = fs_chunk s.
Proof.
  intros [n En]. unfold count_tree, size_of. rewrite En. cbn [default from_option id].
  pose proof (accounts_one sm i n v s En (fs_tree s + n) (fs_chunk s)) as Ha. cbn [sum_sizes foldr]. rewrite En. cbn [default from_option id].
  case_decide; eexists _, _; (split; [reflexivity|]); (split; [apply Ha; lia|]); cbn [fs_tree fs_chunk]; split; (done || lia).
Qed.
Lemma count_file_accounts p cs v s files : (forall c, c ∈ cs -> is_Some (sm !! c)) ->
  exists v' s' i r, count_file p cs (v, s, files) = (v', s', files ++ [(p, (i, r))]) /\ accounts sm cs (v, s) (v', s') /\
    fs_tree s' = fs_tree s /\ fs_chunk s' = (fs_chunk s + sum_sizes sm cs)%N /\
    i = set_sizes sm (list_to_set cs ∖ v) /\ (i + r = sum_sizes sm cs)%N.
Proof.
  intros Hs. unfold count_file. pose proof (set_sizes_le cs v). eexists _, _, _, _. split; [reflexivity|]. split; [|cbn [fs_tree fs_chunk]; split; [done|]; split; [done|]; split; [done|lia]].
  unfold accounts. cbn [fst snd fs_introduced fs_reused fs_tree fs_chunk]. split; [done|]. split; [apply (comm_L (∪))|]. lia.
Qed.

(** What the visits so far have seen. *)
Definition all_ids (b : list line) : list oid := concat (map (fun l : line => node_ids l.2) b).
Definition files_in (b : list line) : list (list bytes) :=
  concat (map (fun l : line => match n_contents l.2 with CFile _ => [l.1.2] | _ => [] end) b).

Definition reported (v : gset oid) (b : list line) (rep : list file_size) : Prop :=
  map fst rep = files_in b /\
  forall j p i r, rep !! j = Some (p, (i, r)) -> exists b1 pre n cs b2, b = b1 ++ (pre, p, n) :: b2 /\ n_contents n = CFile cs /\
    i = set_sizes sm (list_to_set cs ∖ (v ∪ list_to_set (all_ids b1))) /\ (i + r = sum_sizes sm cs)%N /\
    files_in b1 = take j (map fst rep).

Lemma sum_sizes_interleave (b : list line) :
  sum_sizes sm (all_ids b) = (sum_sizes sm (concat (map (fun l : line => node_subtree l.2) b)) + sum_sizes sm (concat (map (fun l : line => node_chunks l.2) b)))%N.
Proof.
  induction b as [|l b IH]; [done|]. unfold all_ids in *. cbn [map concat]. unfold node_ids at 1. rewrite !sum_sizes_app, IH. lia.
Qed.

Lemma visit_counts b v s files : (forall l x, l ∈ b -> x ∈ node_ids l.2 -> is_Some (sm !! x)) ->
  exists v' s' rep, visit count_node (v, s, files) b = (v', s', files ++ rep) /\ accounts sm (all_ids b) (v, s) (v', s') /\
    fs_tree s' = (fs_tree s + sum_sizes sm (concat (map (fun l : line => node_subtree l.2) b)))%N /\
    fs_chunk s' = (fs_chunk s + sum_sizes sm (concat (map (fun l : line => node_chunks l.2) b)))%N /\ reported v b rep.
Proof.
  revert v s files. induction b as [|[[pre p] n] b IH] using rev_ind; intros v s files Hs.
  { exists v, s, []. rewrite app_nil_r. cbn. split; [done|]. split; [apply accounts_nil|]. split; [lia|]. split; [lia|]. split; [done|].
    intros j p i r E. by rewrite lookup_nil in E. }
  destruct (IH v s files) as (v1 & s1 & rep & E & A & T & C & R1 & R2); [intros l x Hl; apply Hs; rewrite elem_of_app; auto|].
  assert (forall x, x ∈ node_ids n -> is_Some (sm !! x)) as Hn.
  { intros x Hx. apply (Hs (pre, p, n) x); [rewrite elem_of_app; right; by left|done]. }
  assert (all_ids (b ++ [(pre, p, n)]) = all_ids b ++ node_ids n) as EA by (unfold all_ids; rewrite map_app, concat_app; cbn; by rewrite app_nil_r).
  assert (v1 = v ∪ list_to_set (all_ids b)) as Ev by (destruct A as (_ & Hv & _); cbn [fst] in Hv; rewrite Hv; apply (comm_L (∪))).
  assert (files_in (b ++ [(pre, p, n)]) = files_in b ++ match n_contents n with CFile _ => [p] | _ => [] end) as EF
    by (unfold files_in; rewrite map_app, concat_app; cbn [map concat fst snd]; by rewrite app_nil_r).
  rewrite visit_app, E, !map_app, !concat_app, !sum_sizes_app. cbn [visit foldl fst snd map concat]. rewrite !app_nil_r.
  assert (forall x, rep !! x <> None -> True) by done.
  assert (n_contents n = CFile (node_chunks n) \/ node_chunks n = [] /\ match n_contents n with CFile _ => [p] | _ => [] end = []) as [En|[Ech En]].
  { unfold node_chunks. destruct (n_contents n); auto. }
  - assert (node_subtree n = []) as Es by (unfold node_subtree; by rewrite En). unfold count_node. rewrite En in *.
    unfold node_ids in EA, Hn. rewrite Es in *. cbn [app] in EA, Hn.
    destruct (count_file_accounts p (node_chunks n) v1 s1 (files ++ rep) Hn) as (v2 & s2 & i & r & E2 & A2 & T2 & C2 & Ei & Er). rewrite E2.
    exists v2, s2, (rep ++ [(p, (i, r))]). split; [by rewrite app_assoc|]. split; [rewrite EA; by eapply accounts_app|].
    split; [cbn; lia|]. split; [lia|]. split; [rewrite map_app, EF, R1; done|].
    intros j q i' r' Ej. rewrite map_app. apply lookup_app_Some in Ej as [Ej|[Hl Ej]].
    + destruct (R2 _ _ _ _ Ej) as (b1 & pre' & n' & cs & b2 & -> & Ec & I1 & I2 & I3). exists b1, pre', n', cs, (b2 ++ [(pre, p, n)]).
      split; [by rewrite <-app_assoc|]. split; [done|]. split; [done|]. split; [done|]. rewrite take_app_le; [done|].
      rewrite map_length. apply lookup_lt_Some in Ej. lia.
    + apply list_lookup_singleton_Some in Ej as [Hj Ej]. injection Ej as -> -> ->. exists b, pre, n, (node_chunks n), []. split; [done|]. split; [done|].
      split; [by rewrite <-Ev|]. split; [done|]. rewrite take_app_alt by (rewrite map_length; lia). by rewrite R1.
  - unfold node_ids in EA, Hn. rewrite Ech, ?app_nil_r in *.
    assert (exists v2 s2, count_node p n (v1, s1, files ++ rep) = (v2, s2, files ++ rep) /\ accounts sm (node_subtree n) (v1, s1) (v2, s2) /\
      fs_tree s2 = (fs_tree s1 + sum_sizes sm (node_subtree n))%N /\ fs_chunk s2 = fs_chunk s1) as (v2 & s2 & E2 & A2 & T2 & C2).
    { unfold count_node. unfold node_subtree in *. destruct (n_contents n) as [cs|sub|tg]; [done| |].
      - apply count_tree_accounts, Hn. by left.
      - exists v1, s1. split; [done|]. split; [apply accounts_nil|]. cbn. split; [lia|done]. }
    rewrite E2. exists v2, s2, rep. split; [done|]. split; [rewrite EA; by eapply accounts_app|].
    split; [lia|]. split; [cbn; lia|]. split; [by rewrite EF, En, app_nil_r|].
    intros j q i' r' Ej. destruct (R2 _ _ _ _ Ej) as (b1 & pre' & n' & cs & b2 & -> & Ec & I1 & I2 & I3). exists b1, pre', n', cs, (b2 ++ [(pre, p, n)]).
    split; [by rewrite <-app_assoc|]. done.
Qed.
End sizing.

(** ** The files of one snapshot, sorted and looked up *)

Lemma insert_by_new_perm x l : insert_by_new x l ≡ₚ x :: l.
Proof.
  induction l as [|y l IH]; [done|]. cbn [insert_by_new]. destruct (x.2.1 <=? y.2.1)%N; [done|]. rewrite IH. apply Permutation_swap.
Qed.
Lemma sort_by_new_perm l : sort_by_new l ≡ₚ l.
Proof. induction l as [|x l IH]; [done|]. unfold sort_by_new in *. cbn [foldr]. by rewrite insert_by_new_perm, IH. Qed.
Lemma insert_by_new_sorted x l : StronglySorted (fun x y : file_size => (x.2.1 <= y.2.1)%N) l ->
  StronglySorted (fun x y : file_size => (x.2.1 <= y.2.1)%N) (insert_by_new x l).
Proof.
  induction 1 as [|y l Hl IH Hy]; cbn [insert_by_new]; [by repeat constructor|]. destruct (x.2.1 <=? y.2.1)%N eqn:E.
  - apply N.leb_le in E. constructor; [by constructor|]. constructor; [done|]. eapply Forall_impl; [exact Hy|]. cbn. intros z Hz. lia.
  - apply N.leb_gt in E. constructor; [done|]. rewrite insert_by_new_perm. constructor; [lia|done].
Qed.
Lemma sort_by_new_sorted l : StronglySorted (fun x y : file_size => (x.2.1 <= y.2.1)%N) (sort_by_new l).
Proof. induction l as [|x l IH]; [constructor|]. by apply insert_by_new_sorted. Qed.
Lemma rev_sorted (l : list file_size) : StronglySorted (fun x y : file_size => (x.2.1 <= y.2.1)%N) l ->
  StronglySorted (fun x y : file_size => (y.2.1 <= x.2.1)%N) (rev l).
Proof.
  induction 1 as [|y l Hl IH Hy]; [constructor|]. cbn [rev].
  assert (Forall (fun x : file_size => (y.2.1 <= x.2.1)%N) (rev l)) as Hr.
  { apply Forall_forall. intros x Hx. apply elem_of_list_In, in_rev, elem_of_list_In in Hx. rewrite Forall_forall in Hy. by apply Hy. }
  revert IH Hr. generalize (rev l). clear. induction 1 as [|z l Hl IH Hz]; intros Hr; cbn [app]; [by repeat constructor|].
  apply Forall_cons in Hr as [H1 H2]. constructor; [by apply IH|]. apply Forall_app. split; [done|]. by constructor.
Qed.

Lemma file_report_ok gr files : exists items, largest_first gr files items /\
  file_report gr files = Ok (match items with [] => [] | _ => items ++ [Blank] end).
Proof.
  unfold file_report, largest_first. cbv zeta. set (fs := List.filter _ files).
  set (width := foldr (fun (x : file_size) m => gr (render x.1) `max` m) 0 fs).
  assert (forall x, x ∈ fs -> gr (render x.1) <= width) as Hw.
  { subst width. clearbody fs. induction fs as [|y fs IH]; intros x Hx; [by apply elem_of_nil in Hx|]. cbn [foldr].
    apply elem_of_cons in Hx as [->|Hx]; [lia|]. specialize (IH x Hx). lia. }
  assert (forall x, x ∈ rev (sort_by_new fs) -> gr (render x.1) <= width) as Hw'.
  { intros x Hx. apply Hw. apply elem_of_list_In, in_rev, elem_of_list_In in Hx. by rewrite sort_by_new_perm in Hx. }
  assert (forall l o, (forall x, x ∈ l -> gr (render x.1) <= width) ->
    rfold (fun (x : file_size) (out : list item) => if Nat.leb (gr (render x.1)) width then Ok (out ++ [FileLine x.1 (width - gr (render x.1)) x.2.1 x.2.2]) else Panic) l o =
    Ok (o ++ map (fun x : file_size => FileLine x.1 (width - gr (render x.1)) x.2.1 x.2.2) l)) as Hfold.
  { induction l as [|y l IH]; intros o Hl; cbn [rfold map]; [by rewrite app_nil_r|].
    rewrite (proj2 (Nat.leb_le _ _)) by (apply Hl; by left). cbn [rbind]. rewrite IH by (intros; apply Hl; by right). by rewrite <-app_assoc. }
  exists (map (fun x : file_size => FileLine x.1 (width - gr (render x.1)) x.2.1 x.2.2) (rev (sort_by_new fs))). split.
  - exists (rev (sort_by_new fs)), width. split; [|split].
    + by rewrite <-Permutation_rev, sort_by_new_perm.
    + apply StronglySorted_Sorted, rev_sorted, sort_by_new_sorted.
    + revert Hw'. generalize (rev (sort_by_new fs)) as l. induction l as [|y l IH]; intros Hl; cbn [map]; [constructor|].
      constructor; [|apply IH; intros; apply Hl; by right]. exists (width - gr (render y.1)). split; [done|].
      pose proof (Hl y (elem_of_list_here _ _)). lia.
  - rewrite (Hfold _ [] Hw'). cbn [app rbind]. assert (rev (sort_by_new fs) ≡ₚ fs) as Hp by by rewrite <-Permutation_rev, sort_by_new_perm.
    destruct fs as [|y fs'] eqn:Ef; [done|]. destruct (rev (sort_by_new (y :: fs'))) as [|z l] eqn:El; [by apply Permutation_nil_cons in Hp|]. done.
Qed.

Lemma size_lookup_ok files p z : NoDup (map fst files) -> size_lookup files !! p = Some z <-> (p, z) ∈ files.
Proof.
  unfold size_lookup. induction files as [|[q y] files IH] using rev_ind; intros Hn.
  { cbn [foldl]. rewrite lookup_empty. split; [done|]. by intros ?%elem_of_nil. }
  rewrite map_app in Hn. apply NoDup_app in Hn as (H1 & H2 & _). rewrite foldl_app. cbn [foldl fst snd]. rewrite elem_of_app, elem_of_list_singleton.
  rewrite lookup_insert_Some, IH by done. split.
  - intros [[-> ->]|[Hne Hin]]; [by right|by left].
  - intros [Hin|E]; [|injection E as -> ->; by left]. right. split; [|done]. intros ->. apply (H2 p); [|by left].
    change (map fst files) with (fst <$> files). apply elem_of_list_fmap. by exists (p, z).
Qed.

(** ** In a repository *)

Section repo.
Variables (H : bytes -> oid) (U : blob -> Prop).
Hypothesis HU : universe H U.
Hypothesis Hlen : forall x, length (H x) = 28.
Variables (k : backend) (ix : index) (bmap : gmap oid oid).
Hypothesis Hk : in_order H U k.
Hypothesis Eix : master k = Ok ix.
Hypothesis Ebm : blob_to_pack_map ix = Ok bmap.
Variable gr : bytes -> nat.
Variable fuel : nat.
Local Set Default Proof Using "All".

Let Hst : structured H U k.
Proof. by apply in_order_structured. Qed.
Notation st := (repo_store k).

(** A loaded forest. *)
Definition good (root : oid) (fo : forest) : Prop :=
  loaded fo fuel root /\ forall id t, fo !! id = Some t -> stored_as H st id t.

Lemma good_null : 0 < fuel -> good (null_forest H).1 (null_forest H).2.
Proof.
  intros Hf. unfold good. destruct fuel as [|f]; [lia|]. cbn [null_forest fst snd]. split.
  - exists []. split; [apply lookup_singleton|]. intros s Hs. by apply elem_of_nil in Hs.
  - intros id t [<- <-]%lookup_singleton_Some. unfold stored_as. by rewrite decide_True.
Qed.

Lemma good_load c root es : good_cache H k c -> reads_root H st root es -> depth es < fuel ->
  exists c' fo, forest_from_root (read_tree k bmap) fuel c root = Some (Ok (c', fo)) /\ good_cache H k c' /\ good root fo.
Proof.
  intros Hc Hr Hd. destruct (append_tree_total H U HU Hlen k ix bmap Hst Eix Ebm fuel ∅ root es c ∅ Hr Hd Hc) as (c' & fo & E & Hc').
  { intros x es' Hx. by apply elem_of_empty in Hx. }
  exists c', fo. split; [exact E|]. split; [done|]. split.
  - eapply forest_from_root_loaded; [|exact E]. apply (read_tree_mono H U HU k Hst ix bmap Eix Ebm).
  - destruct (load_ok (read_tree k bmap) (read_tree_mono H U HU k Hst ix bmap Eix Ebm) _ _ _ _ _ E) as (Hsub & _).
    intros id t Ht. apply Hc'. by eapply lookup_weaken.
Qed.

Lemma good_sane root fo : good root fo ->
  map_Forall (fun _ (t : tree) => om_sorted t /\ Forall (fun e : bytes * node => meta_kind (n_meta e.2) = contents_kind (n_contents e.2)) t) fo.
Proof. intros [_ Hf]. by apply (forest_of_tree H U HU Hlen k ix bmap Hk Eix Ebm). Qed.
Lemma good_sorted root fo : good root fo -> map_Forall (fun _ (t : tree) => om_sorted t) fo.
Proof. intros Hg i t E. by destruct (good_sane _ _ Hg i t E). Qed.
Lemma good_at root fo p : good root fo -> node_at fo root p = stored_at H st root p.
Proof. intros Hg. eapply stored_at_forest; [apply Hg|by eapply good_sorted|apply Hg]. Qed.

Lemma good_stat show_meta root1 fo1 root2 fo2 : good root1 fo1 -> good root2 fo2 ->
  exists ls, changes H st show_meta root1 root2 ls /\
    measure_path_pad gr fo1 fo2 fuel show_meta root1 root2 = Some (Ok (visit (longer gr) 0 ls)) /\
    forall pad sizes, tree_diff gr fo1 fo2 fuel show_meta pad sizes root1 root2 = Some (steps gr pad sizes (Ok []) ls).
Proof.
  intros G1 G2.
  assert (same_ids fo1 fo2) as Hsame by (apply (stored_same H U HU Hlen k ix bmap Hk Eix Ebm); [apply G1|apply G2]).
  destruct (stat_of_diff gr fo1 fo2 (good_sane _ _ G1) (good_sane _ _ G2) Hsame fuel show_meta root1 root2 (proj1 G1) (proj1 G2))
    as (ls & Hnd & Hin & Hm & Hp).
  exists ls. split; [|done]. split; [done|]. intros pre p n. by rewrite Hin, (good_at _ _ p G1), (good_at _ _ p G2).
Qed.

(** ** Sizes of one snapshot *)

Lemma stored_sorted id t : stored_as H st id t -> om_sorted t.
Proof.
  intros Ht. assert (map_Forall (fun _ (t : tree) => om_sorted t /\ Forall (fun e : bytes * node => meta_kind (n_meta e.2) = contents_kind (n_contents e.2)) t) ({[ id := t ]} : gmap oid tree)) as Hf.
  { apply (forest_of_tree H U HU Hlen k ix bmap Hk Eix Ebm). intros i u [<- <-]%lookup_singleton_Some. done. }
  apply (Hf id t). apply lookup_singleton.
Qed.

Lemma needs_stored root x : needs H st root x <-> x = root \/ exists p n, stored_at H st root p = Some n /\ x ∈ node_ids n.
Proof.
  split.
  - induction 1 as [id|id t c Ht Hc|id t s x Ht Hs Hx IH].
    + by left.
    + right. unfold tree_chunks in Hc. apply elem_of_list_In, in_concat in Hc as (cs & Hcs & Hc). apply in_map_iff in Hcs as ([y n] & <- & Hin).
      apply elem_of_list_In in Hin. apply elem_of_list_In in Hc. exists [y], n. cbn [stored_at]. rewrite (proj1 (stored_as_tree H st id t) Ht). cbn [mbind option_bind].
      apply om_get_elem in Hin; [|by eapply stored_sorted]. rewrite Hin. cbn [mbind option_bind]. split; [done|]. unfold node_ids. apply elem_of_app. by right.
    + right. unfold subtrees in Hs. apply elem_of_list_In, in_concat in Hs as (cs & Hcs & Hs). apply in_map_iff in Hcs as ([y n] & <- & Hin).
      apply elem_of_list_In in Hin. apply elem_of_list_In in Hs. cbn [snd] in Hs.
      assert (n_contents n = CDir s) as En. { unfold node_subtree in Hs. destruct (n_contents n); [by apply elem_of_nil in Hs|by apply elem_of_list_singleton in Hs as ->|by apply elem_of_nil in Hs]. }
      apply om_get_elem in Hin; [|by eapply stored_sorted].
      destruct IH as [->|(p & m & Em & Hm)].
      * exists [y], n. cbn [stored_at]. rewrite (proj1 (stored_as_tree H st id t) Ht). cbn [mbind option_bind]. rewrite Hin. cbn [mbind option_bind]. split; [done|].
        unfold node_ids. apply elem_of_app. by left.
      * exists (y :: p), m. cbn [stored_at]. rewrite (proj1 (stored_as_tree H st id t) Ht). cbn [mbind option_bind]. rewrite Hin. cbn [mbind option_bind].
        destruct p as [|z p]; [done|]. rewrite En. done.
  - intros [->|(p & n & E & Hx)]; [constructor|]. revert root E. induction p as [|y p IH]; intros root E; [done|]. cbn [stored_at] in E.
    destruct (stored_tree H st root) as [t|] eqn:Et; [|done]. cbn [mbind option_bind] in E. apply stored_as_tree in Et.
    destruct (om_get y t) as [m|] eqn:Em; [|done]. cbn [mbind option_bind] in E. apply om_get_elem in Em; [|by eapply stored_sorted].
    destruct p as [|z p].
    + injection E as ->. unfold node_ids in Hx. apply elem_of_app in Hx as [Hx|Hx].
      * unfold node_subtree in Hx. destruct (n_contents n) as [cs|d|tg] eqn:En; [by apply elem_of_nil in Hx| |by apply elem_of_nil in Hx].
        apply elem_of_list_singleton in Hx as ->. eapply needs_sub; [done|by eapply node_subtree_in|constructor].
      * eapply needs_chunk; [done|]. unfold tree_chunks. apply elem_of_list_In, in_concat. exists (node_chunks n). split; [|by apply elem_of_list_In].
        apply in_map_iff. exists (y, n). split; [done|]. by apply elem_of_list_In.
    + destruct (n_contents m) as [cs|d|tg] eqn:En; [done| |done]. eapply needs_sub; [done|by eapply node_subtree_in|]. by apply IH.
Qed.

Lemma reads_at root es p n : reads_root H st root es -> stored_at H st root p = Some n -> exists f, reads H st n f.
Proof.
  revert root es. induction p as [|y p IH]; intros root es (t & Ht & Hes) E; [done|]. cbn [stored_at] in E.
  rewrite (proj1 (stored_as_tree H st root t) Ht) in E. cbn [mbind option_bind] in E.
  destruct (om_get y t) as [m|] eqn:Em; [|done]. cbn [mbind option_bind] in E. apply om_get_elem in Em; [|by eapply stored_sorted].
  apply elem_of_list_lookup in Em as [i Ei]. eapply Forall2_lookup_l in Hes as ([z f] & Ef & _ & Hr); [|exact Ei]. cbn [snd] in Hr.
  destruct p as [|z' p]; [injection E as <-; by exists f|]. destruct (n_contents m) as [cs|d|tg] eqn:En; [done| |done].
  inversion Hr as [| |mm id u es' Hu Hes']; subst; cbn [n_contents] in En; try done. injection En as ->. eapply IH; [|exact E]. by exists u.
Qed.

Lemma chunk_not_tree id t c b : stored_as H st id t -> st !! c = Some (Chunk, b) -> c <> id.
Proof.
  intros Ht Hc ->. unfold stored_as in Ht. case_decide as Hd; [|destruct Ht as (b' & Hb & _); by rewrite Hb in Hc].
  apply (repo_store_lookup H U HU) in Hc; [|apply Hst].
  assert (U (mkBlob Chunk id b)) as Hu.
  { pose proof (live_blobs_U H U HU k (st_packs _ _ _ Hst)) as Hf. rewrite Forall_forall in Hf. by apply Hf. }
  pose proof (un_inj H U HU _ _ Hu (un_none H U HU)) as Heq. discriminate Heq. cbn [b_id tree_blob]. by rewrite Hd.
Qed.

Section one.
Variables (root : oid) (fo : forest) (es : list (bytes * fsnode)) (sm : gmap oid N) (seen : oid -> Prop) (v : gset oid).
Hypothesis Hg : good root fo.
Hypothesis Hr : reads_root H st root es.
Hypothesis Hsm : forall x, needs H st root x -> is_Some (sm !! x).
Hypothesis Hv : forall x, x ∈ v <-> seen x.

Lemma nodup_sublist {A} (l1 l2 : list A) : l1 `sublist_of` l2 -> NoDup l2 -> NoDup l1.
Proof.
  induction 1 as [|x l1 l2 Hs IH|x l1 l2 Hs IH]; intros Hn; [constructor| |]; apply NoDup_cons in Hn as [Hx Hn]; [|by apply IH].
  apply NoDup_cons. split; [|by apply IH]. intros Hin. apply Hx. clear -Hs Hin.
  induction Hs as [|y l1 l2 Hs IH|y l1 l2 Hs IH]; [done| |right; by apply IH]. apply elem_of_cons in Hin as [->|Hin]; [by left|right; by apply IH].
Qed.
Lemma elem_of_files_in b p : p ∈ files_in b <-> exists pre n cs, (pre, p, n) ∈ b /\ n_contents n = CFile cs.
Proof.
  unfold files_in. rewrite elem_of_list_In, in_concat. split.
  - intros (l & Hl & Hin). apply in_map_iff in Hl as ([[pre q] n] & <- & Hb). cbn [fst snd] in Hin. destruct (n_contents n) as [cs|d|tg] eqn:En; [|done|done].
    destruct Hin as [->|[]]. exists pre, n, cs. split; [by apply elem_of_list_In|done].
  - intros (pre & n & cs & Hb & En). exists [p]. split; [|by left]. apply in_map_iff. exists (pre, p, n). cbn [fst snd]. rewrite En. split; [done|]. by apply elem_of_list_In.
Qed.
Lemma files_in_sublist b : files_in b `sublist_of` map (fun l : line => l.1.2) b.
Proof.
  induction b as [|[[pre p] n] b IH]; [constructor|]. unfold files_in in *. cbn [map concat fst snd].
  destruct (n_contents n); cbn [app]; by constructor.
Qed.
Lemma elem_of_all_ids b x : x ∈ all_ids b <-> exists l, l ∈ b /\ x ∈ node_ids l.2.
Proof.
  unfold all_ids. rewrite elem_of_list_In, in_concat. split.
  - intros (l & Hl & Hin). apply in_map_iff in Hl as (y & <- & Hy). exists y. by rewrite !elem_of_list_In.
  - intros (y & Hy & Hx). exists (node_ids y.2). rewrite !elem_of_list_In in *. split; [|done]. apply in_map_iff. by exists y.
Qed.

Lemma one_sizes : exists v' s files, forest_sizes_at fo sm fuel root v = Some (Ok (v', s, files)) /\
  right_sizes H st sm seen root s /\ right_files H st sm seen root files /\
  forall x, x ∈ v' <-> seen x \/ needs H st root x.
Proof.
  pose proof (good_sorted _ _ Hg) as Hsort.
  destruct (walk_tree_total fo Hsort [] (see []) fuel [] root [] (proj1 Hg)) as [ls Els].
  destruct (walk_tree_lists fo Hsort [] _ _ _ _ _ Els) as (l & Eb & Hnd & Hl & _). cbn [app] in Eb. subst ls.
  destruct (tree_size_visit sm fo [] _ _ _ _ _ Els) as (b & Eb & Hts). cbn [app] in Eb. 
  assert (forall p n, ([], p, n) ∈ b <-> stored_at H st root p = Some n) as Hb.
  { intros p n. rewrite <-(good_at root fo p Hg), <-Hl, <-Eb. unfold lines_at. change (map ?f ?l) with (f <$> l). rewrite elem_of_list_fmap. split.
    - intros ([q m] & E & Hin). cbn [fst snd app] in E. by injection E as -> ->.
    - intros Hin. by exists (p, n). }
  assert (forall pre p n, (pre, p, n) ∈ b -> pre = []) as Hpre.
  { intros pre p n. rewrite <-Eb. unfold lines_at. change (map ?f ?l) with (f <$> l). rewrite elem_of_list_fmap. intros ([q m] & E & _). by injection E. }
  assert (forall x, needs H st root x <-> x = root \/ x ∈ all_ids b) as Hneed.
  { intros x. rewrite needs_stored, elem_of_all_ids. split.
    - intros [?|(p & n & E & Hx)]; [by left|right]. exists ([], p, n). by rewrite Hb.
    - intros [?|([[pre p] n] & Hin & Hx)]; [by left|right]. pose proof (Hpre _ _ _ Hin) as ->. exists p, n. by rewrite <-Hb. }
  assert (forall l x, l ∈ b -> x ∈ node_ids l.2 -> is_Some (sm !! x)) as Hsb.
  { intros y x Hy Hx. apply Hsm, Hneed. right. apply elem_of_all_ids. by exists y. }
  specialize (Hts (v, fsizes_zero, []) (Hsm root (needs_self _ _ _)) Hsb).
  destruct (count_tree_accounts sm root v fsizes_zero [] (Hsm root (needs_self _ _ _))) as (v1 & s1 & E1 & A1 & T1 & C1). rewrite E1 in Hts.
  destruct (visit_counts sm b v1 s1 [] Hsb) as (v2 & s2 & rep & E2 & A2 & T2 & C2 & R1 & R2). rewrite E2 in Hts. cbn [app] in Hts.
  pose proof (accounts_app _ _ _ _ _ _ A1 A2) as (_ & V & I & R & T). cbn [fst snd app fs_introduced fs_reused fs_tree fs_chunk fsizes_zero] in V, I, R, T.
  assert (map (fun l0 : line => node_subtree l0.2) b = map (fun e => node_subtree e.2) l /\ map (fun l0 : line => node_chunks l0.2) b = map (fun e => node_chunks e.2) l) as [M1 M2].
  { rewrite <-Eb. unfold lines_at. by rewrite !map_map. }
  assert (map (fun l0 : line => l0.1.2) b = map fst l) as M3.
  { rewrite <-Eb. unfold lines_at. by rewrite map_map. }
  assert (v1 = {[root]} ∪ v) as Ev1.
  { destruct A1 as (_ & V1 & _). cbn [fst list_to_set] in V1. rewrite V1. apply set_eq. set_solver. }
  exists v2, s2, rep. split; [|split; [|split]].
  - unfold forest_sizes_at. rewrite Hts. cbn [obind]. rewrite (proj2 (N.eqb_eq _ _)); [done|]. lia.
  - split; [|split].
    + exists l. split; [done|]. split; [intros p n; by rewrite Hl, (good_at root fo p Hg)|]. rewrite <-M1, <-M2. split.
      * rewrite T2, T1. change (fs_tree fsizes_zero) with 0%N. rewrite N.add_0_l. symmetry. apply (sum_sizes_app sm [root]).
      * rewrite C2, C1. change (fs_chunk fsizes_zero) with 0%N. lia.
    + lia.
    + intros X HX. rewrite I. rewrite N.add_0_l. f_equal. apply set_eq. intros x. rewrite elem_of_difference, HX, Hneed, Hv, elem_of_list_to_set, elem_of_cons. done.
  - split; [|split].
    + rewrite R1. eapply nodup_sublist; [apply files_in_sublist|]. by rewrite M3.
    + intros p. rewrite R1, elem_of_files_in. split.
      * intros (pre & n & cs & Hin & En). pose proof (Hpre _ _ _ Hin) as ->. apply Hb in Hin. destruct n as [c m]. cbn [n_contents] in En. subst c. by exists cs, m.
      * intros (cs & m & E). exists [], (mkNode (CFile cs) m), cs. by rewrite Hb.
    + intros j p i r cs m Ej Ep. destruct (R2 _ _ _ _ Ej) as (b1 & pre & n & cs' & b2 & E & En & Ei & Er & Ef).
      assert ((pre, p, n) ∈ b) as Hin by (rewrite E, elem_of_app; right; by left). pose proof (Hpre _ _ _ Hin) as ->. apply Hb in Hin.
      rewrite Ep in Hin. injection Hin as <-. cbn [n_contents] in En. injection En as <-. split; [done|]. intros X HX. rewrite Ei. f_equal.
      assert (forall c, c ∈ cs -> exists w, st !! c = Some (Chunk, w)) as Hch.
      { destruct (reads_at root es p _ Hr Ep) as [f Hf]. inversion Hf as [mm cs0 ps Hps| |]; subst. intros c Hc.
        apply elem_of_list_lookup in Hc as [q Hq]. eapply Forall2_lookup_l in Hps as (w & _ & Hw); [|exact Hq]. by exists w. }
      assert (forall x, x ∈ b1 -> x ∈ b) as Hb1 by (intros x Hx; rewrite E, elem_of_app; by left).
      apply set_eq. intros c. rewrite elem_of_difference, HX, elem_of_list_to_set, elem_of_union, Ev1, elem_of_union, elem_of_singleton, Hv, elem_of_list_to_set.
      split.
      * intros [Hc Hn]. split; [done|]. split; [tauto|]. intros (j' & p' & z & cs' & m' & Hj & Ej' & Ep' & Hc').
        apply Hn. right. apply elem_of_all_ids. assert (p' ∈ files_in b1) as Hp'.
        { rewrite Ef. apply elem_of_list_lookup. exists j'. rewrite lookup_take by done. change (map fst rep) with (fst <$> rep). by rewrite list_lookup_fmap, Ej'. }
        apply elem_of_files_in in Hp' as (pre' & n' & cs'' & Hin' & En'). exists (pre', p', n'). split; [done|]. cbn [snd].
        pose proof (Hpre _ _ _ (Hb1 _ Hin')) as ->. apply Hb1, Hb in Hin'. rewrite Ep' in Hin'. injection Hin' as <-.
        unfold node_ids. apply elem_of_app. right. done.
      * intros (Hc & Hns & Hne). split; [done|]. destruct (Hch c Hc) as [w Hw]. intros [[->|?]|Hx]; [|done|].
        { destruct Hr as (t & Ht & _). by eapply chunk_not_tree. }
        apply elem_of_all_ids in Hx as ([[pre' p'] n'] & Hin' & Hx). cbn [snd] in Hx. pose proof (Hpre _ _ _ (Hb1 _ Hin')) as ->.
        pose proof (proj1 (Hb _ _) (Hb1 _ Hin')) as Ep'. unfold node_ids in Hx. apply elem_of_app in Hx as [Hx|Hx].
        -- destruct (reads_at root es p' n' Hr Ep') as [f Hf]. unfold node_subtree in Hx. inversion Hf as [| |mm d u es' Hu Hes']; subst; cbn [n_contents] in Hx.
           ++ by apply elem_of_nil in Hx.
           ++ by apply elem_of_nil in Hx.
           ++ apply elem_of_list_singleton in Hx as ->. by eapply chunk_not_tree.
        -- unfold node_chunks in Hx. destruct n' as [[cs'|d|tg] m']; cbn [n_contents] in Hx; [|by apply elem_of_nil in Hx|by apply elem_of_nil in Hx].
           assert (p' ∈ files_in b1) as Hp' by (apply elem_of_files_in; by exists [], (mkNode (CFile cs') m'), cs').
           rewrite Ef in Hp'. apply elem_of_list_lookup in Hp' as [j' Hj']. apply lookup_take_Some in Hj' as [Hj' Hlt].
           change (map fst rep) with (fst <$> rep) in Hj'. apply list_lookup_fmap_Some in Hj' as ([q z] & Hq & ->). cbn [fst] in *.
           apply Hne. by exists j', q, z, cs', m'.
  - intros x. rewrite V, elem_of_union, elem_of_list_to_set, elem_of_cons, Hneed, Hv. tauto.
Qed.
End one.

(** ** [--stat] alone *)

Section snaps.
Variable snaps : list (snapshot * oid).
Hypothesis Hsnaps : forall sn id, (sn, id) ∈ snaps -> exists es, restores H k sn es /\ depth es < fuel.
Hypothesis Hfuel : 0 < fuel.
Variable sm : gmap oid N.
Variable fl : flags.

Lemma needed_spec chosen i sn id : snaps !! i = Some (sn, id) -> id ∈ chosen ->
  Z.of_nat i ∈ needed_indices chosen snaps /\ (Z.of_nat i - 1)%Z ∈ needed_indices chosen snaps.
Proof.
  intros Hi Hc. unfold needed_indices.
  assert (forall l (s : gset Z) x, x ∈ s -> x ∈ foldl (fun s (x : nat * (snapshot * oid)) =>
    if decide (x.2.2 ∈ chosen) then {[ Z.of_nat x.1 ]} ∪ ({[ (Z.of_nat x.1 - 1)%Z ]} ∪ s) else s) s l) as Hmono.
  { clear. induction l as [|y l IH]; intros s x Hx; [done|]. cbn [foldl]. apply IH. case_decide; set_solver. }
  assert ((i, (sn, id)) ∈ imap pair snaps) as Hin by by apply elem_of_numbered.
  revert Hin. generalize (imap pair snaps) as l. generalize (∅ : gset Z) as s. intros s l. revert s.
  induction l as [|y l IH]; intros s Hin; [by apply elem_of_nil in Hin|]. cbn [foldl]. apply elem_of_cons in Hin as [<-|Hin]; [|by apply IH].
  cbn [fst snd]. rewrite decide_True by done. split; apply Hmono; set_solver.
Qed.

Definition forests_ok (m : gmap Z (oid * forest)) : Prop :=
  m !! (-1)%Z = Some (null_forest H) /\
  forall i r fo, m !! Z.of_nat i = Some (r, fo) -> good r fo /\ exists sn id, snaps !! i = Some (sn, id) /\ r = sn_tree sn.

Lemma load_needed_ok c needed : good_cache H k c ->
  exists c' m, load_needed H (read_tree k bmap) fuel c needed snaps = Some (Ok (c', m)) /\ forests_ok m /\
    forall i, i < length snaps -> Z.of_nat i ∈ needed -> is_Some (m !! Z.of_nat i).
Proof.
  intros Hc. unfold load_needed.
  assert (forests_ok {[ (-1)%Z := null_forest H ]}) as Hm.
  { split; [apply lookup_singleton|]. intros i r fo [E _]%lookup_singleton_Some. lia. }
  assert (forall x, x ∈ imap pair snaps -> x ∈ imap pair snaps) as Hall by done.
  assert (forall i, i < length snaps -> exists x, (i, x) ∈ imap pair snaps) as Hcov.
  { intros i Hi. destruct (lookup_lt_is_Some_2 _ _ Hi) as [x Hx]. exists x. by apply elem_of_numbered. }
  revert Hall Hcov. generalize (imap pair snaps) at 1 3 4 as l. intros l Hall Hcov.
  assert (exists c' m', ofold (fun (x : nat * (snapshot * oid)) (st : forest * gmap Z (oid * forest)) =>
    let i := Z.of_nat x.1 in
    if decide (i ∈ needed) then
      match st.2 !! i with
      | Some _ => Some (Ok st)
      | None =>
          obind (forest_from_root (read_tree k bmap) fuel st.1 (sn_tree x.2.1)) (fun r =>
            Some (Ok (r.1, <[ i := (sn_tree x.2.1, r.2) ]> st.2)))
      end
    else Some (Ok st)) l (c, {[ (-1)%Z := null_forest H ]}) = Some (Ok (c', m')) /\ forests_ok m' /\
     (forall z, is_Some (({[ (-1)%Z := null_forest H ]} : gmap Z (oid * forest)) !! z) -> is_Some (m' !! z)) /\
     forall i x, (i, x) ∈ l -> Z.of_nat i ∈ needed -> is_Some (m' !! Z.of_nat i)) as (c' & m' & E & Hm' & _ & Hl).
  2:{ exists c', m'. split; [exact E|]. split; [done|]. intros i Hi Hn. destruct (Hcov i Hi) as [x Hx]. by eapply Hl. }
  clear Hcov. revert Hm. generalize ({[ (-1)%Z := null_forest H ]} : gmap Z (oid * forest)) as m. revert c Hc.
  induction l as [|[i [sn id]] l IH]; intros c Hc m Hm; cbn [ofold].
  { exists c, m. split; [done|]. split; [done|]. split; [done|]. intros i x Hx. by apply elem_of_nil in Hx. }
  assert (snaps !! i = Some (sn, id)) as Hi by (apply (elem_of_numbered snaps (i, (sn, id))), Hall; by left).
  assert (forall x, x ∈ l -> x ∈ imap pair snaps) as Hall' by (intros x Hx; apply Hall; by right).
  cbn [fst snd]. cbv zeta.
  assert (exists c1 m1, (if decide (Z.of_nat i ∈ needed) then
      match m !! Z.of_nat i with
      | Some _ => Some (Ok (c, m))
      | None => obind (forest_from_root (read_tree k bmap) fuel c (sn_tree sn)) (fun r => Some (Ok (r.1, <[ Z.of_nat i := (sn_tree sn, r.2) ]> m)))
      end else Some (Ok (c, m))) = Some (Ok (c1, m1)) /\ good_cache H k c1 /\ forests_ok m1 /\
      (forall z, is_Some (m !! z) -> is_Some (m1 !! z)) /\ (Z.of_nat i ∈ needed -> is_Some (m1 !! Z.of_nat i))) as (c1 & m1 & E1 & Hc1 & Hm1 & Hsub & Hin).
  { case_decide as Hd; [|exists c, m; done]. destruct (m !! Z.of_nat i) as [y|] eqn:Em; [exists c, m; split; [done|]; split; [done|]; split; [done|]; split; [done|]; by eexists|].
    destruct (Hsnaps sn id) as (es & Hes & Hdep); [by eapply elem_of_list_lookup_2|].
    destruct (good_load c (sn_tree sn) es Hc Hes Hdep) as (c1 & fo & -> & Hc1 & Hg). cbn [obind fst snd].
    exists c1, (<[Z.of_nat i := (sn_tree sn, fo)]> m). split; [done|]. split; [done|]. split; [|split].
    - destruct Hm as [Hm0 Hm]. split; [rewrite lookup_insert_ne by lia; done|]. intros j r fo' [[E1 E2]|[Hne E]]%lookup_insert_Some.
      + injection E2 as <- <-. apply Nat2Z.inj in E1 as <-. split; [done|]. by exists sn, id.
      + by apply Hm.
    - intros z Hz. destruct (decide (z = Z.of_nat i)) as [->|Hne]; [rewrite lookup_insert; by eexists|by rewrite lookup_insert_ne].
    - rewrite lookup_insert. by eexists. }
  rewrite E1. destruct (IH Hall' c1 Hc1 m1 Hm1) as (c2 & m2 & E2 & Hm2 & Hsub2 & Hin2). exists c2, m2. split; [exact E2|]. split; [done|].
  split; [auto|]. intros j x [E|Hx]%elem_of_cons Hj; [|by eapply Hin2]. injection E as -> ->. apply Hsub2, Hin, Hj.
Qed.

Notation stat_block := (shown_changes H st (fl_metadata fl) snaps).

Lemma stat_only_ok (chosen : gset oid) c : good_cache H k c ->
  exists bs, stat_only H gr (read_tree k bmap) fuel fl c chosen snaps = Some (Ok (concat bs)) /\
    Forall2 stat_block (List.filter (fun x : nat * (snapshot * oid) => bool_decide (x.2.2 ∈ chosen)) (in_turn fl (imap pair snaps))) bs.
Proof.
  intros Hc. unfold stat_only. destruct (load_needed_ok c (needed_indices chosen snaps) Hc) as (c' & m & E & [Hm0 Hm] & Hin).
  rewrite E. cbn [obind snd].
  match goal with |- context[ofold ?f _ _] => destruct (ofold_blocks f (fun x : nat * (snapshot * oid) => bool_decide (x.2.2 ∈ chosen)) stat_block
    (in_turn fl (imap pair snaps)) []) as (bs & Eb & HF) end.
  - intros [i [sn id]] o Hx Hb. cbn [fst snd] in *. apply bool_decide_eq_true in Hb. rewrite decide_True by done. cbv zeta.
    assert (snaps !! i = Some (sn, id)) as Hi.
    { apply (elem_of_numbered snaps (i, (sn, id))). unfold in_turn in Hx. destruct (fl_reverse fl); [by apply elem_of_list_In, in_rev, elem_of_list_In in Hx|done]. }
    destruct (needed_spec chosen i sn id Hi Hb) as [N1 N2].
    destruct (Hin i) as [[r2 fo2] E2]; [by eapply lookup_lt_Some|done|]. destruct (Hm i r2 fo2 E2) as (G2 & sn' & id' & Hi' & ->).
    rewrite Hi in Hi'. injection Hi' as <- <-.
    assert (exists fo1, m !! (Z.of_nat i - 1)%Z = Some (tree_before H snaps i, fo1) /\ good (tree_before H snaps i) fo1) as (fo1 & E1 & G1).
    { destruct i as [|j].
      - exists (null_forest H).2. cbn [tree_before]. split; [exact Hm0|]. apply good_null. done.
      - replace (Z.of_nat (S j) - 1)%Z with (Z.of_nat j) in * by lia. destruct (Hin j) as [[r1 fo1] E1]; [apply lookup_lt_Some in Hi; lia|done|].
        destruct (Hm j r1 fo1 E1) as (G1 & sn1 & id1 & Hi1 & ->). exists fo1. cbn [tree_before]. rewrite Hi1. done. }
    rewrite E1, E2, bool_decide_eq_true_2 by done.
    destruct (good_stat (fl_metadata fl) _ _ _ _ G1 G2) as (ls & Hch & _ & Hp). rewrite Hp, steps_plain. cbn [obind app].
    eexists. split; [done|]. exists ls. split; [exact Hch|]. done.
  - intros [i [sn id]] o Hx Hb. apply bool_decide_eq_false in Hb. by rewrite decide_False.
  - exists bs. split; [exact Eb|done].
Qed.

(** ** With sizes *)

Section sizes.
Hypothesis Hsized : forall sn id x, (sn, id) ∈ snaps -> needs H st (sn_tree sn) x -> is_Some (sm !! x).

Definition deco (x : nat * (snapshot * oid)) (d : decorated) : Prop :=
  d_index d = x.1 /\ d_snapshot d = x.2.1 /\ d_id d = x.2.2 /\ good (sn_tree x.2.1) (d_forest d) /\
  right_sizes H st sm (seen_before H st snaps x.1) (sn_tree x.2.1) (d_sizes d) /\
  right_files H st sm (seen_before H st snaps x.1) (sn_tree x.2.1) (d_files d).

Lemma seen_next i sn id x : snaps !! i = Some (sn, id) ->
  seen_before H st snaps (S i) x <-> seen_before H st snaps i x \/ needs H st (sn_tree sn) x.
Proof.
  intros Hi. unfold seen_before. split.
  - intros (j & sn' & id' & Hj & E & Hn). destruct (decide (j = i)) as [->|Hne]; [right|left; exists j, sn', id'; split; [lia|done]].
    rewrite Hi in E. by injection E as <- <-.
  - intros [(j & sn' & id' & Hj & E & Hn)|Hn]; [exists j, sn', id'|exists i, sn, id]; (split; [lia|done]).
Qed.

Lemma decorate_ok c : good_cache H k c ->
  exists ds, decorate (read_tree k bmap) sm fuel c snaps = Some (Ok ds) /\ Forall2 deco (imap pair snaps) ds.
Proof.
  intros Hc. unfold decorate.
  assert (forall l i l0 c v ds, good_cache H k c -> (forall x, x ∈ v <-> seen_before H st snaps i x) -> Forall2 deco l0 ds ->
    (forall j x, l !! j = Some x -> x.1 = i + j /\ snaps !! x.1 = Some x.2) ->
    exists c' v' ds', ofold (fun (x : nat * (snapshot * oid)) (st : forest * gset oid * list decorated) =>
      let '(cache, visited, ds) := st in
      obind (forest_from_root (read_tree k bmap) fuel cache (sn_tree x.2.1)) (fun r =>
      obind (forest_sizes_at r.2 sm fuel (sn_tree x.2.1) visited) (fun y =>
        let '(visited', s, files) := y in
        Some (Ok (r.1, visited', ds ++ [mkDecorated x.1 x.2.1 x.2.2 r.2 s files])))))
      l (c, v, ds) = Some (Ok (c', v', ds')) /\ Forall2 deco (l0 ++ l) ds') as Hgen.
  { clear c Hc. induction l as [|[i' [sn id]] l IH]; intros i l0 c v ds Hc Hv HF Hl; cbn [ofold].
    { exists c, v, ds. by rewrite app_nil_r. }
    destruct (Hl 0 (i', (sn, id)) eq_refl) as [E Hi]. cbn [fst snd] in E, Hi. rewrite Nat.add_0_r in E. subst i'.
    assert ((sn, id) ∈ snaps) as Hin by by eapply elem_of_list_lookup_2.
    destruct (Hsnaps sn id Hin) as (es & Hes & Hd).
    destruct (good_load c (sn_tree sn) es Hc Hes Hd) as (c1 & fo & E1 & Hc1 & Hg). cbn [fst snd]. rewrite E1. cbn [obind fst snd].
    destruct (one_sizes (sn_tree sn) fo es sm (seen_before H st snaps i) v Hg Hes (fun x => Hsized sn id x Hin) Hv) as (v1 & s & files & E2 & Rs & Rf & Hv1).
    rewrite E2. cbn [obind].
    destruct (IH (S i) (l0 ++ [(i, (sn, id))]) c1 v1 (ds ++ [mkDecorated i sn id fo s files])) as (c' & v' & ds' & E' & HF').
    - done.
    - intros x. rewrite Hv1. symmetry. by apply (seen_next i sn id).
    - apply Forall2_app; [done|]. constructor; [|constructor]. split; [done|]. split; [done|]. split; [done|]. cbn. done.
    - intros j x Ej. destruct (Hl (S j) x Ej) as [E Hx]. split; [lia|done].
    - exists c', v', ds'. split; [exact E'|]. by rewrite <-app_assoc in HF'. }
  destruct (Hgen (imap pair snaps) 0 [] c ∅ [] Hc) as (c' & v' & ds & E & HF).
  - intros x. split; [intros Hx; by apply elem_of_empty in Hx|]. intros (j & _ & _ & Hj & _). lia.
  - constructor.
  - intros j x Ej. rewrite list_lookup_imap in Ej. destruct (snaps !! j) as [y|] eqn:Ey; [|done]. injection Ej as <-. done.
  - rewrite E. cbn [obind snd]. by exists ds.
Qed.

Hypothesis Hgr : counts_graphemes gr.
Hypothesis Hclean : forall sn id, (sn, id) ∈ snaps -> exists es, restores H k sn es /\ clean_names es.

Lemma shown_somewhere sn id fo p n : (sn, id) ∈ snaps -> good (sn_tree sn) fo -> stored_at H st (sn_tree sn) p = Some n -> 0 < gr (render p).
Proof.
  intros Hin Hg E. destruct (Hclean sn id Hin) as (es & Hes & Hcl).
  pose proof (forest_agrees H U HU Hlen k ix bmap Hk Eix Ebm fo fuel (sn_tree sn) es (proj2 Hg) (proj1 Hg) Hes p) as Ha.
  rewrite (good_at _ _ p Hg), E in Ha. cbn [agree] in Ha. destruct (fs_at es p) as [f|] eqn:Ef; [|done].
  apply Hcl in Ef as Hp. assert (p <> []) as Hne by by intros ->.
  destruct (path_text_end p Hp Hne) as [Ht _]. rewrite render_text by done.
  destruct (gr (path_text p)) as [|w] eqn:Ew; [|lia]. by apply (gr_pos gr Hgr) in Ew.
Qed.

Lemma belongs_some show_meta o1 o2 pre n : belongs show_meta o1 o2 pre n -> is_Some o1 \/ is_Some o2.
Proof.
  intros [[_ [-> _]]|[[_ [-> _]]|[[_ (n2 & -> & _)]|[_ (n1 & m & -> & _)]]]]; (by left; eexists) || (by right; eexists).
Qed.

Lemma print_decorated_ok ds i sn id d : Forall2 deco (imap pair snaps) ds -> snaps !! i = Some (sn, id) -> ds !! i = Some d ->
  exists b, print_decorated H gr fuel fl ds d = Some (Ok b) /\ shown_sizes H gr st sm fl snaps (i, (sn, id)) b.
Proof.
  intros HF Hi Ed.
  assert (imap pair snaps !! i = Some (i, (sn, id))) as Ei by by rewrite list_lookup_imap, Hi.
  destruct (Forall2_lookup_lr _ _ _ _ _ _ HF Ei Ed) as (D1 & D2 & D3 & G2 & Rs & Rf). cbn [fst snd] in *.
  unfold print_decorated. rewrite D1, D2, D3. unfold shown_sizes. cbn [fst snd].
  destruct (fl_stat fl) eqn:Fs.
  - assert (exists fo1, match i with
             | O => Some (Ok (null_forest H))
             | S i =>
                 match ds !! i with
                 | Some prev =>
                     if Nat.eqb (d_index prev) i then Some (Ok (sn_tree (d_snapshot prev), d_forest prev)) else Some Panic
                 | None => Some Panic
                 end
             end = Some (Ok (tree_before H snaps i, fo1)) /\ good (tree_before H snaps i) fo1 /\
             forall p n, stored_at H st (tree_before H snaps i) p = Some n -> 0 < gr (render p)) as (fo1 & E1 & G1 & P1).
    { destruct i as [|j].
      - exists (null_forest H).2. split; [done|]. split; [by apply good_null|]. intros p n E. cbn [tree_before] in E. by rewrite stored_at_empty in E.
      - destruct (lookup_lt_is_Some_2 snaps j) as [[sn1 id1] Hj]; [apply lookup_lt_Some in Hi; lia|].
        assert (imap pair snaps !! j = Some (j, (sn1, id1))) as Ej by by rewrite list_lookup_imap, Hj.
        destruct (Forall2_lookup_l _ _ _ _ _ HF Ej) as (d1 & Ed1 & Q1 & Q2 & Q3 & G1 & _). cbn [fst snd] in *.
        exists (d_forest d1). rewrite Ed1, Q1, Q2, Nat.eqb_refl. cbn [tree_before]. rewrite Hj. split; [done|]. split; [done|].
        intros p n. apply (shown_somewhere sn1 id1 (d_forest d1)); [by eapply elem_of_list_lookup_2|done]. }
    rewrite E1. cbn [obind]. clear E1.
    assert (forall p n, stored_at H st (sn_tree sn) p = Some n -> 0 < gr (render p)) as P2.
    { intros p n. apply (shown_somewhere sn id (d_forest d)); [by eapply elem_of_list_lookup_2|done]. }
    destruct (good_stat (fl_metadata fl) _ _ _ _ G1 G2) as (ls & Hch & Hm & Hp). destruct (fl_file_sizes fl) eqn:Ff.
    + rewrite Hm. cbn [obind]. rewrite Hp. set (width := visit (longer gr) 0 ls).
      assert (forall l, l ∈ ls -> 0 < width /\ gr (shown_path l.1.2 l.2) <= width) as Hw.
      { intros [[pre p] n] Hl. destruct (longest_max gr ls 0) as [_ Hmax]. specialize (Hmax _ Hl). fold width in Hmax. cbn [fst snd] in *.
        pose proof (shown_fits gr p n Hgr) as Hfit. split; [|lia]. apply (proj2 Hch) in Hl.
        assert (0 < gr (render p)) as Hpos. { apply belongs_some in Hl as [[n' En']|[n' En']]; [by eapply P1|by eapply P2]. }
        unfold path_length in Hmax. lia. }
      assert (steps gr width (Some (size_lookup (d_files d))) (Ok []) ls =
        Ok (map (fun l : line => PathLine (indented l) (Some (width - gr (shown_path l.1.2 l.2), size_lookup (d_files d) !! l.1.2))) ls)) as Est.
      { destruct ls as [|l ls']; [done|]. rewrite steps_padded; [done|by eapply Hw; left|]. intros l' Hl'. by apply Hw. }
      rewrite Est. cbn [obind]. eexists. split; [done|]. eexists _, (d_files d), _. split; [exact Rs|]. split; [exact Rf|]. split; [done|].
      eexists ls, _. split; [exact Hch|]. split; [|done]. exists width.
      assert (forall l, l ∈ ls -> gr (shown_path l.1.2 l.2) <= width) as Hw' by (intros; by apply Hw). clearbody width. clear -Hw' Rf.
      induction ls as [|l ls IH]; cbn [map]; [constructor|]. constructor; [|apply IH; intros; apply Hw'; by right].
      eexists _, _. split; [done|]. pose proof (Hw' l (elem_of_list_here _ _)). split; [lia|]. intros z. apply size_lookup_ok. apply Rf.
    + rewrite Hp, steps_plain. cbn [obind app]. eexists. split; [done|]. eexists _, (d_files d), _. split; [exact Rs|]. split; [exact Rf|]. split; [done|].
      exists ls. done.
  - destruct (fl_file_sizes fl) eqn:Ff.
    + destruct (file_report_ok gr (d_files d)) as (items & Hit & E). rewrite E. cbn [obind]. eexists. split; [done|].
      eexists _, (d_files d), _. split; [exact Rs|]. split; [exact Rf|]. split; [done|]. exists items. done.
    + cbn [obind]. eexists. split; [done|]. eexists _, (d_files d), _. split; [exact Rs|]. split; [exact Rf|]. done.
Qed.

Lemma with_sizes_ok (chosen : gset oid) c : good_cache H k c ->
  exists bs, with_sizes H gr (read_tree k bmap) sm fuel fl c chosen snaps = Some (Ok (concat bs)) /\
    Forall2 (shown_sizes H gr st sm fl snaps) (List.filter (fun x : nat * (snapshot * oid) => bool_decide (x.2.2 ∈ chosen)) (in_turn fl (imap pair snaps))) bs.
Proof.
  intros Hc. unfold with_sizes. destruct (decorate_ok c Hc) as (ds & -> & HF). cbn [obind].
  set (Q := fun (d : decorated) (b : list item) => exists x, deco x d /\ shown_sizes H gr st sm fl snaps x b).
  assert (forall d, d ∈ in_turn fl ds -> d ∈ ds) as Hin.
  { intros d. unfold in_turn. destruct (fl_reverse fl); [|done]. intros Hd. by apply elem_of_list_In, in_rev, elem_of_list_In in Hd. }
  match goal with |- context[ofold ?f _ _] => destruct (ofold_blocks f (fun d : decorated => bool_decide (d_id d ∈ chosen))
    (fun d b => shown_sizes H gr st sm fl snaps (d_index d, (d_snapshot d, d_id d)) b) (in_turn fl ds) []) as (bs & Eb & HB) end.
  - intros d o Hd Hb. apply bool_decide_eq_true in Hb. rewrite decide_True by done. apply Hin, elem_of_list_lookup in Hd as [i Ei].
    destruct (Forall2_lookup_r _ _ _ _ _ HF Ei) as ([i' [sn id]] & Ex & Hd). rewrite list_lookup_imap in Ex. destruct (snaps !! i) as [y|] eqn:Ey; [|done].
    injection Ex as <- ->. destruct (print_decorated_ok ds i sn id d HF Ey Ei) as (b & Ep & Hs). rewrite Ep. cbn [obind]. exists b. split; [done|].
    destruct Hd as (D1 & D2 & D3 & _). cbn [fst snd] in *. by rewrite D1, D2, D3.
  - intros d o _ Hb. apply bool_decide_eq_false in Hb. by rewrite decide_False.
  - exists bs. split; [exact Eb|].
    assert (Forall2 (fun x (d : decorated) => x = (d_index d, (d_snapshot d, d_id d))) (imap pair snaps) ds) as HE.
    { eapply Forall2_impl; [exact HF|]. intros [i [sn id]] d (D1 & D2 & D3 & _). cbn [fst snd] in *. by rewrite D1, D2, D3. }
    assert (imap pair snaps = map (fun d => (d_index d, (d_snapshot d, d_id d))) ds) as ->.
    { clear -HE. induction HE as [|x d l ds E HE IH]; [done|]. cbn [map]. by rewrite E, <-IH. }
    replace (in_turn fl (map (fun d => (d_index d, (d_snapshot d, d_id d))) ds)) with (map (fun d => (d_index d, (d_snapshot d, d_id d))) (in_turn fl ds))
      by (unfold in_turn; destruct (fl_reverse fl); [apply map_rev|done]).
    revert HB. generalize (in_turn fl ds) as l. clear. intros l. revert bs. induction l as [|d l IH]; intros bs HB; [apply Forall2_nil_inv_l in HB as ->; constructor|].
    cbn [map List.filter fst snd] in *. destruct (bool_decide (d_id d ∈ chosen)); [|by apply IH].
    apply Forall2_cons_inv_l in HB as (b & bs' & Hb & HB & ->). constructor; [done|]. by apply IH.
Qed.
End sizes.
End snaps.
End repo.

(** ** Put together *)

Lemma chosen_shown fl (snaps sal : list (snapshot * oid)) :
  List.filter (fun x : nat * (snapshot * oid) => bool_decide (x.2.2 ∈ (list_to_set (map snd (match sal with [] => snaps | _ => sal end)) : gset oid)))
    (in_turn fl (imap pair snaps)) = to_show (fl_reverse fl) snaps sal.
Proof.
  unfold to_show, in_turn.
  assert (List.filter (fun x : nat * (snapshot * oid) => bool_decide (x.2.2 ∈ (list_to_set (map snd (match sal with [] => snaps | _ => sal end)) : gset oid))) (imap pair snaps) =
    List.filter (fun x : nat * (snapshot * oid) => bool_decide (sal = []) || bool_decide (x.2.2 ∈ map snd sal)) (imap pair snaps)) as E.
  { apply filter_same. intros [i [sn id]] Hx. apply elem_of_numbered in Hx. cbn [fst snd] in *. destruct sal as [|y sal].
    - rewrite (bool_decide_eq_true_2 (@nil (snapshot * oid) = [])) by done. apply bool_decide_eq_true_2. apply elem_of_list_to_set.
      change (map snd snaps) with (snd <$> snaps). apply elem_of_list_fmap. exists (sn, id). split; [done|]. by eapply elem_of_list_lookup_2.
    - rewrite (bool_decide_eq_false_2 (y :: sal = [])) by done. cbn [orb]. apply bool_decide_ext. by rewrite elem_of_list_to_set. }
  destruct (fl_reverse fl); [|exact E]. by rewrite filter_rev_list, E.
Qed.

Lemma fuel_for {A} (P : A -> list (bytes * fsnode) -> Prop) (l : list A) : (forall x, x ∈ l -> exists es, P x es) ->
  exists f0, forall f, f0 <= f -> forall x, x ∈ l -> exists es, P x es /\ depth es < f.
Proof.
  induction l as [|y l IH]; intros Hl; [exists 0; intros f _ x Hx; by apply elem_of_nil in Hx|].
  destruct IH as [f0 Hf0]; [intros x Hx; apply Hl; by right|]. destruct (Hl y) as [es Hes]; [by left|].
  exists (f0 `max` S (depth es)). intros f Hf x [->|Hx]%elem_of_cons; [exists es; split; [done|lia]|]. apply Hf0; [lia|done].
Qed.

(** Sizes are the lengths of the blobs. *)
Lemma size_map_store (H : bytes -> oid) (U : blob -> Prop) (k : backend) (ix : index) (sm : gmap oid N) :
  universe H U -> in_order H U k -> master k = Ok ix -> blob_to_size_map ix = Ok sm ->
  forall x n, sm !! x = Some n <-> exists ty b, repo_store k !! x = Some (ty, b) /\ n = N.of_nat (length b).
Proof.
  intros HU Hk Eix Esm x n. pose proof (in_order_structured _ _ _ Hk) as Hst.
  destruct (master_ok H U HU k Hst) as (ix' & E & Hs & Hp). rewrite Eix in E. injection E as <-.
  assert (NoDup (blob_ids ix)) as Hnd.
  { rewrite <-flat_blob_ids. apply once_nodup; [apply om_sorted_nodup, Hs|]. eapply once_sub; [|apply (io_once _ _ _ Hk)]. intros p m. by apply Hp. }
  destruct (proj1 (C11_lookup_maps ix) Hnd) as (mp & st & sz & _ & _ & E3 & _ & _ & Hsz). rewrite Esm in E3. injection E3 as <-.
  rewrite Hsz. split.
  - intros (p & m & e & Hm & He & <- & <-). apply Hp in Hm. apply elem_of_list_lookup in He as [j He].
    assert (exists i ix0, k_indexes k !! i = Some ix0 /\ (p, m) ∈ ix_packs ix0) as (i & ix0 & Hi & Hm0).
    { unfold live_packs in Hm. apply elem_of_list_In, in_concat in Hm as (l & Hl & Hm). apply in_map_iff in Hl as (ix0 & <- & Hl).
      unfold live_indexes in Hl. apply in_map_iff in Hl as ([i ix1] & <- & Hl). apply filter_In in Hl as [Hl _]. apply elem_of_list_In, elem_of_map_to_list in Hl.
      exists i, ix1. split; [done|]. by apply elem_of_list_In. }
    destruct (st_backed _ _ _ Hst _ _ _ _ Hi Hm0) as (bs & Ebs & Em). subst m. unfold manifest_of in He. change (map entry_of bs) with (entry_of <$> bs) in He.
    apply list_lookup_fmap_Some in He as (b & Eb & ->). exists (b_type b), (b_bytes b). split; [|done].
    apply (repo_store_lookup H U HU); [apply Hst|]. apply elem_of_live_blobs. exists p, (manifest_of bs), bs. split; [done|]. split; [done|].
    destruct b. by eapply elem_of_list_lookup_2.
  - intros (ty & b & E & ->). apply (repo_store_lookup H U HU) in E; [|apply Hst]. apply elem_of_live_blobs in E as (p & m & bs & Hm & Ebs & Hb).
    assert (exists i ix0, k_indexes k !! i = Some ix0 /\ (p, m) ∈ ix_packs ix0) as (i & ix0 & Hi & Hm0).
    { pose proof Hm as Hm'. unfold live_packs in Hm'. apply elem_of_list_In, in_concat in Hm' as (l & Hl & Hm'). apply in_map_iff in Hl as (ix0 & <- & Hl).
      unfold live_indexes in Hl. apply in_map_iff in Hl as ([i ix1] & <- & Hl). apply filter_In in Hl as [Hl _]. apply elem_of_list_In, elem_of_map_to_list in Hl.
      exists i, ix1. split; [done|]. by apply elem_of_list_In. }
    destruct (st_backed _ _ _ Hst _ _ _ _ Hi Hm0) as (bs' & Ebs' & Em). rewrite Ebs in Ebs'. injection Ebs' as <-. subst m.
    exists p, (manifest_of bs), (entry_of (mkBlob ty x b)). split; [by apply Hp|]. split; [|done].
    unfold manifest_of. change (map entry_of bs) with (entry_of <$> bs). apply elem_of_list_fmap. by exists (mkBlob ty x b).
Qed.

(** Everything needed is stored, except perhaps the empty tree. *)
Lemma needs_in_store (H : bytes -> oid) (st : store) root es x : reads_root H st root es -> needs H st root x -> x = empty_id H \/ is_Some (st !! x).
Proof.
  intros Hr Hn. revert es Hr. induction Hn as [id|id t c Ht Hc|id t s x Ht Hs Hx IH]; intros es (t' & Ht' & HF).
  - unfold stored_as in Ht'. case_decide; [by left|]. right. destruct Ht' as (b & -> & _). by eexists.
  - assert (t' = t) as -> by by eapply stored_as_fun. unfold tree_chunks in Hc. apply elem_of_list_In, in_concat in Hc as (cs & Hcs & Hc).
    apply in_map_iff in Hcs as ([y n] & <- & Hin). apply elem_of_list_In in Hin. apply elem_of_list_In in Hc. cbn [snd] in Hc.
    apply elem_of_list_lookup in Hin as [i Ei]. eapply Forall2_lookup_l in HF as ([z f] & Ef & _ & Hrd); [|exact Ei]. cbn [snd] in Hrd. right.
    unfold node_chunks in Hc. inversion Hrd as [m cs ps Hps| |]; subst; cbn [n_contents] in Hc; [|by apply elem_of_nil in Hc|by apply elem_of_nil in Hc].
    apply elem_of_list_lookup in Hc as [j Ej]. eapply Forall2_lookup_l in Hps as (w & _ & ->); [|exact Ej]. by eexists.
  - assert (t' = t) as -> by by eapply stored_as_fun. unfold subtrees in Hs. apply elem_of_list_In, in_concat in Hs as (cs & Hcs & Hs).
    apply in_map_iff in Hcs as ([y n] & <- & Hin). apply elem_of_list_In in Hin. apply elem_of_list_In in Hs. cbn [snd] in Hs.
    apply elem_of_list_lookup in Hin as [i Ei]. eapply Forall2_lookup_l in HF as ([z f] & Ef & _ & Hrd); [|exact Ei]. cbn [snd] in Hrd.
    unfold node_subtree in Hs. inversion Hrd as [| |m id' u es' Hu Hes']; subst; cbn [n_contents] in Hs; [by apply elem_of_nil in Hs|by apply elem_of_nil in Hs|].
    apply elem_of_list_singleton in Hs as ->. apply (IH es'). by exists u.
Qed.
