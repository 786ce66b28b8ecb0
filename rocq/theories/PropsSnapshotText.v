(** C79: the list of snapshots can be read. *)

From Verif Require Import Base Formats Hashing HashingFacts Snapshots.

(** ** What the theorems speak about *)

(** No line break is in what is printed, and no space in a tag. *)
Definition one_line (date : snapshot -> bytes) (sn : snapshot) : Prop :=
  x0a ∉ sn_author sn /\ x0a ∉ date sn /\ Forall (fun t => x0a ∉ t /\ x20 ∉ t) (sn_tags sn) /\ Forall (fun p => x0a ∉ p) (sn_paths sn).
(** What is printed for a list of snapshots, without [--stat] and [--sizes] (C55_all_are_listed_once). *)
Definition listing (date : snapshot -> bytes) (nice : N -> bytes) (l : list (snapshot * oid)) : bytes :=
  concat (map (fun x => item_text nice date (Heading x.1 x.2 None)) l).
(** What there is to see of a snapshot. *)
Definition same_to_see (date : snapshot -> bytes) (x y : snapshot * oid) : Prop :=
  x.2 = y.2 /\ sn_tags x.1 = sn_tags y.1 /\ sn_author x.1 = sn_author y.1 /\ date x.1 = date y.1 /\ sn_paths x.1 = sn_paths y.1.

(** ** Proofs *)

Local Definition unlines (ls : list bytes) : bytes := concat (map (fun l => l ++ [x0a]) ls).
Lemma unlines_app l1 l2 : unlines (l1 ++ l2) = unlines l1 ++ unlines l2.
Proof. unfold unlines. by rewrite map_app, concat_app. Qed.
Lemma split_at (c : byte) x y a b : c ∉ x -> c ∉ y -> x ++ c :: a = y ++ c :: b -> x = y /\ a = b.
Proof.
  revert y. induction x as [|z x IH]; intros [|z' y] Hx Hy E; cbn in E.
  - by injection E as ->.
  - injection E as -> _. destruct Hy. left.
  - injection E as -> _. destruct Hx. left.
  - injection E as -> E. apply not_elem_of_cons in Hx as [_ Hx], Hy as [_ Hy]. by destruct (IH y Hx Hy E) as [-> ->].
Qed.
Lemma unlines_inj l1 l2 : Forall (fun l => x0a ∉ l) l1 -> Forall (fun l => x0a ∉ l) l2 -> unlines l1 = unlines l2 -> l1 = l2.
Proof.
  intros H1. revert l2. induction H1 as [|x l1 Hx _ IH]; intros l2 H2 E.
  - destruct l2 as [|y l2]; [done|]. unfold unlines in E. cbn in E. rewrite <-app_assoc in E. by destruct y.
  - destruct H2 as [|y l2 Hy H2]; unfold unlines in E; cbn in E; rewrite <-!app_assoc in E; [by destruct x|]. cbn in E.
    apply split_at in E as [-> E]; [|done|done]. f_equal. by apply IH.
Qed.
Lemma join_inj l1 l2 : Forall (fun t => x20 ∉ t) l1 -> Forall (fun t => x20 ∉ t) l2 -> l1 <> [] -> l2 <> [] -> join_spaces l1 = join_spaces l2 -> l1 = l2.
Proof.
  intros H1. revert l2. induction H1 as [|x l1 Hx H1 IH]; intros l2 H2 N1 N2 E; [done|]. destruct H2 as [|y l2 Hy H2]; [done|].
  destruct l1 as [|x' l1], l2 as [|y' l2].
  - cbn in E. by rewrite E.
  - change (x = y ++ x20 :: join_spaces (y' :: l2)) in E. destruct Hx. rewrite E. apply elem_of_app. right. left.
  - change (x ++ x20 :: join_spaces (x' :: l1) = y) in E. destruct Hy. rewrite <-E. apply elem_of_app. right. left.
  - change (x ++ x20 :: join_spaces (x' :: l1) = y ++ x20 :: join_spaces (y' :: l2)) in E. apply split_at in E as [-> E]; [|done|done].
    f_equal. by apply IH.
Qed.
Lemma join_no (c : byte) l : c <> x20 -> Forall (fun t => c ∉ t) l -> c ∉ join_spaces l.
Proof.
  intros Hc. induction 1 as [|x l Hx H1 IH]; [apply not_elem_of_nil|]. destruct l as [|y l]; [done|].
  change (c ∉ x ++ x20 :: join_spaces (y :: l)). rewrite elem_of_app, elem_of_cons. intros [?|[?|?]]; done.
Qed.

Local Definition heading (x : snapshot * oid) : bytes :=
  ascii_bytes "snapshot " ++ oid_print x.2 ++ match sn_tags x.1 with [] => [] | ts => ascii_bytes " (" ++ join_spaces ts ++ ascii_bytes ")" end.
Local Definition lines_of (date : snapshot -> bytes) (x : snapshot * oid) : list bytes :=
  [heading x; ascii_bytes "Author: " ++ sn_author x.1; ascii_bytes "Date:   " ++ date x.1] ++
  match sn_paths x.1 with [] => [] | _ => [[]] end ++ map (fun p => ascii_bytes "  - " ++ p) (sn_paths x.1) ++ [[]].
Lemma listing_lines date nice l : listing date nice l = unlines (concat (map (lines_of date) l)).
Proof.
  unfold listing. induction l as [|[sn id] l IH]; [done|]. cbn [map concat]. rewrite unlines_app, IH. f_equal. clear IH.
  unfold item_text, lines_of, heading. rewrite !unlines_app. unfold unlines. cbn [map concat fst snd]. rewrite !app_nil_r, <-!app_assoc. cbn [app].
  rewrite map_map.
  assert (map (fun p => (ascii_bytes "  - " ++ p) ++ [x0a]) (sn_paths sn) = map (fun p => ascii_bytes "  - " ++ p ++ [x0a]) (sn_paths sn)) as ->
    by (apply map_ext; intros; by rewrite <-app_assoc). by destruct (sn_paths sn).
Qed.

Lemma symbols_no_break : Forall (fun b => b <> x0a) symbols.
Proof. apply (bool_decide_unpack _). vm_compute. exact I. Qed.
Lemma oid_no_break i : x0a ∉ oid_print i.
Proof.
  unfold oid_print, base32_encode. intros (g & E & _)%elem_of_list_fmap. unfold sym in E.
  destruct (nth_in_or_default (N.to_nat (num_of 0 g)) symbols x00) as [Hin|E'].
  - pose proof symbols_no_break as Hp. rewrite Forall_forall in Hp. apply (Hp _ (proj2 (elem_of_list_In _ _) Hin)). by rewrite <-E.
  - by rewrite E' in E.
Qed.
Lemma no_break (s : string) : forallb (fun b => negb (bool_decide (b = x0a))) (ascii_bytes s) = true -> x0a ∉ ascii_bytes s.
Proof. intros Hf Hin. rewrite forallb_forall in Hf. by specialize (Hf x0a (proj1 (elem_of_list_In _ _) Hin)). Qed.
Lemma lines_no_break date x : one_line date x.1 -> Forall (fun l => x0a ∉ l) (lines_of date x).
Proof.
  intros (Ha & Hd & Ht & Hp). unfold lines_of. repeat apply Forall_app_2.
  - repeat apply Forall_cons_2; [| | |constructor].
    + unfold heading. rewrite !not_elem_of_app. split; [by apply no_break|]. split; [apply oid_no_break|].
      destruct (sn_tags x.1) as [|t ts] eqn:Et; [apply not_elem_of_nil|]. rewrite !not_elem_of_app. split; [by apply no_break|]. split; [|by apply no_break].
      apply join_no; [done|]. eapply Forall_impl; [exact Ht|]. by intros ? [? _].
    + rewrite not_elem_of_app. split; [by apply no_break|done].
    + rewrite not_elem_of_app. split; [by apply no_break|done].
  - destruct (sn_paths x.1); repeat constructor. apply not_elem_of_nil.
  - apply Forall_map. eapply Forall_impl; [exact Hp|]. intros p Hq. cbn beta. rewrite not_elem_of_app. split; [by apply no_break|done].
  - repeat constructor. apply not_elem_of_nil.
Qed.
Lemma heading_inj date x y : oid_wf x.2 -> oid_wf y.2 -> one_line date x.1 -> one_line date y.1 -> heading x = heading y ->
  x.2 = y.2 /\ sn_tags x.1 = sn_tags y.1.
Proof.
  intros Wx Wy (_ & _ & Tx & _) (_ & _ & Ty & _) E. unfold heading in E. apply app_inv_head in E.
  apply app_inj_1 in E as [Ei E]; [|by rewrite !oid_print_length].
  split. { apply (f_equal oid_parse) in Ei. rewrite !oid_parse_print in Ei by done. by injection Ei. }
  destruct (sn_tags x.1) as [|t ts], (sn_tags y.1) as [|u us]; [done|done|done|].
  apply app_inv_head, app_inv_tail in E. apply join_inj; [..|exact E]; try done; (eapply Forall_impl; [eassumption|]; by intros ? [_ ?]).
Qed.
Lemma cons_eq (a b : bytes) l k : a :: l = b :: k -> a = b /\ l = k.
Proof. by intros [= -> ->]. Qed.
Lemma paths_inj ps qs (r1 r2 : list bytes) : map (fun p => ascii_bytes "  - " ++ p) ps ++ [] :: r1 = map (fun p => ascii_bytes "  - " ++ p) qs ++ [] :: r2 -> ps = qs /\ r1 = r2.
Proof.
  revert qs. induction ps as [|p ps IH]; intros [|q qs] E.
  - by injection E as ->.
  - done.
  - done.
  - cbn [map] in E. apply cons_eq in E as [E1%app_inv_head E2]. apply IH in E2 as [-> ->]. by rewrite E1.
Qed.
Lemma list_inj date l1 l2 : Forall (fun x => oid_wf x.2 /\ one_line date x.1) l1 -> Forall (fun x => oid_wf x.2 /\ one_line date x.1) l2 ->
  concat (map (lines_of date) l1) = concat (map (lines_of date) l2) -> Forall2 (same_to_see date) l1 l2.
Proof.
  intros H1. revert l2. induction H1 as [|x l1 [Wx Ox] _ IH]; intros l2 H2 E.
  { destruct l2; [constructor|done]. }
  destruct H2 as [|y l2 [Wy Oy] H2]; [done|]. cbn [map concat] in E. unfold lines_of in E at 1 3. cbn [app] in E.
  apply cons_eq in E as [E1 E], E as [E2%app_inv_head E], E as [E3%app_inv_head E4].
  apply (heading_inj date) in E1 as [Ei Et]; [|done..].
  assert (forall (z : snapshot * oid) (l : list (snapshot * oid)) q (r : list bytes), concat (map (lines_of date) l) <> (ascii_bytes "  - " ++ q) :: r) as Hq.
  { intros z [|w l] q r E; [done|]. cbn [map concat lines_of app] in E. by apply cons_eq in E as [E _]. }
  rewrite <-!app_assoc in E4. cbn [app] in E4.
  assert (sn_paths x.1 = sn_paths y.1 /\ concat (map (lines_of date) l1) = concat (map (lines_of date) l2)) as [Ep El].
  { destruct (sn_paths x.1) as [|p ps], (sn_paths y.1) as [|q qs]; cbn [app map] in E4.
    - by apply cons_eq in E4 as [_ ->].
    - apply cons_eq in E4 as [_ E4]. by destruct (Hq x _ _ _ E4).
    - apply cons_eq in E4 as [_ E4]. symmetry in E4. by destruct (Hq x _ _ _ E4).
    - apply cons_eq in E4 as [_ E4]. apply (paths_inj (p :: ps) (q :: qs)) in E4 as [-> ->]. done. }
  constructor; [|by apply IH]. split_and!; done.
Qed.

(** ** C79 *)

(** If no line break is in what is printed and no space in a tag, the list tells which
    snapshots there are: two lists that look the same have the same snapshots in the same
    order, with the same ids, tags, authors, dates and paths. *)
Theorem C79_the_list_can_be_read_partial date nice l1 l2 :
  Forall (fun x => oid_wf x.2 /\ one_line date x.1) l1 -> Forall (fun x => oid_wf x.2 /\ one_line date x.1) l2 ->
  listing date nice l1 = listing date nice l2 -> Forall2 (same_to_see date) l1 l2.
Proof.
  intros H1 H2 E. rewrite !listing_lines in E. apply list_inj; [done|done|].
  apply unlines_inj; [| |done]; apply Forall_concat, Forall_map; (eapply Forall_impl; [eassumption|]; intros ? [_ ?]; by apply lines_no_break).
Qed.

(** ** Where it cannot *)

Local Definition sn (tags paths : list bytes) (author : bytes) : snapshot := mkSnapshot 0 [] author tags paths (replicate 28 x00).
Local Definition tx (s : string) : bytes := ascii_bytes s.
Local Definition ex_date (_ : snapshot) : bytes := tx "2024-05-01".
Local Definition id1 : oid := replicate 28 x01.
Local Definition id2 : oid := replicate 28 x02.

(** A tag with a space in it looks like two tags. *)
Theorem C79_refuted_tags : exists date nice sn1 sn2 id, oid_wf id /\ length (sn_tags sn1) <> length (sn_tags sn2) /\
  Forall (fun p => x0a ∉ p) (sn_paths sn1 ++ sn_paths sn2 ++ sn_tags sn1 ++ sn_tags sn2) /\
  listing date nice [(sn1, id)] = listing date nice [(sn2, id)].
Proof.
  exists ex_date, (fun _ => []), (sn [tx "old laptop"] [tx "/home"] (tx "me")), (sn [tx "old"; tx "laptop"] [tx "/home"] (tx "me")), id1.
  split; [done|]. split; [done|]. split; [|vm_compute; reflexivity].
  cbn [sn sn_paths sn_tags app]. repeat apply Forall_cons_2; [..|constructor]; by apply no_break.
Qed.
(** A path with line breaks in it looks like a snapshot that is not there. *)
Theorem C79_refuted_paths : exists date nice sn1 sn2 sn3 id id', oid_wf id /\ oid_wf id' /\
  listing date nice [(sn1, id)] = listing date nice [(sn2, id); (sn3, id')].
Proof.
  exists ex_date, (fun _ => []),
    (sn [] [tx "/home" ++ [x0a; x0a] ++ tx "snapshot " ++ oid_print id2 ++ [x0a] ++ tx "Author: you" ++ [x0a] ++ tx "Date:   2024-05-01" ++ [x0a; x0a] ++ tx "  - /etc"] (tx "me")),
    (sn [] [tx "/home"] (tx "me")), (sn [] [tx "/etc"] (tx "you")), id1, id2.
  split; [done|]. split; [done|]. vm_compute. reflexivity.
Qed.

(** ** A concrete case *)

Example C79_witness :
  let l := [(sn [tx "home"; tx "weekly"] [tx "/home/me"; tx "/etc"] (tx "me and you"), id1); (sn [] [] (tx "root"), id2)] in
  Forall (fun x => oid_wf x.2 /\ one_line ex_date x.1) l /\
  listing ex_date (fun _ => []) l =
    tx "snapshot 04" ++ drop 2 (oid_print id1) ++ tx " (home weekly)" ++ [x0a] ++ tx "Author: me and you" ++ [x0a] ++ tx "Date:   2024-05-01" ++ [x0a; x0a] ++
    tx "  - /home/me" ++ [x0a] ++ tx "  - /etc" ++ [x0a; x0a] ++
    tx "snapshot " ++ oid_print id2 ++ [x0a] ++ tx "Author: root" ++ [x0a] ++ tx "Date:   2024-05-01" ++ [x0a; x0a].
Proof.
  split; [|vm_compute; reflexivity].
  repeat apply Forall_cons_2; [..|constructor]; (split; [done|]); apply (bool_decide_unpack _); vm_compute; exact I.
Qed.

Print Assumptions C79_the_list_can_be_read_partial.
Print Assumptions C79_refuted_tags.
Print Assumptions C79_refuted_paths.
