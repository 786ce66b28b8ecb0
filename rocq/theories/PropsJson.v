(** C74: what cat prints can be read. *)

From Verif Require Import Base OMap Cbor Formats FormatsFacts Hashing HashingFacts Index Forest Select PropsSelect Check Cat PropsCat Json JsonSpec.

(** ** Reading back what was printed *)

Fixpoint json_ind' (P : json -> Prop) (Hn : P JNull) (Hm : forall n, P (JNum n)) (Hs : forall s, P (JStr s))
    (Ha : forall l, Forall P l -> P (JArr l)) (Ho : forall l, Forall (fun kv : bytes * json => P kv.2) l -> P (JObj l)) (j : json) : P j :=
  match j with
  | JNull => Hn
  | JNum n => Hm n
  | JStr s => Hs s
  | JArr l => Ha l ((fix go (l : list json) : Forall P l := match l with [] => Forall_nil_2 P | x :: l' => Forall_cons_2 P x l' (json_ind' P Hn Hm Hs Ha Ho x) (go l') end) l)
  | JObj l => Ho l ((fix go (l : list (bytes * json)) : Forall (fun kv : bytes * json => P kv.2) l :=
      match l with [] => Forall_nil_2 _ | x :: l' => Forall_cons_2 _ x l' (json_ind' P Hn Hm Hs Ha Ho x.2) (go l') end) l)
  end.

Lemma read_escape b r : read_str (escape b ++ r) = '(t, r') ← read_str r; Some (b :: t, r').
Proof. destruct b; reflexivity. Qed.
Lemma read_print_str s r : read_str (concat (map escape s) ++ x22 :: r) = Some (s, r).
Proof. induction s as [|b s IH]; [done|]. cbn [map concat]. rewrite <-app_assoc, read_escape, IH. done. Qed.

Lemma digit_byte d : (d < 10)%N -> b2n (n2b (48 + d)) = (48 + d)%N.
Proof. intros Hd. apply b2n_n2b_small. lia. Qed.
Lemma digits_value_snoc ds b : digits_value (ds ++ [b]) = (10 * digits_value ds + (b2n b - 48))%N.
Proof. unfold digits_value. by rewrite foldl_app. Qed.
Lemma digits_spec f n acc : (n < 2 ^ N.of_nat f)%N -> f <> 0 ->
  exists ds, digits f n acc = ds ++ acc /\ ds <> [] /\ Forall (fun b => is_digit b = true) ds /\ digits_value ds = n /\
    (n <> 0%N -> head ds <> Some x30) /\ (n = 0%N -> ds = [x30]).
Proof.
  revert n acc. induction f as [|f IH]; [done|]. intros n acc Hn _. cbn [digits].
  assert (n mod 10 < 10)%N as Hm by (apply N.mod_lt; lia).
  pose proof (N.div_mod n 10 ltac:(lia)) as Hdm.
  assert (is_digit (n2b (48 + n mod 10)) = true) as Hd.
  { unfold is_digit. rewrite digit_byte by done. apply andb_true_iff; split; apply N.leb_le; lia. }
  destruct (N.eqb_spec (n / 10) 0) as [E|E].
  - exists [n2b (48 + n mod 10)]. split; [done|]. split; [done|]. split; [by constructor|].
    split; [unfold digits_value; cbn [foldl]; rewrite digit_byte by done; lia|]. rewrite E in Hdm. split; [|intros ->; reflexivity].
    intros Hn0 [= Hh]. apply (f_equal b2n) in Hh. rewrite digit_byte in Hh by done. change (b2n x30) with 48%N in Hh. lia.
  - assert (n / 10 < 2 ^ N.of_nat f)%N as Hlt.
    { apply N.div_lt_upper_bound; [lia|]. rewrite Nat2N.inj_succ, N.pow_succ_r' in Hn. lia. }
    destruct (IH (n / 10)%N (n2b (48 + n mod 10) :: acc) Hlt) as (ds & E1 & E2 & E3 & E4 & E5 & _); [intros ->; cbn in Hlt; lia|].
    exists (ds ++ [n2b (48 + n mod 10)]). rewrite E1, <-app_assoc. split; [done|]. split; [by destruct ds|].
    split; [apply Forall_app; split; [done|by constructor]|]. split; [rewrite digits_value_snoc, digit_byte by done; lia|].
    split; [|intros ->; done]. intros _ Hh. destruct ds as [|d ds]; [done|]. cbn [head app] in Hh. by apply E5.
Qed.

(** What may follow a number. *)
Definition ends (r : bytes) : Prop :=
  match r with b :: _ => is_digit b = false /\ b <> x2e /\ b <> x65 /\ b <> x45 | [] => True end.
Lemma read_digits_app ds r : Forall (fun b => is_digit b = true) ds -> ends r -> read_digits (ds ++ r) = (ds, r).
Proof.
  intros Hd Hr. induction Hd as [|b ds Hb _ IH]; cbn [read_digits app].
  - destruct r as [|b r]; [done|]. destruct Hr as (E & _). cbn [read_digits]. by rewrite E.
  - by rewrite Hb, IH.
Qed.
Lemma print_num_spec n : exists d ds, print_num n = d :: ds /\ is_digit d = true /\ forall r, ends r -> read_num (print_num n ++ r) = Some (n, r).
Proof.
  destruct (digits_spec (S (N.to_nat (N.log2 n))) n []) as (ds & E1 & E2 & E3 & E4 & E5 & E6); [|done|].
  { rewrite Nat2N.inj_succ, N2Nat.id. destruct (N.eq_dec n 0) as [->|Hn]; [done|]. apply N.log2_spec. lia. }
  rewrite app_nil_r in E1. fold (print_num n) in E1. destruct ds as [|d ds]; [done|]. exists d, ds. split; [done|]. split; [by inversion E3|].
  intros r Hr. unfold read_num. rewrite E1, read_digits_app by done. rewrite E4.
  assert (match d :: ds with [] => false | x30 :: _ :: _ => false | _ => true end = true) as ->.
  { destruct ds; [by destruct d|]. destruct (N.eq_dec n 0) as [->|Hn]; [by specialize (E6 eq_refl)|]. specialize (E5 Hn). by destruct d. }
  cbn [andb]. destruct r as [|b r]; [done|]. destruct Hr as (_ & N1 & N2 & N3). by destruct b.
Qed.

(** How values begin. *)
Definition starter (b : byte) : bool := is_digit b || bool_decide (b ∈ [x6e; x22; x5b; x7b]).
Lemma print_starts j : exists b r, print j = b :: r /\ starter b = true.
Proof.
  destruct j as [|n|s|l|l]; cbn [print app]; [by eexists _, _| |by eexists _, _..].
  destruct (print_num_spec n) as (d & ds & -> & Hd & _). exists d, ds. split; [done|]. unfold starter. by rewrite Hd.
Qed.
Lemma skip_starter b r : starter b = true -> skip_space (b :: r) = b :: r.
Proof. by destruct b. Qed.
Lemma read_value_num f b r : is_digit b = true -> read_value (S f) (b :: r) = '(n, r') ← read_num (b :: r); Some (JNum n, r').
Proof. destruct b; intros E; try discriminate E; reflexivity. Qed.

Fixpoint need (j : json) : nat :=
  match j with
  | JArr l => S (list_sum (map (fun x => S (need x)) l))
  | JObj l => S (list_sum (map (fun kv : bytes * json => S (need kv.2)) l))
  | _ => 1
  end.

Definition reads_back (j : json) : Prop := forall f r, need j <= f -> ends r -> read_value f (print j ++ r) = Some (j, r).

Lemma commas_cons x l : commas (x :: l) = x ++ match l with [] => [] | _ => x2c :: commas l end.
Proof. destruct l as [|y l]; done. Qed.
Lemma ends_closing (b : byte) r : b = x2c \/ b = x5d \/ b = x7d -> ends (b :: r).
Proof. by intros [->|[->| ->]]. Qed.

Lemma items_back l f r : l <> [] -> Forall reads_back l -> list_sum (map (fun x => S (need x)) l) <= f ->
  read_items f (commas (map print l) ++ x5d :: r) = Some (l, r).
Proof.
  revert f. induction l as [|x l IH]; [done|]. intros f _ Hl Hf. apply Forall_cons in Hl as [Hx Hl]. cbn [map list_sum foldr] in *.
  change (foldr Nat.add 0) with list_sum in *. destruct f as [|f]; [lia|]. cbn [read_items]. rewrite commas_cons, <-app_assoc.
  destruct l as [|y l].
  - cbn [map app]. rewrite (Hx f) by (lia || apply ends_closing; tauto). done.
  - cbn [map]. change (print y :: map print l) with (map print (y :: l)). cbn [app].
    rewrite (Hx f) by (lia || apply ends_closing; tauto). cbn [mbind option_bind skip_space]. rewrite (IH f) by (done || lia). done.
Qed.
Definition show_member (kv : bytes * json) : bytes := print_str kv.1 ++ x3a :: print kv.2.
Lemma print_obj l : print (JObj l) = [x7b] ++ commas (map show_member l) ++ [x7d].
Proof. done. Qed.
Lemma members_back l f r : l <> [] -> Forall (fun kv : bytes * json => reads_back kv.2) l -> list_sum (map (fun kv : bytes * json => S (need kv.2)) l) <= f ->
  read_members f (commas (map show_member l) ++ x7d :: r) = Some (l, r).
Proof.
  revert f. induction l as [|[k v] l IH]; [done|]. intros f _ Hl Hf. apply Forall_cons in Hl as [Hx Hl]. cbn [map list_sum foldr fst snd] in *.
  change (foldr Nat.add 0) with list_sum in *. destruct f as [|f]; [lia|]. cbn [read_members]. rewrite commas_cons. unfold show_member at 1, print_str at 1. cbn [fst snd].
  rewrite <-!app_assoc. cbn [app skip_space]. cbn [app]. rewrite read_print_str. cbn [mbind option_bind skip_space].
  destruct l as [|y l].
  - cbn [map app]. rewrite (Hx f) by (lia || apply ends_closing; tauto). done.
  - cbn [map]. change (show_member y :: map show_member l) with (map show_member (y :: l)). cbn [app].
    rewrite (Hx f) by (lia || apply ends_closing; tauto). cbn [mbind option_bind skip_space]. rewrite (IH f) by (done || lia). done.
Qed.

Lemma value_back j : reads_back j.
Proof.
  induction j as [|n|s|l IH|l IH] using json_ind'; intros f r Hf Hr; cbn [need] in Hf; (destruct f as [|f]; [lia|]).
  - done.
  - destruct (print_num_spec n) as (d & ds & E & Hd & Hn). cbn [print]. rewrite E. cbn [app]. rewrite read_value_num by done.
    change (d :: ds ++ r) with ((d :: ds) ++ r). rewrite <-E, Hn by done. done.
  - cbn [print]. unfold print_str. rewrite <-!app_assoc. cbn [app read_value skip_space]. by rewrite read_print_str.
  - cbn [print]. rewrite <-!app_assoc. cbn [app read_value skip_space]. destruct l as [|x l]; [done|].
    destruct (print_starts x) as (b & s & Eb & Hb).
    assert (exists s', commas (map print (x :: l)) ++ x5d :: r = b :: s') as [s' E'] by (rewrite map_cons, commas_cons, Eb; cbn [app]; eauto).
    pose proof (items_back (x :: l) f r ltac:(done) IH ltac:(lia)) as Hi. rewrite E' in *. rewrite skip_starter by done. rewrite Hi.
    by destruct b.
  - rewrite print_obj. rewrite <-!app_assoc. cbn [app read_value skip_space]. destruct l as [|x l]; [done|].
    pose proof (members_back (x :: l) f r ltac:(done) IH ltac:(lia)) as Hi.
    assert (exists s', commas (map show_member (x :: l)) ++ x7d :: r = x22 :: s') as [s' E'] by (rewrite map_cons, commas_cons; unfold show_member at 1, print_str; cbn [app]; eauto).
    rewrite E' in *. cbn [skip_space]. by rewrite Hi.
Qed.

Lemma commas_length l : length (commas l) + 1 >= list_sum (map (fun x => S (length x)) l).
Proof.
  destruct l as [|x l]; [cbn; lia|]. cbn [commas map list_sum foldr]. change (foldr Nat.add 0) with list_sum. rewrite app_length.
  induction l as [|y l IH]; cbn [map concat list_sum foldr length] in *; [lia|]. change (foldr Nat.add 0) with list_sum in *. rewrite app_length. cbn [length]. lia.
Qed.
Lemma list_sum_le {A} (f g : A -> nat) l : Forall (fun a => f a <= g a) l -> list_sum (map f l) <= list_sum (map g l).
Proof. induction 1; cbn [map list_sum foldr]; [done|]. change (foldr Nat.add 0) with list_sum. lia. Qed.
Lemma need_length j : need j <= length (print j).
Proof.
  induction j as [|n|s|l IH|l IH] using json_ind'; cbn [need]; rewrite ?print_obj; cbn [print].
  - cbn. lia.
  - destruct (print_num_spec n) as (d & ds & -> & _). cbn. lia.
  - unfold print_str. rewrite !app_length. cbn. lia.
  - rewrite !app_length. cbn [length]. pose proof (commas_length (map print l)) as Hc. rewrite map_map in Hc.
    assert (list_sum (map (fun x => S (need x)) l) <= list_sum (map (fun x => S (length (print x))) l)); [|lia].
    apply list_sum_le. eapply Forall_impl; [exact IH|]. intros x Hx. cbn beta in Hx. lia.
  - rewrite !app_length. cbn [length]. pose proof (commas_length (map show_member l)) as Hc. rewrite map_map in Hc.
    assert (list_sum (map (fun kv : bytes * json => S (need kv.2)) l) <= list_sum (map (fun x => S (length (show_member x))) l)); [|lia].
    apply list_sum_le. eapply Forall_impl; [exact IH|]. intros x Hx. cbn beta in *. unfold show_member. rewrite app_length. cbn [length]. lia.
Qed.
Lemma read_print j : read_json (print j) = Some j.
Proof.
  unfold read_json. pose proof (value_back j (S (length (print j))) []) as Hb. rewrite app_nil_r in Hb.
  rewrite Hb; [done| |done]. pose proof (need_length j). lia.
Qed.

(** ** The objects *)

Lemma id_seen i : oid_wf i -> id_is i (Some (j_oid i)).
Proof. intros Hi. exists (oid_print i). split; [done|]. by apply oid_parse_print. Qed.
Lemma ids_seen is : Forall oid_wf is -> ids_are is (Some (JArr (map j_oid is))).
Proof. intros Hi. exists (map j_oid is). split; [done|]. induction Hi; cbn [map]; constructor; [by apply id_seen|done]. Qed.
Lemma entry_is_seen e : oid_wf (e_id e) -> entry_seen e (j_entry e).
Proof. destruct e as [[] n i]; intros Hi; (split; [reflexivity|]); (split; [reflexivity|]); by apply id_seen. Qed.
Lemma manifest_is_seen m : shown_ok (ShowPack m) -> manifest_seen m (j_manifest m).
Proof. intros Hm. cbn [shown_ok] in Hm. exists (map j_entry m). split; [done|]. induction Hm; cbn [map]; constructor; [by apply entry_is_seen|done]. Qed.
Lemma index_is_seen ix : shown_ok (ShowIndex ix) -> index_seen ix (j_index ix).
Proof.
  intros (Hsort & Hs & Hp). split; [by apply ids_seen|].
  exists (map (fun kv : oid * manifest => (oid_print kv.1, j_manifest kv.2)) (ix_packs ix)). split; [done|]. split.
  - change (fmap fst (map ?f ?l)) with (map fst (map f l)). rewrite map_map. cbn [fst].
    apply om_sorted_nodup in Hsort. revert Hsort Hp. generalize (ix_packs ix). intros l Hnd Hp. induction l as [|x l IH]; cbn [map]; [constructor|].
    apply Forall_cons in Hp as [[Hx _] Hp]. cbn [fmap list_fmap] in Hnd. apply NoDup_cons in Hnd as [Hni Hnd]. constructor; [|by apply IH].
    intros ([k m] & E & Hin)%elem_of_list_fmap. cbn [fst] in E. rewrite Forall_forall in Hp. destruct (Hp _ Hin) as [Hk _]. cbn [fst] in Hk.
    apply (f_equal oid_parse) in E. rewrite !oid_parse_print in E by done. injection E as E. apply Hni. rewrite E. apply elem_of_list_fmap. by exists (k, m).
  - clear Hsort. induction Hp as [|x l [Hx Hm] _ IH]; cbn [map]; constructor; [|done]. cbn [fst snd]. split; [by apply oid_parse_print|by apply manifest_is_seen].
Qed.

Section times.
Variable show_time : Z -> bytes.
Variable show_zoned : Z -> bytes -> bytes.
Local Set Default Proof Using "All".

Lemma metadata_is_seen m : metadata_seen show_time m (j_metadata show_time m).
Proof.
  destruct m as [[mode [size|] uid gid a m]|[at_ [size|] c a w]]; cbn [j_metadata metadata_seen]; split_and!; try done; try reflexivity;
    repeat match goal with |- maybe_time_is _ ?o _ => destruct o; [reflexivity|reflexivity] end.
Qed.
Lemma node_is_seen n : Forall oid_wf (ids_in (n_contents n)) -> node_seen show_time n (j_node show_time n).
Proof.
  destruct n as [c m]. intros Hc. cbn [n_contents n_meta] in *. split.
  - cbn [n_contents]. destruct c as [cs|t|t]; cbn [ids_in] in Hc; [split_and!; [by apply ids_seen|done|done]|split_and!; [done|inversion Hc; by apply id_seen|done]|done].
  - exists (j_metadata show_time m). split; [by destruct c|]. apply metadata_is_seen.
Qed.
Lemma tree_is_seen t : shown_ok (ShowTree t) -> tree_seen show_time t (j_tree show_time t).
Proof.
  intros (Hs & Ht). exists (map (fun kv : bytes * node => (kv.1, j_node show_time kv.2)) t). split; [done|]. split.
  - change (fmap fst (map ?f ?l)) with (map fst (map f l)). rewrite map_map. cbn [fst]. by apply om_sorted_nodup.
  - clear Hs. induction Ht as [|x l Hx _ IH]; cbn [map]; constructor; [|done]. split; [done|by apply node_is_seen].
Qed.
Lemma snapshot_is_seen s : shown_ok (ShowSnapshot s) -> snapshot_seen show_zoned s (j_snapshot show_zoned s).
Proof. intros Ht. split_and!; try done. by apply id_seen. Qed.

(** ** What is seen tells what it was *)

Hypothesis Htime : forall a b, show_time a = show_time b -> a = b.
Lemma id_fun i i' o : id_is i o -> id_is i' o -> i = i'.
Proof. intros (s & -> & E) (s' & [= <-] & E'). congruence. Qed.
Lemma Forall2_fun {A B} (P : A -> B -> Prop) l l' k : (forall a a' b, P a b -> P a' b -> a = a') -> Forall2 P l k -> Forall2 P l' k -> l = l'.
Proof.
  intros HP. revert l l'. induction k as [|b k IH]; intros l l' H1 H2; inversion H1; inversion H2; subst; [done|]. f_equal; [by eapply HP|by apply IH].
Qed.
Lemma ids_fun is is' o : ids_are is o -> ids_are is' o -> is = is'.
Proof. intros (l & -> & E) (l' & [= <-] & E'). eapply Forall2_fun; [|exact E|exact E']. intros a a' b. apply id_fun. Qed.
Lemma entry_fun e e' j : entry_seen e j -> entry_seen e' j -> e = e'.
Proof.
  destruct e as [t n i], e' as [t' n' i']. intros (E1 & E2 & E3) (E1' & E2' & E3'). cbn in *. f_equal.
  - unfold text_is in *. rewrite E1 in E1'. by destruct t, t'.
  - congruence.
  - by eapply id_fun.
Qed.
Lemma manifest_fun m m' j : manifest_seen m j -> manifest_seen m' j -> m = m'.
Proof. intros (l & -> & E) (l' & [= <-] & E'). eapply Forall2_fun; [|exact E|exact E']. apply entry_fun. Qed.
Lemma index_fun ix ix' j : index_seen ix j -> index_seen ix' j -> ix = ix'.
Proof.
  destruct ix as [s p], ix' as [s' p']. intros (E1 & l & E2 & _ & E3) (E1' & l' & E2' & _ & E3'). cbn in *. f_equal; [by eapply ids_fun|].
  rewrite E2 in E2'. injection E2' as <-. eapply Forall2_fun; [|exact E3|exact E3']. intros [k m] [k' m'] kv [Ek Em] [Ek' Em']. cbn in *. f_equal; [congruence|by eapply manifest_fun].
Qed.
Lemma time_fun z z' o : time_is show_time z o -> time_is show_time z' o -> z = z'.
Proof. unfold time_is. intros -> [= E]. by apply Htime. Qed.
Lemma maybe_time_fun z z' o : maybe_time_is show_time z o -> maybe_time_is show_time z' o -> z = z'.
Proof. destruct z, z'; cbn; intros E E'; [f_equal; by eapply time_fun|unfold time_is in *; congruence..|done]. Qed.
Lemma size_fun (a b : option N) (o : option json) : o = JNum <$> a -> o = JNum <$> b -> a = b.
Proof. destruct a, b; cbn; congruence. Qed.
Lemma metadata_fun m m' j : metadata_seen show_time m j -> metadata_seen show_time m' j -> m = m'.
Proof.
  destruct m as [[]|[]], m' as [[]|[]]; cbn.
  - intros (E1 & E2 & E3 & E4 & E5 & E6 & E7) (F1 & F2 & F3 & F4 & F5 & F6 & F7).
    f_equal. f_equal; [congruence|by eapply size_fun|congruence|congruence|by eapply time_fun|by eapply time_fun].
  - intros (E1 & _) (F1 & _). unfold text_is in *. rewrite E1 in F1. discriminate F1.
  - intros (E1 & _) (F1 & _). unfold text_is in *. rewrite E1 in F1. discriminate F1.
  - intros (E1 & E2 & E3 & E4 & E5 & E6) (F1 & F2 & F3 & F4 & F5 & F6).
    f_equal. f_equal; [congruence|by eapply size_fun|by eapply maybe_time_fun..].
Qed.
Lemma node_fun n n' j : node_seen show_time n j -> node_seen show_time n' j -> n = n'.
Proof.
  destruct n as [c m], n' as [c' m']. intros (E1 & md & E2 & E3) (F1 & md' & F2 & F3). cbn [n_contents n_meta] in *.
  rewrite E2 in F2. injection F2 as <-. f_equal; [|by eapply metadata_fun].
  destruct c, c'; destruct E1 as (A1 & A2 & A3), F1 as (B1 & B2 & B3).
  - f_equal. by eapply ids_fun.
  - destruct A1 as (l & A1 & _). congruence.
  - destruct A1 as (l & A1 & _). congruence.
  - destruct B1 as (l & B1 & _). congruence.
  - f_equal. by eapply id_fun.
  - destruct A2 as (l & A2 & _). congruence.
  - destruct B1 as (l & B1 & _). congruence.
  - destruct B2 as (l & B2 & _). congruence.
  - congruence.
Qed.
Lemma tree_fun t t' j : tree_seen show_time t j -> tree_seen show_time t' j -> t = t'.
Proof.
  intros (l & -> & _ & E) (l' & [= <-] & _ & E'). eapply Forall2_fun; [|exact E|exact E'].
  intros [k n] [k' n'] kv [Ek En] [Ek' En']. cbn [fst snd] in *. f_equal; [congruence|by eapply node_fun].
Qed.
Hypothesis Hzoned : forall a b c d, show_zoned a b = show_zoned c d -> a = c /\ b = d.
Lemma texts_fun ts ts' o : texts_are ts o -> texts_are ts' o -> ts = ts'.
Proof. unfold texts_are. intros -> [= E]. revert ts' E. induction ts as [|x ts IH]; intros [|y ts'] E; try done. cbn in E. injection E as -> E. f_equal. by apply IH. Qed.
Lemma snapshot_fun s s' j : snapshot_seen show_zoned s j -> snapshot_seen show_zoned s' j -> s = s'.
Proof.
  destruct s as [t z a ta pa tr], s' as [t' z' a' ta' pa' tr']. intros (E1 & E2 & E3 & E4 & E5) (F1 & F2 & F3 & F4 & F5). cbn in *.
  rewrite E1 in F1. injection F1 as F1. apply Hzoned in F1 as [<- <-]. f_equal; [congruence|by eapply texts_fun..|by eapply id_fun].
Qed.
End times.

(** ** UTF-8 *)

Lemma utf8_esc_gen n s r (f : byte -> bytes) : length s <= n ->
  (forall b r, (b2n b < 128)%N -> utf8_valid (f b ++ r) = utf8_valid r) -> (forall b, (128 <= b2n b)%N -> f b = [b]) ->
  utf8_valid s = true -> utf8_valid (concat (map f s) ++ r) = utf8_valid r.
Proof.
  intros Hn Hlow Hhigh. revert s Hn. induction n as [|n IH]; intros [|b0 s] Hn Hs; cbn [length] in Hn; try done; [lia|].
  cbn [map concat]. rewrite <-app_assoc. cbn [utf8_valid] in Hs.
  assert (forall b lo hi, (128 <= lo)%N -> in_range lo hi b = true -> f b = [b]) as Hr.
  { intros b lo hi Hlo Hb. apply Hhigh. unfold in_range in Hb. apply andb_true_iff in Hb as [Hb _]. apply N.leb_le in Hb. lia. }
  assert (forall b, is_cont b = true -> f b = [b]) as Hc.
  { intros b Hb. apply Hhigh. unfold is_cont in Hb. apply andb_true_iff in Hb as [Hb _]. by apply N.leb_le in Hb. }
  destruct (N.ltb_spec (b2n b0) 128) as [H0|H0]; [rewrite Hlow by done; apply IH; [lia|done]|].
  rewrite (Hhigh b0) by done. assert ((b2n b0 <? 128)%N = false) as E0 by (by apply N.ltb_ge).
  destruct (in_range 194 223 b0) eqn:R2.
  { destruct s as [|b1 s]; [done|]. apply andb_true_iff in Hs as [H1 Hs]. cbn [map concat]. rewrite (Hc b1 H1). cbn [app utf8_valid]. rewrite E0, R2, H1. cbn [andb].
    cbn [length] in Hn. apply IH; [lia|done]. }
  destruct (in_range 224 239 b0) eqn:R3.
  { destruct s as [|b1 [|b2 s]]; [done..|]. apply andb_true_iff in Hs as [Hs Hs']. apply andb_true_iff in Hs as [H1 H2]. cbn [map concat].
    assert (f b1 = [b1]) as -> by (destruct (N.eqb (b2n b0) 224); [by apply (Hr _ 160 191)%N|destruct (N.eqb (b2n b0) 237); [by apply (Hr _ 128 159)%N|by apply Hc]]).
    rewrite (Hc b2 H2). cbn [app utf8_valid]. rewrite E0, R2, R3, H1, H2. cbn [andb]. cbn [length] in Hn. apply IH; [lia|done]. }
  destruct (in_range 240 244 b0) eqn:R4; [|done].
  destruct s as [|b1 [|b2 [|b3 s]]]; [done..|]. apply andb_true_iff in Hs as [Hs Hs']. apply andb_true_iff in Hs as [Hs H3]. apply andb_true_iff in Hs as [H1 H2]. cbn [map concat].
  assert (f b1 = [b1]) as -> by (destruct (N.eqb (b2n b0) 240); [by apply (Hr _ 144 191)%N|destruct (N.eqb (b2n b0) 244); [by apply (Hr _ 128 143)%N|by apply Hc]]).
  rewrite (Hc b2 H2), (Hc b3 H3). cbn [app utf8_valid]. rewrite E0, R2, R3, R4, H1, H2, H3. cbn [andb]. cbn [length] in Hn. apply IH; [lia|done].
Qed.
Lemma utf8_print_str s r : utf8_valid s = true -> utf8_valid (print_str s ++ r) = utf8_valid r.
Proof.
  intros Hs. unfold print_str. rewrite <-!app_assoc. cbn [app]. cbn [utf8_valid]. change (b2n x22 <? 128)%N with true. cbn match.
  rewrite (utf8_esc_gen (length s) s _ escape); [done|done| | |done].
  - intros b r' Hb. destruct b; try reflexivity; vm_compute in Hb; discriminate Hb.
  - intros b Hb. destruct b; try reflexivity; vm_compute in Hb; by destruct Hb.
Qed.

Fixpoint json_utf8 (j : json) : Prop :=
  match j with
  | JStr s => utf8_valid s = true
  | JArr l => foldr (fun x P => json_utf8 x /\ P) True l
  | JObj l => foldr (fun (kv : bytes * json) P => (utf8_valid kv.1 = true /\ json_utf8 kv.2) /\ P) True l
  | _ => True
  end.
Lemma json_utf8_arr l : json_utf8 (JArr l) <-> Forall json_utf8 l.
Proof. cbn [json_utf8]. induction l as [|x l IH]; cbn [foldr]; [by split; [constructor|]|]. by rewrite Forall_cons, IH. Qed.
Lemma json_utf8_obj l : json_utf8 (JObj l) <-> Forall (fun kv : bytes * json => utf8_valid kv.1 = true /\ json_utf8 kv.2) l.
Proof. cbn [json_utf8]. induction l as [|x l IH]; cbn [foldr]; [by split; [constructor|]|]. by rewrite Forall_cons, IH. Qed.
Lemma utf8_low b r : (b2n b <? 128)%N = true -> utf8_valid (b :: r) = utf8_valid r.
Proof. cbn [utf8_valid]. by intros ->. Qed.
Lemma utf8_commas (l : list bytes) r : Forall (fun x => forall r, utf8_valid (x ++ r) = utf8_valid r) l -> utf8_valid (commas l ++ r) = utf8_valid r.
Proof.
  induction 1 as [|x l Hx _ IH]; [done|]. rewrite commas_cons, <-app_assoc, Hx. destruct l; [done|]. cbn [app]. rewrite utf8_low by done. exact IH.
Qed.
Lemma utf8_print j r : json_utf8 j -> utf8_valid (print j ++ r) = utf8_valid r.
Proof.
  revert r. induction j as [|n|s|l IH|l IH] using json_ind'; intros r Hj.
  - done.
  - cbn [print]. destruct (digits_spec (S (N.to_nat (N.log2 n))) n []) as (ds & E1 & _ & E3 & _); [|done|].
    { rewrite Nat2N.inj_succ, N2Nat.id. destruct (N.eq_dec n 0) as [->|Hn]; [done|]. apply N.log2_spec. lia. }
    unfold print_num. rewrite E1, app_nil_r. clear E1. induction E3 as [|b ds Hb _ IH]; [done|]. cbn [app]. rewrite utf8_low; [done|].
    unfold is_digit in Hb. apply andb_true_iff in Hb as [_ Hb%N.leb_le]. apply N.ltb_lt. lia.
  - cbn [print]. by apply utf8_print_str.
  - cbn [print]. rewrite <-!app_assoc. cbn [app]. rewrite utf8_low by done. apply json_utf8_arr in Hj. rewrite utf8_commas; [cbn [app]; by rewrite utf8_low|].
    rewrite Forall_map. rewrite Forall_forall in *. intros x Hx r'. by apply IH, Hj.
  - rewrite print_obj, <-!app_assoc. cbn [app]. rewrite utf8_low by done. apply json_utf8_obj in Hj. rewrite utf8_commas; [cbn [app]; by rewrite utf8_low|].
    rewrite Forall_map. rewrite Forall_forall in *. intros x Hx r'. destruct (Hj x Hx) as [H1 H2]. unfold show_member. rewrite <-app_assoc, utf8_print_str by done.
    cbn [app]. rewrite utf8_low by done. by apply IH.
Qed.
Lemma oid_utf8 i : utf8_valid (oid_print i) = true.
Proof.
  unfold oid_print, base32_encode. induction (groups _ _ _) as [|g l IH]; [done|]. cbn [map]. rewrite utf8_low; [done|].
  unfold sym. destruct (nth_in_or_default (N.to_nat (num_of 0 g)) symbols x00) as [Hin| ->]; [|done].
  assert (forallb (fun b => (b2n b <? 128)%N) symbols = true) as Hall by (vm_compute; reflexivity). rewrite forallb_forall in Hall. by apply Hall.
Qed.
Lemma ids_utf8 is : json_utf8 (JArr (map j_oid is)).
Proof. apply json_utf8_arr, Forall_map, Forall_forall. intros i _. apply oid_utf8. Qed.
Lemma manifest_utf8 m : json_utf8 (j_manifest m).
Proof. apply json_utf8_arr, Forall_map, Forall_forall. intros [[] n i] _; cbn; split_and!; try done; apply oid_utf8. Qed.

(** ** C74: what cat prints can be read *)

(** What is printed of an object is one JSON text, in UTF-8, in which everything the
    object holds is found under its name. *)
Theorem C74_cat_prints_json show_time show_zoned c :
  shown_ok c -> (forall b, c <> ShowBytes b) ->
  exists j, read_json (cat_text show_time show_zoned c) = Some j /\ seen show_time show_zoned c j.
Proof.
  intros Hwf Hb. destruct c as [b|t|m|ix|s]; cbn [cat_text] in *; [by destruct (Hb b)|..]; (eexists; split; [apply read_print|]); cbn [seen].
  - by apply tree_is_seen.
  - by apply manifest_is_seen.
  - by apply index_is_seen.
  - by apply snapshot_is_seen.
Qed.

Theorem C74_cat_prints_utf8 show_time show_zoned c :
  shown_wf c -> (forall b, c <> ShowBytes b) ->
  (forall z, utf8_valid (show_time z) = true) -> (forall z tz, utf8_valid (show_zoned z tz) = true) ->
  utf8_valid (cat_text show_time show_zoned c) = true.
Proof.
  intros Hwf Hb Ht Hz. assert (forall j, json_utf8 j -> utf8_valid (print j) = true) as Hp.
  { intros j Hj. rewrite <-(app_nil_r (print j)). by rewrite utf8_print. }
  destruct c as [b|t|m|ix|s]; cbn [cat_text shown_wf] in *; [by destruct (Hb b)|..]; apply Hp.
  - destruct Hwf as (_ & Hwf & _). apply json_utf8_obj, Forall_map. eapply Forall_impl; [exact Hwf|].
    intros [k [c m]] [[_ Hk] [Hc _]]. cbn [fst snd] in *. split; [done|]. apply json_utf8_obj. constructor.
    + destruct c as [cs|i|tg]; cbn [j_contents fst snd]; (split; [reflexivity|]); [apply ids_utf8|apply oid_utf8|apply Hc].
    + constructor; [|done]. split; [reflexivity|]. cbn [snd].
      destruct m as [[mode [size|] uid gid a mt]|[at_ [size|] [] [] []]]; cbn [j_metadata j_size j_instant_option j_instant jtext app json_utf8 foldr fst snd p_size w_size w_creation w_access w_write p_atime p_mtime];
        repeat split; (exact I || reflexivity || apply Ht).
  - apply manifest_utf8.
  - apply json_utf8_obj. constructor; [split; [reflexivity|apply ids_utf8]|]. constructor; [|done]. split; [reflexivity|]. cbn [snd].
    apply json_utf8_obj, Forall_map, Forall_forall. intros [k m] _. split; [apply oid_utf8|apply manifest_utf8].
  - destruct Hwf as (_ & _ & [_ Ha] & _ & Hta & _ & Hpa & _). cbn [j_snapshot]. apply json_utf8_obj.
    assert (forall ts, Forall text_wf ts -> json_utf8 (JArr (map JStr ts))) as Hts.
    { intros ts H0. apply json_utf8_arr, Forall_map. eapply Forall_impl; [exact H0|]. intros x [_ Hx]. exact Hx. }
    repeat (constructor; [split; [reflexivity|]|]); [apply Hz|exact Ha|by apply Hts|by apply Hts|apply oid_utf8|done].
Qed.

(** Two objects that print the same are the same, if times do. *)
Theorem C74_cat_tells_apart show_time show_zoned c c' :
  (forall a b, show_time a = show_time b -> a = b) ->
  (forall a b c d, show_zoned a b = show_zoned c d -> a = c /\ b = d) ->
  shown_ok c -> shown_ok c' -> same_kind c c' ->
  cat_text show_time show_zoned c = cat_text show_time show_zoned c' -> c = c'.
Proof.
  intros Ht Hz Hwf Hwf' Hk E. destruct c as [b|t|m|ix|s], c' as [b'|t'|m'|ix'|s']; try done; [cbn in E; by rewrite E|..];
    match type of E with _ = cat_text _ _ ?x => destruct (C74_cat_prints_json show_time show_zoned x Hwf' ltac:(done)) as (j' & E' & Hs') end;
    match type of E with cat_text _ _ ?x = _ => destruct (C74_cat_prints_json show_time show_zoned x Hwf ltac:(done)) as (j & E1 & Hs) end;
    rewrite E in E1; rewrite E' in E1; injection E1 as <-; cbn [seen] in *; f_equal.
  - by eapply tree_fun.
  - by eapply manifest_fun.
  - by eapply index_fun.
  - by eapply snapshot_fun.
Qed.

(** Whatever is in the repository, damaged or not: what cat prints is a blob's bytes or such a text. *)
Lemma mapM_all {A B} (f : A -> option B) (P : B -> Prop) l k : (forall a b, f a = Some b -> P b) -> mapM f l = Some k -> Forall P k.
Proof. intros Hf E. apply mapM_Some in E. induction E as [|a b l k E _ IH]; constructor; [by eapply Hf|done]. Qed.
Lemma as_oid_wf v i : as_oid v = Some i -> oid_wf i.
Proof. unfold as_oid. intros E. repeat case_match; try done. by simplify_eq; apply Nat.eqb_eq. Qed.
Lemma as_oids_wf v l : as_list as_oid v = Some l -> Forall oid_wf l.
Proof. unfold as_list. intros (vs & _ & E)%bind_Some. eapply mapM_all; [|exact E]. apply as_oid_wf. Qed.
Lemma d_manifest_shown v m : d_manifest v = Some m -> shown_ok (ShowPack m).
Proof.
  unfold d_manifest, as_list. intros (vs & _ & E)%bind_Some. eapply mapM_all; [|exact E]. intros a e. unfold d_entry.
  intros (l & _ & (t & _ & (n & _ & (i & (vi & _ & Ei)%bind_Some & [= <-])%bind_Some)%bind_Some)%bind_Some)%bind_Some. cbn [e_id]. by eapply as_oid_wf.
Qed.
Lemma of_list_all {V} (P : bytes * V -> Prop) (l : list (bytes * V)) : Forall P l -> Forall P (om_of_list l).
Proof.
  intros Hl. apply Forall_forall. intros [k v] Hin. rewrite Forall_forall in Hl. apply Hl.
  unfold om_of_list in Hin. assert (forall (l m : list (bytes * V)), (k, v) ∈ foldl (fun m kv => om_insert kv.1 kv.2 m) m l -> (k, v) ∈ m \/ (k, v) ∈ l) as Hf.
  { clear. induction l as [|[a b] l IH]; intros m; cbn [foldl]; [by left|]. intros [Hi|Hi]%IH; [|right; by right].
    cbn [fst snd] in Hi. assert ((k, v) ∈ m \/ (k, v) = (a, b)) as [?| ->]; [|by left|right; by left].
    clear -Hi. induction m as [|[c d] m IHm]; cbn [om_insert] in Hi; [right; by apply elem_of_list_singleton|].
    destruct (bytes_cmp a c); rewrite ?elem_of_cons in *; naive_solver. }
  destruct (Hf _ _ Hin) as [Hn|?]; [by apply elem_of_nil in Hn|done].
Qed.
Lemma d_index_shown v ix : d_index v = Some ix -> shown_ok (ShowIndex ix).
Proof.
  unfold d_index. intros (l & _ & (s & (vs & _ & Es)%bind_Some & (p & (vp & _ & (es & _ & Ep)%bind_Some)%bind_Some & [= <-])%bind_Some)%bind_Some)%bind_Some.
  cbn [shown_ok ix_packs ix_supersedes]. split; [apply om_of_list_is_sorted|]. split.
  - apply as_oids_wf in Es. unfold os_of_list. apply Forall_fmap.
    apply (of_list_all (fun kv : bytes * unit => oid_wf kv.1)). apply Forall_map. exact Es.
  - apply of_list_all. eapply mapM_all; [|exact Ep]. intros [kc vc] [k m]. unfold d_pack.
    intros (k' & Ek & (m' & Em & [= <- <-])%bind_Some)%bind_Some. cbn [fst snd] in *. split; [by eapply as_oid_wf|by eapply d_manifest_shown].
Qed.
Lemma d_tree_shown v t : d_tree v = Some t -> shown_ok (ShowTree t).
Proof.
  unfold d_tree. intros (l & _ & (es & E & [= <-])%bind_Some)%bind_Some. split; [apply om_of_list_is_sorted|].
  apply of_list_all. eapply mapM_all; [|exact E]. intros [kc vc] [k n]. unfold d_named, d_node.
  intros (k' & _ & (n' & (l' & _ & (m & _ & (c & Ec & [= <-])%bind_Some)%bind_Some)%bind_Some & [= _ <-])%bind_Some)%bind_Some. cbn [snd n_contents].
  unfold d_contents in Ec. destruct (field "chunks" l' ≫= as_list as_oid) as [cs|] eqn:E1.
  { injection Ec as <-. apply bind_Some in E1 as (w & _ & E1). by apply as_oids_wf in E1. }
  destruct (field "tree" l' ≫= as_oid) as [i|] eqn:E2.
  { injection Ec as <-. apply bind_Some in E2 as (w & _ & E2). apply as_oid_wf in E2. by repeat constructor. }
  destruct (field "symlink" l' ≫= as_text); [|done]. injection Ec as <-. constructor.
Qed.
Lemma dec_with_some {A} (d : cbor -> option A) b x r : dec_with d b = Some (x, r) -> exists v, d v = Some x.
Proof. unfold dec_with. intros ([v r'] & _ & (a & E & [= <- _])%bind_Some)%bind_Some. eauto. Qed.

Theorem C74_whatever_cat_prints H zdec d snaps w out show_time show_zoned :
  Forall (fun s : snapshot * oid => oid_wf (sn_tree s.1)) snaps ->
  cat H zdec d snaps w = Ok out ->
  (exists b, out = ShowBytes b /\ cat_text show_time show_zoned out = b) \/
  (exists j, read_json (cat_text show_time show_zoned out) = Some j /\ seen show_time show_zoned out j).
Proof.
  intros Hs E. pose proof (C57_what_is_printed_is_what_was_asked_for H zdec d snaps w out E) as Hw.
  assert ((exists b, out = ShowBytes b) \/ (shown_ok out /\ forall b, out <> ShowBytes b)) as [[b ->]|[Hok Hb]].
  - destruct w as [id|id|id|name].
    + destruct Hw as [(b & -> & _)|(b & t & r & -> & _ & (v & Ev)%dec_with_some)]; [by left; eexists|]. right. split; [by eapply d_tree_shown|done].
    + destruct Hw as (m & -> & b & r & _ & (v & Ev)%dec_with_some). right. split; [by eapply d_manifest_shown|done].
    + destruct Hw as (ix & -> & b & r & _ & (v & Ev)%dec_with_some). right. split; [by eapply d_index_shown|done].
    + destruct Hw as (s & id & -> & Hf). right. split; [|done]. cbn [shown_ok].
      apply find_snapshot_in in Hf. rewrite Forall_forall in Hs. by apply (Hs (s, id)).
  - left. by eexists.
  - right. by apply C74_cat_prints_json.
Qed.

(** ** A concrete case *)

Definition jx_time (z : Z) : bytes := print_num (Z.to_N (z + 5)).
Definition jx_tree : tree :=
  [(ascii_bytes "a b" ++ [x22; x0a; x01; xc3; xa9], mkNode (CFile [replicate 28 x00; replicate 28 xff]) (Posix (mkPosix 33188 (Some 1234567%N) 0 10 5 7)));
   (ascii_bytes "dir\", mkNode (CDir (replicate 28 x01)) (Windows (mkWindows 16 None (Some 3%Z) None None)))].
Example C74_witness :
  shown_wf (ShowTree jx_tree) /\ shown_ok (ShowTree jx_tree) /\
  cat_text jx_time (fun _ _ => []) (ShowTree jx_tree) =
    ascii_bytes "{""a b\""\n\u0001" ++ [xc3; xa9] ++
    ascii_bytes """:{""chunks"":[""000000000000000000000000000000000000000000000"",""vvvvvvvvvvvvvvvvvvvvvvvvvvvvvvvvvvvvvvvvvvvvu""],""metadata"":{""type"":""posix"",""mode"":33188,""size"":1234567,""uid"":0,""gid"":10,""atime"":""10"",""mtime"":""12""}},""dir\\"":{""tree"":""040g2081040g2081040g2081040g2081040g2081040g2"",""metadata"":{""type"":""windows"",""attributes"":16,""creation_time"":""8"",""access_time"":null,""write_time"":null}}}" /\
  same_kind (ShowTree jx_tree) (ShowTree []).
Proof. split; [apply (bool_decide_unpack _); vm_compute; exact I|]. split; [split; [apply (bool_decide_unpack _); vm_compute; exact I|repeat constructor]|]. split; [vm_compute; reflexivity|done]. Qed.

Print Assumptions C74_cat_prints_json.
Print Assumptions C74_whatever_cat_prints.
Print Assumptions C74_cat_prints_utf8.
Print Assumptions C74_cat_tells_apart.
