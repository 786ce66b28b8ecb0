From Verif Require Import Base Formats Hashing.

Lemma bits_of_length w n : length (bits_of w n) = w.
Proof. induction w; simpl; auto. Qed.

Lemma num_of_app l1 l2 acc : num_of acc (l1 ++ l2) = num_of (num_of acc l1) l2.
Proof. revert acc; induction l1; simpl; auto. Qed.

Lemma num_of_acc l acc : num_of acc l = (acc * 2 ^ N.of_nat (length l) + num_of 0 l)%N.
Proof.
  revert acc; induction l as [|b l IH]; intros acc; [simpl; lia|].
  cbn [num_of length]. rewrite IH, (IH (2 * 0 + _)%N), Nat2N.inj_succ, N.pow_succ_r'. nia.
Qed.

Lemma num_of_bound l : (num_of 0 l < 2 ^ N.of_nat (length l))%N.
Proof.
  induction l as [|b l IH]; [simpl; lia|].
  cbn [num_of length]. rewrite num_of_acc, Nat2N.inj_succ, N.pow_succ_r'. destruct b; lia.
Qed.

Lemma num_of_bits_of w n : num_of 0 (bits_of w n) = (n mod 2 ^ N.of_nat w)%N.
Proof.
  induction w as [|w IH]; [simpl; by rewrite N.mod_1_r|].
  cbn [bits_of num_of]. rewrite num_of_acc, IH, bits_of_length, Nat2N.inj_succ, N.pow_succ_r'.
  set (p := (2 ^ N.of_nat w)%N).
  assert (p <> 0)%N by (apply N.pow_nonzero; lia).
  rewrite (N.mul_comm 2 p), N.mod_mul_r by lia.
  rewrite N.testbit_eqb. fold p. destruct (N.eqb_spec ((n / p) mod 2) 1) as [->|Hn].
  - lia.
  - assert ((n / p) mod 2 < 2)%N by (apply N.mod_lt; lia). 
    assert ((n / p) mod 2 = 0)%N as -> by (revert Hn H0; generalize ((n / p) mod 2)%N; intros; lia). lia.
Qed.

Lemma bits_of_num_of l : bits_of (length l) (num_of 0 l) = l.
Proof.
  assert (forall w n a, bits_of w (a * 2 ^ N.of_nat w + n)%N = bits_of w n) as Hadd.
  { induction w as [|w IH]; intros n a; [done|]. cbn [bits_of]. f_equal.
    - rewrite Nat2N.inj_succ, N.pow_succ_r'.
      rewrite !N.testbit_eqb. set (p := (2 ^ N.of_nat w)%N).
      assert (p <> 0)%N by (apply N.pow_nonzero; lia).
      replace (a * (2 * p) + n)%N with ((2 * a) * p + n)%N by lia.
      rewrite N.div_add_l by done.
      replace (2 * a + n / p)%N with (n / p + a * 2)%N by lia.
      by rewrite N.mod_add by lia.
    - rewrite Nat2N.inj_succ, N.pow_succ_r'.
      replace (a * (2 * 2 ^ N.of_nat w) + n)%N with ((a * 2) * 2 ^ N.of_nat w + n)%N by lia.
      apply IH. }
  induction l as [|b l IH]; [done|].
  cbn [length bits_of num_of]. rewrite num_of_acc. f_equal.
  - rewrite N.testbit_eqb, N.div_add_l, N.div_small by
      (first [apply num_of_bound | apply N.pow_nonzero; lia]).
    by destruct b.
  - by rewrite Hadd.
Qed.

(** ** Grouping *)

Lemma groups_concat k f l :
  k <> 0 -> length l <= f ->
  concat (groups k f l) = l ++ replicate (k * length (groups k f l) - length l) false.
Proof.
  intros Hk. revert l; induction f as [|f IH]; intros l Hf.
  - destruct l; [simpl; by rewrite Nat.mul_0_r|simpl in Hf; lia].
  - destruct l as [|b l]; [simpl; by rewrite Nat.mul_0_r|].
    cbn [groups concat length].
    set (l' := b :: l) in *.
    rewrite IH by (rewrite drop_length; subst l'; simpl in *; lia).
    rewrite <-app_assoc.
    destruct (decide (length l' <= k)).
    + rewrite take_ge, drop_ge by lia. simpl.
      assert (groups k f [] = []) as -> by (by destruct f).
      simpl. rewrite Nat.mul_0_r. simpl. rewrite app_nil_r.
      f_equal. rewrite Nat.mul_1_r. done.
    + rewrite take_length_le by lia. rewrite Nat.sub_diag. cbn [replicate app].
      rewrite app_assoc, take_drop. 
      rewrite drop_length. change (b :: l) with l'. f_equal. f_equal. simpl in *. lia.
Qed.

Lemma groups_lengths k f l : k <> 0 -> Forall (fun g => length g = k) (groups k f l).
Proof.
  intros Hk. revert l; induction f as [|f IH]; intros l; [constructor|].
  destruct l as [|b l]; [constructor|]. cbn [groups]. constructor; [|apply IH].
  rewrite app_length, replicate_length. pose proof (take_length (b :: l) k). lia.
Qed.

Lemma groups_count k f l :
  k <> 0 -> length l <= f ->
  length l <= k * length (groups k f l) /\ k * length (groups k f l) < length l + k.
Proof.
  intros Hk. revert l; induction f as [|f IH]; intros l Hf.
  - destruct l; simpl in *; lia.
  - destruct l as [|b l]; [simpl; lia|].
    cbn [groups length]. specialize (IH (drop k (b :: l))).
    rewrite Nat.mul_succ_r. destruct (decide (length (b :: l) <= k)) as [Hle|Hgt].
    + rewrite drop_ge by done. destruct f; simpl in *; lia.
    + rewrite drop_length in IH. cbn [length] in *. lia.
Qed.

(** Cutting a concatenation of full groups gives the groups back, even when
    some trailing zeros are missing. *)
Lemma groups_of_concat k f gs z :
  k <> 0 -> Forall (fun g => length g = k) gs -> length gs <= f ->
  z < k -> z <= length (concat gs) ->
  (forall b, b ∈ drop (length (concat gs) - z) (concat gs) -> b = false) ->
  groups k f (take (length (concat gs) - z) (concat gs)) = gs.
Proof.
  intros Hk Hall. revert f; induction Hall as [|g gs Hg Hall IH]; intros f Hf Hz Hzl Hzero.
  - simpl. by destruct f.
  - destruct f as [|f]; [simpl in Hf; lia|].
    simpl in Hf. cbn [concat] in *. rewrite app_length in *.
    destruct (decide (gs = [])) as [->|Hne].
    + simpl in *. rewrite app_nil_r in *. rewrite Hg, Nat.add_0_r in *.
      destruct (take (k - z) g) as [|b l] eqn:E.
      { assert (length (take (k - z) g) = 0) as Hl by (by rewrite E).
        rewrite take_length in Hl. lia. }
      rewrite <-E. rewrite take_take, drop_ge by (rewrite take_length; lia).
      rewrite (Nat.min_r k) by lia.
      f_equal; [|by destruct f].
      rewrite take_length, (Nat.min_l (k - z)) by lia.
      replace (k - (k - z)) with z by lia.
      rewrite <-(take_drop (k - z) g) at 2. f_equal.
      apply replicate_as_elem_of. split; [by rewrite drop_length; lia|].
      intros x Hx. by apply Hzero.
    + assert (k <= length (concat gs)) as Hlen.
      { destruct gs as [|g2 gs]; [done|]. inversion_clear Hall. simpl. rewrite app_length. lia. }
      rewrite take_app_ge by lia.
      destruct (g ++ take (length g + length (concat gs) - z - length g) (concat gs)) as [|b l] eqn:E.
      { destruct g; [simpl in Hg; lia|done]. }
      cbn [groups]. rewrite <-E. rewrite take_app_alt, drop_app_alt by done.
      rewrite Hg, Nat.sub_diag. simpl. rewrite app_nil_r. f_equal.
      replace (k + length (concat gs) - z - k) with (length (concat gs) - z) by lia.
      apply IH; [lia|lia|lia|].
      intros x Hx. apply Hzero. rewrite drop_app_ge by lia. rewrite Hg.
      by replace (k + length (concat gs) - z - k) with (length (concat gs) - z) by lia.
Qed.

Lemma groups_of_concat_exact k f gs :
  k <> 0 -> Forall (fun g => length g = k) gs -> length gs <= f ->
  groups k f (concat gs) = gs.
Proof.
  intros. rewrite <-(groups_of_concat k f gs 0) at 2; try done; try lia.
  - by rewrite Nat.sub_0_r, firstn_all.
  - intros b. rewrite Nat.sub_0_r, drop_all. by intros ?%elem_of_nil.
Qed.

Lemma concat_length_const {A} k (gs : list (list A)) :
  Forall (fun g => length g = k) gs -> length (concat gs) = k * length gs.
Proof. induction 1; simpl; rewrite ?app_length; lia. Qed.

(** ** Symbols *)

Lemma symbols_length : length symbols = 32.
Proof. reflexivity. Qed.

Definition all_syms_ok : bool :=
  forallb (fun i => bool_decide (index_of (nth i symbols x00) symbols = Some i)) (seq 0 32).

Lemma index_of_nth i : i < 32 -> index_of (nth i symbols x00) symbols = Some i.
Proof.
  assert (all_syms_ok = true) as H by (by vm_compute).
  unfold all_syms_ok in H. rewrite forallb_forall in H. intros Hi.
  specialize (H i). rewrite bool_decide_eq_true in H. apply H. apply in_seq. lia.
Qed.

Lemma index_of_some b l i : index_of b l = Some i -> i < length l /\ nth i l x00 = b.
Proof.
  revert i; induction l as [|x l IH]; intros i; simpl; [done|].
  case_bool_decide; intros E.
  - injection E as <-. split; [lia|done].
  - destruct (index_of b l) as [j|]; simpl in E; [|done]. injection E as <-.
    destruct (IH j) as [??]; [done|]. split; [lia|done].
Qed.

Lemma unsym_sym g : length g = 5 -> unsym (sym g) = Some g.
Proof.
  intros Hg. unfold unsym, sym. pose proof (num_of_bound g) as Hb. rewrite Hg in Hb.
  change (2 ^ N.of_nat 5)%N with 32%N in Hb.
  rewrite index_of_nth by lia. cbn [mbind option_bind]. rewrite N2Nat.id. f_equal.
  rewrite <-Hg at 1. apply bits_of_num_of.
Qed.

Lemma sym_unsym b g : unsym b = Some g -> sym g = b /\ length g = 5.
Proof.
  unfold unsym. destruct (index_of b symbols) as [i|] eqn:E; cbn [mbind option_bind]; [|done].
  intros Hg. apply (inj Some) in Hg. subst g. apply index_of_some in E as [Hi Hn]. rewrite symbols_length in Hi.
  split; [|apply bits_of_length]. unfold sym.
  rewrite num_of_bits_of. change (2 ^ N.of_nat 5)%N with 32%N.
  rewrite N.mod_small by lia. by rewrite Nat2N.id.
Qed.

Lemma mapM_unsym_sym gs :
  Forall (fun g => length g = 5) gs -> mapM unsym (map sym gs) = Some gs.
Proof. induction 1 as [|g gs Hg Hgs IH]; simpl; [done|]. by rewrite unsym_sym, IH. Qed.

Lemma mapM_sym_unsym s gs :
  mapM unsym s = Some gs -> map sym gs = s /\ Forall (fun g => length g = 5) gs.
Proof.
  revert gs; induction s as [|b s IH]; intros gs; simpl.
  - intros [= <-]. done.
  - destruct (unsym b) as [g|] eqn:Eb; simpl; [|done].
    destruct (mapM unsym s) as [gs'|] eqn:Es; simpl; [|done].
    intros [= <-]. destruct (IH gs') as [<- Hall]; [done|].
    apply sym_unsym in Eb as [Eb Hg]. simpl. rewrite Eb. auto.
Qed.

Lemma byte_bits_length l : length (byte_bits l) = 8 * length l.
Proof.
  unfold byte_bits. rewrite (concat_length_const 8), map_length; [done|].
  apply Forall_fmap, Forall_true. intros b. apply bits_of_length.
Qed.

Lemma map_num_bits l :
  map (fun g => n2b (num_of 0 g)) (map (fun b => bits_of 8 (b2n b)) l) = l.
Proof.
  induction l as [|b l IH]; [done|]. cbn [map]. rewrite IH. f_equal.
  rewrite num_of_bits_of, N.mod_small; [apply n2b_b2n|].
  pose proof (b2n_bound b). by change (2 ^ N.of_nat 8)%N with 256%N.
Qed.

Lemma byte_bits_groups gs :
  Forall (fun g => length g = 8) gs ->
  byte_bits (map (fun g => n2b (num_of 0 g)) gs) = concat gs.
Proof.
  unfold byte_bits. induction 1 as [|g gs Hg Hgs IH]; [done|].
  cbn [map concat]. rewrite IH. f_equal. pose proof (num_of_bound g) as Hb. rewrite Hg in Hb.
  rewrite b2n_n2b_small by done. rewrite <-Hg at 1. apply bits_of_num_of.
Qed.

(** ** The id round trips *)

Lemma oid_print_length i : oid_wf i -> length (oid_print i) = 45.
Proof.
  intros Hi. unfold oid_print, base32_encode. rewrite map_length.
  pose proof (groups_count 5 (length (byte_bits i)) (byte_bits i)) as Hc.
  rewrite byte_bits_length in *. unfold oid_wf in Hi. rewrite Hi in *.
  change (8 * 28) with 224 in *. lia.
Qed.

Lemma oid_parse_print i : oid_wf i -> oid_parse (oid_print i) = Some i.
Proof.
  intros Hi. pose proof (oid_print_length i Hi) as Hlen.
  unfold oid_parse. unfold oid_print in Hlen |- *.
  assert (base32_decode (base32_encode i) = Some i) as ->.
  2:{ simpl. unfold oid_wf in Hi. by rewrite Hi. }
  unfold base32_decode. rewrite Hlen. unfold base32_encode.
  rewrite mapM_unsym_sym by (by apply groups_lengths). cbn [mbind option_bind].
  unfold base32_encode in Hlen. rewrite map_length in Hlen.
  rewrite bool_decide_eq_true_2 by (change (45 mod 8) with 5; set_solver).
  set (bits := byte_bits i) in *.
  rewrite groups_concat by lia. rewrite Hlen.
  assert (length bits = 224) as Hb.
  { subst bits. rewrite byte_bits_length. unfold oid_wf in Hi. lia. }
  rewrite app_length, replicate_length, Hb.
  change ((224 + (5 * 45 - 224)) / 8) with 28. change (8 * 28) with 224.
  change (5 * 45 - 224) with 1.
  rewrite drop_app_alt, take_app_alt by done. simpl forallb. cbv iota.
  f_equal. subst bits. unfold byte_bits. rewrite groups_of_concat_exact.
  - apply map_num_bits.
  - lia.
  - apply Forall_fmap, Forall_true. intros b. apply bits_of_length.
  - rewrite map_length. unfold oid_wf in Hi. lia.
Qed.

Lemma oid_print_parse s i : oid_parse s = Some i -> oid_print i = s /\ oid_wf i.
Proof.
  unfold oid_parse, base32_decode.
  destruct (mapM unsym s) as [gs|] eqn:Es; cbn [mbind option_bind]; [|done].
  case_bool_decide as Hmod; [|done].
  destruct (forallb negb _) eqn:Htrail; cbn [mbind option_bind]; [|done].
  destruct (Nat.eqb_spec (length (map (λ g, n2b (num_of 0 g))
    (groups 8 (length (concat gs) / 8) (take (8 * (length (concat gs) / 8)) (concat gs))))) 28)
    as [Hlen|]; [|done].
  intros Heq. apply (inj Some) in Heq. subst i. split; [|exact Hlen].
  apply mapM_length in Es as Hsl. apply mapM_sym_unsym in Es as [<- Hgs].
  rewrite map_length in *.
  pose proof (concat_length_const 5 gs Hgs) as Hcl.
  set (n := length (concat gs) / 8) in *.
  set (bits := take (8 * n) (concat gs)) in *.
  assert (length bits = 8 * n) as Hbl.
  { subst bits. rewrite take_length_le; [done|].
    pose proof (Nat.mul_div_le (length (concat gs)) 8). lia. }
  assert (n = 28) as Hn.
  { (* the group count is n: bits has exactly 8n bits *)
    clear -Hlen Hbl. assert (forall f (l : list bool), length l = 8 * f -> length (groups 8 f l) = f) as Hg.
    { induction f as [|f IH]; intros l Hl; [done|].
      destruct l as [|b l]; [simpl in Hl; lia|]. cbn [groups length]. f_equal. apply IH.
      rewrite drop_length. lia. }
    rewrite Hg in Hlen by done. done. }
  assert (length gs = 45) as H45.
  { assert (28 * 8 <= length (concat gs) < 28 * 8 + 8) as Hr.
    { rewrite <-Hn. subst n. pose proof (Nat.mul_div_le (length (concat gs)) 8).
      pose proof (Nat.mul_succ_div_gt (length (concat gs)) 8). lia. }
    assert (length gs = 45 \/ length gs = 46) as [?|E] by lia; [done|].
    rewrite E in Hmod. change (46 mod 8) with 6 in Hmod. set_solver. }
  unfold oid_print, base32_encode.
  assert (byte_bits (map (λ g, n2b (num_of 0 g)) (groups 8 n bits)) = bits) as ->.
  { rewrite byte_bits_groups by (by apply groups_lengths).
    assert (forall f (l : list bool), length l = 8 * f -> concat (groups 8 f l) = l) as Hg.
    { induction f as [|f IH]; intros l Hl; [by destruct l|].
      destruct l as [|b l]; [simpl in Hl; lia|]. cbn [groups concat].
      rewrite IH by (rewrite drop_length; lia).
      rewrite take_length_le by lia. simpl replicate. rewrite app_nil_r. apply take_drop. }
    by apply Hg. }
  f_equal. rewrite Hbl, Hn. subst bits. rewrite Hn in *.
  change (8 * 28) with 224 in *.
  replace 224 with (length (concat gs) - 1) at 2 by lia.
  apply groups_of_concat; try lia; [done|].
  replace (length (concat gs) - 1) with 224 by lia.
  intros b Hb. rewrite forallb_forall in Htrail. apply elem_of_list_In in Hb.
  apply Htrail in Hb. by destruct b.
Qed.

(** ** Order *)

Fixpoint lexb (a b : list bool) : comparison :=
  match a, b with
  | [], [] => Eq
  | [], _ => Lt
  | _, [] => Gt
  | x :: a', y :: b' =>
      match x, y with
      | false, true => Lt
      | true, false => Gt
      | _, _ => lexb a' b'
      end
  end.

Lemma lexb_num a b : length a = length b -> N.compare (num_of 0 a) (num_of 0 b) = lexb a b.
Proof.
  revert b; induction a as [|x a IH]; intros [|y b] Hl; try done.
  injection Hl as Hl. cbn [num_of lexb]. rewrite (num_of_acc a), (num_of_acc b), <-Hl.
  pose proof (num_of_bound a) as Ha. pose proof (num_of_bound b) as Hb. rewrite <-Hl in Hb.
  set (p := (2 ^ N.of_nat (length a))%N) in *. rewrite <-IH by done.
  destruct x, y.
  - rewrite N.compare_eq_iff || idtac.
    destruct (N.compare_spec (num_of 0 a) (num_of 0 b)) as [E|E|E].
    + rewrite E. apply N.compare_refl.
    + apply N.compare_lt_iff. lia.
    + apply N.compare_gt_iff. lia.
  - apply N.compare_gt_iff. lia.
  - apply N.compare_lt_iff. lia.
  - destruct (N.compare_spec (num_of 0 a) (num_of 0 b)) as [E|E|E].
    + rewrite E. apply N.compare_refl.
    + apply N.compare_lt_iff. lia.
    + apply N.compare_gt_iff. lia.
Qed.

Lemma lexb_app a b c d : length a = length b ->
  lexb (a ++ c) (b ++ d) = match lexb a b with Eq => lexb c d | r => r end.
Proof.
  revert b; induction a as [|x a IH]; intros [|y b] Hl; try done.
  injection Hl as Hl. simpl. destruct x, y; auto.
Qed.

Lemma bytes_cmp_bits a b : length a = length b -> bytes_cmp a b = lexb (byte_bits a) (byte_bits b).
Proof.
  unfold byte_bits. revert b; induction a as [|x a IH]; intros [|y b] Hl; try done.
  injection Hl as Hl. cbn [bytes_cmp map concat].
  rewrite lexb_app by (by rewrite !bits_of_length).
  rewrite <-lexb_num by (by rewrite !bits_of_length).
  rewrite !num_of_bits_of. change (2 ^ N.of_nat 8)%N with 256%N.
  rewrite !N.mod_small by apply b2n_bound. rewrite IH by done. done.
Qed.

Definition syms_ascending : bool :=
  forallb (fun i => forallb (fun j =>
    bool_decide (N.compare (b2n (nth i symbols x00)) (b2n (nth j symbols x00)) = Nat.compare i j))
    (seq 0 32)) (seq 0 32).

Lemma sym_compare g h : length g = 5 -> length h = 5 ->
  N.compare (b2n (sym g)) (b2n (sym h)) = lexb g h.
Proof.
  intros Hg Hh. rewrite <-lexb_num by congruence.
  assert (syms_ascending = true) as H by (by vm_compute).
  unfold syms_ascending in H. rewrite forallb_forall in H.
  pose proof (num_of_bound g) as Bg. pose proof (num_of_bound h) as Bh.
  rewrite Hg in Bg. rewrite Hh in Bh. change (2 ^ N.of_nat 5)%N with 32%N in *.
  specialize (H (N.to_nat (num_of 0 g))). rewrite forallb_forall in H.
  specialize (H ltac:(apply in_seq; lia) (N.to_nat (num_of 0 h)) ltac:(apply in_seq; lia)).
  rewrite bool_decide_eq_true in H. unfold sym. rewrite H.
  by rewrite N2Nat.inj_compare.
Qed.

Lemma syms_compare gs hs :
  Forall (fun g => length g = 5) gs -> Forall (fun g => length g = 5) hs ->
  length gs = length hs ->
  bytes_cmp (map sym gs) (map sym hs) = lexb (concat gs) (concat hs).
Proof.
  intros Hg. revert hs; induction Hg as [|g gs Hg Hgs IH]; intros hs Hh Hl.
  - destruct hs; done.
  - destruct hs as [|h hs]; [done|]. injection Hl as Hl.
    inversion_clear Hh. cbn [map concat bytes_cmp].
    rewrite lexb_app by congruence. rewrite sym_compare by done. rewrite IH by done. done.
Qed.

Lemma lexb_refl l : lexb l l = Eq.
Proof. induction l as [|[] l IH]; simpl; auto. Qed.

Lemma oid_print_cmp i j : oid_wf i -> oid_wf j ->
  bytes_cmp (oid_print i) (oid_print j) = bytes_cmp i j.
Proof.
  intros Hi Hj. unfold oid_wf in *. pose proof (byte_bits_length i) as Li. pose proof (byte_bits_length j) as Lj.
  rewrite (bytes_cmp_bits i j) by congruence.
  pose proof (oid_print_length i Hi) as Pi. pose proof (oid_print_length j Hj) as Pj.
  unfold oid_print, base32_encode in *. rewrite map_length in *.
  rewrite syms_compare by (first [by apply groups_lengths | congruence]).
  rewrite !groups_concat by lia. rewrite Pi, Pj, Li, Lj, Hi, Hj.
  rewrite lexb_app by congruence. rewrite lexb_refl.
  by destruct (lexb (byte_bits i) (byte_bits j)).
Qed.

(** ** Readers and writers *)

Section hashing.
Variable H : bytes -> oid.

Lemma hreader_run_spec calls src h :
  let '(out, (rest, h')) := hreader_run calls (src, h) in
  src = out ++ rest /\ absorbed h' = absorbed h ++ out.
Proof.
  revert src h; induction calls as [|[want give] calls IH]; intros src h; simpl.
  - by rewrite app_nil_r.
  - set (n := want `min` give `min` length src).
    specialize (IH (drop n src) (hasher_update h (take n src))).
    destruct (hreader_run calls _) as [bs [rest h2]]. destruct IH as [E1 E2].
    simpl in E2. split.
    + rewrite <-app_assoc, <-E1. symmetry. apply take_drop.
    + by rewrite E2, <-app_assoc.
Qed.

Lemma hwriter_write_all_spec accepts buf sink h a' sink' h' :
  hwriter_write_all accepts buf (sink, h) = Some (a', (sink', h')) ->
  sink' = sink ++ buf /\ absorbed h' = absorbed h ++ buf.
Proof.
  revert buf sink h; induction accepts as [|a accepts IH]; intros buf sink h E.
  - destruct buf; simpl in E; [|done]. injection E as <- <- <-. by rewrite !app_nil_r.
  - destruct buf as [|b buf]; simpl in E.
    { injection E as <- <- <-. by rewrite !app_nil_r. }
    destruct (a `min` S (length buf)) as [|n] eqn:En; [done|].
    apply IH in E as [-> ->]. simpl. rewrite <-!app_assoc. simpl. by rewrite take_drop.
Qed.

Lemma hwriter_run_spec accepts bufs sink h a' sink' h' :
  hwriter_run accepts bufs (sink, h) = Some (a', (sink', h')) ->
  sink' = sink ++ concat bufs /\ absorbed h' = absorbed h ++ concat bufs.
Proof.
  unfold hwriter_run. revert accepts sink h; induction bufs as [|buf bufs IH]; intros accepts sink h E.
  - simpl in E. injection E as <- <- <-. by rewrite !app_nil_r.
  - cbn [foldl mbind option_bind] in E.
    destruct (hwriter_write_all accepts buf (sink, h)) as [[a1 [s1 h1]]|] eqn:E1.
    + apply hwriter_write_all_spec in E1 as [-> Eh]. apply IH in E as [-> ->].
      rewrite Eh. simpl. by rewrite <-!app_assoc.
    + exfalso. clear -E. induction bufs; simpl in *; [done|auto].
Qed.
End hashing.
