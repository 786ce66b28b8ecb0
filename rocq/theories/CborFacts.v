(** Proofs about the CBOR codec: round trip with arbitrary trailing bytes. *)

From Verif Require Import Base Cbor.

Lemma foldr_and_Forall {A} (P : A -> Prop) l :
  foldr (fun v Q => P v /\ Q) True l <-> Forall P l.
Proof.
  induction l; simpl; [split; auto|]. rewrite Forall_cons, IHl. done.
Qed.

Lemma split_exact_app a r : split_exact (N.of_nat (length a)) (a ++ r) = Some (a, r).
Proof.
  unfold split_exact. rewrite app_length.
  rewrite (proj2 (N.leb_le _ _)) by lia.
  rewrite Nat2N.id, take_app, drop_app. done.
Qed.

Lemma split_exact_app' w a r : w = N.of_nat (length a) -> split_exact w (a ++ r) = Some (a, r).
Proof. intros ->. apply split_exact_app. Qed.

Lemma head_div m k : (k < 32)%N -> ((m * 32 + k) / 32 = m)%N.
Proof. intros. rewrite N.div_add_l by lia. rewrite N.div_small by lia. lia. Qed.
Lemma head_mod m k : (k < 32)%N -> ((m * 32 + k) mod 32 = k)%N.
Proof. intros. rewrite N.add_comm, N.mod_add by lia. by apply N.mod_small. Qed.

Lemma enc_head_nonempty m n : (1 <= length (enc_head m n))%nat.
Proof. unfold enc_head. repeat case_match; simpl; lia. Qed.

Lemma dec_head_enc_head m n r :
  (m < 8)%N -> (n < 2 ^ 64)%N ->
  dec_head (enc_head m n ++ r) = Some (m, Some n, r).
Proof.
  intros Hm Hn. unfold enc_head.
  assert (forall k, (k < 32)%N -> b2n (n2b (m * 32 + k)) = (m * 32 + k)%N) as Hb.
  { intros k Hk. rewrite b2n_n2b_small; [done|]. lia. }
  repeat case_match; rewrite <-?app_comm_cons; unfold dec_head;
    rewrite Hb by lia; rewrite head_div, head_mod by lia.
  - rewrite (proj2 (N.ltb_lt n 24)) by (by apply N.ltb_lt). done.
  - simpl (24 <? 24)%N. cbv iota. simpl (N.eqb 24 24). cbv iota beta.
    rewrite split_exact_app' by (by rewrite be_bytes_length).
    rewrite be_num_be_bytes; [done|]. by apply N.ltb_lt.
  - simpl (25 <? 24)%N. cbv iota. simpl (N.eqb 25 24). simpl (N.eqb 25 25). cbv iota beta.
    rewrite split_exact_app' by (by rewrite be_bytes_length).
    rewrite be_num_be_bytes; [done|]. by apply N.ltb_lt.
  - simpl (26 <? 24)%N. cbv iota. simpl (N.eqb 26 24). simpl (N.eqb 26 25). simpl (N.eqb 26 26).
    cbv iota beta.
    rewrite split_exact_app' by (by rewrite be_bytes_length).
    rewrite be_num_be_bytes; [done|]. by apply N.ltb_lt.
  - simpl (27 <? 24)%N. cbv iota. simpl (N.eqb 27 24). simpl (N.eqb 27 25). simpl (N.eqb 27 26).
    simpl (N.eqb 27 27). cbv iota beta.
    rewrite split_exact_app' by (by rewrite be_bytes_length).
    rewrite be_num_be_bytes; [done|]. done.
Qed.

Lemma enc_nonempty v : (1 <= length (enc v))%nat.
Proof.
  destruct v as [n|n|b|b|l|[] l|b|]; simpl; rewrite ?app_length;
    try (pose proof (enc_head_nonempty 0 n)); try lia;
    try (match goal with |- context [enc_head ?m ?k] => pose proof (enc_head_nonempty m k) end; lia).
Qed.

(** No encoding starts with the break byte. *)
Lemma enc_head_first m n :
  (m < 7)%N -> exists b l, enc_head m n = b :: l /\ (b2n b < 255)%N.
Proof.
  intros Hm. unfold enc_head.
  repeat case_match; eexists _, _; (split; [done|]);
    repeat match goal with H : (_ <? _)%N = true |- _ => apply N.ltb_lt in H end;
    rewrite b2n_n2b_small; lia.
Qed.

Lemma enc_first v : exists b l, enc v = b :: l /\ (b2n b < 255)%N.
Proof.
  destruct v as [n|n|b|b|l|[] l|b|]; simpl;
    try (match goal with |- context [enc_head ?m ?k] =>
      destruct (enc_head_first m k) as (b0 & l0 & -> & ?); [lia|] end; eauto).
  - eexists _, _; split; [done|]. rewrite b2n_n2b_small; lia.
  - eexists _, _; split; [done|]. destruct b; rewrite b2n_n2b_small; lia.
  - eexists _, _; split; [done|]. rewrite b2n_n2b_small; lia.
Qed.

Lemma is_break_enc v r : is_break (enc v ++ r) = None.
Proof.
  destruct (enc_first v) as (b & l & -> & Hb). simpl.
  destruct (N.eqb_spec (b2n b) 255); [lia|done].
Qed.

(** Fuel needed. *)
Lemma dec_enc_gen v :
  cbor_wf v ->
  forall f r, (2 * length (enc v) <= f)%nat -> dec f (enc v ++ r) = Some (v, r).
Proof.
  induction v as [n|n|b|b|l IH|i l IH|b|] using cbor_ind'; intros Hwf f r Hf;
    (destruct f as [|f]; [pose proof (enc_nonempty (CUint 0)); 
       match type of Hf with (2 * length (enc ?v) <= 0)%nat => pose proof (enc_nonempty v) end; lia|]).
  - cbn [enc dec]. rewrite dec_head_enc_head; [done|lia|done].
  - cbn [enc dec]. rewrite dec_head_enc_head; [done|lia|done].
  - cbn [enc dec]. rewrite <-app_assoc, dec_head_enc_head by (first [lia|done]).
    by rewrite split_exact_app.
  - destruct Hwf as [Hlen Hutf]. cbn [enc dec].
    rewrite <-app_assoc, dec_head_enc_head by (first [lia|done]).
    rewrite split_exact_app, Hutf. done.
  - destruct Hwf as [Hlen Hall].
    cbn [enc] in *. cbn [dec].
    rewrite <-app_assoc, dec_head_enc_head by (first [lia|done]).
    apply (foldr_and_Forall cbor_wf) in Hall.
    assert (2 * length (concat (map enc l)) + 1 <= f)%nat as Hf'.
    { rewrite app_length in Hf.
      pose proof (enc_head_nonempty 4 (N.of_nat (length l))). lia. }
    clear Hf Hlen.
    assert (forall f r, (2 * length (concat (map enc l)) + 1 <= f)%nat ->
      dec_seq f (N.of_nat (length l)) (concat (map enc l) ++ r) = Some (l, r)) as Hseq.
    { clear f Hf' r. induction l as [|x l IHl]; intros f r Hf.
      - simpl. destruct f; done.
      - inversion_clear IH as [|? ? IHx IHl']. inversion_clear Hall as [|? ? Hx Hl].
        destruct f as [|f]; [lia|].
        cbn [length map concat] in *. cbn [dec_seq].
        rewrite app_length in Hf. pose proof (enc_nonempty x).
        rewrite <-app_assoc, IHx by (done || lia).
        rewrite Nat2N.inj_succ, N.pred_succ.
        rewrite (IHl IHl' Hl f r) by lia.
        destruct (N.succ (N.of_nat (length l))) eqn:E; [lia|done]. }
    by rewrite Hseq.
  - destruct Hwf as [Hlen Hall].
    apply (foldr_and_Forall (fun kv => cbor_wf kv.1 /\ cbor_wf kv.2)) in Hall.
    set (cc := concat (map (fun kv => enc kv.1 ++ enc kv.2) l)) in *.
    assert (2 * length cc + 1 <= f)%nat as Hf'.
    { destruct i; cbn [enc] in Hf; fold cc in Hf; simpl in Hf; rewrite app_length in Hf; simpl in Hf.
      - lia.
      - pose proof (enc_head_nonempty 5 (N.of_nat (length l))). lia. }
    destruct i.
    + cbn [enc dec]. fold cc. rewrite <-app_comm_cons, <-app_assoc.
      unfold dec_head. rewrite b2n_n2b_small by lia.
      change (191 / 32)%N with 5%N. change (191 mod 32)%N with 31%N.
      change (31 <? 24)%N with false. change (N.eqb 31 24) with false. change (N.eqb 31 25) with false. change (N.eqb 31 26) with false.
      change (N.eqb 31 27) with false. change (N.eqb 31 31) with true. cbv iota beta.
      clear Hf Hlen.
      assert (forall f r, (2 * length cc + 1 <= f)%nat ->
        dec_pairs_indef f (cc ++ [n2b 255] ++ r) = Some (l, r)) as Hseq.
      { clear f Hf' r. subst cc. induction l as [|[k x] l IHl]; intros f r Hf.
        - simpl. rewrite app_nil_l || idtac. destruct f; simpl; done.
        - inversion_clear IH as [|? ? [IHk IHx] IHl']. inversion_clear Hall as [|? ? [Hk Hx] Hl].
          simpl in IHk, IHx, Hk, Hx.
          destruct f as [|f]; [lia|].
          cbn [map concat fst snd] in *. cbn [dec_pairs_indef].
          rewrite !app_length in Hf. pose proof (enc_nonempty x). pose proof (enc_nonempty k).
          rewrite <-!app_assoc. rewrite is_break_enc.
          rewrite IHk by (done || lia).
          rewrite IHx by (done || lia).
          rewrite (IHl IHl' Hl f r) by lia. done. }
      by rewrite Hseq.
    + cbn [enc dec]. fold cc. rewrite <-app_assoc, dec_head_enc_head by (first [lia|auto]).
      clear Hf Hlen.
      assert (forall f r, (2 * length cc + 1 <= f)%nat ->
        dec_pairs f (N.of_nat (length l)) (cc ++ r) = Some (l, r)) as Hseq.
      { clear f Hf' r. subst cc. induction l as [|[k x] l IHl]; intros f r Hf.
        - simpl. destruct f; done.
        - inversion_clear IH as [|? ? [IHk IHx] IHl']. inversion_clear Hall as [|? ? [Hk Hx] Hl].
          simpl in IHk, IHx, Hk, Hx.
          destruct f as [|f]; [lia|].
          cbn [length map concat fst snd] in *. cbn [dec_pairs].
          rewrite !app_length in Hf. pose proof (enc_nonempty x). pose proof (enc_nonempty k).
          rewrite <-!app_assoc.
          rewrite IHk by (done || lia).
          rewrite IHx by (done || lia).
          rewrite Nat2N.inj_succ, N.pred_succ.
          rewrite (IHl IHl' Hl f r) by lia.
          destruct (N.succ (N.of_nat (length l))) eqn:E; [lia|done]. }
      by rewrite Hseq.
  - cbn [enc dec]. destruct b; done.
  - cbn [enc dec]. done.
Qed.

Lemma decode_enc v r : cbor_wf v -> decode (enc v ++ r) = Some (v, r).
Proof. intros. apply dec_enc_gen; [done|]. rewrite app_length. lia. Qed.

Lemma enc_inj v1 v2 : cbor_wf v1 -> cbor_wf v2 -> enc v1 = enc v2 -> v1 = v2.
Proof.
  intros H1 H2 E. pose proof (decode_enc v1 [] H1) as E1. pose proof (decode_enc v2 [] H2) as E2.
  rewrite E in E1. rewrite E1 in E2. congruence.
Qed.

(** Encodings are prefix-free: no encoding is a proper prefix of another. *)
Lemma enc_prefix_free v1 v2 r1 r2 :
  cbor_wf v1 -> cbor_wf v2 -> enc v1 ++ r1 = enc v2 ++ r2 -> v1 = v2 /\ r1 = r2.
Proof.
  intros H1 H2 E. pose proof (decode_enc v1 r1 H1) as E1. pose proof (decode_enc v2 r2 H2) as E2.
  rewrite E, E2 in E1. injection E1 as -> ->. done.
Qed.

(** ** Decoding consumes a prefix *)

Lemma split_exact_suffix n l a r : split_exact n l = Some (a, r) -> r `suffix_of` l.
Proof.
  unfold split_exact. case_match; [|done]. intros [= <- <-].
  exists (take (N.to_nat n) l). by rewrite take_drop.
Qed.

Lemma dec_head_suffix l m a r : dec_head l = Some (m, a, r) -> r `suffix_of` l.
Proof.
  unfold dec_head. destruct l as [|b l]; [done|].
  destruct (_ <? 24)%N; [intros [= <- <- <-]; by apply suffix_cons_r|].
  repeat (case_match; [
    destruct (split_exact _ _) as [[a' r']|] eqn:E; [|done];
    intros [= <- <- <-]; apply suffix_cons_r; by eapply split_exact_suffix|]).
  case_match; [|done]. intros [= <- <- <-]. by apply suffix_cons_r.
Qed.

Lemma is_break_suffix l r : is_break l = Some r -> r `suffix_of` l.
Proof. destruct l; [done|]. simpl. case_match; [|done]. intros [= <-]. by apply suffix_cons_r. Qed.

Lemma dec_suffix_gen fuel :
  (forall l v r, dec fuel l = Some (v, r) -> r `suffix_of` l) /\
  (forall n l v r, dec_seq fuel n l = Some (v, r) -> r `suffix_of` l) /\
  (forall l v r, dec_seq_indef fuel l = Some (v, r) -> r `suffix_of` l) /\
  (forall n l v r, dec_pairs fuel n l = Some (v, r) -> r `suffix_of` l) /\
  (forall l v r, dec_pairs_indef fuel l = Some (v, r) -> r `suffix_of` l).
Proof.
  induction fuel as [|f (IH1 & IH2 & IH3 & IH4 & IH5)].
  { split_and!; intros; cbn in *; try done; repeat case_match; simplify_eq; try done;
      by apply is_break_suffix. }
  split_and!.
  - intros l v r. cbn [dec]. destruct (dec_head l) as [[[m a] r0]|] eqn:Eh; [|done].
    apply dec_head_suffix in Eh. intros E. etrans; [|exact Eh].
    repeat case_match; simplify_eq; try done; eauto using split_exact_suffix.
  - intros n l v r. cbn [dec_seq]. intros E. repeat case_match; simplify_eq; try done;
      (etrans; [eapply IH2; eassumption|eauto]).
  - intros l v r. cbn [dec_seq_indef]. intros E. repeat case_match; simplify_eq; try done;
      [by apply is_break_suffix|]; (etrans; [eapply IH3; eassumption|eauto]).
  - intros n l v r. cbn [dec_pairs]. intros E. repeat case_match; simplify_eq; try done;
      (etrans; [eapply IH4; eassumption|]; etrans; [eapply IH1; eassumption|eauto]).
  - intros l v r. cbn [dec_pairs_indef]. intros E. repeat case_match; simplify_eq; try done;
      [by apply is_break_suffix|];
      (etrans; [eapply IH5; eassumption|]; etrans; [eapply IH1; eassumption|eauto]).
Qed.

Lemma decode_suffix l v r : decode l = Some (v, r) -> exists p, l = p ++ r.
Proof. unfold decode. intros E. apply dec_suffix_gen in E as [p ->]. by exists p. Qed.
