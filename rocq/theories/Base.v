(** Shared vocabulary: bytes, results, byte/number conversions.

    Models: nothing in particular; the Rust primitives [u8], [Result], the
    panicking paths ([assert!], [unwrap], [expect]) and big-endian integers. *)

From Coq Require Export Init.Byte.
From Coq Require Strings.Byte.
From stdpp Require Export prelude countable list strings fin_maps gmap gmultiset numbers sorting.
From Coq Require Export Lia ZArith NArith.
From Coq Require Import ZifyBool ZifyNat ZifyN.

Global Set Default Proof Using "Type".

(** ** Bytes *)

Notation byte := Init.Byte.byte.
Notation bytes := (list byte).

Definition b2n (b : byte) : N := Strings.Byte.to_N b.
(** Truncating conversion, like Rust's [x as u8]. *)
Definition n2b (n : N) : byte :=
  match Strings.Byte.of_N (n mod 256) with Some b => b | None => x00 end.

Lemma b2n_bound b : (b2n b < 256)%N.
Proof. pose proof (Strings.Byte.to_N_bounded b). unfold b2n. lia. Qed.

Lemma n2b_b2n b : n2b (b2n b) = b.
Proof.
  unfold n2b, b2n. pose proof (Strings.Byte.to_N_bounded b).
  rewrite N.mod_small by lia. rewrite Strings.Byte.of_to_N. done.
Qed.

Lemma b2n_n2b n : b2n (n2b n) = (n mod 256)%N.
Proof.
  unfold n2b, b2n.
  destruct (Strings.Byte.of_N (n mod 256)) as [b|] eqn:E.
  - by apply Strings.Byte.to_of_N in E.
  - apply Strings.Byte.of_N_None_iff in E.
    assert (n mod 256 < 256)%N by (apply N.mod_lt; lia). lia.
Qed.

Lemma b2n_n2b_small n : (n < 256)%N -> b2n (n2b n) = n.
Proof. intros. rewrite b2n_n2b. by apply N.mod_small. Qed.

Lemma b2n_inj a b : b2n a = b2n b -> a = b.
Proof. intros E. by rewrite <-(n2b_b2n a), E, n2b_b2n. Qed.

Global Instance byte_eq_dec : EqDecision byte := Strings.Byte.byte_eq_dec.
Global Program Instance byte_countable : Countable byte :=
  inj_countable' b2n n2b _.
Next Obligation. apply n2b_b2n. Qed.

(** ** Results: [Ok], an ordinary reported error ([anyhow::Error]), or a panic. *)

Inductive result (A : Type) :=
| Ok (a : A)
| Err
| Panic.
Arguments Ok {A} a.
Arguments Err {A}.
Arguments Panic {A}.

Definition rbind {A B} (x : result A) (f : A -> result B) : result B :=
  match x with Ok a => f a | Err => Err | Panic => Panic end.

Notation "'let*' x ':=' e 'in' f" := (rbind e (fun x => f))
  (at level 200, x pattern, e at level 100, f at level 200, right associativity).

Definition of_option {A} (o : option A) : result A :=
  match o with Some a => Ok a | None => Err end.

Definition ensure (b : bool) : result unit := if b then Ok tt else Err.
Definition rassert (b : bool) : result unit := if b then Ok tt else Panic.

Lemma rbind_ok {A B} (x : result A) (f : A -> result B) b :
  rbind x f = Ok b -> exists a, x = Ok a /\ f a = Ok b.
Proof. destruct x; simpl; intros; try discriminate; eauto. Qed.

Ltac rinv :=
  repeat match goal with
  | H : rbind _ _ = Ok _ |- _ =>
      let a := fresh "a" in let E := fresh "E" in
      apply rbind_ok in H as (a & E & H)
  | H : of_option ?o = Ok _ |- _ =>
      let E := fresh "E" in destruct o eqn:E; simpl in H; [| discriminate]
  | H : ensure ?b = Ok _ |- _ =>
      let E := fresh "E" in destruct b eqn:E; simpl in H; [| discriminate]
  | H : rassert ?b = Ok _ |- _ =>
      let E := fresh "E" in destruct b eqn:E; simpl in H; [| discriminate]
  | H : Ok _ = Ok _ |- _ => injection H as H
  | H : Err = Ok _ |- _ => discriminate
  | H : Panic = Ok _ |- _ => discriminate
  end.

(** ** Big-endian numbers of a fixed width *)

Fixpoint be_bytes (w : nat) (n : N) : bytes :=
  match w with
  | O => []
  | S w' => n2b (n / 256 ^ N.of_nat w') :: be_bytes w' n
  end.

Fixpoint be_num (acc : N) (l : bytes) : N :=
  match l with
  | [] => acc
  | b :: l' => be_num (acc * 256 + b2n b) l'
  end.

Lemma be_bytes_length w n : length (be_bytes w n) = w.
Proof. induction w; simpl; auto. Qed.

Lemma be_num_app l1 l2 acc : be_num acc (l1 ++ l2) = be_num (be_num acc l1) l2.
Proof. revert acc; induction l1; simpl; auto. Qed.

Lemma be_num_be_bytes_gen w n acc :
  be_num acc (be_bytes w n)
  = (acc * 256 ^ N.of_nat w + n mod 256 ^ N.of_nat w)%N.
Proof.
  revert acc; induction w as [|w IH]; intros acc.
  - simpl. rewrite N.mod_1_r. lia.
  - cbn [be_bytes be_num]. rewrite IH, b2n_n2b, Nat2N.inj_succ, N.pow_succ_r'.
    set (p := (256 ^ N.of_nat w)%N).
    assert (p <> 0)%N by (apply N.pow_nonzero; lia).
    rewrite (N.mul_comm 256 p), N.mod_mul_r by lia. lia.
Qed.

Lemma be_num_be_bytes w n :
  (n < 256 ^ N.of_nat w)%N -> be_num 0 (be_bytes w n) = n.
Proof. intros. rewrite be_num_be_bytes_gen, N.mod_small by done. lia. Qed.

Lemma be_num_bound_gen l acc :
  (be_num acc l < (acc + 1) * 256 ^ N.of_nat (length l))%N.
Proof.
  revert acc; induction l as [|b l IH]; intros acc; simpl length.
  - simpl. lia.
  - cbn [be_num]. rewrite Nat2N.inj_succ, N.pow_succ_r'.
    pose proof (IH (acc * 256 + b2n b)%N). pose proof (b2n_bound b).
    set (p := (256 ^ N.of_nat (length l))%N) in *. nia.
Qed.

Lemma be_num_bound l : (be_num 0 l < 256 ^ N.of_nat (length l))%N.
Proof. pose proof (be_num_bound_gen l 0). lia. Qed.

(** ** ASCII literals as bytes *)

Definition ascii_bytes (s : string) : bytes :=
  map (fun a => n2b (Ascii.N_of_ascii a)) (String.list_ascii_of_string s).

(** ** A decidable, total order on byte strings (lexicographic, as [Ord] on
    slices and [str] in Rust). *)

Fixpoint bytes_cmp (a b : bytes) : comparison :=
  match a, b with
  | [], [] => Eq
  | [], _ => Lt
  | _, [] => Gt
  | x :: a', y :: b' =>
      match N.compare (b2n x) (b2n y) with
      | Eq => bytes_cmp a' b'
      | c => c
      end
  end.

Definition bytes_lt (a b : bytes) : Prop := bytes_cmp a b = Lt.
Definition bytes_ltb (a b : bytes) : bool :=
  match bytes_cmp a b with Lt => true | _ => false end.

Lemma bytes_ltb_lt a b : bytes_ltb a b = true <-> bytes_lt a b.
Proof. unfold bytes_ltb, bytes_lt. destruct (bytes_cmp a b); naive_solver. Qed.

Lemma bytes_cmp_eq a b : bytes_cmp a b = Eq <-> a = b.
Proof.
  revert b; induction a as [|x a IH]; intros [|y b]; simpl; try naive_solver.
  destruct (N.compare_spec (b2n x) (b2n y)) as [E|E|E].
  - apply b2n_inj in E as ->. rewrite IH. naive_solver.
  - split; [done|]. intros [= -> ->]. lia.
  - split; [done|]. intros [= -> ->]. lia.
Qed.

Lemma bytes_cmp_antisym a b : bytes_cmp b a = CompOpp (bytes_cmp a b).
Proof.
  revert b; induction a as [|x a IH]; intros [|y b]; simpl; try done.
  rewrite (N.compare_antisym (b2n x) (b2n y)).
  destruct (N.compare (b2n x) (b2n y)); simpl; auto.
Qed.

Lemma bytes_lt_trans a b c : bytes_lt a b -> bytes_lt b c -> bytes_lt a c.
Proof.
  unfold bytes_lt. revert b c; induction a as [|x a IH]; intros [|y b] [|z c]; simpl; try done.
  destruct (N.compare_spec (b2n x) (b2n y)) as [E1|E1|E1]; try done;
  destruct (N.compare_spec (b2n y) (b2n z)) as [E2|E2|E2]; try done; intros H1 H2.
  - rewrite E1, E2, N.compare_refl. eauto.
  - rewrite E1. by rewrite (proj2 (N.compare_lt_iff _ _) E2).
  - rewrite <-E2. by rewrite (proj2 (N.compare_lt_iff _ _) E1).
  - by rewrite (proj2 (N.compare_lt_iff _ _) (N.lt_trans _ _ _ E1 E2)).
Qed.

Lemma bytes_lt_irrefl a : ~ bytes_lt a a.
Proof. unfold bytes_lt. rewrite (proj2 (bytes_cmp_eq a a) eq_refl). done. Qed.

Lemma bytes_lt_total a b : bytes_lt a b \/ a = b \/ bytes_lt b a.
Proof.
  unfold bytes_lt. destruct (bytes_cmp a b) eqn:E; auto.
  - apply bytes_cmp_eq in E. auto.
  - right; right. rewrite bytes_cmp_antisym, E. done.
Qed.
