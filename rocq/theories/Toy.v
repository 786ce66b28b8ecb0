(** Concrete stand-ins for the external functions, used only by examples: a
    "compressor" that meets the streaming contract and a 28-byte "hash" that is
    injective on short strings. *)

From Verif Require Import Base Formats Pack.

Definition toy_zenc (x : bytes) : bytes := concat (map (fun b => [x01; b]) x) ++ [x00].
Fixpoint toy_zdec (z : bytes) : bytes * bool :=
  match z with
  | [] => ([], true)
  | x00 :: r => toy_zdec r
  | x01 :: b :: r => let '(p, e) := toy_zdec r in (b :: p, e)
  | _ => ([], false)
  end.

Lemma toy_zstream x : zstream_of toy_zdec (toy_zenc x) x.
Proof.
  intros r. unfold toy_zenc. rewrite <- app_assoc.
  induction x as [|b x IH]; cbn [map concat app toy_zdec].
  - by destruct (toy_zdec r).
  - cbn [app] in IH. by rewrite IH.
Qed.

Definition toy_hash (x : bytes) : oid := take 28 (n2b (N.of_nat (length x)) :: x ++ replicate 27 x00).
Lemma toy_hash_length x : length (toy_hash x) = 28.
Proof. unfold toy_hash. rewrite take_length. cbn [length]. rewrite app_length, replicate_length. lia. Qed.

(** A hash for the examples: the length, then 27 bytes that add up the input in columns. *)
Definition fold_hash (x : bytes) : oid :=
  n2b (N.of_nat (length x)) ::
  imap (fun i _ => n2b (foldr (fun jb a => (if (Nat.modulo jb.1 27 =? i)%nat then b2n jb.2 else 0) * (1 + N.of_nat jb.1) + a)%N 0%N
     (imap pair x))) (replicate 27 tt).
Lemma fold_hash_length x : length (fold_hash x) = 28.
Proof. unfold fold_hash. cbn [length]. by rewrite imap_length, replicate_length. Qed.

(** Metadata for examples. *)
Definition ex_meta (mode : N) (size : option N) : metadata := Posix (mkPosix mode size 1000 1000 5 7).
Definition ex_dirmeta := ex_meta 16877 None.
Definition ex_filemeta := ex_meta 33188 (Some 5%N).
Definition ex_linkmeta := ex_meta 41471 None.
Definition ex_fifometa := ex_meta 4516 None.

(** A "chunker" that cuts every three bytes. *)
Fixpoint chop (acc : bytes) (x : bytes) : list bytes :=
  match x with
  | [] => match acc with [] => [] | _ => [acc] end
  | b :: x' => if Nat.eqb (length acc) 2 then (acc ++ [b]) :: chop [] x' else chop (acc ++ [b]) x'
  end.
Definition toy_cuts (x : bytes) : list bytes := chop [] x.
Lemma chop_concat acc x : concat (chop acc x) = acc ++ x.
Proof.
  revert acc; induction x as [|b x IH]; intros acc; simpl.
  - destruct acc; simpl; by rewrite ?app_nil_r.
  - destruct (Nat.eqb (length acc) 2); simpl; rewrite IH; by rewrite <-?app_assoc.
Qed.
Lemma toy_cuts_concat x : concat (toy_cuts x) = x.
Proof. apply chop_concat. Qed.

(** A faster hash for bigger examples. *)
Definition quick_hash (x : bytes) : oid :=
  let mask := N.ones 32 in
  n2b (N.of_nat (length x)) ::
  (be_bytes 4 (foldl (fun a b => N.land (N.shiftl a 5 + a + b2n b + 1) mask) 0%N x) ++ replicate 23 x00).
Lemma quick_hash_length x : length (quick_hash x) = 28.
Proof. unfold quick_hash. cbn [length]. by rewrite app_length, be_bytes_length, replicate_length. Qed.
