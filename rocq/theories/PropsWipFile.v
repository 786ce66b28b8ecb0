(** Property C12, the file itself: an index left by an interrupted run is read or reported. *)

From Verif Require Import Base OMap Cbor CborFacts Formats FormatsFacts Hashing Pack PackFacts Index IndexFacts Toy PropsIndex.

(** An index left by an interrupted run is never passed over: if the file is there it is
    read, or reported if it cannot be. *)
Theorem C12_leftovers_are_read_or_reported : forall H zdec file r,
  read_wip H zdec file = r <->
  match file with
  | None => r = Ok None
  | Some f =>
      (exists body ix rest, f = index_magic ++ body /\ dec_index (zdec body).1 = Some (ix, rest) /\ r = Ok (Some ix)) \/
      ((forall body, f = index_magic ++ body -> dec_index (zdec body).1 = None) /\ r = Err)
  end.
Proof.
  intros H zdec [f|] r; [|by split]. cbn [read_wip]. unfold index_from_reader.
  assert (forall body, check_magic index_magic (index_magic ++ body) = Ok body) as Hm.
  { intros body. unfold check_magic. by rewrite take_app, bool_decide_eq_true_2, drop_app. }
  destruct (check_magic index_magic f) as [body| |] eqn:Em; cbn [rbind].
  - apply check_magic_inv in Em as ->. unfold from_hashing_reader. destruct (dec_index (zdec body).1) as [[ix rest]|] eqn:Ed; cbn [of_option rbind].
    + split; [intros <-; left; by exists body, ix, rest|]. intros [(b & ix' & rest' & ->%app_inv_head & Ed' & ->)|[Hno ->]]; [congruence|]. by rewrite (Hno body) in Ed.
    + split; [intros <-; right; split; [|done]; by intros b ->%app_inv_head|]. intros [(b & ix' & rest' & ->%app_inv_head & Ed' & ->)|[_ ->]]; [congruence|done].
  - split; [intros <-; right; split; [|done]; intros b ->; by rewrite Hm in Em|]. intros [(b & ix' & rest' & -> & _)|[_ ->]]; [by rewrite Hm in Em|done].
  - unfold check_magic in Em. by case_bool_decide.
Qed.
Print Assumptions C12_leftovers_are_read_or_reported.

(** Both outcomes occur: the file written for an index is read back, a truncated one is reported. *)
Example C12_leftovers_witness :
  read_wip toy_hash toy_zdec None = Ok None /\
  read_wip toy_hash toy_zdec (Some (index_file (toy_zenc (enc_index ex_ix)))) = Ok (Some ex_ix) /\
  read_wip toy_hash toy_zdec (Some (take 12 (index_file (toy_zenc (enc_index ex_ix))))) = Err /\
  read_wip toy_hash toy_zdec (Some []) = Err.
Proof. repeat split; vm_compute; reflexivity. Qed.
