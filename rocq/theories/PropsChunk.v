(** Property C03: chunking a file loses nothing. *)

From Verif Require Import Base Formats Hashing Pack FsTree Chunker.
From stdpp Require Import relations.

(** ** What the theorems speak about *)

(** What the cutting algorithm (crate fastcdc) is relied upon for: its cuts are not
    empty, follow one another, and end where the file ends. *)
Fixpoint cuts_from (o n : nat) (cuts : list cut) : Prop :=
  match cuts with
  | [] => o = n
  | (a, l) :: cuts => a = o /\ 0 < l /\ cuts_from (o + l) n cuts
  end.
Definition valid_cuts (x : bytes) (cuts : list cut) : Prop := cuts_from 0 (length x) cuts.

(** A file that stays as it is while it is backed up. *)
Definition steady (f : loaded) (x : bytes) : Prop := forall t, file_bytes f t = x.

(** ** Proofs *)

Definition piece (x : bytes) (c : cut) : bytes := take c.2 (drop c.1 x).
Definition the_chunk (H : bytes -> oid) (f : loaded) (x : bytes) (c : cut) : chunk := mkChunk (H (piece x c)) (mkSpan f c.1 (c.1 + c.2)).

Lemma cuts_from_pieces (x : bytes) (cuts : list cut) : forall o, cuts_from o (length x) cuts -> o <= length x -> concat (map (piece x) cuts) = drop o x.
Proof.
  induction cuts as [|[a l] cuts IH]; intros o Hc Ho; cbn [cuts_from map concat] in *.
  - subst o. by rewrite drop_all.
  - destruct Hc as (-> & Hl & Hc).
    assert (o + l <= length x) as Hol.
    { clear -Hc. revert Hc. generalize (o + l). induction cuts as [|[a' l'] cuts IH]; intros m Hc; cbn [cuts_from] in Hc; [lia|].
      destruct Hc as (-> & _ & Hc). apply IH in Hc. lia. }
    rewrite (IH _ Hc Hol). unfold piece. cbn [fst snd]. rewrite <- (take_drop l (drop o x)) at 2. by rewrite drop_drop.
Qed.
Lemma cuts_from_bounds (x : bytes) (cuts : list cut) : forall o c, cuts_from o (length x) cuts -> c ∈ cuts -> c.1 + c.2 <= length x.
Proof.
  induction cuts as [|[a l] cuts IH]; intros o c Hc Hin; [by apply elem_of_nil in Hin|]. cbn [cuts_from] in Hc.
  destruct Hc as (-> & Hl & Hc). apply elem_of_cons in Hin as [->|Hin]; [|by eapply IH].
  cbn [fst snd]. clear -Hc. revert Hc. generalize (o + l). induction cuts as [|[a' l'] cuts IH]; intros m Hc; cbn [cuts_from] in Hc; [lia|].
  destruct Hc as (-> & _ & Hc). apply IH in Hc. lia.
Qed.

Lemma span_bytes_steady (f : loaded) (x : bytes) (c : cut) (t : nat) : steady f x -> c.1 + c.2 <= length x -> span_bytes (mkSpan f c.1 (c.1 + c.2)) t = Ok (piece x c).
Proof.
  intros Hf Hc. unfold span_bytes, piece. cbn [sp_file sp_start sp_end]. rewrite Hf.
  rewrite bool_decide_eq_true_2 by lia. by replace (c.1 + c.2 - c.1) with c.2 by lia.
Qed.
Lemma chunk_to_blob_steady (H : bytes -> oid) (f : loaded) (x : bytes) (c : cut) (t : nat) : steady f x -> c.1 + c.2 <= length x -> chunk_to_blob H f c t = Ok (the_chunk H f x c).
Proof. intros Hf Hc. unfold chunk_to_blob. by rewrite (span_bytes_steady f x c t Hf Hc). Qed.

Lemma simple_steady (H : bytes -> oid) (f : loaded) (x : bytes) (cuts : list cut) : steady f x -> valid_cuts x cuts -> simple_chunker H f cuts = map Ok (map (the_chunk H f x) cuts).
Proof.
  intros Hf Hv. unfold simple_chunker. rewrite map_map. apply map_ext_in. intros c Hin.
  apply chunk_to_blob_steady; [done|]. eapply cuts_from_bounds; [exact Hv|]. by apply elem_of_list_In.
Qed.

(** ** C03 *)

(** Chunks are cut without a panic; whenever their bytes are looked at, these hash to
    the id and make up the file when put together in order. *)
Theorem C03_chunks_make_up_the_file : forall (H : bytes -> oid) f x cuts,
  steady f x -> valid_cuts x cuts ->
  exists chunks, simple_chunker H f cuts = map Ok chunks /\
    (forall t, exists ys, map (fun c => span_bytes (ch_span c) t) chunks = map Ok ys /\
       concat ys = x /\ map ch_id chunks = map H ys /\ Forall (fun y => y <> []) ys).
Proof.
  intros H f x cuts Hf Hv. exists (map (the_chunk H f x) cuts). split; [by apply simple_steady|]. intros t.
  exists (map (piece x) cuts). split.
  { rewrite !map_map. apply map_ext_in. intros c Hin. cbn [the_chunk ch_span]. apply span_bytes_steady; [done|].
    eapply cuts_from_bounds; [exact Hv|]. by apply elem_of_list_In. }
  split; [rewrite (cuts_from_pieces x cuts 0 Hv); [by rewrite drop_0|lia]|]. split; [by rewrite !map_map|].
  rewrite Forall_forall. intros y Hy. change (map (piece x) cuts) with (piece x <$> cuts) in Hy. apply elem_of_list_fmap in Hy as (c & -> & Hin).
  pose proof (cuts_from_bounds x cuts 0 c Hv Hin) as Hb.
  assert (0 < c.2) as Hpos.
  { clear -Hv Hin. unfold valid_cuts in Hv. revert Hv. generalize 0 at 1. induction cuts as [|[a l] cuts IH]; intros o Hv; [by apply elem_of_nil in Hin|].
    cbn [cuts_from] in Hv. destruct Hv as (_ & Hl & Hv). apply elem_of_cons in Hin as [->|Hin]; [done|]. by eapply IH. }
  intros E. apply (f_equal length) in E. unfold piece in E. rewrite take_length, drop_length in E. cbn in E. lia.
Qed.
Print Assumptions C03_chunks_make_up_the_file.

(** Files of less than 10 MiB need not be [steady]: they are read once, so whatever
    happens to them meanwhile ([g]), the chunks make up what was read. *)
Theorem C03_small_files_may_change_meanwhile : forall (H : bytes -> oid) size x g cuts,
  (size < 10485760)%N -> valid_cuts x cuts ->
  exists chunks, simple_chunker H (read_file size x g) cuts = map Ok chunks /\
    (forall t, exists ys, map (fun c => span_bytes (ch_span c) t) chunks = map Ok ys /\
       concat ys = x /\ map ch_id chunks = map H ys).
Proof.
  intros H size x g cuts Hs Hv. assert (read_file size x g = Buffered x) as ->.
  { unfold read_file. by rewrite (proj2 (N.ltb_lt size (10 * (1024 * 1024))) Hs). }
  destruct (C03_chunks_make_up_the_file H (Buffered x) x cuts) as (chunks & E & Hc); [by intros t|done|].
  exists chunks. split; [done|]. intros t. destruct (Hc t) as (ys & ? & ? & ? & _). by exists ys.
Qed.
Print Assumptions C03_small_files_may_change_meanwhile.

(** The backup (FsTree.v) takes the chunker to be a function whose pieces make up the
    file; this is one, and its blobs are the simple chunker's. *)
Theorem C03_backup_deals_with_these_chunks : forall (H : bytes -> oid) cdc, (forall x, valid_cuts x (cdc x)) ->
  let cuts := fun x => map (fun c => take c.2 (drop c.1 x)) (cdc x) in
  forall x, concat (cuts x) = x /\
    map (fun c => let* c := c in let* y := span_bytes (ch_span c) 0 in Ok (mkBlob Chunk (ch_id c) y)) (simple_chunker H (Buffered x) (cdc x)) =
    map Ok (chunk_file H cuts x).
Proof.
  intros H cdc Hv cuts x. split; [refine (eq_trans (cuts_from_pieces x (cdc x) 0 (Hv x) _) _); [lia|by rewrite drop_0]|].
  rewrite (simple_steady H (Buffered x) x (cdc x)); [|by intros t|done]. unfold chunk_file, cuts. rewrite !map_map. apply map_ext_in.
  intros c Hin. cbn [rbind the_chunk ch_span ch_id].
  rewrite (span_bytes_steady (Buffered x) x c 0); [done|by intros t|]. eapply cuts_from_bounds; [apply Hv|]. by apply elem_of_list_In.
Qed.
Print Assumptions C03_backup_deals_with_these_chunks.

Definition held_chunk (h : hand) : list chunk := match h with Holding c => [c] | _ => [] end.
Definition tinv (H : bytes -> oid) (f : loaded) (x : bytes) (cuts : list cut) (s : tstate) : Prop :=
  let all := map (the_chunk H f x) cuts in
  received s `prefix_of` all /\ (over s = true -> received s = all) /\
  Forall (fun c => c.1 + c.2 <= length x) (cuts_ch s ++ to_cut s) /\
  hasher s <> Ended true /\
  (dropped s = false ->
     received s ++ blobs_ch s ++ held_chunk (hasher s) ++ map (the_chunk H f x) (cuts_ch s ++ to_cut s) = all /\
     (cutter_done s = true -> to_cut s = []) /\ (hasher_ended (hasher s) = true -> to_cut s = [] /\ cuts_ch s = [])).

Lemma tinv_step (H : bytes -> oid) (f : loaded) (x : bytes) (cuts : list cut) s s' : steady f x -> tstep H f s s' -> tinv H f x cuts s -> tinv H f x cuts s'.
Proof.
  intros Hf Hst (H1 & H2 & H3 & H4 & H5).
  destruct Hst; unfold tinv; cbn [to_cut cutter_done cuts_ch hasher blobs_ch received over dropped held_chunk hasher_ended app] in *.
  - split; [done|]. split; [done|]. split; [by rewrite <- app_assoc|]. split; [done|].
    intros Hd. destruct (H5 Hd) as (E & _ & _). split; [by rewrite <- app_assoc|]. split; [done|]. congruence.
  - split; [done|]. split; [done|]. split; [done|]. split; [done|]. intros Hd. destruct (H5 Hd) as (E & _ & Hh). done.
  - split; [done|]. split; [done|]. split; [done|]. split; [done|]. intros Hd. destruct (H5 Hd) as (_ & _ & Hh).
    exfalso. by destruct (Hh H0) as [? _].
  - split; [done|]. split; [done|]. inversion_clear H3 as [|? ? Hc H3']. split; [done|]. split; [done|].
    intros Hd. destruct (H5 Hd) as (E & Hc' & _). split; [|done].
    rewrite (chunk_to_blob_steady H f x c t Hf Hc) in H0. injection H0 as <-. done.
  - exfalso. inversion_clear H3 as [|? ? Hc H3']. by rewrite (chunk_to_blob_steady H f x c t Hf Hc) in H0.
  - split; [done|]. split; [done|]. split; [done|]. split; [done|]. intros Hd. destruct (H5 Hd) as (E & Hc' & _). split; [|done].
    rewrite <- E. by rewrite <- !app_assoc.
  - done.
  - split; [done|]. split; [done|]. split; [done|]. split; [done|]. intros Hd. destruct (H5 Hd) as (E & Hc' & _). auto.
  - destruct (H5 eq_refl) as (E & Hc' & Hh).
    split. { rewrite <- E. exists (b ++ held_chunk h ++ map (the_chunk H f x) (q ++ cs)). by rewrite <- !app_assoc. }
    split; [done|]. split; [done|]. split; [done|]. intros _. split; [|done]. rewrite <- E. by rewrite <- !app_assoc.
  - destruct (H5 eq_refl) as (E & Hc' & Hh). destruct (Hh eq_refl) as [-> ->]. cbn [app map] in E. rewrite !app_nil_r in E.
    split; [done|]. split; [done|]. split; [done|]. split; [done|]. intros _. split; [|done]. cbn. by rewrite !app_nil_r.
  - done.
Qed.

Lemma tinv_start (H : bytes -> oid) (f : loaded) (x : bytes) (cuts : list cut) : valid_cuts x cuts -> tinv H f x cuts (tstart cuts).
Proof.
  intros Hv. unfold tinv, tstart. cbn [to_cut cutter_done cuts_ch hasher blobs_ch received over dropped held_chunk hasher_ended app].
  split; [by exists (map (the_chunk H f x) cuts)|]. split; [done|]. split.
  { rewrite Forall_forall. intros c Hin. by eapply cuts_from_bounds. }
  split; [done|]. intros _. done.
Qed.

Lemma tinv_reach (H : bytes -> oid) (f : loaded) (x : bytes) (cuts : list cut) s : steady f x -> valid_cuts x cuts -> rtc (tstep H f) (tstart cuts) s -> tinv H f x cuts s.
Proof.
  intros Hf Hv Hr. assert (forall a b, rtc (tstep H f) a b -> tinv H f x cuts a -> tinv H f x cuts b) as Hgo.
  { induction 1; eauto using tinv_step. }
  eapply Hgo; [exact Hr|]. by apply tinv_start.
Qed.

(** However the two threads and the consumer are scheduled: what the consumer has got
    is what the simple chunker gives, as far as it got, and all of it when the
    iterator says it is over. *)
Theorem C03_threads_agree_with_the_simple_chunker : forall (H : bytes -> oid) f x cuts s,
  steady f x -> valid_cuts x cuts -> rtc (tstep H f) (tstart cuts) s ->
  map Ok (received s) `prefix_of` simple_chunker H f cuts /\
  (over s = true -> map Ok (received s) = simple_chunker H f cuts).
Proof.
  intros H f x cuts s Hf Hv Hr. destruct (tinv_reach H f x cuts s Hf Hv Hr) as ((k & Ek) & H2 & _).
  rewrite (simple_steady H f x cuts Hf Hv). split.
  - rewrite Ek, map_app. by exists (map Ok k).
  - intros Ho. by rewrite (H2 Ho).
Qed.
Print Assumptions C03_threads_agree_with_the_simple_chunker.

(** No deadlock: until the iterator is over, or was dropped, there is something to do. *)
Theorem C03_threads_never_get_stuck : forall (H : bytes -> oid) f x cuts s,
  steady f x -> valid_cuts x cuts -> rtc (tstep H f) (tstart cuts) s ->
  over s = false -> dropped s = false -> exists s', tstep H f s s' /\ dropped s' = false.
Proof.
  intros H f x cuts s Hf Hv Hr Ho Hd. destruct (tinv_reach H f x cuts s Hf Hv Hr) as (_ & _ & H3 & _ & H5).
  destruct s as [cs e q h b r o d]. cbn in Ho, Hd. subst o d. destruct (H5 eq_refl) as (_ & Hc & _). cbn in Hc, H3.
  destruct b as [|ch b]; [|by eexists; split; [apply t_next|]].
  destruct h as [|ch|p].
  - destruct q as [|c q].
    + destruct e; [by eexists; split; [apply t_hashed_all|]|].
      destruct cs as [|c cs]; [by eexists; split; [apply t_cut_all|]|].
      eexists. split; [apply t_send; [done|unfold room; cbn; lia]|done].
    + inversion_clear H3 as [|? ? Hb _]. eexists. split; [apply (t_hash H f cs e c q [] r false false 0)|done].
      by apply (chunk_to_blob_steady H f x c 0 Hf).
  - eexists. split; [apply t_pass; unfold room; cbn; lia|done].
  - by eexists; split; [apply t_over|].
Qed.
Print Assumptions C03_threads_never_get_stuck.

(** Every run ends, with no more steps than this, and no thread is left behind. *)
Definition tmeasure (s : tstate) : nat :=
  4 * length (to_cut s) + 3 * length (cuts_ch s) + match hasher s with Holding _ => 3 | Waiting => 1 | Ended _ => 0 end + length (blobs_ch s) +
  (if cutter_done s then 0 else 1) + (if over s then 0 else 1) + (if dropped s then 0 else 1).
Lemma tstep_measure (H : bytes -> oid) (f : loaded) s s' : tstep H f s s' -> tmeasure s' < tmeasure s.
Proof.
  destruct 1; unfold tmeasure; cbn [to_cut cutter_done cuts_ch hasher blobs_ch received over dropped length]; rewrite ?app_length; cbn [length];
    repeat match goal with |- context [if ?b then _ else _] => destruct b end; try lia.
Qed.
Theorem C03_threads_come_to_an_end : forall (H : bytes -> oid) f x cuts n s,
  steady f x -> valid_cuts x cuts -> nsteps (tstep H f) n (tstart cuts) s ->
  n <= 4 * length cuts + 4 /\
  ((forall s', ~ tstep H f s s') -> cutter_done s = true /\ hasher_ended (hasher s) = true).
Proof.
  intros H f x cuts n s Hf Hv Hn. split.
  - assert (forall n a b, nsteps (tstep H f) n a b -> n + tmeasure b <= tmeasure a) as Hgo.
    { clear. induction 1 as [|n a b c Hab _ IH]; [lia|]. apply tstep_measure in Hab. lia. }
    apply Hgo in Hn. assert (tmeasure (tstart cuts) = 4 * length cuts + 4) as Hm by (unfold tmeasure, tstart; cbn; lia). lia.
  - intros Hstuck. assert (rtc (tstep H f) (tstart cuts) s) as Hr by (apply rtc_nsteps; eauto).
    destruct (tinv_reach H f x cuts s Hf Hv Hr) as (_ & _ & H3 & _ & _).
    destruct s as [cs e q h b r o d]. cbn in *.
    assert (d = true) as ->. { destruct d; [done|]. exfalso. eapply Hstuck. apply t_drop. }
    assert (hasher_ended h = true) as Hh.
    { destruct h as [|ch|p]; [|exfalso; eapply Hstuck; apply t_hash_gives_up|done]. exfalso. destruct q as [|c q].
      - destruct e; [by eapply Hstuck; apply t_hashed_all|]. destruct cs as [|c cs]; [by eapply Hstuck; apply t_cut_all|].
        eapply Hstuck. apply t_send; [done|]. unfold room. cbn. lia.
      - inversion_clear H3 as [|? ? Hb _]. eapply Hstuck. apply (t_hash H f cs e c q b r o true 0).
        by apply (chunk_to_blob_steady H f x c 0 Hf). }
    split; [|done]. destruct e; [done|]. exfalso. destruct cs as [|c cs]; [by eapply Hstuck; apply t_cut_all|].
    eapply Hstuck. by apply t_cut_gives_up.
Qed.
Print Assumptions C03_threads_come_to_an_end.

(** A mapped file that is written to during the backup: the bytes that are hashed need
    not be those that go into the pack later, so that the pack has a chunk under the
    wrong id.  (Small files are read once: for them [steady] always holds.) *)
Theorem C03_refuted_file_written_to_meanwhile : forall (H : bytes -> oid) x y,
  length x = length y -> x <> [] -> H x <> H y ->
  exists f cuts s c, valid_cuts x cuts /\ (forall t, length (file_bytes f t) = length x) /\
    rtc (tstep H f) (tstart cuts) s /\ over s = true /\ c ∈ received s /\
    exists t z, span_bytes (ch_span c) t = Ok z /\ ch_id c <> H z.
Proof.
  intros H x y Hl Hx Hh.
  assert (0 < length x) as Hpos by (destruct x; [done|cbn; lia]).
  set (f := Mapped (fun t => if decide (t = 0) then x else y)).
  assert (forall t, span_bytes (mkSpan f 0 (0 + length x)) t = Ok (if decide (t = 0) then x else y)) as Hs.
  { intros t. unfold span_bytes. cbn [sp_file sp_start sp_end]. rewrite bool_decide_eq_true_2.
    - f_equal. rewrite drop_0. cbn [file_bytes f]. case_decide; apply take_ge; lia.
    - cbn [file_bytes f]. case_decide; lia. }
  exists f, [(0, length x)], (mkTS [] true [] (Ended false) [] [mkChunk (H x) (mkSpan f 0 (0 + length x))] true false).
  exists (mkChunk (H x) (mkSpan f 0 (0 + length x))).
  split; [by split|]. split; [intros t; cbn; case_decide; congruence|]. split.
  - eapply rtc_l; [apply t_send; [done|unfold room; cbn; lia]|]. eapply rtc_l; [apply t_cut_all|].
    eapply rtc_l; [apply (t_hash H f [] true (0, length x) [] [] [] false false 0 (mkChunk (H x) (mkSpan f 0 (0 + length x))))|].
    { unfold chunk_to_blob. cbn [fst snd]. by rewrite Hs. }
    eapply rtc_l; [apply t_pass; unfold room; cbn; lia|]. eapply rtc_l; [apply t_next|]. eapply rtc_l; [apply t_hashed_all|].
    eapply rtc_l; [apply t_over|]. apply rtc_refl.
  - split; [done|]. split; [left|]. exists 1, y. cbn [ch_span ch_id]. split; [by rewrite Hs|done].
Qed.
Print Assumptions C03_refuted_file_written_to_meanwhile.

(** Three cuts of a mapped file, a run to the end. *)
Definition ck_file : bytes := ascii_bytes "one, two and three".
Definition ck_cuts : list cut := [(0, 5); (5, 8); (13, 5)].
Definition ck_run (H : bytes -> oid) (f : loaded) (k : list cut) : tstate :=
  mkTS [] true [] (Ended false) [] (map (the_chunk H f ck_file) k) true false.
Example C03_witness : forall H : bytes -> oid,
  let f := Mapped (fun _ => ck_file) in
  steady f ck_file /\ valid_cuts ck_file ck_cuts /\ rtc (tstep H f) (tstart ck_cuts) (ck_run H f ck_cuts) /\
  map (fun c => span_bytes (ch_span c) 7) (received (ck_run H f ck_cuts)) =
    [Ok (ascii_bytes "one, "); Ok (ascii_bytes "two and "); Ok (ascii_bytes "three")].
Proof.
  intros H f. split; [done|]. split; [by vm_compute; repeat split; lia|]. split; [|done].
  unfold tstart, ck_cuts, ck_run. cbn [map].
  do 2 (eapply rtc_l; [apply t_send; [done|unfold room; cbn; lia]|]).
  eapply rtc_l; [apply (t_hash H f [(13, 5)] false (0, 5) _ _ _ _ _ 3); done|].
  eapply rtc_l; [apply t_send; [done|unfold room; cbn; lia]|]. eapply rtc_l; [apply t_cut_all|].
  eapply rtc_l; [apply t_pass; unfold room; cbn; lia|].
  eapply rtc_l; [apply (t_hash H f [] true (5, 8) _ _ _ _ _ 3); done|]. eapply rtc_l; [apply t_pass; unfold room; cbn; lia|].
  eapply rtc_l; [apply t_next|].
  eapply rtc_l; [apply (t_hash H f [] true (13, 5) _ _ _ _ _ 3); done|]. eapply rtc_l; [apply t_pass; unfold room; cbn; lia|].
  do 2 (eapply rtc_l; [apply t_next|]). eapply rtc_l; [apply t_hashed_all|]. eapply rtc_l; [apply t_over|]. apply rtc_refl.
Qed.
