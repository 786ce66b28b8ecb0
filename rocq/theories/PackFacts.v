From Verif Require Import Base OMap Cbor CborFacts Formats FormatsFacts Hashing Pack.

(** ** Magic *)

Lemma check_magic_ok magic r : check_magic magic (magic ++ r) = Ok r.
Proof.
  unfold check_magic. rewrite take_app_alt, drop_app_alt by done.
  by rewrite bool_decide_eq_true_2.
Qed.

Lemma check_magic_inv magic file r : check_magic magic file = Ok r -> file = magic ++ r.
Proof.
  unfold check_magic. case_bool_decide as E; [|done]. intros [= <-].
  rewrite <- E at 1. by rewrite take_drop.
Qed.

(** ** Reading prefixes *)

Lemma read_take_app n b rest clean :
  n = N.of_nat (length b) ->
  read_take n (b ++ rest, clean) = Ok (b, (rest, clean)).
Proof.
  intros ->. unfold read_take; simpl. rewrite app_length.
  rewrite (proj2 (N.leb_le _ _)) by lia. by rewrite Nat2N.id, take_app, drop_app.
Qed.

Lemma read_take_inv n st b st' : read_take n st = Ok (b, st') ->
  st.1 = b ++ st'.1 /\
  ((N.of_nat (length b) = n /\ st'.2 = st.2) \/
   (N.of_nat (length b) < n)%N /\ st' = ([], true) /\ st.2 = true).
Proof.
  unfold read_take. destruct (N.leb_spec n (N.of_nat (length st.1))).
  - intros [= <- <-]. simpl. rewrite take_drop. split; [done|]. left. rewrite take_length. split; [lia|done].
  - destruct st.2 eqn:E; [|done]. intros [= <- <-]. rewrite app_nil_r. split; [done|]. right. done.
Qed.

Lemma from_hashing_reader_ok (H : bytes -> oid) {A} (dec : bytes -> option (A * bytes)) e r a :
  dec (e ++ r) = Some (a, r) -> from_hashing_reader H dec (e ++ r) = Ok (a, H e, r).
Proof.
  intros E. unfold from_hashing_reader. rewrite E. simpl. rewrite app_length.
  replace (length e + length r - length r) with (length e) by lia. by rewrite take_app.
Qed.

Section facts.
Local Set Default Proof Using "All".
Variable H : bytes -> oid.
Variable zdec : bytes -> bytes * bool.
Notation zstream_of := (zstream_of zdec).

Lemma zstream_app z x z' x' :
  zstream_of z x -> zstream_of z' x' -> zstream_of (z ++ z') (x ++ x').
Proof.
  intros Hz Hz' r. rewrite <- app_assoc. rewrite Hz, Hz'. simpl. by rewrite app_assoc.
Qed.

(** ** The manifest at the end of the file *)

Lemma manifest_from_reader_ok z zm m :
  manifest_wf m -> zstream_of zm (enc_manifest m) -> (N.of_nat (length zm) < 2 ^ 32)%N ->
  manifest_from_reader H zdec (pack_file z zm) = Ok (m, pack_id H m).
Proof.
  intros Hm Hz Hl. unfold manifest_from_reader, pack_file.
  set (tr := be_bytes 4 (N.of_nat (length zm))).
  assert (length tr = 4) as Ht by apply be_bytes_length.
  assert (length (pack_magic ++ z ++ zm ++ tr) = length (pack_magic ++ z) + length zm + 4) as Hlen
    by (rewrite !app_length; lia).
  rewrite Hlen.
  replace (pack_magic ++ z ++ zm ++ tr) with ((pack_magic ++ z) ++ zm ++ tr) by by rewrite <- app_assoc.
  set (pre := pack_magic ++ z).
  rewrite (proj2 (N.leb_le _ _)) by lia. cbn [ensure rbind].
  assert (drop (length pre + length zm + 4 - 4) (pre ++ zm ++ tr) = tr) as ->.
  { rewrite app_assoc. apply drop_app_alt. rewrite app_length. lia. }
  assert (be_num 0 tr = N.of_nat (length zm)) as ->.
  { unfold tr. rewrite be_num_be_bytes; [lia|]. change (256 ^ N.of_nat 4)%N with (2 ^ 32)%N. done. }
  rewrite Nat2N.id. rewrite (proj2 (Nat.leb_le _ _)) by lia. cbn [ensure rbind].
  replace (length pre + length zm + 4 - 4 - length zm) with (length pre) by lia.
  rewrite drop_app, take_app.
  specialize (Hz []). rewrite app_nil_r in Hz. rewrite Hz. cbn [fst].
  rewrite (from_hashing_reader_ok H _ _ _ m) by by apply dec_enc_manifest.
  done.
Qed.

Lemma pack_file_body z zm : exists r, pack_file z zm = pack_magic ++ z ++ r /\ r = zm ++ be_bytes 4 (N.of_nat (length zm)).
Proof. eexists. split; [|done]. done. Qed.

(** ** verify *)

Lemma verify_entries_ok bs rest clean :
  Forall (fun b => b_id b = H (b_bytes b)) bs ->
  verify_entries H (manifest_of bs) (concat (map b_bytes bs) ++ rest, clean) = Ok tt.
Proof.
  induction 1 as [|b bs Hb Hbs IH]; [done|]. cbn [manifest_of map verify_entries concat].
  rewrite <- app_assoc, read_take_app by done. cbn [rbind]. cbn [entry_of e_id].
  rewrite bool_decide_eq_true_2 by done. exact IH.
Qed.

Lemma verify_ok bs z zm :
  manifest_wf (manifest_of bs) -> Forall (fun b => b_id b = H (b_bytes b)) bs ->
  zstream_of z (concat (map b_bytes bs)) -> zstream_of zm (enc_manifest (manifest_of bs)) ->
  (N.of_nat (length zm) < 2 ^ 32)%N ->
  verify H zdec (pack_file z zm) (manifest_of bs) = Ok tt.
Proof.
  intros Hm Hb Hz Hzm Hl. unfold verify. 
  destruct (pack_file_body z zm) as (r & E & _). rewrite E at 1. rewrite check_magic_ok.
  cbn [rbind]. rewrite Hz. rewrite verify_entries_ok by done. cbn [rbind].
  rewrite (manifest_from_reader_ok _ _ (manifest_of bs)) by done. cbn [rbind].
  by rewrite bool_decide_eq_true_2.
Qed.

Lemma load_manifest_ok z zm m :
  manifest_wf m -> zstream_of zm (enc_manifest m) -> (N.of_nat (length zm) < 2 ^ 32)%N ->
  load_manifest H zdec (pack_id H m) (pack_file z zm) = Ok m.
Proof.
  intros Hm Hz Hl. unfold load_manifest.
  destruct (pack_file_body z zm) as (r & E & _). rewrite E at 1. rewrite check_magic_ok.
  cbn [rbind]. rewrite (manifest_from_reader_ok _ _ m) by done. cbn [rbind].
  by rewrite bool_decide_eq_true_2.
Qed.

Lemma load_manifest_inv id file m :
  load_manifest H zdec id file = Ok m -> manifest_from_reader H zdec file = Ok (m, id).
Proof.
  unfold load_manifest. intros E. rinv. destruct a0 as [m' cid]. rinv. subst.
  case_bool_decide; [|done]. by subst.
Qed.

(** ** extract_blob *)

Lemma extract_entries_ok bs rest clean b :
  Forall (fun b => b_id b = H (b_bytes b)) bs -> NoDup (map b_id bs) -> b ∈ bs ->
  extract_entries H (b_id b) (manifest_of bs) (concat (map b_bytes bs) ++ rest, clean)
    = Ok (entry_of b, b_bytes b).
Proof.
  intros Hall. induction Hall as [|b0 bs Hb0 Hbs IH]; intros Hnd Hin.
  { by apply elem_of_nil in Hin. }
  cbn [manifest_of map extract_entries concat].
  rewrite <- app_assoc, read_take_app by done. cbn [rbind entry_of e_id].
  cbn [map] in Hnd. apply NoDup_cons in Hnd as [Hn Hnd].
  apply elem_of_cons in Hin as [->|Hin].
  - rewrite bool_decide_eq_true_2 by done. rewrite bool_decide_eq_true_2 by done. done.
  - rewrite bool_decide_eq_false_2. { by apply IH. }
    intros E. apply Hn. rewrite E. by apply elem_of_list_fmap_1.
Qed.

Lemma extract_blob_ok bs z zm b :
  Forall (fun b => b_id b = H (b_bytes b)) bs -> NoDup (map b_id bs) -> b ∈ bs ->
  zstream_of z (concat (map b_bytes bs)) ->
  extract_blob H zdec (pack_file z zm) (b_id b) (manifest_of bs) = Ok (entry_of b, b_bytes b).
Proof.
  intros Hb Hnd Hin Hz. unfold extract_blob.
  assert (existsb (fun e => bool_decide (e_id e = b_id b)) (manifest_of bs) = true) as ->.
  { apply existsb_exists. exists (entry_of b). split; [|by apply bool_decide_eq_true_2].
    apply in_map. by apply elem_of_list_In. }
  cbn [rassert rbind].
  destruct (pack_file_body z zm) as (r & E & _). rewrite E at 1. rewrite check_magic_ok.
  cbn [rbind]. rewrite Hz. by apply extract_entries_ok.
Qed.

(** ** append_to_forest *)

Definition tree_blob (b : blob) (t : tree) : Prop := b_bytes b = enc_tree t /\ tree_wf t.

Lemma append_entries_ok bs rest clean fo :
  Forall (fun b => b_id b = H (b_bytes b)) bs ->
  Forall (fun b => b_type b = Tree -> exists t, tree_blob b t) bs ->
  exists fo', append_entries H (manifest_of bs) (concat (map b_bytes bs) ++ rest, clean) fo = Ok fo' /\
    (forall i t, fo !! i = Some t -> fo' !! i = Some t) /\
    (forall i t, fo' !! i = Some t -> fo !! i = Some t \/
       exists b, b ∈ bs /\ b_type b = Tree /\ b_id b = i /\ tree_blob b t) /\
    (forall b, b ∈ bs -> b_type b = Tree -> is_Some (fo' !! b_id b)).
Proof.
  intros Hall. revert fo. induction Hall as [|b bs Hb Hbs IH]; intros fo Ht.
  { exists fo. split; [done|]. split; [done|]. split; [auto|]. intros b Hin. by apply elem_of_nil in Hin. }
  apply Forall_cons in Ht as [Htb Htbs].
  cbn [manifest_of map append_entries concat entry_of e_type e_id e_len].
  destruct (bool_decide (b_type b <> Tree)) eqn:E1;
    [|destruct (bool_decide (is_Some (fo !! b_id b))) eqn:E2]; cbn [orb].
  - rewrite <- app_assoc, read_take_app by done. cbn [rbind]. rewrite N.eqb_refl. cbn [rassert rbind].
    apply bool_decide_eq_true in E1.
    destruct (IH fo Htbs) as (fo' & E & H1 & H2 & H3). exists fo'. split; [exact E|].
    split; [done|]. split.
    + intros i t Hi. destruct (H2 i t Hi) as [|(b' & ? & ?)]; [by left|]. right. exists b'. set_solver.
    + intros b' [->|Hin]%elem_of_cons Hb'; [done|auto].
  - rewrite <- app_assoc, read_take_app by done. cbn [rbind]. rewrite N.eqb_refl. cbn [rassert rbind].
    apply bool_decide_eq_true in E2.
    destruct (IH fo Htbs) as (fo' & E & H1 & H2 & H3). exists fo'. split; [exact E|].
    split; [done|]. split.
    + intros i t Hi. destruct (H2 i t Hi) as [|(b' & ? & ?)]; [by left|]. right. exists b'. set_solver.
    + intros b' [->|Hin]%elem_of_cons Hb'; [|auto]. destruct E2 as [t' E2]. eauto.
  - apply bool_decide_eq_false in E1, E2. apply dec_stable in E1.
    destruct (Htb E1) as (t & Hbt & Hwf). 
    cbv zeta. cbn [fst snd]. rewrite <- app_assoc. rewrite Nat2N.id, take_app.
    assert (from_hashing_reader H dec_tree (b_bytes b) = Ok (t, H (b_bytes b), [])) as ->.
    { rewrite <- (app_nil_r (b_bytes b)) at 1. apply from_hashing_reader_ok.
      rewrite Hbt. by apply dec_enc_tree. }
    cbn [rbind]. rewrite bool_decide_eq_true_2 by done. cbn [ensure rbind length].
    rewrite Nat.sub_0_r, drop_app.
    destruct (IH (<[b_id b := t]> fo) Htbs) as (fo' & E & H1 & H2 & H3).
    exists fo'. split; [exact E|]. split; [|split].
    + intros i t' Hi. apply H1. rewrite lookup_insert_ne; [done|]. intros <-. apply E2. eauto.
    + intros i t' Hi. destruct (H2 i t' Hi) as [Hl|(b' & ? & ?)].
      * destruct (decide (b_id b = i)) as [<-|Hne].
        -- rewrite lookup_insert in Hl. injection Hl as <-. right. exists b. split; [set_solver|]. split; [done|]. split; [done|]. by split.
        -- rewrite lookup_insert_ne in Hl by done. by left.
      * right. exists b'. set_solver.
    + intros b' [->|Hin]%elem_of_cons Hb'; [|auto].
      exists t. apply H1. by rewrite lookup_insert.
Qed.

Lemma append_to_forest_ok bs z zm fo :
  Forall (fun b => b_id b = H (b_bytes b)) bs ->
  Forall (fun b => b_type b = Tree -> exists t, tree_blob b t) bs ->
  zstream_of z (concat (map b_bytes bs)) ->
  exists fo', append_to_forest H zdec (pack_file z zm) (manifest_of bs) fo = Ok fo' /\
    (forall i t, fo !! i = Some t -> fo' !! i = Some t) /\
    (forall i t, fo' !! i = Some t -> fo !! i = Some t \/
       exists b, b ∈ bs /\ b_type b = Tree /\ b_id b = i /\ tree_blob b t) /\
    (forall b, b ∈ bs -> b_type b = Tree -> is_Some (fo' !! b_id b)).
Proof.
  intros Hb Ht Hz. unfold append_to_forest.
  destruct (pack_file_body z zm) as (r & E & _). rewrite E. rewrite check_magic_ok.
  cbn [rbind]. rewrite Hz. by apply append_entries_ok.
Qed.

(** ** verify on arbitrary bytes *)

Lemma verify_entries_inv m st : verify_entries H m st = Ok tt ->
  exists segs rest, st.1 = concat segs ++ rest /\
    Forall2 (fun e b => H b = e_id e /\ (N.of_nat (length b) <= e_len e)%N /\
                        (st.2 = false -> N.of_nat (length b) = e_len e)) m segs.
Proof.
  revert st; induction m as [|e m IH]; intros st E; cbn [verify_entries] in E.
  { exists [], st.1. split; [done|]. constructor. }
  apply rbind_ok in E as ([b st'] & E1 & E). apply rbind_ok in E as ([] & E2 & E).
  apply read_take_inv in E1 as [E1 E3]. apply IH in E as (segs & rest & Eq & F).
  case_bool_decide as Hid; [|done].
  exists (b :: segs), rest. split. { cbn [concat]. by rewrite <- app_assoc, <- Eq. }
  constructor.
  - split; [done|]. destruct E3 as [[E3 _]|(E3 & _ & E4)]; (split; [lia|intros; try lia; congruence]).
  - eapply Forall2_impl; [exact F|]. intros e' b' (? & ? & Hl). split; [done|]. split; [done|].
    intros Hf. apply Hl. destruct E3 as [[_ E3]|(_ & -> & E4)]; congruence.
Qed.

(** If verification succeeds, extracting any listed blob succeeds. *)
Lemma verify_extract_entries m st id :
  verify_entries H m st = Ok tt -> id ∈ map e_id m ->
  exists e b, extract_entries H id m st = Ok (e, b) /\ e ∈ m /\ e_id e = id /\ H b = id.
Proof.
  revert st; induction m as [|e m IH]; intros st E Hin; cbn [verify_entries map] in *.
  { by apply elem_of_nil in Hin. }
  apply rbind_ok in E as ([b st'] & E1 & E). apply rbind_ok in E as ([] & E2 & E).
  case_bool_decide as Hid; [|done].
  cbn [extract_entries]. rewrite E1. cbn [rbind].
  case_bool_decide as Hi.
  - exists e, b. rewrite bool_decide_eq_true_2 by congruence. cbn [ensure rbind].
    repeat split; [set_solver|done|congruence].
  - apply elem_of_cons in Hin as [->|Hin]; [done|].
    destruct (IH _ E Hin) as (e' & b' & ? & ? & ? & ?). exists e', b'. set_solver.
Qed.

Lemma verify_extract file m id :
  verify H zdec file m = Ok tt -> id ∈ map e_id m ->
  exists e b, extract_blob H zdec file id m = Ok (e, b) /\ e ∈ m /\ e_id e = id /\ H b = id.
Proof.
  unfold verify, extract_blob. intros E Hin.
  apply rbind_ok in E as (body & E1 & E). apply rbind_ok in E as ([] & E2 & E).
  assert (existsb (fun e => bool_decide (e_id e = id)) m = true) as ->.
  { apply existsb_exists. apply elem_of_list_fmap in Hin as (e & -> & Hin).
    exists e. split; [by apply elem_of_list_In|]. by apply bool_decide_eq_true_2. }
  cbn [rassert rbind]. rewrite E1. cbn [rbind]. by apply verify_extract_entries.
Qed.

(** Whatever the bytes, what is extracted hashes to the id asked for. *)
Lemma extract_entries_genuine m st id e b :
  extract_entries H id m st = Ok (e, b) -> e ∈ m /\ e_id e = id /\ H b = id.
Proof.
  revert st; induction m as [|e0 m IH]; intros st E; cbn [extract_entries] in E; [done|].
  apply rbind_ok in E as ([b0 st'] & E1 & E). case_bool_decide as Hi.
  - apply rbind_ok in E as ([] & E2 & E). case_bool_decide as Hh; [|done].
    injection E as -> ->. repeat split; [set_solver|done|congruence].
  - destruct (IH _ E) as (? & ? & ?). set_solver.
Qed.

Lemma extract_genuine file m id e b :
  extract_blob H zdec file id m = Ok (e, b) -> e ∈ m /\ e_id e = id /\ H b = id.
Proof.
  unfold extract_blob. intros E. apply rbind_ok in E as ([] & _ & E).
  apply rbind_ok in E as (body & _ & E). by eapply extract_entries_genuine.
Qed.

Lemma verify_inv file m : verify H zdec file m = Ok tt ->
  exists body id, file = pack_magic ++ body /\ verify_entries H m (zdec body) = Ok tt /\
    manifest_from_reader H zdec file = Ok (m, id).
Proof.
  unfold verify. intros E. apply rbind_ok in E as (body & E1 & E).
  apply rbind_ok in E as ([] & E2 & E). apply rbind_ok in E as ([mf id] & E3 & E).
  case_bool_decide; [|done]. subst. exists body, id. split; [by apply check_magic_inv|]. done.
Qed.
End facts.

(** ** The packing loop *)

Lemma packer_run_conserves target st input packs :
  Forall (fun bz => b_bytes bz.1 <> []) input ->
  (pk_in_pack st = 0%N -> pk_blobs st = []) ->
  packer_run target st input = Ok packs ->
  concat packs = pk_blobs st ++ map fst input.
Proof.
  revert st packs; induction input as [|[b sz] input IH]; intros st packs Hne Hinv E; cbn [packer_run] in E.
  - injection E as <-. unfold packer_finish. destruct (N.ltb_spec 0 (pk_in_pack st)).
    + simpl. by rewrite !app_nil_r.
    + rewrite Hinv by lia. done.
  - apply Forall_cons in Hne as [Hb Hne]. simpl in Hb.
    apply rbind_ok in E as ([st' closed] & E1 & E). apply rbind_ok in E as (rest & E2 & E).
    injection E as <-. unfold packer_step in E1. apply rbind_ok in E1 as ([] & _ & E1).
    assert (N.of_nat (length (b_bytes b)) <> 0%N) as Hlen by (destruct (b_bytes b); [done|simpl; lia]).
    destruct (target <=? sz_check sz)%N; [|destruct (pk_before st <=? _)%N; [destruct (target <=? sz_flush sz)%N|]];
      injection E1 as <- <-; apply IH in E2; try done; cbn [concat map fst] in *;
      try (intros; cbn [pk_in_pack packer_new] in *; lia); rewrite E2; cbn [pk_blobs packer_new];
      by rewrite <- ?app_assoc.
Qed.
