(** Properties C05 to C08: pack files and the packing loop. *)

From Verif Require Import Base OMap Cbor CborFacts Formats FormatsFacts Hashing Pack PackFacts Toy.

(** ** C05 *)

(** A blob as the rest of the program makes them: the id is the hash of the
    bytes, the length fits 32 bits, and a tree blob's bytes encode a tree. *)
Definition good_blob (H : bytes -> oid) (b : blob) : Prop :=
  b_id b = H (b_bytes b) /\ (N.of_nat (length (b_bytes b)) < 2 ^ 32)%N /\
  (b_type b = Tree -> exists t, b_bytes b = enc_tree t /\ tree_wf t).

Lemma good_manifest_wf H bs :
  (forall x, length (H x) = 28) -> Forall (good_blob H) bs -> len_wf bs ->
  manifest_wf (manifest_of bs).
Proof.
  intros HH Hb Hl. split. { unfold len_wf, manifest_of in *. by rewrite map_length. }
  apply Forall_fmap. eapply Forall_impl; [exact Hb|]. intros b (Hi & Hn & _).
  split; [done|]. unfold oid_wf. simpl. by rewrite Hi.
Qed.

(** [z] and [zm] are any outputs of the compressor for the blobs' bytes and for
    the manifest; [fo] is any forest loaded before. *)
Theorem C05_pack_gives_back_blobs :
  forall (H : bytes -> oid) (zdec : bytes -> bytes * bool) (bs : list blob) (z zm : bytes),
  (forall x, length (H x) = 28) ->
  Forall (good_blob H) bs -> (N.of_nat (length bs) < 2 ^ 64)%N -> NoDup (map b_id bs) ->
  zstream_of zdec z (concat (map b_bytes bs)) ->
  zstream_of zdec zm (enc_manifest (manifest_of bs)) ->
  (N.of_nat (length zm) < 2 ^ 32)%N ->
  let file := pack_file z zm in
  let m := manifest_of bs in
  load_manifest H zdec (pack_id H m) file = Ok m /\
  verify H zdec file m = Ok tt /\
  (forall b, b ∈ bs -> extract_blob H zdec file (b_id b) m = Ok (entry_of b, b_bytes b)) /\
  (forall fo, exists fo', append_to_forest H zdec file m fo = Ok fo' /\
     (forall b t, b ∈ bs -> b_type b = Tree -> b_bytes b = enc_tree t -> tree_wf t ->
        fo !! b_id b = None -> fo' !! b_id b = Some t) /\
     (forall i t, fo !! i = Some t -> fo' !! i = Some t) /\
     (forall i, fo' !! i <> None -> fo !! i <> None \/ exists b, b ∈ bs /\ b_type b = Tree /\ b_id b = i)).
Proof.
  intros H zdec bs z zm HH Hb Hl Hnd Hz Hzm Hlz file m.
  assert (Hwf := good_manifest_wf H bs HH Hb Hl).
  assert (Forall (fun b => b_id b = H (b_bytes b)) bs) as Hid by (eapply Forall_impl; [exact Hb|]; by intros b (? & _)).
  split; [by apply load_manifest_ok|]. split; [by apply verify_ok|].
  split; [intros; by apply extract_blob_ok|]. intros fo.
  destruct (append_to_forest_ok H zdec bs z zm fo) as (fo' & E & H1 & H2 & H3); [done| |done|].
  { eapply Forall_impl; [exact Hb|]. by intros b (_ & _ & ?). }
  exists fo'. split; [done|]. split; [|split; [done|]].
  - intros b t Hin Hty Ht Hw Hn. destruct (H3 b Hin Hty) as [t' Ht']. rewrite Ht'. f_equal.
    destruct (H2 _ _ Ht') as [?|(b' & Hin' & _ & Hbid & Ht1 & Hw1)]; [congruence|].
    assert (b_bytes b' = b_bytes b) as Eb.
    { clear -Hnd Hin Hin' Hbid. induction bs as [|c bs IH]; [by apply elem_of_nil in Hin|].
      cbn [map] in Hnd. apply NoDup_cons in Hnd as [Hn Hnd].
      apply elem_of_cons in Hin as [->|Hin]; apply elem_of_cons in Hin' as [->|Hin']; try done.
      - destruct Hn. rewrite <- Hbid. by apply elem_of_list_fmap_1.
      - destruct Hn. rewrite Hbid. by apply elem_of_list_fmap_1.
      - by apply IH. }
    apply enc_tree_inj; congruence.
  - intros i Hi. destruct (fo' !! i) as [t|] eqn:Et; [|done].
    destruct (H2 _ _ Et) as [Hf|(b & ? & ? & ? & _)]; [left; congruence|]. right. by exists b.
Qed.
Print Assumptions C05_pack_gives_back_blobs.

Definition ex_blobs : list blob :=
  map (fun x => mkBlob Chunk (toy_hash x) x) [ascii_bytes "hello"; []; ascii_bytes "world!"]
  ++ [mkBlob Tree (toy_hash (enc_tree [])) (enc_tree [])].

Example C05_witness :
  Forall (good_blob toy_hash) ex_blobs /\ NoDup (map b_id ex_blobs) /\
  zstream_of toy_zdec (toy_zenc (concat (map b_bytes ex_blobs))) (concat (map b_bytes ex_blobs)) /\
  extract_blob toy_hash toy_zdec
    (pack_file (toy_zenc (concat (map b_bytes ex_blobs))) (toy_zenc (enc_manifest (manifest_of ex_blobs))))
    (toy_hash (ascii_bytes "world!")) (manifest_of ex_blobs)
    = Ok (mkEntry Chunk 6 (toy_hash (ascii_bytes "world!")), ascii_bytes "world!").
Proof.
  split. { repeat constructor; cbn [b_type]; try done; intros; exists []; split; [done|];
    apply (bool_decide_unpack _); vm_compute; exact I. }
  split. { apply (bool_decide_unpack _). vm_compute. exact I. }
  split; [apply toy_zstream|]. vm_compute. reflexivity.
Qed.

(** ** C06 *)

(** Whatever the file's bytes: if it verifies against manifest [m], the stream
    inside it starts with one stretch of bytes per entry of [m], hashing to the
    entry's id, of the entry's length (shorter only if the stream itself ended
    there); and the manifest inside the file is [m]. *)
Theorem C06_verified_pack : forall H zdec file m,
  verify H zdec file m = Ok tt ->
  exists body stretches rest,
    file = pack_magic ++ body /\ (zdec body).1 = concat stretches ++ rest /\
    Forall2 (fun e b => H b = e_id e /\ (N.of_nat (length b) <= e_len e)%N /\
               ((zdec body).2 = false -> N.of_nat (length b) = e_len e)) m stretches /\
    exists id, manifest_from_reader H zdec file = Ok (m, id).
Proof.
  intros H zdec file m E. apply verify_inv in E as (body & id & -> & E & Em).
  apply verify_entries_inv in E as (segs & rest & E1 & F); [|exact zdec].
  exists body, segs, rest. split; [done|]. split; [done|]. split; [exact F|]. by exists id.
Qed.
Print Assumptions C06_verified_pack.

(** Every blob of a verified pack can be extracted, and hashes to its id. *)
Theorem C06_verified_blobs_extract : forall H zdec file m id,
  verify H zdec file m = Ok tt -> id ∈ map e_id m ->
  exists e b, extract_blob H zdec file id m = Ok (e, b) /\ e ∈ m /\ e_id e = id /\ H b = id.
Proof. exact verify_extract. Qed.
Print Assumptions C06_verified_blobs_extract.

(** No bytes are handed out that do not hash to the id asked for, whatever
    the file holds and whether or not it was verified before. *)
Theorem C06_extracted_blobs_are_genuine : forall H zdec file m id e b,
  extract_blob H zdec file id m = Ok (e, b) -> e ∈ m /\ e_id e = id /\ H b = id.
Proof. exact extract_genuine. Qed.
Print Assumptions C06_extracted_blobs_are_genuine.

(** Corruption is detected: if a file verifies against the manifest of blobs
    [bs], then it holds exactly those blobs' bytes, unless some stretch of the
    decompressed bytes collides with the hash of one of them. *)
Theorem C06_corruption_detected : forall H zdec file bs,
  verify H zdec file (manifest_of bs) = Ok tt ->
  (forall body b before seg after, file = pack_magic ++ body -> b ∈ bs ->
     (zdec body).1 = before ++ seg ++ after -> H seg = b_id b -> seg = b_bytes b) ->
  exists body rest, file = pack_magic ++ body /\
    (zdec body).1 = concat (map b_bytes bs) ++ rest.
Proof.
  intros H zdec file bs E Hcoll.
  destruct (C06_verified_pack _ _ _ _ E) as (body & segs & rest & -> & Eq & F & _).
  exists body, rest. split; [done|]. rewrite Eq. f_equal. f_equal.
  assert (forall before after, (zdec body).1 = before ++ concat segs ++ after -> segs = map b_bytes bs) as A;
    [|by apply (A [] rest)].
  clear Eq E rest. revert bs Hcoll F.
  induction segs as [|s segs IH]; intros bs Hcoll F before after Eq.
  - inversion F as [Hn|]. symmetry in Hn. apply map_eq_nil in Hn. by subst.
  - destruct bs as [|b bs]; [inversion F|]. cbn [manifest_of map] in F.
    apply Forall2_cons in F as [(Hs & _) F]. cbn [concat] in Eq. cbn [map]. f_equal.
    + eapply (Hcoll body b before s (concat segs ++ after)); [done|set_solver| |done].
      by rewrite Eq, <- app_assoc.
    + eapply (IH bs) with (before := before ++ s) (after := after); [|exact F|].
      * intros body' b' before' seg' after' E' Hin. apply (Hcoll body' b' before' seg' after' E'). set_solver.
      * by rewrite Eq, <- !app_assoc.
Qed.
Print Assumptions C06_corruption_detected.

Example C06_witness :
  let z := toy_zenc (concat (map b_bytes ex_blobs)) in
  let zm := toy_zenc (enc_manifest (manifest_of ex_blobs)) in
  verify toy_hash toy_zdec (pack_file z zm) (manifest_of ex_blobs) = Ok tt /\
  (* one byte of the second stored character changed *)
  verify toy_hash toy_zdec (pack_file (take 3 z ++ [x58] ++ drop 4 z) zm) (manifest_of ex_blobs) = Err.
Proof. vm_compute. split; reflexivity. Qed.

(** ** C07 *)

Definition input_blobs (input : list (blob * sizes)) : list blob := map fst input.

(** For every stream of non-empty blobs below 4 GiB, whatever sizes are
    measured, the loop succeeds, and the packs hold the blobs in order. *)
Theorem C07_packer_conserves : forall target input,
  Forall (fun b => b_bytes b <> [] /\ (N.of_nat (length (b_bytes b)) < 2 ^ 32)%N) (input_blobs input) ->
  exists packs, packer_run target (packer_new target) input = Ok packs /\
    concat packs = input_blobs input /\ Forall (fun p => p <> []) packs.
Proof.
  intros target input Hb.
  assert (forall st, exists packs, packer_run target st input = Ok packs) as Hex.
  { induction input as [|[b sz] input IH]; intros st; cbn [packer_run]; [by eexists|].
    cbn [input_blobs map fst] in Hb. apply Forall_cons in Hb as [[_ Hlen] Hb].
    unfold packer_step. rewrite (proj2 (N.ltb_lt _ _)) by done. cbn [rassert rbind].
    destruct (target <=? _)%N; [|destruct (pk_before st <=? _)%N; [destruct (target <=? _)%N|]]; cbn [rbind];
      (match goal with |- context [packer_run target ?s input] => destruct (IH Hb s) as [packs ->] end);
      by eexists. }
  destruct (Hex (packer_new target)) as [packs E]. exists packs. split; [done|]. split.
  - apply packer_run_conserves in E; [done| |done].
    apply Forall_fmap in Hb. eapply Forall_impl; [exact Hb|]. by intros [b s] [? _].
  - clear Hex. assert (forall st packs, (pk_in_pack st <> 0%N -> pk_blobs st <> []) ->
      packer_run target st input = Ok packs -> Forall (fun p => p <> []) packs) as A; [|eapply A; [|exact E]; done].
    clear E packs Hb. induction input as [|[b sz] input IH]; intros st packs Hinv E; cbn [packer_run] in E.
    + injection E as <-. unfold packer_finish. destruct (N.ltb_spec 0 (pk_in_pack st)); [|constructor].
      constructor; [|constructor]. apply Hinv. lia.
    + apply rbind_ok in E as ([st' closed] & E1 & E). apply rbind_ok in E as (rest & E2 & E). injection E as <-.
      unfold packer_step in E1. apply rbind_ok in E1 as ([] & _ & E1).
      assert (pk_blobs st ++ [b] <> []) as Hne by (by destruct (pk_blobs st)).
      destruct (target <=? _)%N; [|destruct (pk_before st <=? _)%N; [destruct (target <=? _)%N|]];
        injection E1 as <- <-; apply IH in E2; try done; constructor; done.
Qed.
Print Assumptions C07_packer_conserves.

(** What is sent for the packs: each pack's file goes to the uploader before
    its metadata goes to the indexer; each pack is announced to the indexer
    once, in order, with the id of its manifest. *)
Theorem C07_upload_announced_first : forall H packs,
  (forall before id m after, packer_msgs H packs = before ++ MsgIndex id m :: after -> MsgUpload id ∈ before) /\
  omap (fun msg => match msg with MsgIndex id m => Some (id, m) | _ => None end) (packer_msgs H packs)
    = map (fun p => (H (enc_manifest (manifest_of p)), manifest_of p)) packs /\
  omap (fun msg => match msg with MsgUpload id => Some id | _ => None end) (packer_msgs H packs)
    = map (fun p => H (enc_manifest (manifest_of p))) packs.
Proof.
  intros H packs. unfold packer_msgs. split; [|split].
  - induction packs as [|p packs IH]; cbn [map concat pack_msgs app]; intros before id m after E.
    { by destruct before. }
    destruct before as [|x [|y before]]; cbn [app] in E; [done| |].
    + injection E as <- <- <- _. set_solver.
    + injection E as <- <- E. apply IH in E. set_solver.
  - induction packs as [|p packs IH]; cbn [map concat pack_msgs app omap list_omap]; [done|].
    f_equal. exact IH.
  - induction packs as [|p packs IH]; cbn [map concat pack_msgs app omap list_omap]; [done|].
    f_equal. exact IH.
Qed.
Print Assumptions C07_upload_announced_first.

(** Without the premise that blobs are non-empty the claim fails: trailing
    empty blobs are dropped.  (The rest of the program never sends one.) *)
Theorem C07_empty_blobs_refuted : exists target input,
  packer_run target (packer_new target) input = Ok [] /\ input_blobs input <> [].
Proof.
  exists 100%N, [(mkBlob Chunk (toy_hash []) [], mkSizes 9 9 0)]. split; [vm_compute; reflexivity|done].
Qed.
Print Assumptions C07_empty_blobs_refuted.

Definition ex_chunk (s : string) : blob := mkBlob Chunk (toy_hash (ascii_bytes s)) (ascii_bytes s).
Definition ex_input : list (blob * sizes) :=
  [(ex_chunk "aaaaaa", mkSizes 0 3 0); (ex_chunk "bbbbbb", mkSizes 3 6 8); (ex_chunk "c", mkSizes 6 7 2);
   (ex_chunk "dddddddddd", mkSizes 7 11 3); (ex_chunk "e", mkSizes 0 1 9)].
Example C07_witness :
  Forall (fun b => b_bytes b <> [] /\ (N.of_nat (length (b_bytes b)) < 2 ^ 32)%N) (input_blobs ex_input) /\
  packer_run 10 (packer_new 10) ex_input =
    Ok [[ex_chunk "aaaaaa"; ex_chunk "bbbbbb"; ex_chunk "c"; ex_chunk "dddddddddd"]; [ex_chunk "e"]].
Proof. split; [|vm_compute; reflexivity]. repeat constructor; done. Qed.

(** ** C08 *)

(** The stream splits into the packs so that every pack except the last ends
    with a blob after which a size of at least the target was measured, and no
    blob inside a pack was followed by a measurement at or above the target. *)
Theorem C08_closed_at_target : forall target input packs,
  Forall (fun bz => b_bytes bz.1 <> []) input ->
  packer_run target (packer_new target) input = Ok packs ->
  exists groups, input = concat groups /\ packs = map input_blobs groups /\
    (forall g before after, groups = before ++ g :: after -> after <> [] ->
       exists l b s, g = l ++ [(b, s)] /\ (target <= N.max (sz_check s) (sz_flush s))%N) /\
    (forall g l b s r, g ∈ groups -> g = l ++ (b, s) :: r -> r <> [] -> (sz_check s < target)%N).
Proof.
  intros target input packs Hne E.
  assert (forall cur st packs, pk_blobs st = input_blobs cur ->
    (pk_in_pack st = 0%N -> pk_blobs st = []) -> 
    Forall (fun bz => (sz_check bz.2 < target)%N) cur ->
    packer_run target st input = Ok packs ->
    exists groups, cur ++ input = concat groups /\ packs = map input_blobs groups /\
    (forall g before after, groups = before ++ g :: after -> after <> [] ->
       exists l b s, g = l ++ [(b, s)] /\ (target <= N.max (sz_check s) (sz_flush s))%N) /\
    (forall g l b s r, g ∈ groups -> g = l ++ (b, s) :: r -> r <> [] -> (sz_check s < target)%N)) as A.
  2:{ by apply (A [] (packer_new target) packs). }
  clear E packs. induction input as [|[b sz] input IH]; intros cur st packs Hcur Hinv Hlt E; cbn [packer_run] in E.
  - injection E as <-. unfold packer_finish. rewrite app_nil_r. destruct (N.ltb_spec 0 (pk_in_pack st)).
    + exists [cur]. cbn [concat map]. rewrite app_nil_r, Hcur. split; [done|]. split; [done|]. split.
      * intros g [|? [|]] after Eq Ha; injection Eq; intros; subst; done.
      * intros g l b s r ->%elem_of_list_singleton -> _. apply Forall_app in Hlt as [_ Hlt].
        by apply Forall_cons in Hlt as [? _].
    + rewrite Hcur in Hinv. destruct cur; [|by rewrite Hinv in Hcur by lia; specialize (Hinv ltac:(lia))].
      exists []. split; [done|]. split; [done|]. split; [by intros ? []|]. intros ? ? ? ? ? Hin. by apply elem_of_nil in Hin.
  - apply Forall_cons in Hne as [Hb Hne]. cbn [fst] in Hb.
    assert (N.of_nat (length (b_bytes b)) <> 0%N) as Hlen by (destruct (b_bytes b); [done|simpl; lia]).
    apply rbind_ok in E as ([st' closed] & E1 & E). apply rbind_ok in E as (rest & E2 & E). injection E as <-.
    unfold packer_step in E1. apply rbind_ok in E1 as ([] & _ & E1).
    assert (st' = packer_new target -> closed = Some (pk_blobs st ++ [b]) ->
      (target <= N.max (sz_check sz) (sz_flush sz))%N -> exists groups,
      cur ++ (b, sz) :: input = concat groups /\
      match closed with Some bs => bs :: rest | None => rest end = map input_blobs groups /\
      (forall g before after, groups = before ++ g :: after -> after <> [] ->
         exists l b s, g = l ++ [(b, s)] /\ (target <= N.max (sz_check s) (sz_flush s))%N) /\
      (forall g l b s r, g ∈ groups -> g = l ++ (b, s) :: r -> r <> [] -> (sz_check s < target)%N)) as Hclose.
    { intros -> -> Ht. apply (IH Hne [] (packer_new target)) in E2 as (groups & G1 & G2 & G3 & G4); try done.
      exists ((cur ++ [(b, sz)]) :: groups). cbn [app concat map] in *. rewrite <- app_assoc. cbn [app].
      split; [by rewrite G1|]. split; [rewrite G2; f_equal; unfold input_blobs; rewrite map_app; by rewrite Hcur|].
      split.
      - intros g before after Eq Ha. destruct before as [|g0 before]; cbn [app] in Eq.
        + injection Eq as <- <-. by exists cur, b, sz.
        + injection Eq as _ Eq. by eapply G3.
      - intros g l b' s r [->|Hin]%elem_of_cons Eq Hr; [|by eapply G4].
        destruct r as [|x r _] using rev_ind; [done|]. 
        rewrite app_comm_cons, app_assoc in Eq. apply app_inj_tail in Eq as [-> _].
        apply Forall_app in Hlt as [_ Hlt]. by apply Forall_cons in Hlt as [? _]. }
    assert (forall st'' , st' = st'' -> closed = None -> pk_blobs st'' = pk_blobs st ++ [b] ->
       (pk_in_pack st'' <> 0%N) -> (sz_check sz < target)%N -> exists groups,
      cur ++ (b, sz) :: input = concat groups /\
      match closed with Some bs => bs :: rest | None => rest end = map input_blobs groups /\
      (forall g before after, groups = before ++ g :: after -> after <> [] ->
         exists l b s, g = l ++ [(b, s)] /\ (target <= N.max (sz_check s) (sz_flush s))%N) /\
      (forall g l b s r, g ∈ groups -> g = l ++ (b, s) :: r -> r <> [] -> (sz_check s < target)%N)) as Hopen.
    { intros st'' -> -> Hbl Hin0 Hc. apply (IH Hne (cur ++ [(b, sz)]) st'') in E2.
      - by rewrite <- app_assoc in E2.
      - rewrite Hbl, Hcur. unfold input_blobs. by rewrite map_app.
      - done.
      - apply Forall_app. split; [done|]. by constructor. }
    destruct (N.leb_spec target (sz_check sz)).
    { injection E1 as <- <-. apply Hclose; try done. lia. }
    destruct (pk_before st <=? _)%N; [destruct (N.leb_spec target (sz_flush sz))|]; injection E1 as <- <-.
    + apply Hclose; try done. lia.
    + eapply Hopen; try done. cbn [pk_in_pack]. lia.
    + eapply Hopen; try done. cbn [pk_in_pack]. lia.
Qed.
Print Assumptions C08_closed_at_target.

(** The loop's state after some blobs. *)
Fixpoint packer_after (target : N) (st : packer) (input : list (blob * sizes)) : result packer :=
  match input with
  | [] => Ok st
  | (b, sz) :: input' => let* (st', _) := packer_step target st b sz in packer_after target st' input'
  end.

Definition total_bytes (bs : list blob) : N := foldr (fun b n => N.of_nat (length (b_bytes b)) + n)%N 0%N bs.

Lemma total_bytes_app a b : total_bytes (a ++ b) = (total_bytes a + total_bytes b)%N.
Proof. unfold total_bytes. induction a; simpl; [lia|]. rewrite IHa. lia. Qed.

(** At any point, the blobs put into the open pack since the last real
    measurement (or since the pack was begun) hold fewer uncompressed bytes
    than allowed: the target at first, later the estimate made at a measurement. *)
Theorem C08_measured_in_time : forall target input st,
  packer_after target (packer_new target) input = Ok st ->
  exists old recent, pk_blobs st = old ++ recent /\
    (recent = [] \/ (total_bytes recent < pk_before st)%N) /\
    (pk_before st = target \/ exists b s, (b, s) ∈ input /\ pk_before st = sz_estimate s).
Proof.
  intros target input st E.
  assert (forall input st0, packer_after target st0 input = Ok st ->
    (exists old recent, pk_blobs st0 = old ++ recent /\ pk_pass st0 = total_bytes recent /\
      (recent = [] \/ (total_bytes recent < pk_before st0)%N)) ->
    (exists old recent, pk_blobs st = old ++ recent /\ pk_pass st = total_bytes recent /\
      (recent = [] \/ (total_bytes recent < pk_before st)%N)) /\
    (pk_before st = pk_before st0 \/ pk_before st = target \/ exists b s, (b, s) ∈ input /\ pk_before st = sz_estimate s)) as A.
  2:{ apply A in E as [(old & recent & ? & _ & ?) E]; [|by exists [], []; auto].
      exists old, recent. split; [done|]. split; [done|]. destruct E as [E|E]; [by left|done]. }
  clear E input. induction input as [|[b sz] input IH]; intros st0 E I; cbn [packer_after] in E.
  { injection E as ->. split; [done|]. by left. }
  apply rbind_ok in E as ([st' closed] & E1 & E). unfold packer_step in E1. apply rbind_ok in E1 as ([] & _ & E1).
  destruct I as (old & recent & I1 & I2 & I3).
  assert ((exists old recent, pk_blobs st' = old ++ recent /\ pk_pass st' = total_bytes recent /\
      (recent = [] \/ (total_bytes recent < pk_before st')%N)) /\
    (pk_before st' = pk_before st0 \/ pk_before st' = target \/ pk_before st' = sz_estimate sz)) as [I' B].
  { assert (total_bytes (recent ++ [b]) = pk_pass st0 + N.of_nat (length (b_bytes b)))%N as Ht.
    { rewrite total_bytes_app. simpl. lia. }
    destruct (target <=? sz_check sz)%N; [injection E1 as <- <-|].
    { split; [by exists [], []; auto|]. by right; left. }
    destruct (N.leb_spec (pk_before st0) (pk_pass st0 + N.of_nat (length (b_bytes b)))%N);
      [destruct (target <=? sz_flush sz)%N|]; injection E1 as <- <-.
    - split; [by exists [], []; auto|]. by right; left.
    - split; [exists (pk_blobs st0 ++ [b]), []; cbn; rewrite app_nil_r; auto|]. by right; right.
    - split; [|by left]. exists old, (recent ++ [b]). cbn [pk_blobs pk_pass pk_before].
      rewrite Ht, I1, <- app_assoc. split; [done|]. split; [done|]. by right. }
  apply IH in E as [E1' E2']; [|done]. split; [done|].
  destruct E2' as [E2'|[E2'|(b' & s' & ? & ?)]].
  - rewrite E2'. destruct B as [?|[?|?]]; auto. right; right. exists b, sz. split; [set_solver|done].
  - auto.
  - right; right. exists b', s'. split; [set_solver|done].
Qed.
Print Assumptions C08_measured_in_time.

Example C08_witness :
  Forall (fun bz => b_bytes bz.1 <> []) ex_input /\
  (exists packs, packer_run 10 (packer_new 10) ex_input = Ok packs /\ length packs = 2) /\
  exists st, packer_after 10 (packer_new 10) (take 3 ex_input) = Ok st /\
    pk_blobs st = [ex_chunk "aaaaaa"; ex_chunk "bbbbbb"] ++ [ex_chunk "c"] /\ pk_before st = 8%N.
Proof.
  split; [repeat constructor; done|]. split.
  - eexists. split; [vm_compute; reflexivity|reflexivity].
  - eexists. split; [vm_compute; reflexivity|]. split; reflexivity.
Qed.
