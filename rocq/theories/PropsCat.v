(** Printing single objects: C57. *)

From Verif Require Import Base OMap Cbor CborFacts Formats FormatsFacts Hashing Pack PackFacts Index IndexFacts Meta Forest ForestFacts CheckFacts
  Toy PropsPack PropsIndex PropsForest Select Check PropsCheck Cat.

(** * C57: what is printed is what was asked for *)

(** [x] is what some bytes with hash [id] say. *)
Definition says (H : bytes -> oid) {A} (dec : bytes -> option (A * bytes)) (id : oid) (x : A) : Prop :=
  exists b r, H b = id /\ dec (b ++ r) = Some (x, r).

Lemma taken {A} (dec : bytes -> option (A * bytes)) (b r : bytes) x :
  (forall b x r, dec b = Some (x, r) -> exists p, b = p ++ r) -> dec b = Some (x, r) ->
  b = take (length b - length r) b ++ r.
Proof.
  intros Hd E. destruct (Hd _ _ _ E) as [p ->]. rewrite app_length. replace (length p + length r - length r) with (length p) by lia.
  by rewrite take_app.
Qed.

Lemma dec_with_rest {A} (d : cbor -> option A) (b : bytes) x r : dec_with d b = Some (x, r) -> exists p, b = p ++ r.
Proof.
  unfold dec_with. destruct (decode b) as [[v r']|] eqn:E; [|done]. cbn [mbind option_bind]. destruct (d v) as [a|]; [|done]. cbn [mbind option_bind].
  intros Ex. injection Ex as _ <-. by eapply decode_suffix.
Qed.

Lemma hashing_reader_says H {A} (d : cbor -> option A) (b : bytes) x id r :
  from_hashing_reader H (dec_with d) b = Ok (x, id, r) -> says H (dec_with d) id x.
Proof.
  unfold from_hashing_reader. intros E. apply rbind_ok in E as ([a r'] & E1 & E). injection E as -> <- ->.
  destruct (dec_with d b) as [[a' r'']|] eqn:Ed; [|done]. injection E1 as -> ->.
  exists (take (length b - length r) b), r. split; [done|]. by rewrite <-(taken (dec_with d) b r x (dec_with_rest d) Ed).
Qed.

(** Whatever bytes the repository holds: a blob that is printed as it is hashes to
    the id asked for; a tree, a pack's manifest or an index that is printed is the
    one some bytes with that hash encode; and a snapshot is the one the name finds
    (C32).  So damage is noticed, unless SHA-224 is broken. *)
Theorem C57_what_is_printed_is_what_was_asked_for H zdec d snaps w out :
  cat H zdec d snaps w = Ok out ->
  match w with
  | CatBlob id => (exists b, out = ShowBytes b /\ H b = id /\ b <> []) \/
                  (exists b t r, out = ShowTree t /\ H b = id /\ dec_tree b = Some (t, r))
  | CatPack id => exists m, out = ShowPack m /\ says H dec_manifest id m
  | CatIndex id => exists ix, out = ShowIndex ix /\ says H dec_index id ix
  | CatSnapshot name => exists sn id, out = ShowSnapshot sn /\ find_snapshot snaps name = Ok (sn, id)
  end.
Proof.
  destruct w as [id|id|id|name]; cbn [cat]; intros E.
  - unfold cat_blob in E. apply rbind_ok in E as (ix & _ & E). apply rbind_ok in E as (bmap & _ & E). apply rbind_ok in E as (p & _ & E).
    apply rbind_ok in E as (m & _ & E). apply rbind_ok in E as (file & _ & E). apply rbind_ok in E as ([e b] & E1 & E).
    apply rbind_ok in E as ([] & E2 & E). destruct (extract_genuine H zdec _ _ _ _ _ E1) as (_ & _ & Hb). destruct (e_type e).
    2:{ apply rbind_ok in E as ([t r] & E3 & E). injection E as <-. destruct (dec_tree b) as [[t' r']|] eqn:Ed; [|done]. injection E3 as -> ->.
      right. by exists b, t, r. }
    injection E as <-. left. exists b. split; [done|]. split; [done|]. by destruct b.
  - unfold cat_pack in E. apply rbind_ok in E as (file & _ & E). apply rbind_ok in E as (m & E1 & E). injection E as <-.
    exists m. split; [done|]. unfold load_manifest in E1. apply rbind_ok in E1 as (body & _ & E1). apply rbind_ok in E1 as ([m' cid] & E2 & E1).
    apply rbind_ok in E1 as ([] & E3 & E1). injection E1 as ->. case_bool_decide as Hid; [|done]. subst cid.
    unfold manifest_from_reader in E2. apply rbind_ok in E2 as ([] & _ & E2). cbv zeta in E2. apply rbind_ok in E2 as ([] & _ & E2).
    apply rbind_ok in E2 as ([[m' cid'] r] & E2 & E4). injection E4 as -> ->. by eapply hashing_reader_says.
  - unfold cat_index in E. apply rbind_ok in E as (ix & E1 & E). injection E as <-. exists ix. split; [done|].
    unfold index_load in E1. apply rbind_ok in E1 as (f & _ & E1). apply rbind_ok in E1 as ([ix' cid] & E2 & E1).
    apply rbind_ok in E1 as ([] & E3 & E1). injection E1 as ->. case_bool_decide as Hid; [|done]. subst cid.
    unfold index_from_reader in E2. apply rbind_ok in E2 as (body & _ & E2). apply rbind_ok in E2 as ([[ix' cid'] r] & E2 & E4).
    injection E4 as -> ->. by eapply hashing_reader_says.
  - apply rbind_ok in E as ([sn id] & E1 & E). injection E as <-. by exists sn, id.
Qed.

(** In an intact repository every stored blob is printed (of a tree, what it says),
    and so are every pack's manifest and every index, under the ids they have. *)
Theorem C57_what_is_stored_is_printed H zdec d ix content store snaps :
  intact H zdec d ix content store ->
  (forall p bs b, content !! p = Some bs -> b ∈ bs -> b_bytes b <> [] ->
     match b_type b with
     | Chunk => cat H zdec d snaps (CatBlob (b_id b)) = Ok (ShowBytes (b_bytes b))
     | Tree => exists t, b_bytes b = enc_tree t /\ cat H zdec d snaps (CatBlob (b_id b)) = Ok (ShowTree t)
     end) /\
  (forall p bs, content !! p = Some bs -> p = pack_id H (manifest_of bs) ->
     cat H zdec d snaps (CatPack p) = Ok (ShowPack (manifest_of bs))) /\
  (forall ix' z, (index_id H ix', index_file z) ∈ d_indexes d -> NoDup (map fst (d_indexes d)) ->
     index_wf ix' -> zstream_of zdec z (enc_index ix') ->
     cat H zdec d snaps (CatIndex (index_id H ix')) = Ok (ShowIndex ix')).
Proof.
  intros (Ei & Hrepo & Hpk & Hnd & _).
  destruct (proj1 (C11_lookup_maps ix) Hnd) as (bmap & st0 & sz0 & Eb & _).
  split; [|split].
  - intros p bs b Hp Hb Hne. destruct (Hrepo) as (Hs & Hix & Hc). destruct (Hpk p bs Hp) as (Hwf & z & zm & Ef & Hz & Hzm & Hlz).
    destruct (Hc p bs Hp) as (Hgood & _).
    assert (bmap !! b_id b = Some p) as Hbm by (eapply (bmap_spec H zdec ix bmap (d_packs d) content Hrepo Eb); eauto).
    assert (extract_blob H zdec (pack_file z zm) (b_id b) (manifest_of bs) = Ok (entry_of b, b_bytes b)) as Ex.
    { apply extract_blob_ok; [eapply Forall_impl; [exact Hgood|]; by intros ? (? & _)| |done|done].
      assert (NoDup (map (fun pe : oid * entry => e_id pe.2) (index_entries ix))) as Hn by exact (ids_nodup H zdec ix bmap (d_packs d) content Hrepo Eb).
      specialize (Hix p). rewrite Hp in Hix. cbn in Hix. unfold index_entries in Hn.
      apply (NoDup_concat_in _ _ (map (fun e => (p, e)) (manifest_of bs))) in Hn.
      - unfold manifest_of in Hn. rewrite !map_map in Hn. exact Hn.
      - apply om_get_elem in Hix; [|done].
        apply (elem_of_list_fmap_1 (fun kv : oid * manifest => map (fun e => (kv.1, e)) kv.2)) in Hix. exact Hix. }
    assert (cat H zdec d snaps (CatBlob (b_id b)) =
      match b_type b with Chunk => Ok (ShowBytes (b_bytes b)) | Tree => let* (t, _) := of_option (dec_tree (b_bytes b)) in Ok (ShowTree t) end) as E.
    { cbn [cat]. unfold cat_blob. rewrite Ei. cbn [rbind]. rewrite Eb. cbn [rbind]. rewrite Hbm. cbn [of_option rbind].
      rewrite Hix, Hp. cbn [fmap option_fmap option_map rbind]. rewrite Ef. cbn [of_option rbind]. rewrite Ex. cbn [rbind].
      destruct (b_bytes b) eqn:Ebb; [done|]. cbn [rassert rbind]. done. }
    destruct (b_type b) eqn:Ety; [exact E|].
    rewrite Forall_forall in Hgood. destruct (Hgood b Hb) as (_ & _ & Ht). destruct (Ht Ety) as (t & Et & Hw). exists t. split; [done|].
    rewrite E, Et. rewrite <-(app_nil_r (enc_tree t)), (dec_enc_tree t [] Hw). done.
  - intros p bs Hp ->. destruct (Hpk _ bs Hp) as (Hwf & z & zm & Ef & Hz & Hzm & Hlz). cbn [cat]. unfold cat_pack. rewrite Ef. cbn [of_option rbind].
    rewrite load_manifest_ok by done. done.
  - intros ix' z Hin Hn Hwf Hz. cbn [cat]. unfold cat_index.
    assert (List.find (fun x : oid * bytes => bool_decide (x.1 = index_id H ix')) (d_indexes d) = Some (index_id H ix', index_file z)) as ->.
    { clear -Hin Hn. induction (d_indexes d) as [|[i f] l IH]; [by apply elem_of_nil in Hin|]. cbn [List.find fst].
      cbn [map fst] in Hn. apply NoDup_cons in Hn as [Hni Hn]. apply elem_of_cons in Hin as [E|Hin].
      - injection E as <- <-. by rewrite bool_decide_eq_true_2.
      - rewrite bool_decide_eq_false_2; [by apply IH|]. intros ->. apply Hni. change (map fst l) with (fst <$> l). apply elem_of_list_fmap.
        by exists (index_id H ix', index_file z). }
    cbn [fmap option_fmap option_map snd]. assert (index_load H zdec (index_id H ix') (Some (index_file z)) = Ok ix') as -> by by apply C09_index_stores_and_loads. done.
Qed.

Lemma rbind_calm {A B} (x : result A) (f : A -> result B) : x <> Panic -> (forall a, x = Ok a -> f a <> Panic) -> rbind x f <> Panic.
Proof. destruct x; cbn [rbind]; auto. Qed.
Lemma of_option_calm {A} (o : option A) : of_option o <> Panic.
Proof. by destruct o. Qed.
Lemma ensure_calm b : ensure b <> Panic.
Proof. by destruct b. Qed.
Lemma hashing_reader_calm H {A} (d : bytes -> option (A * bytes)) b : from_hashing_reader H d b <> Panic.
Proof. unfold from_hashing_reader. apply rbind_calm; [apply of_option_calm|]. by intros [a r] _. Qed.
Lemma magic_calm magic file : check_magic magic file <> Panic.
Proof. unfold check_magic. by case_bool_decide. Qed.
Lemma manifest_calm H zdec file : manifest_from_reader H zdec file <> Panic.
Proof.
  unfold manifest_from_reader. apply rbind_calm; [apply ensure_calm|]. intros [] _. cbv zeta. apply rbind_calm; [apply ensure_calm|].
  intros [] _. apply rbind_calm; [apply hashing_reader_calm|]. by intros [[? ?] ?] _.
Qed.
Lemma index_load_calm H zdec id f : index_load H zdec id f <> Panic.
Proof.
  unfold index_load. apply rbind_calm; [apply of_option_calm|]. intros b _. apply rbind_calm.
  - unfold index_from_reader. apply rbind_calm; [apply magic_calm|]. intros body _. apply rbind_calm; [apply hashing_reader_calm|]. by intros [[? ?] ?] _.
  - intros [ix cid] _. apply rbind_calm; [apply ensure_calm|]. by intros [] _.
Qed.
Lemma disk_index_calm H zdec d : disk_index H zdec d <> Panic.
Proof.
  unfold disk_index. apply rbind_calm.
  - induction (d_indexes d) as [|[i f] l IH]; [done|]. cbn [load_all]. apply rbind_calm; [apply index_load_calm|]. intros a _. by apply rbind_calm.
  - intros l _. unfold build_master_index. apply rbind_calm; [|done]. generalize (mkResults [] []). induction l as [|x l IH]; intros rs; [done|].
    cbn [results_of]. apply rbind_calm; [|intros rs' _; apply IH]. unfold results_add. by repeat case_match.
Qed.
Lemma extract_entries_calm H id m st : id ∈ map e_id m -> extract_entries H id m st <> Panic.
Proof.
  revert st. induction m as [|e m IH]; intros st Hin; [by apply elem_of_nil in Hin|]. cbn [extract_entries]. apply rbind_calm.
  - unfold read_take. by repeat case_match.
  - intros [b st'] _. case_bool_decide as Hid; [apply rbind_calm; [apply ensure_calm|by intros [] _]|].
    apply IH. cbn [map] in Hin. apply elem_of_cons in Hin as [->|Hin]; [done|done].
Qed.

(** It crashes only if the empty string is stored as a blob (which no command
    does), or over the name of a snapshot (C32). *)
Theorem C57_no_crash H zdec d snaps w :
  cat H zdec d snaps w = Panic ->
  w = CatBlob (H []) \/ exists name, w = CatSnapshot name /\ find_snapshot snaps name = Panic.
Proof.
  destruct w as [id|id|id|name]; cbn [cat]; intros E.
  - left. f_equal. revert E. destruct (decide (id = H [])) as [|Hne]; [done|]. intros E. exfalso. revert E.
    unfold cat_blob. apply rbind_calm; [apply disk_index_calm|]. intros ix Eix.
    destruct (decide (NoDup (blob_ids ix))) as [Hnd|Hnd]; [|destruct (proj2 (C11_lookup_maps ix) Hnd) as (-> & _); done].
    destruct (proj1 (C11_lookup_maps ix) Hnd) as (bmap & _ & _ & -> & _ & _ & Hbm & _). cbn [rbind].
    apply rbind_calm; [apply of_option_calm|]. intros p Ep. destruct (bmap !! id) as [p'|] eqn:Eb; [|done]. injection Ep as ->.
    apply Hbm in Eb as (n & m & e & Hm & He & Hid & Hn). apply om_get_elem in Hm; [|by eapply disk_index_sorted]. rewrite Hm. cbn [rbind].
    apply rbind_calm; [apply of_option_calm|]. intros file _. assert (id ∈ map e_id m) as Hin by (subst id; by apply elem_of_list_fmap_1).
    apply rbind_calm.
    + unfold extract_blob. assert (existsb (fun e => bool_decide (e_id e = id)) m = true) as ->.
      { apply existsb_exists. exists e. split; [by apply elem_of_list_In|]. by apply bool_decide_eq_true_2. }
      cbn [rassert rbind]. apply rbind_calm; [apply magic_calm|]. intros body _. by apply extract_entries_calm.
    + intros [e' b] Ex. destruct (extract_genuine H zdec _ _ _ _ _ Ex) as (_ & _ & Hb). destruct b as [|y b]; [by rewrite <-Hb in Hne|].
      cbn [rassert rbind]. destruct (e_type e'); [done|]. apply rbind_calm; [apply of_option_calm|]. by intros [? ?] _.
  - exfalso. revert E. unfold cat_pack. apply rbind_calm; [apply of_option_calm|]. intros f _. apply rbind_calm; [|done].
    unfold load_manifest. apply rbind_calm; [apply magic_calm|]. intros body _. apply rbind_calm; [apply manifest_calm|]. intros [m cid] _.
    apply rbind_calm; [apply ensure_calm|]. by intros [] _.
  - exfalso. revert E. unfold cat_index. apply rbind_calm; [apply index_load_calm|done].
  - right. exists name. split; [done|]. by destruct (find_snapshot snaps name).
Qed.

(** ** The example: the repository of C37, and one whose packs have the ids they should *)

Definition cat_disk : disk :=
  mkDisk (list_to_map (map (fun bs => (pack_id fold_hash (manifest_of bs), ex_file bs)) [ex_chunk_pack; ex_tree_pack]))
    (d_indexes ck_ex) (d_snapshots ck_ex).

Example C57_witness :
  intact fold_hash toy_zdec ck_ex ex_repo_ix ex_content ck_store /\
  cat fold_hash toy_zdec ck_ex [] (CatBlob (b_id ex_hello)) = Ok (ShowBytes (ascii_bytes "hello")) /\
  cat fold_hash toy_zdec ck_ex [] (CatBlob (tree_id fold_hash ex_a)) = Ok (ShowTree ex_a) /\
  cat fold_hash toy_zdec ck_ex [] (CatBlob (fold_hash [])) = Err /\
  cat fold_hash toy_zdec ck_ex [] (CatPack (pk x01)) = Err /\
  cat fold_hash toy_zdec cat_disk [] (CatPack (pack_id fold_hash (manifest_of ex_tree_pack))) = Ok (ShowPack (manifest_of ex_tree_pack)) /\
  cat fold_hash toy_zdec ck_ex [] (CatIndex (index_id fold_hash ex_repo_ix)) = Ok (ShowIndex ex_repo_ix).
Proof.
  split; [apply ck_ex_intact|]. split; [vm_compute; reflexivity|]. split; [vm_compute; reflexivity|]. split; [vm_compute; reflexivity|].
  split; [vm_compute; reflexivity|]. split; vm_compute; reflexivity.
Qed.

Print Assumptions C57_what_is_printed_is_what_was_asked_for.
Print Assumptions C57_what_is_stored_is_printed.
Print Assumptions C57_no_crash.
