(** Interrupted restores: C68. *)

From Verif Require Import Base OMap Formats FormatsFacts Hashing Pack Index IndexFacts Meta Forest ForestFacts FsTree FsSpec FsFacts BackupFacts
  Pipeline PipelineFacts PropsPipeline Repo RepoSpec RepoFacts RewriteFacts PublishFacts PlanFacts CommandFacts
  History PruneFacts ReadFacts HistoryFacts Exec Toy Witness
  Browse BrowseSpec BrowseFacts DiffFacts BrowseRepo ReadBack
  Restore RestoreSpec RestoreFacts RestoreSteps RestoreForest RestoreRun RestoreWitness PropsBrowse PropsRestore
  Interrupt InterruptSpec InterruptFacts InterruptRun.

(** * C68: a restore that is interrupted loses nothing else, and can be run again *)

(** The changes of [restore_changes] are those that [restore] makes, in order.  Whenever they are interrupted: in and
    below the targets there is, at each place, what was there or what was saved, of a file perhaps the beginning, or nothing where
    something else is to be put or to go ([on_the_way], InterruptSpec.v); without [--delete] whatever the
    snapshot does not have is still there; and nothing else has changed, but for the modification time of the directories
    the targets are in. *)
Theorem C68_what_an_interrupted_restore_leaves_partial H U cuts resolves clock fresh k ix bmap args output sn es (w w' : fsworld) load_fuel fuel fo :
  universe H U -> (forall x, length (H x) = 28) -> (forall x, concat (cuts x) = x) ->
  in_order H U k -> master k = Ok ix -> blob_to_pack_map ix = Ok bmap -> restores H k sn es ->
  r_dry_run args = false -> can_restore cuts resolves args output sn es w.2 ->
  load_forest H k bmap load_fuel (sn_tree sn) = Some (Ok fo) -> Forall U (made_there H cuts fo sn output w.2) ->
  (forall n, p_size (fresh n KFile) = Some 0%N) ->
  restore H cuts resolves clock fresh k bmap load_fuel fuel args output sn w = Some (Ok w') ->
  exists ops, restore_changes H cuts resolves k bmap load_fuel fuel args output sn w.2 = Some (Ok ops) /\
    perform_all clock fresh ops w = Ok w' /\
    forall mid, interrupted clock fresh ops w mid ->
      (forall x l q, (x, l) ∈ targets sn output -> on_the_way args (ent w.2 (l ++ q)) (ent es (x :: q)) (ent mid.2 (l ++ q))) /\
      (r_delete args = false -> forall p e, ent w.2 p = Some e ->
         (forall x l q, (x, l) ∈ targets sn output -> p = l ++ q -> ent es (x :: q) = None) ->
         exists e', ent mid.2 p = Some e' /\ e'.1 = e.1 /\ modes e'.2 = modes e.2 /\ (e.1 <> TDir -> e' = e)) /\
      (forall p, (forall x l, (x, l) ∈ targets sn output -> ~ l `prefix_of` p) ->
         left_alone (ent w.2 p) (ent mid.2 p) /\
         ((forall x l y, (x, l) ∈ targets sn output -> l <> p ++ [y]) -> ent mid.2 p = ent w.2 p)).
Proof.
  intros HU Hlen Hcuts Hk Eix Ebm Hr Hdry Hcr Efo HUs Hfresh Ew.
  destruct (interrupted_keeps H cuts U HU Hlen Hcuts k ix bmap Hk Eix Ebm resolves clock fresh Hfresh args output sn es w Hr Hdry Hcr load_fuel fo fuel w' Efo HUs Ew) as (ops & Eops & Rops & Hmid).
  exists ops. split; [done|]. split; [done|]. intros mid Hi. destruct (Hmid mid Hi) as (_ & Hf & Hall).
  assert (forall p, (forall x l, (x, l) ∈ targets sn output -> ~ l `prefix_of` p) -> left_alone (ent w.2 p) (ent mid.2 p) /\
         ((forall x l y, (x, l) ∈ targets sn output -> l <> p ++ [y]) -> ent mid.2 p = ent w.2 p)) as Hout.
  { intros p Hp. assert (forall L, L ∈ map snd (targets sn output) -> exists x, (x, L) ∈ targets sn output) as HT.
    { intros L HL. change (map ?f ?l) with (f <$> l) in HL. apply elem_of_list_fmap in HL as ([x l] & -> & Hin). by exists x. }
    destruct (Hf p) as [F1 F2]; [intros L HL; destruct (HT L HL) as [x Hin]; by apply (Hp x)|]. split; [done|]. intros Hn. apply F2. intros L HL. destruct (HT L HL) as [x Hin]. intros ->.
    destruct (targets_place H cuts U HU Hlen Hcuts k ix bmap Hk Eix Ebm resolves clock fresh args output sn es w Hr Hdry Hcr) as [Hpl _].
    destruct (Hpl x L Hin) as [Hne _]. destruct (last_some L Hne) as [y Ey]. apply (Hn x L y Hin). apply last_Some in Ey as [l' ->]. by rewrite removelast_last. }
  split; [intros x l q Hin; by apply Hall|]. split; [|done].
  intros Hd p e Ee Hnot. assert (left_alone (ent w.2 p) (ent mid.2 p)) as Ha.
  { destruct (decide (Exists (fun t : bytes * loc => t.2 `prefix_of` p) (targets sn output))) as [Hex|Hno].
    - apply Exists_exists in Hex as ([x l] & Hin & [q ->]). cbn [snd] in *. destruct (Hall x l q Hin) as [Ho _]. rewrite (Hnot x l q Hin eq_refl) in Ho.
      destruct (ent mid.2 (l ++ q)) as [g|]; [|destruct Ho as [[->|[?|?]] _]; [done|congruence|done]].
      destruct Ho as [_ [(m1 & -> & Hu)|(s & ? & _)]]; [|done]. cbn. split; [done|]. destruct Hu as [<-|[[Ht Hmo]|(s & ? & _)]]; [done| |done].
      split; [by rewrite Hmo|]. by rewrite Ht.
    - apply Hout. intros x l Hin Hp. apply Hno, Exists_exists. by exists (x, l). }
  rewrite Ee in Ha. destruct (ent mid.2 p) as [e'|]; [|done]. destruct Ha as (A1 & A2 & A3). exists e'. split; [done|]. split; [done|]. split; [done|].
  intros Hne. destruct e, e'. cbn in *. f_equal; [done|]. symmetry. auto.
Qed.

(** Running it again makes of what was left what restoring without the interruption would have made of what was there
    before: C36's [comes_out], of the files before the first run.  Premises on what was left: its files are as their types
    allow, no two blobs with one id are among those read there; and a target that must exist (the original path, or the
    directory given for a snapshot of one path) was and becomes a directory, or was and becomes a file.  The clock, the
    metadata of what is created and which links lead anywhere may be others the second time. *)
Theorem C68_it_can_be_run_again_partial H U cuts resolves clock fresh k ix bmap args output sn es (w w' : fsworld) load_fuel fuel fo ops mid resolves2 clock2 fresh2 :
  universe H U -> (forall x, length (H x) = 28) -> (forall x, concat (cuts x) = x) ->
  in_order H U k -> master k = Ok ix -> blob_to_pack_map ix = Ok bmap -> restores H k sn es ->
  r_dry_run args = false -> can_restore cuts resolves args output sn es w.2 ->
  load_forest H k bmap load_fuel (sn_tree sn) = Some (Ok fo) -> Forall U (made_there H cuts fo sn output w.2) ->
  (forall n, p_size (fresh n KFile) = Some 0%N) ->
  restore H cuts resolves clock fresh k bmap load_fuel fuel args output sn w = Some (Ok w') ->
  restore_changes H cuts resolves k bmap load_fuel fuel args output sn w.2 = Some (Ok ops) -> interrupted clock fresh ops w mid ->
  (* the saved sizes are right *)
  (forall q c m, ent es q = Some (TFile c, m) -> meta_size m = Some (N.of_nat (length c))) ->
  (* targets that must exist stay *)
  (forall x l, (x, l) ∈ targets sn output -> output = None \/ length (targets sn output) = 1 ->
     exists t m t' m', ent w.2 l = Some (t, m) /\ ent es [x] = Some (t', m') /\ same_kind t t') ->
  (* what was left *)
  (forall x l t m, (x, l) ∈ targets sn output -> ent mid.2 l = Some (TLink t, m) -> resolves2 l = true) ->
  (forall x l n, (x, l) ∈ targets sn output -> fs_at mid.2 l = Some n -> fs_ok cuts false n) ->
  Forall U (made_there H cuts fo sn output mid.2) ->
  exists fuel2 w2, restore H cuts resolves2 clock2 fresh2 k bmap load_fuel fuel2 args output sn mid = Some (Ok w2) /\
    (forall x l q, (x, l) ∈ targets sn output ->
       comes_out args (fun q => ent w.2 (l ++ q)) (fun q => ent es (x :: q)) q (ent w2.2 (l ++ q))) /\
    (forall p, (forall x l, (x, l) ∈ targets sn output -> ~ l `prefix_of` p) ->
       left_alone (ent w.2 p) (ent w2.2 p) /\
       ((forall x l y, (x, l) ∈ targets sn output -> l <> p ++ [y]) -> ent w2.2 p = ent w.2 p)).
Proof.
  intros HU Hlen Hcuts Hk Eix Ebm Hr Hdry Hcr Efo HUs Hfresh Ew Eops Hmid Hsz Htop Hres Hok HUs2.
  destruct (interrupted_keeps H cuts U HU Hlen Hcuts k ix bmap Hk Eix Ebm resolves clock fresh Hfresh args output sn es w Hr Hdry Hcr load_fuel fo fuel w' Efo HUs Ew) as (ops' & Eops' & _ & Hkeeps).
  rewrite Eops in Eops'. injection Eops' as <-. pose proof (Hkeeps mid Hmid) as Hinv.
  destruct (C68_what_an_interrupted_restore_leaves_partial H U cuts resolves clock fresh k ix bmap args output sn es w w' load_fuel fuel fo HU Hlen Hcuts Hk Eix Ebm Hr Hdry Hcr Efo HUs Hfresh Ew)
    as (ops' & Eops' & _ & Hleft). rewrite Eops in Eops'. injection Eops' as <-. destruct (Hleft mid Hmid) as (_ & _ & Hout).
  pose proof (inv_can_restore cuts resolves resolves2 args output sn es w.2 mid.2 Hcr Hinv Hsz Htop Hres Hok) as Hcr2.
  destruct (C36_restore_partial H U cuts resolves2 clock2 fresh2 k ix bmap args output sn es mid HU Hlen Hcuts Hk Eix Ebm Hr Hdry Hcr2) as [_ Hall].
  destruct (Hall load_fuel fo Efo HUs2) as (fuel2 & w2 & Ew2 & Hco & Hout2). exists fuel2, w2. split; [done|]. destruct Hinv as (_ & _ & Hi). split.
  - intros x l q Hin. eapply again_args; [| |by apply (Hco x l q Hin)].
    + intros q'. by apply (Hi x l q').
    + intros q' Hd Hw. apply (Hi x l q' Hin). by split.
  - intros p Hp. destruct (Hout p Hp) as [A1 A2]. destruct (Hout2 p Hp) as [B1 B2]. split; [by eapply left_alone_trans|]. intros Hn. by rewrite B2, A2.
Qed.

(** ** An example: killed while it writes part of a chunk, after a file became a directory and before another is removed *)

Definition ri_meta (n : N) : metadata := ex_meta 33188 (Some n).
Definition ri_saved : list (bytes * fsnode) :=
  [(tx "t", FsDir ex_dirmeta
     [(tx "d", FsDir ex_dirmeta [(tx "x", FsFile (ri_meta 4) (tx "in d"))]);
      (tx "f", FsFile (ri_meta 5) (tx "hello"));
      (tx "l", FsLink ex_linkmeta (tx "f"))]);
   (tx "u", FsFile (ri_meta 2) (tx "hi"))].
Definition ri_blobs : list blob :=
  remove_dups (tree_blob quick_hash [] :: plan_blobs quick_hash toy_cuts (fun _ => true) ∅ None (bx_paths ri_saved)).
Definition ri_root : oid := plan_root quick_hash toy_cuts (fun _ => true) ∅ None (bx_paths ri_saved).
Definition ri_one : snapshot := mkSnapshot 1 [] [] [] [tx "/t"; tx "/u"] ri_root.
Definition ri_k : backend := single quick_hash ri_blobs [ri_one].
Lemma ri_restores : restores quick_hash ri_k ri_one ri_saved.
Proof.
  assert (back quick_hash (store_of ri_blobs) 9 ri_root = Some ri_saved) as Hb by (vm_compute; reflexivity).
  apply back_ok in Hb. unfold restores, ri_k. rewrite single_store. done.
Qed.
Opaque ri_blobs ri_root.
Definition ri_ix : index := single_index quick_hash ri_blobs.
Definition ri_map : gmap oid oid := map_of ri_ix.
Lemma ri_maps : master ri_k = Ok ri_ix /\ blob_to_pack_map ri_ix = Ok ri_map.
Proof.
  split.
  - unfold ri_k, ri_ix. apply single_master.
  - assert (match blob_to_pack_map ri_ix with Ok _ => true | _ => false end = true) as Hx by (vm_compute; reflexivity).
    unfold ri_map, map_of. destruct (blob_to_pack_map ri_ix); [reflexivity|discriminate|discriminate].
Qed.
Opaque ri_map ri_ix.

Definition ri_here : list (bytes * fsnode) :=
  [(tx "t", FsDir ex_dirmeta
     [(tx "d", FsFile (ri_meta 4) (tx "in d"));
      (tx "f", FsFile (ri_meta 6) (tx "hello!"));
      (tx "n", FsDir ex_dirmeta [(tx "new", FsFile (ri_meta 3) (tx "new"))])]);
   (tx "u", FsFile (ri_meta 2) (tx "hi"))].
(** The same with a directory where the file [u] is to be. *)
Definition ri_other : list (bytes * fsnode) :=
  [(tx "t", FsDir ex_dirmeta []); (tx "u", FsDir ex_dirmeta [(tx "new", FsFile (ri_meta 3) (tx "new"))])].
Definition ri_fo : forest := match load_forest quick_hash ri_k ri_map 9 ri_root with Some (Ok fo) => fo | _ => ∅ end.
Definition ri_changes (files : list (bytes * fsnode)) : list fsop :=
  match restore_changes quick_hash toy_cuts (fun _ => true) ri_k ri_map 9 9 rx_all None ri_one files with Some (Ok o) => o | _ => [] end.
Definition ri_restore (files : fsworld) : option (result fsworld) := restore quick_hash toy_cuts (fun _ => true) rx_clock rx_fresh ri_k ri_map 9 9 rx_all None ri_one files.
(** [f] gets its first chunk, "hel", and "l" of the second. *)
Definition ri_part : list fsop := [OpAppend (tx "l") [tx "t"; tx "f"]].
Definition world_of (r : result fsworld) : fsworld := match r with Ok w => w | _ => (0, []) end.
Definition ri_mid : fsworld := world_of (let* w1 := perform_all rx_clock rx_fresh (take 11 (ri_changes ri_here)) (0, ri_here) in perform_all rx_clock rx_fresh ri_part w1).
Definition ri_gone : fsworld := world_of (perform_all rx_clock rx_fresh (take 15 (ri_changes ri_other)) (0, ri_other)).
Definition ri_made (files : list (bytes * fsnode)) : list blob := made_there quick_hash toy_cuts ri_fo ri_one None files.
Definition ri_universe : list blob := remove_dups (ri_blobs ++ ri_made ri_here ++ ri_made ri_mid.2 ++ ri_made ri_other).
Lemma ri_is_universe : universe quick_hash (in_list ri_universe).
Proof. apply universe_ok. vm_compute. reflexivity. Qed.
Lemma ri_made_in : forallb (fun b => bool_decide (b ∈ ri_universe)) (ri_blobs ++ ri_made ri_here ++ ri_made ri_mid.2 ++ ri_made ri_other) = true.
Proof. vm_compute. reflexivity. Qed.
Opaque ri_universe.
Lemma ri_in b : b ∈ ri_blobs ++ ri_made ri_here ++ ri_made ri_mid.2 ++ ri_made ri_other -> in_list ri_universe b.
Proof. intros Hb. pose proof (forallb_in _ _ b ri_made_in Hb) as Hx. by apply (bool_decide_eq_true (b ∈ ri_universe)). Qed.
Lemma ri_in_order : in_order quick_hash (in_list ri_universe) ri_k.
Proof.
  unfold ri_k. apply single_in_order.
  - apply Forall_forall. intros b Hb. apply ri_in. apply elem_of_app. by left.
  - assert (bool_decide (NoDup (map b_id ri_blobs)) = true) as Hx by (vm_compute; reflexivity). by apply bool_decide_eq_true in Hx.
  - pose proof ri_restores as H1. unfold restores, ri_k in H1. rewrite single_store in H1.
    intros sn [->|Hin%elem_of_nil]%elem_of_cons; [exists ri_saved; exact H1|destruct Hin].
Qed.
Opaque ri_k.
Definition ri_done (files : list (bytes * fsnode)) : fsworld := match ri_restore (0, files) with Some (Ok w) => w | _ => (0, []) end.

(** The changes, and what is there when the first twelve are made but for the last byte. *)
Definition short_of (o : fsop) : nat * list bytes * bytes :=
  match o with
  | OpCreate l => (1, l, []) | OpAppend b l => (2, l, b) | OpMkdir l => (3, l, []) | OpLink t l => (4, l, t)
  | OpRmdir l => (5, l, []) | OpRm l => (6, l, []) | OpTimes _ _ l => (7, l, []) | OpMode _ l => (8, l, [])
  end.
Example C68_changes : map short_of (ri_changes ri_here) =
  [(6, [tx "t"; tx "d"], []); (3, [tx "t"; tx "d"], []);
   (1, [tx "t"; tx "d"; tx "x"], []); (2, [tx "t"; tx "d"; tx "x"], tx "in "); (2, [tx "t"; tx "d"; tx "x"], tx "d");
   (7, [tx "t"; tx "d"; tx "x"], []); (8, [tx "t"; tx "d"; tx "x"], []); (7, [tx "t"; tx "d"], []); (8, [tx "t"; tx "d"], []);
   (1, [tx "t"; tx "f"], []); (2, [tx "t"; tx "f"], tx "hel"); (2, [tx "t"; tx "f"], tx "lo"); (7, [tx "t"; tx "f"], []); (8, [tx "t"; tx "f"], []);
   (4, [tx "t"; tx "l"], tx "f"); (5, [tx "t"; tx "n"], [])].
Proof. vm_compute. reflexivity. Qed.
Example C68_middle : shape_of (Some (Ok ri_mid)) =
  [([tx "t"], TDir); ([tx "t"; tx "d"], TDir); ([tx "t"; tx "d"; tx "x"], TFile (tx "in d")); ([tx "t"; tx "f"], TFile (tx "hell"));
   ([tx "t"; tx "n"], TDir); ([tx "t"; tx "n"; tx "new"], TFile (tx "new")); ([tx "u"], TFile (tx "hi"))].
Proof. vm_compute. reflexivity. Qed.
Example C68_again : shape_of (ri_restore ri_mid) =
  [([tx "t"], TDir); ([tx "t"; tx "d"], TDir); ([tx "t"; tx "d"; tx "x"], TFile (tx "in d")); ([tx "t"; tx "f"], TFile (tx "hello"));
   ([tx "t"; tx "l"], TLink (tx "f")); ([tx "u"], TFile (tx "hi"))].
Proof. vm_compute. reflexivity. Qed.

Lemma ri_sizes q c m : ent ri_saved q = Some (TFile c, m) -> meta_size m = Some (N.of_nat (length c)).
Proof.
  intros He. apply ent_in in He as (n & _ & Hin & Ht & <-).
  assert (forallb (fun e : list bytes * fsnode => match e.2 with FsFile m c => bool_decide (meta_size m = Some (N.of_nat (length c))) | _ => true end) (all_of ri_saved) = true) as Hb by (vm_compute; reflexivity).
  apply (forallb_in _ _ _ Hb) in Hin. cbn [snd] in Hin. destruct n; try discriminate Ht. injection Ht as ->. by apply (bool_decide_eq_true (meta_size _ = _)).
Qed.
Lemma ri_loads : load_forest quick_hash ri_k ri_map 9 (sn_tree ri_one) = Some (Ok ri_fo).
Proof.
  assert (match load_forest quick_hash ri_k ri_map 9 ri_root with Some (Ok _) => true | _ => false end = true) as Hb by (vm_compute; reflexivity).
  unfold ri_fo. cbn [sn_tree ri_one]. by destruct (load_forest quick_hash ri_k ri_map 9 ri_root) as [[?| |]|].
Qed.
Lemma ri_made_ok files : (forall b, b ∈ ri_made files -> b ∈ ri_made ri_here ++ ri_made ri_mid.2 ++ ri_made ri_other) -> Forall (in_list ri_universe) (ri_made files).
Proof. intros Hf. apply Forall_forall. intros b Hb. apply ri_in, elem_of_app. right. by apply Hf. Qed.
Definition ri_first : fsworld := world_of (perform_all rx_clock rx_fresh (take 11 (ri_changes ri_here)) (0, ri_here)).
Lemma ri_steps :
  perform_all rx_clock rx_fresh (take 11 (ri_changes ri_here)) (0, ri_here) = Ok ri_first /\ perform_all rx_clock rx_fresh ri_part ri_first = Ok ri_mid /\
  ri_changes ri_here !! 11 = Some (OpAppend (tx "l" ++ tx "o") [tx "t"; tx "f"]).
Proof.
  assert (match perform_all rx_clock rx_fresh (take 11 (ri_changes ri_here)) (0, ri_here) with Ok w => match perform_all rx_clock rx_fresh ri_part w with Ok _ => true | _ => false end | _ => false end = true)
    as Hb by (vm_compute; reflexivity).
  unfold ri_mid, ri_first. destruct (perform_all rx_clock rx_fresh (take 11 (ri_changes ri_here)) (0, ri_here)) as [w1| |]; try discriminate Hb. cbn [rbind world_of].
  destruct (perform_all rx_clock rx_fresh ri_part w1) as [w2| |]; try discriminate Hb. split; [done|]. split; [done|]. vm_compute. reflexivity.
Qed.
Lemma ri_changes_ok files : match restore_changes quick_hash toy_cuts (fun _ => true) ri_k ri_map 9 9 rx_all None ri_one files with Some (Ok _) => true | _ => false end = true ->
  restore_changes quick_hash toy_cuts (fun _ => true) ri_k ri_map 9 9 rx_all None ri_one files = Some (Ok (ri_changes files)).
Proof. unfold ri_changes. by destruct (restore_changes quick_hash toy_cuts (fun _ => true) ri_k ri_map 9 9 rx_all None ri_one files) as [[?| |]|]. Qed.
Lemma ri_done_ok files : match ri_restore (0, files) with Some (Ok _) => true | _ => false end = true -> ri_restore (0, files) = Some (Ok (ri_done files)).
Proof. unfold ri_done. by destruct (ri_restore (0, files)) as [[?| |]|]. Qed.

(** The premises hold of it. *)
Example C68_witness :
  universe quick_hash (in_list ri_universe) /\ in_order quick_hash (in_list ri_universe) ri_k /\
  master ri_k = Ok ri_ix /\ blob_to_pack_map ri_ix = Ok ri_map /\ restores quick_hash ri_k ri_one ri_saved /\
  can_restore toy_cuts (fun _ => true) rx_all None ri_one ri_saved ri_here /\
  load_forest quick_hash ri_k ri_map 9 (sn_tree ri_one) = Some (Ok ri_fo) /\
  Forall (in_list ri_universe) (made_there quick_hash toy_cuts ri_fo ri_one None ri_here) /\
  (forall n, p_size (rx_fresh n KFile) = Some 0%N) /\
  restore quick_hash toy_cuts (fun _ => true) rx_clock rx_fresh ri_k ri_map 9 9 rx_all None ri_one (0, ri_here) = Some (Ok (ri_done ri_here)) /\
  restore_changes quick_hash toy_cuts (fun _ => true) ri_k ri_map 9 9 rx_all None ri_one ri_here = Some (Ok (ri_changes ri_here)) /\
  interrupted rx_clock rx_fresh (ri_changes ri_here) (0, ri_here) ri_mid /\
  (forall q c m, ent ri_saved q = Some (TFile c, m) -> meta_size m = Some (N.of_nat (length c))) /\
  (forall x l, (x, l) ∈ targets ri_one None -> None = None :> option (list bytes) \/ length (targets ri_one None) = 1 ->
     exists t m t' m', ent ri_here l = Some (t, m) /\ ent ri_saved [x] = Some (t', m') /\ same_kind t t') /\
  (forall x l n, (x, l) ∈ targets ri_one None -> fs_at ri_mid.2 l = Some n -> fs_ok toy_cuts false n) /\
  Forall (in_list ri_universe) (made_there quick_hash toy_cuts ri_fo ri_one None ri_mid.2).
Proof.
  split; [apply ri_is_universe|]. split; [apply ri_in_order|]. split; [exact (proj1 ri_maps)|]. split; [exact (proj2 ri_maps)|]. split; [exact ri_restores|].
  split; [apply can_restoreb_ok; vm_compute; reflexivity|]. split; [exact ri_loads|].
  split; [apply (ri_made_ok ri_here); intros b Hb; apply elem_of_app; by left|]. split; [done|].
  split; [apply ri_done_ok; vm_compute; reflexivity|]. split; [apply ri_changes_ok; vm_compute; reflexivity|].
  split. { destruct ri_steps as (E1 & E2 & E3). exists 11, ri_first. split; [exact E1|]. right. exists (OpAppend (tx "l" ++ tx "o") [tx "t"; tx "f"]), ri_part. split; [exact E3|]. split; [apply TornAppend|exact E2]. }
  split; [apply ri_sizes|]. assert (targets ri_one None = [(tx "t", [tx "t"]); (tx "u", [tx "u"])]) as -> by (vm_compute; reflexivity).
  split. { intros x l [[= -> ->]|[[= -> ->]|Hin%elem_of_nil]%elem_of_cons]%elem_of_cons _; [| |destruct Hin];
    [exists TDir, ex_dirmeta, TDir, ex_dirmeta|exists (TFile (tx "hi")), (ri_meta 2), (TFile (tx "hi")), (ri_meta 2)]; (split; [reflexivity|]; split; [reflexivity|done]). }
  split.
  { assert (forallb (fun e : bytes * fsnode => fs_okb toy_cuts false e.2) ri_mid.2 = true) as Hb by (vm_compute; reflexivity).
    intros x l n Hin En. apply fs_okb_ok. assert (exists y, l = [y]) as [y ->].
    { apply elem_of_cons in Hin as [[= -> ->]|[[= -> ->]|Hin%elem_of_nil]%elem_of_cons]; [eauto|eauto|destruct Hin]. }
    rewrite fs_at_cons in En. destruct (om_get y ri_mid.2) as [n'|] eqn:Eg; [|done]. cbn in En. injection En as <-.
    apply om_get_in in Eg. by apply (forallb_in _ _ _ Hb) in Eg. }
  apply (ri_made_ok ri_mid.2). intros b Hb. apply elem_of_app. right. apply elem_of_app. by left.
Qed.

(** ** Where the property fails *)

(** "An interrupted restore can be run again", taken literally. *)
Definition can_always_be_run_again : Prop :=
  forall H U cuts resolves clock fresh k ix bmap load_fuel fuel args output sn es (w w' : fsworld) ops mid,
  universe H U -> in_order H U k -> master k = Ok ix -> blob_to_pack_map ix = Ok bmap -> restores H k sn es ->
  can_restore cuts resolves args output sn es w.2 ->
  restore H cuts resolves clock fresh k bmap load_fuel fuel args output sn w = Some (Ok w') ->
  restore_changes H cuts resolves k bmap load_fuel fuel args output sn w.2 = Some (Ok ops) ->
  interrupted clock fresh ops w mid ->
  exists fuel2 w2, restore H cuts resolves clock fresh k bmap load_fuel fuel2 args output sn mid = Some (Ok w2).

(** C68, refuted in full: a saved path that has become something else since is first removed; stopped then, the next run
    in place says that the path does not exist, and restores nothing. *)
Theorem C68_refuted_a_removed_target_must_exist : ~ can_always_be_run_again.
Proof.
  intros Hc. assert (perform_all rx_clock rx_fresh (take 15 (ri_changes ri_other)) (0, ri_other) = Ok ri_gone) as Eg.
  { assert (match perform_all rx_clock rx_fresh (take 15 (ri_changes ri_other)) (0, ri_other) with Ok _ => true | _ => false end = true) as Hb by (vm_compute; reflexivity).
    unfold ri_gone. by destruct (perform_all rx_clock rx_fresh (take 15 (ri_changes ri_other)) (0, ri_other)). }
  destruct (Hc quick_hash (in_list ri_universe) toy_cuts (fun _ => true) rx_clock rx_fresh ri_k ri_ix ri_map 9 9 rx_all None ri_one ri_saved (0, ri_other) (ri_done ri_other) (ri_changes ri_other) ri_gone)
    as (fuel2 & w2 & E).
  - apply ri_is_universe.
  - apply ri_in_order.
  - exact (proj1 ri_maps).
  - exact (proj2 ri_maps).
  - exact ri_restores.
  - apply can_restoreb_ok. vm_compute. reflexivity.
  - apply ri_done_ok. vm_compute. reflexivity.
  - apply ri_changes_ok. vm_compute. reflexivity.
  - exists 15, ri_gone. split; [exact Eg|]. by left.
  - unfold restore in E. vm_compute in E. discriminate E.
Qed.

Print Assumptions C68_what_an_interrupted_restore_leaves_partial.
Print Assumptions C68_it_can_be_run_again_partial.
Print Assumptions C68_refuted_a_removed_target_must_exist.
