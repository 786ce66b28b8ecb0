(** Restoring: C36. *)

From Verif Require Import Base OMap Formats FormatsFacts Hashing Pack Index IndexFacts Meta Forest ForestFacts FsTree FsSpec FsFacts BackupFacts
  Pipeline PipelineFacts PropsPipeline Repo RepoSpec RepoFacts RewriteFacts PublishFacts PlanFacts CommandFacts
  History PruneFacts ReadFacts HistoryFacts Exec Toy Witness
  Browse BrowseSpec BrowseFacts DiffFacts BrowseRepo ReadBack
  Restore RestoreSpec RestoreFacts RestoreSteps RestoreForest RestoreRun RestoreWitness PropsBrowse.

(** * C36: restore makes the target look like the snapshot, and without --delete removes nothing else *)

(** For a snapshot whose trees and chunks are all in the repository (so that they
    can be loaded) and files that [can_restore] (RestoreSpec.v) describes: restoring
    succeeds, and at every place in or below a target is what [comes_out] says.
    Everything else stays as it was, except that the directory a target is in may
    get a new modification time. *)
Theorem C36_restore_partial H U cuts resolves clock fresh k ix bmap args output sn es (w : fsworld) :
  universe H U -> (forall x, length (H x) = 28) -> (forall x, concat (cuts x) = x) ->
  in_order H U k -> master k = Ok ix -> blob_to_pack_map ix = Ok bmap -> restores H k sn es ->
  r_dry_run args = false -> can_restore cuts resolves args output sn es w.2 ->
  (exists load_fuel fo, load_forest H k bmap load_fuel (sn_tree sn) = Some (Ok fo)) /\
  forall load_fuel fo, load_forest H k bmap load_fuel (sn_tree sn) = Some (Ok fo) ->
  Forall U (made_there H cuts fo sn output w.2) ->
  exists fuel w', restore H cuts resolves clock fresh k bmap load_fuel fuel args output sn w = Some (Ok w') /\
    (forall x l q, (x, l) ∈ targets sn output ->
       comes_out args (fun q => ent w.2 (l ++ q)) (fun q => ent es (x :: q)) q (ent w'.2 (l ++ q))) /\
    (forall p, (forall x l, (x, l) ∈ targets sn output -> ~ l `prefix_of` p) ->
       left_alone (ent w.2 p) (ent w'.2 p) /\
       ((forall x l y, (x, l) ∈ targets sn output -> l <> p ++ [y]) -> ent w'.2 p = ent w.2 p)).
Proof.
  intros HU Hlen Hcuts Hk Eix Ebm Hr Hdry Hcr. split.
  { destruct (load_snapshot H U HU Hlen k ix bmap Hk Eix Ebm _ _ Hr) as (fo & E & _). eauto. }
  intros load_fuel fo E HUs.
  destruct (restore_ok H cuts U HU Hlen Hcuts k ix bmap Hk Eix Ebm resolves clock fresh args output sn es w Hr Hdry Hcr load_fuel fo E HUs) as (fuel & w' & Ew & Hco & Hfr).
  exists fuel, w'. split; [done|]. split; [done|]. intros p Hp.
  assert (forall L, L ∈ map snd (targets sn output) -> exists x, (x, L) ∈ targets sn output) as HT.
  { intros L HL. change (map ?f ?l) with (f <$> l) in HL. apply elem_of_list_fmap in HL as ([x l] & -> & Hin). by exists x. }
  destruct (Hfr p) as [F1 F2].
  { intros L HL. destruct (HT L HL) as [x Hin]. by apply (Hp x). }
  split; [done|]. intros Hn. apply F2. intros L HL. destruct (HT L HL) as [x Hin]. intros ->.
  destruct (targets_place H cuts U HU Hlen Hcuts k ix bmap Hk Eix Ebm resolves clock fresh args output sn es w Hr Hdry Hcr) as [Hpl _].
  destruct (Hpl x L Hin) as [Hne _]. destruct (last_some L Hne) as [y Ey]. apply (Hn x L y Hin). apply last_Some in Ey as [l' ->]. by rewrite removelast_last.
Qed.

(** With [--delete] the targets become what was saved, and nothing more. *)
Theorem C36_delete_leaves_exactly_the_snapshot_partial H U cuts resolves clock fresh k ix bmap args output sn es (w : fsworld) load_fuel fo :
  universe H U -> (forall x, length (H x) = 28) -> (forall x, concat (cuts x) = x) ->
  in_order H U k -> master k = Ok ix -> blob_to_pack_map ix = Ok bmap -> restores H k sn es ->
  r_dry_run args = false -> r_delete args = true -> can_restore cuts resolves args output sn es w.2 ->
  load_forest H k bmap load_fuel (sn_tree sn) = Some (Ok fo) -> Forall U (made_there H cuts fo sn output w.2) ->
  exists fuel w', restore H cuts resolves clock fresh k bmap load_fuel fuel args output sn w = Some (Ok w') /\
    forall x l q, (x, l) ∈ targets sn output ->
      match ent es (x :: q), ent w'.2 (l ++ q) with
      | None, None => True
      | Some saved, Some got => is_what_was_saved args saved got
      | _, _ => False
      end.
Proof.
  intros HU Hlen Hcuts Hk Eix Ebm Hr Hdry Hdel Hcr E HUs.
  destruct (C36_restore_partial H U cuts resolves clock fresh k ix bmap args output sn es w HU Hlen Hcuts Hk Eix Ebm Hr Hdry Hcr) as [_ Hall].
  destruct (Hall load_fuel fo E HUs) as (fuel & w' & Ew & Hco & _). exists fuel, w'. split; [done|]. intros x l q Hin. by apply (Hco x l q Hin).
Qed.

Lemma way_dec before saved q : in_the_way before saved q \/ ~ in_the_way before saved q.
Proof.
  set (P := fun i => match before (take i q), saved (take i q) with Some (TDir, _), Some (t, _) => t <> TDir | _, _ => False end).
  assert (forall i, P i \/ ~ P i) as HP.
  { intros i. unfold P. destruct (before (take i q)) as [[[] ?]|]; auto. destruct (saved (take i q)) as [[[] ?]|]; auto; by left. }
  assert ((exists i, i <= length q /\ P i) \/ ~ exists i, i <= length q /\ P i) as [(i & _ & Hi)|Hn].
  { generalize (length q) as n. induction n as [|n IH].
    - destruct (HP 0) as [H0|H0]; [left; by exists 0|]. right. intros (i & Hi & Hp). by assert (i = 0) as -> by lia.
    - destruct IH as [(i & Hi & Hp)|Hno]; [left; exists i; split; [lia|done]|]. destruct (HP (S n)) as [H0|H0]; [left; by exists (S n)|].
      right. intros (i & Hi & Hp). destruct (decide (i = S n)) as [->|]; [done|]. apply Hno. exists i. split; [lia|done]. }
  - left. unfold P in Hi. destruct (before (take i q)) as [[[] m]|] eqn:Eb; try done. destruct (saved (take i q)) as [[t m']|] eqn:Es; [|done].
    exists (take i q), m, (t, m'). split; [exists (drop i q); by rewrite take_drop|]. done.
  - right. intros (r & m & s & [r' ->] & Eb & Es & Hs). apply Hn. exists (length r). rewrite app_length. split; [lia|]. unfold P. rewrite take_app, Eb, Es. by destruct s.
Qed.

(** Without [--delete] what the snapshot does not have is kept, wherever it is. *)
Theorem C36_without_delete_nothing_else_goes_partial H U cuts resolves clock fresh k ix bmap args output sn es (w : fsworld) load_fuel fo :
  universe H U -> (forall x, length (H x) = 28) -> (forall x, concat (cuts x) = x) ->
  in_order H U k -> master k = Ok ix -> blob_to_pack_map ix = Ok bmap -> restores H k sn es ->
  r_dry_run args = false -> r_delete args = false -> can_restore cuts resolves args output sn es w.2 ->
  load_forest H k bmap load_fuel (sn_tree sn) = Some (Ok fo) -> Forall U (made_there H cuts fo sn output w.2) ->
  exists fuel w', restore H cuts resolves clock fresh k bmap load_fuel fuel args output sn w = Some (Ok w') /\
    forall p e, ent w.2 p = Some e ->
      (forall x l q, (x, l) ∈ targets sn output -> p = l ++ q -> ent es (x :: q) = None) ->
      exists e', ent w'.2 p = Some e' /\ e'.1 = e.1 /\ modes e'.2 = modes e.2 /\ (e.1 <> TDir -> e' = e).
Proof.
  intros HU Hlen Hcuts Hk Eix Ebm Hr Hdry Hdel Hcr E HUs.
  destruct (C36_restore_partial H U cuts resolves clock fresh k ix bmap args output sn es w HU Hlen Hcuts Hk Eix Ebm Hr Hdry Hcr) as [_ Hall].
  destruct (Hall load_fuel fo E HUs) as (fuel & w' & Ew & Hco & Hout). exists fuel, w'. split; [done|]. intros p e Ee Hnot.
  assert (left_alone (ent w.2 p) (ent w'.2 p)) as Ha.
  { destruct (decide (Exists (fun t : bytes * loc => t.2 `prefix_of` p) (targets sn output))) as [Hex|Hno].
    - apply Exists_exists in Hex as ([x l] & Hin & [q ->]). destruct (Hco x l q Hin) as [_ Hc]. specialize (Hc Hdel) as [Hway Hfree].
      destruct (way_dec (fun q => ent w.2 (l ++ q)) (fun q => ent es (x :: q)) q) as [Hw|Hw].
      + specialize (Hway Hw). cbv beta in Hway. cbn [snd] in *. rewrite Hway. apply left_alone_refl.
      + specialize (Hfree Hw). cbv beta in Hfree. by rewrite (Hnot x l q Hin eq_refl) in Hfree.
    - apply Hout. intros x l Hin Hp. apply Hno, Exists_exists. by exists (x, l). }
  rewrite Ee in Ha. destruct (ent w'.2 p) as [e'|]; [|done]. destruct Ha as (A1 & A2 & A3). exists e'. split; [done|]. split; [done|]. split; [done|].
  intros Hd. destruct e, e'. cbn in *. f_equal; [done|]. symmetry. auto.
Qed.

(** A dry run changes nothing, whatever the repository, snapshot and files. *)
Lemma compare_nodes_still {S} (cb : list bytes -> event -> S -> result S) rec n1 n2 p s s' :
  (forall p e s s', cb p e s = Ok s' -> s' = s) -> (forall d1 d2 p s s', rec d1 d2 p s = Some (Ok s') -> s' = s) ->
  compare_nodes_with cb rec n1 n2 p s = Some (Ok s') -> s' = s.
Proof.
  intros Hcb Hrec. unfold compare_nodes_with. destruct (node_kind n1) as [k1| |]; try done. destruct (node_kind n2) as [k2| |]; try done.
  assert (forall r, Some (if bool_decide (k1 = k2) then if negb r then cb p (Changed n1 n2) s
      else if negb (bool_decide (n_meta n1 = n_meta n2)) then cb p (MetaChanged n1 n2) s else cb p (Unchanged n2) s
      else cb p (TypeChanged n1 n2) s) = Some (Ok s') -> s' = s) as Hleaf.
  { intros r E. apply (inj Some) in E. destruct (bool_decide (k1 = k2)), r, (bool_decide (n_meta n1 = n_meta n2)); cbn [negb] in E; by eapply Hcb. }
  destruct (n_contents n1) as [cs1|d1|t1]; destruct (n_contents n2) as [cs2|d2|t2]; try (by apply Hleaf). clear Hleaf.
  destruct (if bool_decide (d1 = d2) then Some (Ok s) else rec d1 d2 p s) as [[s1| |]|] eqn:E1; try done.
  assert (s1 = s) as ->; [destruct (bool_decide (d1 = d2)); [by injection E1|by eapply Hrec]|]. intros E. apply (inj Some) in E. apply rbind_ok in E as (s2 & E2 & E3).
  assert (s2 = s) as -> by (destruct (bool_decide (n_meta n1 = n_meta n2)); [by injection E2|by eapply Hcb]).
  destruct (bool_decide (d1 = d2) && bool_decide (n_meta n1 = n_meta n2)); [by eapply Hcb|by injection E3].
Qed.
Lemma compare_trees_still {S} fo1 fo2 (cb : list bytes -> event -> S -> result S) fuel : (forall p e s s', cb p e s = Ok s' -> s' = s) ->
  forall id1 id2 p s s', compare_trees fo1 fo2 cb fuel id1 id2 p s = Some (Ok s') -> s' = s.
Proof.
  intros Hcb. induction fuel as [|fuel IH]; intros id1 id2 p s s' E; [done|]. cbn [compare_trees] in E.
  destruct (fo1 !! id1) as [t1|]; [|done]. destruct (fo2 !! id2) as [t2|]; [|done]. revert s E. generalize (os_of_list (map fst t1 ++ map fst t2)) as xs.
  induction xs as [|x xs IHx]; intros s E; cbn [ofold] in E; [by injection E|].
  destruct (match om_get x t1, om_get x t2 with
            | None, None => Some Panic
            | None, Some n => Some (cb (p ++ [x]) (Added n) s)
            | Some n, None => Some (cb (p ++ [x]) (Removed n) s)
            | Some n1, Some n2 => compare_nodes_with cb (compare_trees fo1 fo2 cb fuel) n1 n2 (p ++ [x]) s
            end) as [[s1| |]|] eqn:E1; try done.
  apply IHx in E as ->. destruct (om_get x t1) as [n1|], (om_get x t2) as [n2|]; try done.
  - by eapply compare_nodes_still in E1.
  - apply (inj Some) in E1. by eapply Hcb.
  - apply (inj Some) in E1. by eapply Hcb.
Qed.
Theorem C36_dry_run_changes_nothing H cuts resolves clock fresh k bmap load_fuel fuel args output sn (w w' : fsworld) :
  r_dry_run args = true ->
  restore H cuts resolves clock fresh k bmap load_fuel fuel args output sn w = Some (Ok w') -> w' = w.
Proof.
  intros Hdry. unfold restore. destruct (load_forest H k bmap load_fuel (sn_tree sn)) as [[fo2| |]|]; try done.
  destruct (load_fs_tree H cuts resolves w.2 sn fo2 output) as [[[id1 fo1] pm]| |]; try done. apply compare_trees_still.
  intros p [n|n|o n|o n|n|o n] s s' E; cbn [restore_cb] in E; rewrite ?Hdry in E.
  - by apply rbind_ok in E as (? & _ & [= ->]).
  - destruct (negb (r_delete args)); [by injection E|]. by apply rbind_ok in E as (? & _ & [= ->]).
  - by apply rbind_ok in E as (? & _ & [= ->]).
  - by apply rbind_ok in E as (? & _ & [= ->]).
  - by injection E.
  - apply rbind_ok in E as (? & _ & E). destruct (n_contents o), (r_delete args), (n_contents n); try done; by injection E.
Qed.

(** ** Examples: in place with everything on; as another directory; into a directory *)

Definition rx_saved : list (bytes * fsnode) := bx_before.
Definition rx_two : list (bytes * fsnode) := bx_before ++ [(tx "u", FsFile ex_filemeta (tx "hello"))].
Definition rx_blobs : list blob :=
  remove_dups (tree_blob quick_hash [] :: plan_blobs quick_hash toy_cuts (fun _ => true) ∅ None (bx_paths rx_saved)
    ++ plan_blobs quick_hash toy_cuts (fun _ => true) ∅ None (bx_paths rx_two)).
Definition rx_root (es : list (bytes * fsnode)) : oid := plan_root quick_hash toy_cuts (fun _ => true) ∅ None (bx_paths es).
Definition rx_one : snapshot := mkSnapshot 1 [] [] [] [tx "/t"] (rx_root rx_saved).
Definition rx_both : snapshot := mkSnapshot 2 [] [] [] [tx "/u"; tx "/t"] (rx_root rx_two).
Definition rx_k : backend := single quick_hash rx_blobs [rx_one; rx_both].
Lemma rx_reads :
  back quick_hash (store_of rx_blobs) 9 (rx_root rx_saved) = Some rx_saved /\
  back quick_hash (store_of rx_blobs) 9 (rx_root rx_two) = Some rx_two.
Proof. split; vm_compute; reflexivity. Qed.
Lemma rx_restores : restores quick_hash rx_k rx_one rx_saved /\ restores quick_hash rx_k rx_both rx_two.
Proof. destruct rx_reads as [H1 H2]. apply back_ok in H1. apply back_ok in H2. unfold restores, rx_k. rewrite single_store. done. Qed.
Opaque rx_blobs rx_root.
Definition rx_ix : index := single_index quick_hash rx_blobs.
Definition map_of (ix : index) : gmap oid oid := match blob_to_pack_map ix with Ok m => m | _ => ∅ end.
Definition rx_map : gmap oid oid := map_of rx_ix.
Lemma rx_maps : master rx_k = Ok rx_ix /\ blob_to_pack_map rx_ix = Ok rx_map.
Proof.
  split.
  - unfold rx_k, rx_ix. apply single_master.
  - assert (match blob_to_pack_map rx_ix with Ok _ => true | _ => false end = true) as Hx by (vm_compute; reflexivity).
    unfold rx_map, map_of. destruct (blob_to_pack_map rx_ix); [reflexivity|discriminate|discriminate].
Qed.
Opaque rx_map rx_ix.

(** The files before. *)
Definition rx_inside : list (bytes * fsnode) :=
  [(tx "d", FsFile ex_filemeta (tx "in d"));
   (tx "f", FsFile (ex_meta 33188 (Some 6%N)) (tx "hello!"));
   (tx "l", FsLink ex_linkmeta (tx "o"));
   (tx "n", FsDir ex_dirmeta [(tx "new", FsFile ex_filemeta (tx "new"))]);
   (tx "o", FsFile (ex_meta 33152 (Some 5%N)) (tx "other"))].
Definition rx_here : list (bytes * fsnode) := [(tx "t", FsDir ex_dirmeta rx_inside); (tx "z", FsFile ex_filemeta (tx "z"))].
Definition rx_there : list (bytes * fsnode) :=
  [(tx "out", FsDir ex_dirmeta [(tx "f", FsDir ex_dirmeta [(tx "g", FsFile ex_filemeta (tx "g"))]);
      (tx "o", FsFile (ex_meta 33152 (Some 5%N)) (tx "other")); (tx "s", FsOther ex_fifometa)])].
Definition rx_into : list (bytes * fsnode) :=
  [(tx "out", FsDir ex_dirmeta [(tx "s", FsOther ex_fifometa); (tx "t", FsDir ex_dirmeta rx_inside)])].

Definition rx_clock (n : nat) : Z := (100 + Z.of_nat n)%Z.
Definition rx_fresh (n : nat) (k : kind) : posix :=
  mkPosix (match k with KFile => 33188 | KDirectory => 16877 | _ => 41471 end) (Some 0%N) 0 0 (rx_clock n) (rx_clock n).
Definition rx_all : restore_args := mkRestoreArgs false true true true.
Definition rx_plain : restore_args := mkRestoreArgs false false false false.
Definition rx_restore := restore quick_hash toy_cuts (fun _ => true) rx_clock rx_fresh rx_k rx_map 9 9.
Definition rx_made (sn : snapshot) (output : option (list bytes)) (files : list (bytes * fsnode)) : list blob :=
  match load_forest quick_hash rx_k rx_map 9 (sn_tree sn) with Some (Ok fo) => made_there quick_hash toy_cuts fo sn output files | _ => [] end.
Definition rx_universe : list blob :=
  remove_dups (rx_blobs ++ rx_made rx_one None rx_here ++ rx_made rx_one (Some [tx "out"]) rx_there ++ rx_made rx_both (Some [tx "out"]) rx_into).

Lemma rx_is_universe : universe quick_hash (in_list rx_universe).
Proof. apply universe_ok. vm_compute. reflexivity. Qed.
Lemma rx_made_in : forallb (fun b => bool_decide (b ∈ rx_universe))
  (rx_blobs ++ rx_made rx_one None rx_here ++ rx_made rx_one (Some [tx "out"]) rx_there ++ rx_made rx_both (Some [tx "out"]) rx_into) = true.
Proof. vm_compute. reflexivity. Qed.
Opaque rx_universe.
Lemma rx_in_order : in_order quick_hash (in_list rx_universe) rx_k.
Proof.
  unfold rx_k. apply single_in_order.
  - apply Forall_forall. intros b Hb. pose proof (forallb_in _ _ b rx_made_in) as Hx. apply (bool_decide_eq_true (b ∈ rx_universe)), Hx. apply elem_of_app. by left.
  - assert (bool_decide (NoDup (map b_id rx_blobs)) = true) as Hx by (vm_compute; reflexivity). by apply bool_decide_eq_true in Hx.
  - destruct rx_restores as [H1 H2]. unfold restores, rx_k in H1, H2. rewrite single_store in H1, H2.
    intros sn [->|[->|Hin%elem_of_nil]%elem_of_cons]%elem_of_cons; [exists rx_saved; exact H1|exists rx_two; exact H2|destruct Hin].
Qed.
Opaque rx_k rx_made.

(** The premises hold of each, and the restored files are as the theorem says. *)
Example C36_witness :
  universe quick_hash (in_list rx_universe) /\ in_order quick_hash (in_list rx_universe) rx_k /\
  master rx_k = Ok rx_ix /\ blob_to_pack_map rx_ix = Ok rx_map /\
  restores quick_hash rx_k rx_one rx_saved /\ restores quick_hash rx_k rx_both rx_two /\
  can_restore toy_cuts (fun _ => true) rx_all None rx_one rx_saved rx_here /\
  can_restore toy_cuts (fun _ => true) rx_plain (Some [tx "out"]) rx_one rx_saved rx_there /\
  can_restore toy_cuts (fun _ => true) rx_plain (Some [tx "out"]) rx_both rx_two rx_into /\
  Forall (in_list rx_universe) (rx_made rx_one None rx_here) /\
  Forall (in_list rx_universe) (rx_made rx_one (Some [tx "out"]) rx_there) /\
  Forall (in_list rx_universe) (rx_made rx_both (Some [tx "out"]) rx_into).
Proof.
  split; [apply rx_is_universe|]. split; [apply rx_in_order|]. split; [exact (proj1 rx_maps)|]. split; [exact (proj2 rx_maps)|]. split; [exact (proj1 rx_restores)|]. split; [exact (proj2 rx_restores)|].
  split; [apply can_restoreb_ok; vm_compute; reflexivity|]. split; [apply can_restoreb_ok; vm_compute; reflexivity|]. split; [apply can_restoreb_ok; vm_compute; reflexivity|].
  assert (forall b, b ∈ rx_blobs ++ rx_made rx_one None rx_here ++ rx_made rx_one (Some [tx "out"]) rx_there ++ rx_made rx_both (Some [tx "out"]) rx_into -> in_list rx_universe b) as Hin.
  { intros b Hb. pose proof (forallb_in _ _ b rx_made_in Hb) as Hx. by apply (bool_decide_eq_true (b ∈ rx_universe)). }
  split; [|split]; apply Forall_forall; intros b Hb; apply Hin; apply elem_of_app; right; apply elem_of_app.
  - left. exact Hb.
  - right. apply elem_of_app. left. exact Hb.
  - right. apply elem_of_app. right. exact Hb.
Qed.

(** The kinds and contents at every path. *)
Definition shape_of (r : option (result fsworld)) : list (list bytes * thing) :=
  match r with Some (Ok w) => map (fun e : list bytes * fsnode => (e.1, thing_of e.2)) (all_of w.2) | _ => [] end.
Example C36_in_place : shape_of (rx_restore rx_all None rx_one (0, rx_here)) =
  [([tx "t"], TDir); ([tx "t"; tx "d"], TDir); ([tx "t"; tx "d"; tx "x"], TFile (tx "in d")); ([tx "t"; tx "f"], TFile (tx "hello"));
   ([tx "t"; tx "l"], TLink (tx "f")); ([tx "t"; tx "o"], TFile (tx "other")); ([tx "z"], TFile (tx "z"))].
Proof. vm_compute. reflexivity. Qed.
Example C36_as_another : shape_of (rx_restore rx_plain (Some [tx "out"]) rx_one (0, rx_there)) =
  [([tx "out"], TDir); ([tx "out"; tx "d"], TDir); ([tx "out"; tx "d"; tx "x"], TFile (tx "in d")); ([tx "out"; tx "f"], TDir); ([tx "out"; tx "f"; tx "g"], TFile (tx "g"));
   ([tx "out"; tx "l"], TLink (tx "f")); ([tx "out"; tx "o"], TFile (tx "other")); ([tx "out"; tx "s"], TOther)].
Proof. vm_compute. reflexivity. Qed.
Example C36_into : shape_of (rx_restore rx_plain (Some [tx "out"]) rx_both (0, rx_into)) =
  [([tx "out"], TDir); ([tx "out"; tx "s"], TOther); ([tx "out"; tx "t"], TDir); ([tx "out"; tx "t"; tx "d"], TDir); ([tx "out"; tx "t"; tx "d"; tx "x"], TFile (tx "in d"));
   ([tx "out"; tx "t"; tx "f"], TFile (tx "hello")); ([tx "out"; tx "t"; tx "l"], TLink (tx "f"));
   ([tx "out"; tx "t"; tx "n"], TDir); ([tx "out"; tx "t"; tx "n"; tx "new"], TFile (tx "new")); ([tx "out"; tx "t"; tx "o"], TFile (tx "other"));
   ([tx "out"; tx "u"], TFile (tx "hello"))].
Proof. vm_compute. reflexivity. Qed.
Example C36_dry : rx_restore (mkRestoreArgs true true true true) None rx_one (0, rx_here) = Some (Ok (0, rx_here)).
Proof. vm_compute. reflexivity. Qed.

(** ** Where the property fails *)

(** With [--delete] "the target equals the snapshot tree whatever was there", taken
    literally: of the same kinds and contents. *)
Definition delete_always_mirrors : Prop :=
  forall H U cuts resolves clock fresh k ix bmap load_fuel fuel args output sn es (w w' : fsworld),
  universe H U -> (forall x, length (H x) = 28) -> (forall x, concat (cuts x) = x) ->
  in_order H U k -> master k = Ok ix -> blob_to_pack_map ix = Ok bmap -> restores H k sn es ->
  r_dry_run args = false -> r_delete args = true -> sorted_fs w.2 ->
  restore H cuts resolves clock fresh k bmap load_fuel fuel args output sn w = Some (Ok w') ->
  forall x l q, (x, l) ∈ targets sn output -> fst <$> ent w'.2 (l ++ q) = fst <$> ent es (x :: q).

Opaque rx_restore.
Lemma rx_mirror_fails files q t : sorted_fs files ->
  match rx_restore rx_all None rx_one (0, files) with Some (Ok w') => fst <$> ent w'.2 ([tx "t"] ++ q) | _ => None end = t ->
  match rx_restore rx_all None rx_one (0, files) with Some (Ok w') => true | _ => false end = true ->
  fst <$> ent rx_saved (tx "t" :: q) <> t -> ~ delete_always_mirrors.
Proof.
  intros Hs Et Hr Hne Hall. destruct (rx_restore rx_all None rx_one (0, files)) as [[w'| |]|] eqn:Er; try discriminate Hr. apply Hne. rewrite <-Et. symmetry.
  Transparent rx_restore.
  refine (Hall quick_hash (in_list rx_universe) toy_cuts (fun _ => true) rx_clock rx_fresh rx_k rx_ix rx_map 9 9 rx_all None rx_one rx_saved (0, files) w'
    rx_is_universe quick_hash_length toy_cuts_concat rx_in_order (proj1 rx_maps) (proj2 rx_maps) (proj1 rx_restores) eq_refl eq_refl Hs Er (tx "t") [tx "t"] q _).
  vm_compute. by left.
Qed.
Opaque rx_restore.

(** A special file is neither removed nor noticed. *)
Theorem C36_refuted_special_files_stay : ~ delete_always_mirrors.
Proof.
  apply (rx_mirror_fails [(tx "t", FsDir ex_dirmeta [(tx "s", FsOther ex_fifometa)])] [tx "s"] (Some TOther)).
  - split; [by apply sortedb_ok|]. constructor; [|constructor]. by apply shapeb_ok.
  - vm_compute. reflexivity.
  - vm_compute. reflexivity.
  - vm_compute. done.
Qed.
(** A file with the snapshot's size and modification time but other contents keeps
    them. *)
Theorem C36_refuted_stale_contents_stay : ~ delete_always_mirrors.
Proof.
  apply (rx_mirror_fails [(tx "t", FsDir ex_dirmeta [(tx "f", FsFile ex_filemeta (tx "jello"))])] [tx "f"] (Some (TFile (tx "jello")))).
  - split; [by apply sortedb_ok|]. constructor; [|constructor]. by apply shapeb_ok.
  - vm_compute. reflexivity.
  - vm_compute. reflexivity.
  - vm_compute. done.
Qed.

(** With [--times] a directory in which something was restored does not get its
    modification time back. *)
Theorem C36_refuted_directory_times :
  exists H U cuts resolves clock fresh k ix bmap load_fuel fuel args output sn es (w w' : fsworld) x l q m m',
  universe H U /\ in_order H U k /\ master k = Ok ix /\ blob_to_pack_map ix = Ok bmap /\ restores H k sn es /\
  r_dry_run args = false /\ r_delete args = true /\ r_times args = true /\ can_restore cuts resolves args output sn es w.2 /\
  restore H cuts resolves clock fresh k bmap load_fuel fuel args output sn w = Some (Ok w') /\
  (x, l) ∈ targets sn output /\ ent es (x :: q) = Some (TDir, m) /\ ent w'.2 (l ++ q) = Some (TDir, m') /\ meta_mtime m <> meta_mtime m'.
Proof.
  assert (exists w' m', rx_restore rx_all None rx_one (0, rx_here) = Some (Ok w') /\ ent w'.2 [tx "t"] = Some (TDir, m') /\ meta_mtime m' <> Some 7%Z) as (w' & m' & Er & Ee & Hm).
  { assert (match rx_restore rx_all None rx_one (0, rx_here) with Some (Ok w') => match ent w'.2 [tx "t"] with Some (TDir, m') => bool_decide (meta_mtime m' <> Some 7%Z) | _ => false end | _ => false end = true) as Hx by (vm_compute; reflexivity).
    destruct (rx_restore rx_all None rx_one (0, rx_here)) as [[w'| |]|]; try discriminate Hx. destruct (ent w'.2 [tx "t"]) as [[[] m']|] eqn:E; try discriminate Hx. apply bool_decide_eq_true in Hx. exists w', m'. auto. }
  exists quick_hash, (in_list rx_universe), toy_cuts, (fun _ => true), rx_clock, rx_fresh, rx_k, rx_ix, rx_map, 9, 9, rx_all, None, rx_one, rx_saved, (0, rx_here), w', (tx "t"), [tx "t"], [], ex_dirmeta, m'.
  split; [apply rx_is_universe|]. split; [apply rx_in_order|]. split; [exact (proj1 rx_maps)|]. split; [exact (proj2 rx_maps)|]. split; [exact (proj1 rx_restores)|].
  split; [done|]. split; [done|]. split; [done|]. split; [apply can_restoreb_ok; vm_compute; reflexivity|].
  Transparent rx_restore. split; [unfold rx_restore in Er; exact Er|]. split; [vm_compute; by left|]. split; [done|]. split; [exact Ee|]. intros Heq. apply Hm. by rewrite <-Heq.
Qed.

Print Assumptions C36_restore_partial.
Print Assumptions C36_delete_leaves_exactly_the_snapshot_partial.
Print Assumptions C36_without_delete_nothing_else_goes_partial.
Print Assumptions C36_dry_run_changes_nothing.
Print Assumptions C36_refuted_special_files_stay.
Print Assumptions C36_refuted_stale_contents_stay.
Print Assumptions C36_refuted_directory_times.
