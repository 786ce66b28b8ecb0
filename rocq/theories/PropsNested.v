(** C36 for a snapshot of a directory and of one within it. *)

From Verif Require Import Base OMap Formats Hashing Pack Index Meta Forest FsTree FsSpec Pipeline Repo RepoSpec RepoFacts Toy Exec Witness ReadBack Browse
  BrowseSpec Restore RestoreSpec RestoreFacts RestoreWitness PropsBrowse PropsRestore.

(** [backpak backup /a /a/b], where /a/b has a directory [sub], which is then removed. *)
Definition rn_b : fsnode := FsDir ex_dirmeta [(tx "sub", FsDir ex_dirmeta [(tx "f", FsFile ex_filemeta (tx "hello"))])].
Definition rn_saved : list (bytes * fsnode) := [(tx "a", FsDir ex_dirmeta [(tx "b", rn_b)]); (tx "b", rn_b)].
Definition rn_blobs : list blob :=
  remove_dups (tree_blob quick_hash [] :: plan_blobs quick_hash toy_cuts (fun _ => true) ∅ None (bx_paths rn_saved)).
Definition rn_root : oid := plan_root quick_hash toy_cuts (fun _ => true) ∅ None (bx_paths rn_saved).
Definition rn_one : snapshot := mkSnapshot 1 [] [] [] [tx "/a"; tx "/a/b"] rn_root.
Definition rn_k : backend := single quick_hash rn_blobs [rn_one].
Lemma rn_restores : restores quick_hash rn_k rn_one rn_saved.
Proof.
  assert (back quick_hash (store_of rn_blobs) 9 rn_root = Some rn_saved) as Hb by (vm_compute; reflexivity).
  apply back_ok in Hb. unfold restores, rn_k. rewrite single_store. done.
Qed.
Opaque rn_blobs rn_root.
Definition rn_ix : index := single_index quick_hash rn_blobs.
Definition rn_map : gmap oid oid := map_of rn_ix.
Lemma rn_maps : master rn_k = Ok rn_ix /\ blob_to_pack_map rn_ix = Ok rn_map.
Proof.
  split.
  - unfold rn_k, rn_ix. apply single_master.
  - assert (match blob_to_pack_map rn_ix with Ok _ => true | _ => false end = true) as Hx by (vm_compute; reflexivity).
    unfold rn_map, map_of. destruct (blob_to_pack_map rn_ix); [reflexivity|discriminate|discriminate].
Qed.
Opaque rn_map rn_ix.
(** What is there when it is restored; [out] is another, empty directory. *)
Definition rn_here : list (bytes * fsnode) := [(tx "a", FsDir ex_dirmeta [(tx "b", FsDir ex_dirmeta [])]); (tx "out", FsDir ex_dirmeta [])].
Definition rn_restore := restore quick_hash toy_cuts (fun _ => true) rx_clock rx_fresh rn_k rn_map 9 9.
Definition rn_universe : list blob := rn_blobs.
Lemma rn_is_universe : universe quick_hash (in_list rn_universe).
Proof. apply universe_ok. vm_compute. reflexivity. Qed.
Lemma rn_in_order : in_order quick_hash (in_list rn_universe) rn_k.
Proof.
  unfold rn_k. apply single_in_order.
  - apply Forall_forall. intros b Hb. exact Hb.
  - assert (bool_decide (NoDup (map b_id rn_blobs)) = true) as Hx by (vm_compute; reflexivity). by apply bool_decide_eq_true in Hx.
  - pose proof rn_restores as H1. unfold restores, rn_k in H1. rewrite single_store in H1.
    intros sn [->|Hin%elem_of_nil]%elem_of_cons; [exists rn_saved; exact H1|destruct Hin].
Qed.
Opaque rn_k.

Definition rn_there : option (result fsworld) := rn_restore (mkRestoreArgs false false false false) (Some [tx "out"]) rn_one (0, rn_here).
Definition rn_back : option (result fsworld) := rn_restore (mkRestoreArgs false false false false) None rn_one (0, rn_here).
(** C36, refuted in full: a snapshot of a directory and of one within it, both of which are there, can be
    restored somewhere else, but not where it came from.  What is missing from the inner one is found
    missing twice, made twice, and a directory can't be. *)
Theorem C36_refuted_nested_paths :
  exists H U cuts resolves clock fresh k ix bmap load_fuel fuel sn es to (w w' : fsworld),
  universe H U /\ in_order H U k /\ master k = Ok ix /\ blob_to_pack_map ix = Ok bmap /\ restores H k sn es /\
  (forall p, p ∈ sn_paths sn -> exists m es', fs_at w.2 (path_location p) = Some (FsDir m es')) /\
  restore H cuts resolves clock fresh k bmap load_fuel fuel (mkRestoreArgs false false false false) (Some to) sn w = Some (Ok w') /\
  restore H cuts resolves clock fresh k bmap load_fuel fuel (mkRestoreArgs false false false false) None sn w = Some Err.
Proof.
  assert (match rn_there with Some (Ok _) => true | _ => false end = true) as H1 by (vm_compute; reflexivity).
  assert (match rn_back with Some Err => true | _ => false end = true) as H2 by (vm_compute; reflexivity).
  destruct rn_there as [[w'| |]|] eqn:E1; try discriminate H1. destruct rn_back as [[?| |]|] eqn:E2; try discriminate H2.
  unfold rn_there, rn_back, rn_restore in E1, E2.
  exists quick_hash, (in_list rn_universe), toy_cuts, (fun _ => true), rx_clock, rx_fresh, rn_k, rn_ix, rn_map, 9, 9, rn_one, rn_saved, [tx "out"], (0, rn_here), w'.
  split; [apply rn_is_universe|]. split; [apply rn_in_order|]. split; [exact (proj1 rn_maps)|]. split; [exact (proj2 rn_maps)|]. split; [exact rn_restores|].
  split; [|split; [exact E1|exact E2]].
  intros p [->|[->|Hp%elem_of_nil]%elem_of_cons]%elem_of_cons; [| |destruct Hp].
  - exists ex_dirmeta, [(tx "b", FsDir ex_dirmeta [])]. vm_compute. reflexivity.
  - exists ex_dirmeta, []. vm_compute. reflexivity.
Qed.
Print Assumptions C36_refuted_nested_paths.
