(** Property C14, by file names and bytes: what is found of an interrupted run. *)

From Verif Require Import Base OMap Formats Hashing HashingFacts Pack Index Locations PropsLocations Leftovers Pipeline PropsResume Toy PropsIndex PropsWipFile.

(** ** The names *)

(** The file of a pack in the working directory, and its name on the backend. *)
Definition in_directory (dir : list (bytes * bool)) (p : oid) : Prop :=
  oid_wf p /\ (oid_print p ++ ascii_bytes ".pack", true) ∈ dir.
Definition on_backend (packs : list bytes) (p : oid) : Prop :=
  ascii_bytes "packs/" ++ oid_print p ++ ascii_bytes ".pack" ∈ packs.

Lemma symbols_no_dot : Forall (fun b => b <> dot) (x00 :: symbols).
Proof. apply (bool_decide_unpack _). vm_compute. exact I. Qed.
Lemma oid_no_dot i : Forall (fun b => b <> dot) (oid_print i).
Proof.
  pose proof symbols_no_dot as Hp. rewrite Forall_forall in Hp. apply Forall_forall. intros b Hb.
  unfold oid_print, base32_encode in Hb. apply elem_of_list_fmap in Hb as (g & -> & _). unfold sym. apply Hp.
  destruct (nth_in_or_default (N.to_nat (num_of 0 g)) symbols x00) as [Hin| ->]; [|by left].
  right. by apply elem_of_list_In.
Qed.
Lemma pieces_join c l : match pieces c l with
  | [] => False
  | w :: ws => l = w ++ concat (map (cons c) ws)
  end.
Proof.
  induction l as [|b l IH]; [done|]. cbn [pieces]. case_bool_decide as E.
  - subst b. destruct (pieces c l) as [|w ws]; [done|]. cbn. by rewrite IH at 1.
  - destruct (pieces c l) as [|w ws]; [done|]. cbn. by rewrite IH at 1.
Qed.
Lemma left_pack_name e p : left_pack e = Some p <-> oid_wf p /\ e = (oid_print p ++ ascii_bytes ".pack", true).
Proof.
  destruct e as [n f]. unfold left_pack. cbn [fst snd]. split.
  - pose proof (pieces_join dot n) as Hj. destruct (pieces dot n) as [|a [|b [|? ?]]]; try done.
    case_bool_decide as E; [|done]. destruct f; [|done]. cbn [andb]. intros [<- Hw]%oid_print_parse. split; [done|].
    f_equal. rewrite Hj, E. cbn [map concat]. by rewrite app_nil_r.
  - intros [Hw [= -> ->]]. change (ascii_bytes ".pack") with (dot :: ascii_bytes "pack").
    rewrite pieces_app by apply oid_no_dot. rewrite pieces_last by (apply (bool_decide_unpack _); vm_compute; exact I).
    rewrite bool_decide_eq_true_2 by done. cbn [andb]. by apply oid_parse_print.
Qed.

(** ** What is found *)

Lemma left_packs_in dir ix p : p ∈ left_packs dir ix <-> p ∈ map fst (ix_packs ix) /\ in_directory dir p.
Proof.
  unfold left_packs. rewrite elem_of_list_In, filter_In, bool_decide_eq_true, <-elem_of_list_In, elem_of_list_omap. unfold in_directory. split.
  - intros [(e & He & [Hw ->]%left_pack_name) Hi]. done.
  - intros (Hi & Hw & He). split; [|done]. eexists. split; [exact He|]. by apply left_pack_name.
Qed.
Lemma left_packs_once dir ix : NoDup (map fst dir) -> NoDup (left_packs dir ix).
Proof.
  intros Hn. unfold left_packs. apply NoDup_ListNoDup, List.NoDup_filter, NoDup_ListNoDup.
  induction dir as [|e dir IH]; [constructor|]. cbn [map] in Hn. apply NoDup_cons in Hn as [He Hn]. cbn [omap list_omap].
  destruct (left_pack e) as [p|] eqn:E; [|by apply IH]. constructor; [|by apply IH].
  intros (e' & He' & E')%elem_of_list_omap. apply left_pack_name in E as [_ ->], E' as [_ ->]. apply He.
  change (map ?f ?l) with (f <$> l). apply elem_of_list_fmap. eexists. split; [|exact He']. done.
Qed.
Lemma not_left_rest missing cwd : NoDup cwd -> (forall p, p ∈ cwd -> p ∈ missing) ->
  exists rest, not_left missing cwd = Ok rest /\ forall p, p ∈ rest <-> p ∈ missing /\ p ∉ cwd.
Proof.
  revert missing. induction cwd as [|q cwd IH]; intros missing Hn Hin.
  { exists missing. split; [done|]. intros p. set_solver. }
  apply NoDup_cons in Hn as [Hq Hn]. cbn [not_left]. rewrite bool_decide_eq_true_2 by (apply Hin; left).
  assert (forall p, p ∈ List.filter (fun q0 => negb (bool_decide (q0 = q))) missing <-> p ∈ missing /\ p <> q) as Hf.
  { intros p. by rewrite elem_of_list_In, filter_In, negb_true_iff, bool_decide_eq_false, <-elem_of_list_In. }
  destruct (IH (List.filter (fun q0 => negb (bool_decide (q0 = q))) missing) Hn) as (rest & E & Hr).
  { intros p Hp. apply Hf. split; [apply Hin; by right|]. by intros ->. }
  exists rest. split; [exact E|]. intros p. rewrite Hr, Hf, not_elem_of_cons. tauto.
Qed.
Lemma probe_pack_once packs p : NoDup packs ->
  (probe_pack packs p = Ok tt /\ on_backend packs p) \/ (probe_pack packs p = Err /\ ~ on_backend packs p).
Proof.
  intros Hn. unfold probe_pack, on_backend. set (s := ascii_bytes "packs/" ++ _).
  pose proof (elem_of_list_filter (fun x => x = s) packs) as Hf. pose proof (NoDup_filter (fun x => x = s) packs Hn) as Hd.
  destruct (filter (fun x => x = s) packs) as [|a [|b l]].
  - right. split; [done|]. intros Hs. assert (s ∈ @nil bytes) as Hx by by apply Hf. by apply elem_of_nil in Hx.
  - left. split; [done|]. assert (a ∈ [a]) as Ha by left. by apply Hf in Ha as [-> ?].
  - assert (a = s /\ b = s) as [-> ->] by (split; apply Hf; [left|right; left]).
    apply NoDup_cons in Hd as [Hd _]. destruct Hd. left.
Qed.
Lemma probe_all_says packs missing : NoDup packs -> exists errs, probe_all packs missing = Ok errs /\
  (errs = true <-> exists p, p ∈ missing /\ ~ on_backend packs p).
Proof.
  intros Hn. induction missing as [|q ms (errs & E & He)]; cbn [probe_all].
  { exists false. split; [done|]. split; [done|]. by intros (p & ?%elem_of_nil & _). }
  destruct (probe_pack_once packs q Hn) as [[-> Hq]|[-> Hq]].
  - exists errs. split; [done|]. rewrite He. split.
    + intros (p & Hp & Hb). exists p. split; [by right|done].
    + intros (p & [->|Hp]%elem_of_cons & Hb); [done|]. by exists p.
  - exists true. rewrite E. split; [done|]. split; [|done]. intros _. exists q. split; [left|done].
Qed.

(** ** C14 *)

(** Whatever files are in the working directory, and whatever their bytes: the search for an
    interrupted run never panics.  It finds none only if there is no index file.  One it
    finds starts from the index in that file, with just those of its packs that have a file
    in the directory, each once, and the others are on the backend.  In every other case
    (the index cannot be read, or one of its packs is nowhere) it ends in an error.  No two
    files of a directory, and no two of the backend's packs, have the same name. *)
Theorem C14_what_was_left_is_found H zdec file dir packs : NoDup (map fst dir) -> NoDup packs ->
  let r := resume_from H zdec file dir packs in
  r <> Panic /\
  (r = Ok None <-> file = None) /\
  (forall ix ups, r = Ok (Some (ix, ups)) ->
     read_wip H zdec file = Ok (Some ix) /\ NoDup ups /\
     (forall p, p ∈ ups <-> p ∈ map fst (ix_packs ix) /\ in_directory dir p) /\
     (forall p, p ∈ map fst (ix_packs ix) -> p ∈ ups \/ on_backend packs p)) /\
  (r = Err <-> read_wip H zdec file = Err \/
     exists ix p, read_wip H zdec file = Ok (Some ix) /\ p ∈ map fst (ix_packs ix) /\ ~ in_directory dir p /\ ~ on_backend packs p).
Proof.
  intros Hd Hp r. subst r. unfold resume_from.
  pose proof (proj1 (C12_leftovers_are_read_or_reported H zdec file _) eq_refl) as Hw.
  destruct (read_wip H zdec file) as [[ix|]| |] eqn:Er; cbn [rbind].
  - assert (file <> None) as Hf by by intros ->.
    destruct (not_left_rest (map fst (ix_packs ix)) (left_packs dir ix)) as (rest & -> & Hr); [by apply left_packs_once|intros p; rewrite left_packs_in; tauto|].
    cbn [rbind]. destruct (probe_all_says packs rest Hp) as (errs & -> & He). cbn [rbind].
    assert (errs = true <-> exists p, p ∈ map fst (ix_packs ix) /\ ~ in_directory dir p /\ ~ on_backend packs p) as He'.
    { rewrite He. split; intros (p & H1); exists p; rewrite Hr, left_packs_in in *; tauto. }
    destruct errs.
    + split_and!; [done|split; [done|by intros ->]|done|]. split; [|done]. intros _. right. destruct (proj1 He' eq_refl) as (p & Hx). exists ix, p. tauto.
    + split_and!; [done|split; [done|by intros ->]| |].
      * intros ix' ups [= <- <-]. split_and!; [done|by apply left_packs_once|apply left_packs_in|].
        intros p Hi. destruct (decide (p ∈ left_packs dir ix)) as [?|Hn]; [by left|]. right.
        destruct (decide (ascii_bytes "packs/" ++ oid_print p ++ ascii_bytes ".pack" ∈ packs)) as [Hb|Hb]; [exact Hb|].
        exfalso. assert (false = true); [|done]. apply He. exists p. split; [by apply Hr|exact Hb].
      * split; [done|]. intros [?|(ix' & p & [= <-] & Hx)]; [done|]. assert (false = true); [|done]. apply He'. by exists p.
  - assert (file = None) as -> by (destruct file as [f|]; [destruct Hw as [(?&?&?&?&?&?)|[? ?]]; done|done]).
    split_and!; [done|done|done|]. split; [done|]. intros [?|(?&?&?&?)]; done.
  - split_and!; [done|split; [done|by intros ->]|done|]. split; [by left|done].
  - destruct file as [f|]; [destruct Hw as [(?&?&?&?&?&?)|[? ?]]; done|done].
Qed.
Print Assumptions C14_what_was_left_is_found.

(** So the model of whole runs (Pipeline.v), whose working directory holds decoded contents,
    resumes just what the names and bytes say. *)
Theorem C14_runs_resume_what_was_left H zdec file dir packs k w ix : NoDup (map fst dir) -> NoDup packs ->
  read_wip H zdec file = Ok (w_wip w) -> w_wip w = Some ix ->
  (forall p, p ∈ map fst (ix_packs ix) -> is_Some (w_packs w !! p) <-> in_directory dir p) ->
  (forall p, p ∈ map fst (ix_packs ix) -> is_Some (k_packs k !! p) <-> on_backend packs p) ->
  match resume_from H zdec file dir packs, find_resumable k w with
  | Ok (Some (ix1, ups1)), Ok (Some (ix2, ups2)) => ix1 = ix2 /\ forall p, p ∈ ups1 <-> p ∈ ups2
  | Err, Err => True
  | _, _ => False
  end.
Proof.
  intros Hd Hp Hf Hw Hdir Hback.
  destruct (C14_what_was_left_is_found H zdec file dir packs Hd Hp) as (Hnp & Hnone & Hok & Herr).
  rewrite Hw in Hf. assert (find_resumable k w <> Panic /\ find_resumable k w <> Ok None) as [Hm1 Hm2].
  { unfold find_resumable. rewrite Hw. by destruct (forallb _ _). }
  destruct (resume_from H zdec file dir packs) as [[[ix1 ups1]|]| |] eqn:Er.
  - destruct (Hok _ _ eq_refl) as (E1 & _ & Hu & Ha). rewrite Hf in E1. injection E1 as <-.
    destruct (find_resumable k w) as [[[ix2 ups2]|]| |] eqn:E; [|done| |done].
    + destruct (C14_resuming_checks_the_packs _ _ _ _ E) as (E2 & Hu2 & _). rewrite Hw in E2. injection E2 as <-. split; [done|].
      intros p. rewrite Hu, Hu2. split; intros [? ?]; (split; [done|by apply Hdir]).
    + unfold find_resumable in E. rewrite Hw in E. destruct (forallb _ _) eqn:Hall; [done|].
      assert (forallb (fun id => bool_decide (is_Some (k_packs k !! id)))
        (List.filter (fun id => negb (bool_decide (id ∈ find_cwd_packfiles (w_packs w) ix))) (map fst (ix_packs ix))) = true) as Hall'; [|congruence].
      apply forallb_forall. intros p [Hi Hn]%filter_In. apply elem_of_list_In in Hi. apply bool_decide_eq_true, Hback; [done|].
      destruct (Ha p Hi) as [Hu1|?]; [|done]. apply Hu in Hu1 as [_ Hu1]. apply negb_true_iff, bool_decide_eq_false in Hn. destruct Hn.
      unfold find_cwd_packfiles. apply elem_of_list_In, filter_In. split; [by apply elem_of_list_In|]. by apply bool_decide_eq_true, Hdir.
  - rewrite (proj1 Hnone eq_refl) in Hf. done.
  - destruct (proj1 Herr eq_refl) as [E|(ix' & p & E & Hi & H1 & H2)]; [congruence|]. rewrite Hf in E. injection E as <-.
    rewrite lost_err; [done|]. exists ix, p. split_and!; [done|done| |].
    + apply eq_None_not_Some. by rewrite Hdir.
    + apply eq_None_not_Some. by rewrite Hback.
  - done.
Qed.
Print Assumptions C14_runs_resume_what_was_left.

(** ** A concrete case: one pack in the directory, one on the backend, and files with other
    names; then the same without the pack on the backend. *)
Example C14_left_witness :
  let name p := oid_print p ++ ascii_bytes ".pack" in
  let file := Some (index_file (toy_zenc (enc_index ex_ix))) in
  let dir := [(ascii_bytes "backpak-wip.index", true); (name (pk x02), true); (name (pk x03), false); (name (pk x09), true); (ascii_bytes "a.b.pack", true); (ascii_bytes "x.pack", true)] in
  let packs := [ascii_bytes "packs/" ++ name (pk x03)] in
  NoDup (map fst dir) /\ NoDup packs /\
  resume_from toy_hash toy_zdec file dir packs = Ok (Some (ex_ix, [pk x02])) /\
  resume_from toy_hash toy_zdec file dir [] = Err /\
  resume_from toy_hash toy_zdec None dir packs = Ok None.
Proof.
  split; [apply (bool_decide_unpack _); vm_compute; exact I|].
  split; [apply (bool_decide_unpack _); vm_compute; exact I|].
  split_and!; vm_compute; reflexivity.
Qed.
Example C14_runs_witness :
  let name p := oid_print p ++ ascii_bytes ".pack" in
  let file := Some (index_file (toy_zenc (enc_index ex_ix))) in
  let dir := [(name (pk x02), true); (name (pk x03), false)] in
  let packs := [ascii_bytes "packs/" ++ name (pk x03)] in
  let w := mkWorkdir {[pk x02 := []]} (Some ex_ix) in
  let k := mkBackend {[pk x03 := []]} ∅ ∅ in
  read_wip toy_hash toy_zdec file = Ok (w_wip w) /\
  (forall p, p ∈ map fst (ix_packs ex_ix) -> is_Some (w_packs w !! p) <-> in_directory dir p) /\
  (forall p, p ∈ map fst (ix_packs ex_ix) -> is_Some (k_packs k !! p) <-> on_backend packs p) /\
  find_resumable k w = Ok (Some (ex_ix, [pk x02])).
Proof.
  split_and!; [vm_compute; reflexivity| | |vm_compute; reflexivity]; apply Forall_forall; unfold in_directory, on_backend, oid_wf;
    apply (bool_decide_unpack _); vm_compute; exact I.
Qed.
