(** Property C50: names and locations of objects correspond one to one. *)

From Verif Require Import Base Formats Hashing HashingFacts Locations.

(** ** Paths *)

Definition plain (l : bytes) : Prop := Forall (fun b => b <> slash /\ b <> dot) l.

Lemma symbols_plain : Forall (fun b => b <> slash /\ b <> dot) symbols.
Proof. apply (bool_decide_unpack _). vm_compute. exact I. Qed.

Lemma oid_print_plain i : plain (oid_print i).
Proof.
  unfold plain, oid_print, base32_encode. apply Forall_forall. intros b Hb.
  apply elem_of_list_fmap in Hb as (g & -> & _). unfold sym.
  destruct (nth_in_or_default (N.to_nat (num_of 0 g)) symbols x00) as [Hin|E].
  - pose proof symbols_plain as Hp. rewrite Forall_forall in Hp. apply Hp. by apply elem_of_list_In.
  - rewrite E. split; discriminate.
Qed.

Lemma pieces_last c a : Forall (fun b => b <> c) a -> pieces c a = [a].
Proof.
  induction 1 as [|b a Hb Ha IH]; [done|]. cbn [pieces]. rewrite bool_decide_eq_false_2 by done. by rewrite IH.
Qed.
Lemma pieces_app c a l : Forall (fun b => b <> c) a -> pieces c (a ++ c :: l) = a :: pieces c l.
Proof.
  induction 1 as [|b a Hb Ha IH]; cbn [app pieces]; [by rewrite bool_decide_eq_true_2|].
  rewrite bool_decide_eq_false_2 by done. by rewrite IH.
Qed.

Lemma rsplit_none c l : Forall (fun b => b <> c) l -> rsplit c l = None.
Proof.
  induction 1 as [|b l Hb Hl IH]; [done|]. cbn [rsplit]. rewrite IH. by rewrite bool_decide_eq_false_2.
Qed.
Lemma rsplit_app c a l : Forall (fun b => b <> c) l -> rsplit c (a ++ c :: l) = Some (a, l).
Proof.
  intros Hl. induction a as [|b a IH]; cbn [app rsplit].
  - rewrite rsplit_none by done. by rewrite bool_decide_eq_true_2.
  - by rewrite IH.
Qed.

(** A file name with a directory before it, or none. *)
Lemma file_name_alone w : Forall (fun b => b <> slash) w -> w <> [] -> w <> [dot] -> w <> [dot; dot] -> file_name w = Some w.
Proof.
  intros Hw H1 H2 H3. unfold file_name. rewrite pieces_last by done. rewrite filter_cons_True by done.
  cbn [last filter list_filter]. by rewrite bool_decide_eq_false_2.
Qed.
Lemma file_name_in d w : Forall (fun b => b <> slash) d -> Forall (fun b => b <> slash) w ->
  w <> [] -> w <> [dot] -> w <> [dot; dot] -> file_name (d ++ slash :: w) = Some w.
Proof.
  intros Hd Hw H1 H2 H3. unfold file_name. rewrite pieces_app, pieces_last by done.
  assert (last (filter (fun w => w <> [] /\ w <> [dot]) [d; w]) = Some w) as ->.
  { rewrite filter_cons. case_decide; rewrite filter_cons_True by done; done. }
  by rewrite bool_decide_eq_false_2.
Qed.

(** ** Where things are *)

(** The location of each object. *)
Definition location (k : kind) (i : oid) : bytes :=
  match k with
  | APack => ascii_bytes "packs/" ++ oid_print i ++ ascii_bytes ".pack"
  | AnIndex => ascii_bytes "indexes/" ++ oid_print i ++ ascii_bytes ".index"
  | ASnapshot => ascii_bytes "snapshots/" ++ oid_print i ++ ascii_bytes ".snapshot"
  end.

Lemma location_eq k i : location k i = prefix_of k ++ object_name k i.
Proof. by destruct k. Qed.

Lemma suffix_plain k : plain (suffix_of k).
Proof. destruct k; apply (bool_decide_unpack _); vm_compute; exact I. Qed.

Lemma object_name_facts k i : oid_wf i ->
  Forall (fun b => b <> slash) (object_name k i) /\ object_name k i <> [] /\ object_name k i <> [dot] /\
  object_name k i <> [dot; dot] /\ stem_ext (object_name k i) = (oid_print i, Some (suffix_of k)).
Proof.
  intros Hi. pose proof (oid_print_length i Hi) as Hl. pose proof (oid_print_plain i) as Hp.
  unfold object_name. split; [|split; [|split; [|split]]].
  - apply Forall_app. split; [eapply Forall_impl; [exact Hp|]; by intros b [? _]|].
    constructor; [done|]. eapply Forall_impl; [apply suffix_plain|]. by intros b [? _].
  - intros E. apply (f_equal length) in E. rewrite app_length, Hl in E. done.
  - intros E. apply (f_equal length) in E. rewrite app_length, Hl in E. done.
  - intros E. apply (f_equal length) in E. rewrite app_length, Hl in E. done.
  - unfold stem_ext. rewrite rsplit_app; [|eapply Forall_impl; [apply suffix_plain|]; by intros b [_ ?]].
    destruct (oid_print i); [done|]. done.
Qed.

Lemma location_file k i : oid_wf i -> file_name (location k i) = Some (object_name k i).
Proof.
  intros Hi. destruct (object_name_facts k i Hi) as (H1 & H2 & H3 & H4 & _).
  rewrite location_eq.
  assert (exists d, prefix_of k = d ++ [slash] /\ Forall (fun b => b <> slash) d) as (d & -> & Hd).
  { destruct k; [exists (ascii_bytes "packs")|exists (ascii_bytes "indexes")|exists (ascii_bytes "snapshots")];
      (split; [done|]; apply (bool_decide_unpack _); vm_compute; exact I). }
  rewrite <- app_assoc. cbn [app]. by apply file_name_in.
Qed.

Lemma location_extension k i : oid_wf i -> extension (location k i) = Some (suffix_of k).
Proof.
  intros Hi. unfold extension. rewrite location_file by done. cbn [mbind option_bind]. unfold compose.
  by destruct (object_name_facts k i Hi) as (_ & _ & _ & _ & ->).
Qed.

(** Each object has its location, which depends on its kind and id alone; two
    objects at the same location are the same; and the id can be read off it. *)
Theorem C50_locations_one_to_one :
  (forall k i, oid_wf i -> destination (object_name k i) = Ok (location k i)) /\
  (forall k i k' i', oid_wf i -> oid_wf i' -> location k i = location k' i' -> k = k' /\ i = i') /\
  (forall k i, oid_wf i -> id_from_path (location k i) = Ok i) /\
  (forall p i, id_from_path p = Ok i -> oid_wf i /\ file_stem p = Some (oid_print i)).
Proof.
  assert (forall k i, oid_wf i -> id_from_path (location k i) = Ok i) as Hid.
  { intros k i Hi. unfold id_from_path, file_stem. rewrite location_file by done. cbn [fmap option_fmap option_map].
    unfold compose. destruct (object_name_facts k i Hi) as (_ & _ & _ & _ & ->). cbn [fst of_option rbind].
    by rewrite oid_parse_print. }
  split; [|split; [|split; [done|]]].
  - intros k i Hi. destruct (object_name_facts k i Hi) as (H1 & H2 & H3 & H4 & H5). unfold destination, extension.
    rewrite file_name_alone by done. cbn [mbind option_bind]. unfold compose. rewrite H5. cbn [snd].
    rewrite location_eq. by destruct k.
  - intros k i k' i' Hi Hi' E. split.
    + pose proof (location_extension k i Hi) as H1. rewrite E, location_extension in H1 by done.
      by destruct k, k'.
    + pose proof (Hid k i Hi) as H1. rewrite E, Hid in H1 by done. congruence.
  - intros p i E. unfold id_from_path in E. destruct (file_stem p) as [s|]; [|done]. cbn [of_option rbind] in E.
    destruct (oid_parse s) as [j|] eqn:Ej; [|done]. injection E as <-.
    apply oid_print_parse in Ej as [E W]. split; [done|]. by rewrite E.
Qed.
Print Assumptions C50_locations_one_to_one.

(** ** What a repository lists *)

(** What is done to a repository: objects stored and removed, and copies cut short,
    which leave a partial file whose name ends in ".part" behind. *)
Inductive action := Store (k : kind) (i : oid) (x : bytes) | Remove (k : kind) (i : oid) | CutShort (p x : bytes).

Definition act (st : fstore) (a : action) : fstore :=
  match a with
  | Store k i x => match put_object st k i x with Ok st' => st' | _ => st end
  | Remove k i => match drop_object st k i with Ok st' => st' | _ => st end
  | CutShort p x => be_write st p x
  end.
Definition action_wf (a : action) : Prop :=
  match a with
  | Store _ i _ | Remove _ i => oid_wf i
  | CutShort p _ => extension p = Some (ascii_bytes "part")
  end.

(** What should be there afterwards. *)
Definition want (m : kind -> gmap oid bytes) (a : action) : kind -> gmap oid bytes :=
  match a with
  | Store k i x => fun k' => if decide (k = k') then <[i := x]> (m k') else m k'
  | Remove k i => fun k' => if decide (k = k') then delete i (m k') else m k'
  | CutShort _ _ => m
  end.

Definition holds_objects (st : fstore) (m : kind -> gmap oid bytes) : Prop :=
  (forall k i, oid_wf i -> st !! location k i = m k !! i) /\
  (forall p x, st !! p = Some x -> (exists k i, oid_wf i /\ p = location k i) \/ extension p = Some (ascii_bytes "part")) /\
  (forall k i x, m k !! i = Some x -> oid_wf i).

Lemma location_not_part k i p : oid_wf i -> extension p = Some (ascii_bytes "part") -> p <> location k i.
Proof. intros Hi Hp ->. rewrite location_extension in Hp by done. by destruct k. Qed.

Lemma act_holds st m a : action_wf a -> holds_objects st m -> holds_objects (act st a) (want m a).
Proof.
  destruct C50_locations_one_to_one as (Hdest & Hinj & _).
  intros Ha (H1 & H2 & H3). destruct a as [k i x|k i|p x]; cbn [action_wf act want] in *.
  - unfold put_object. rewrite Hdest by done. cbn [rbind]. unfold be_write. split; [|split].
    + intros k' i' Hi'. destruct (decide (location k i = location k' i')) as [E|Hne].
      * destruct (Hinj k i k' i') as [<- <-]; [done..|]. rewrite lookup_insert, decide_True by done. by rewrite lookup_insert.
      * rewrite lookup_insert_ne by done. rewrite H1 by done. case_decide; [|done]. subst k'.
        rewrite lookup_insert_ne; [done|]. by intros <-.
    + intros p y [[<- _]|[_ Hp]]%lookup_insert_Some; [left; by exists k, i|by eapply H2].
    + intros k' i' y. case_decide; [|eauto]. intros [[<- _]|[_ Hy]]%lookup_insert_Some; eauto.
  - unfold drop_object. rewrite Hdest by done. cbn [rbind]. unfold be_remove. case_bool_decide as Hs.
    + split; [|split].
      * intros k' i' Hi'. destruct (decide (location k i = location k' i')) as [E|Hne].
        -- destruct (Hinj k i k' i') as [<- <-]; [done..|]. rewrite lookup_delete, decide_True by done. by rewrite lookup_delete.
        -- rewrite lookup_delete_ne by done. rewrite H1 by done. case_decide; [|done]. subst k'.
           rewrite lookup_delete_ne; [done|]. by intros <-.
      * intros p y [_ Hp]%lookup_delete_Some. by eapply H2.
      * intros k' i' y. case_decide; [|eauto]. intros [_ Hy]%lookup_delete_Some. eauto.
    + rewrite H1, <- eq_None_not_Some in Hs by done. split; [|split].
      * intros k' i' Hi'. rewrite H1 by done. case_decide; [|done]. subst k'.
        destruct (decide (i = i')) as [<-|Hne]; [by rewrite lookup_delete|by rewrite lookup_delete_ne].
      * intros p y Hp. by eapply H2.
      * intros k' i' y. case_decide; [|eauto]. intros [_ Hy]%lookup_delete_Some. eauto.
  - unfold be_write. split; [|split].
    + intros k i Hi. rewrite lookup_insert_ne; [by apply H1|]. by apply location_not_part.
    + intros q y [[<- _]|[_ Hq]]%lookup_insert_Some; [by right|by eapply H2].
    + done.
Qed.

Lemma starts_with_app p l : starts_with p (p ++ l) = true.
Proof. unfold starts_with. apply bool_decide_eq_true. by rewrite take_app. Qed.

Lemma starts_with_location k k' i : starts_with (prefix_of k') (location k i) = true -> k = k'.
Proof. rewrite location_eq. destruct k, k'; intros E; try done. Qed.

(** Whatever has been done to a repository that was empty at first: every object
    can be read from its location; what is listed for each kind are the locations of
    the objects of that kind, each once and no partial file among them; the ids read
    off the listing are those of the objects; and asking for a pack by its id
    tells whether it is there. *)
Theorem C50_listings_name_the_objects : forall actions, Forall action_wf actions ->
  let st := foldl act ∅ actions in
  let m := foldl want (fun _ => ∅) actions in
  (forall k i, oid_wf i -> get_object st k i = of_option (m k !! i)) /\
  (forall k, NoDup (list_objects st k)) /\
  (forall k p, p ∈ list_objects st k <-> exists i x, m k !! i = Some x /\ p = location k i) /\
  (forall k p, p ∈ list_objects st k -> exists i x, id_from_path p = Ok i /\ m k !! i = Some x /\ p = location k i) /\
  (forall i, oid_wf i -> probe_pack (list_objects st APack) i = if decide (is_Some (m APack !! i)) then Ok tt else Err).
Proof.
  intros actions Hall st m.
  assert (holds_objects st m) as (H1 & H2 & H3).
  { unfold st, m. assert (holds_objects ∅ (fun _ => ∅)) as H0.
    { split; [|split].
      - intros k i _. by rewrite !lookup_empty.
      - intros p x E. by apply lookup_empty_Some in E.
      - intros k i x E. by apply lookup_empty_Some in E. }
    revert H0. generalize (∅ : fstore) (fun _ : kind => (∅ : gmap oid bytes)). clear st m.
    induction Hall as [|a actions Ha Hall IH]; intros st m Hm; cbn [foldl]; [done|]. apply IH. by apply act_holds. }
  destruct C50_locations_one_to_one as (Hdest & Hinj & Hid & _).
  assert (forall k, NoDup (list_objects st k)) as Hnd.
  { intros k. unfold list_objects, be_list. apply NoDup_filter. apply (NoDup_fst_map_to_list st). }
  assert (forall k p, p ∈ list_objects st k <-> exists i x, m k !! i = Some x /\ p = location k i) as Hls.
  { intros k p. unfold list_objects, be_list. rewrite elem_of_list_filter. split.
    - intros [[Hs He] Hin]. change (map fst (map_to_list st)) with ((map_to_list st).*1) in Hin.
      apply elem_of_list_fmap in Hin as ([p' x] & -> & Hin). cbn [fst] in *. apply elem_of_map_to_list in Hin.
      destruct (H2 p' x Hin) as [(k' & i & Hi & ->)|Hpart]; [|done].
      apply starts_with_location in Hs as ->. rewrite H1 in Hin by done. eauto.
    - intros (i & x & Hm & ->). assert (oid_wf i) as Hi by eauto. split; [split|].
      + rewrite location_eq. apply starts_with_app.
      + rewrite location_extension by done. by destruct k.
      + change (map fst (map_to_list st)) with ((map_to_list st).*1). apply elem_of_list_fmap. exists (location k i, x).
        split; [done|]. apply elem_of_map_to_list. by rewrite H1. }
  split; [|split; [done|split; [done|split]]].
  - intros k i Hi. unfold get_object. rewrite Hdest by done. cbn [rbind]. unfold be_read. by rewrite H1.
  - intros k p (i & x & Hm & ->)%Hls. exists i, x. split; [|done]. apply Hid. eauto.
  - intros i Hi. unfold probe_pack. change (ascii_bytes "packs/" ++ oid_print i ++ ascii_bytes ".pack") with (location APack i).
    specialize (Hnd APack). specialize (Hls APack (location APack i)).
    assert (location APack i ∈ list_objects st APack <-> is_Some (m APack !! i)) as Hin.
    { rewrite Hls. split; [|intros [x Hx]; by exists i, x]. intros (i' & x & Hm & E).
      destruct (Hinj APack i APack i') as [_ <-]; [done|by eauto|done|]. by exists x. }
    revert Hnd Hin. generalize (list_objects st APack) as l. clear. intros l Hnd Hin.
    assert (filter (fun s => s = location APack i) l = if decide (location APack i ∈ l) then [location APack i] else []) as ->.
    { clear Hin. induction Hnd as [|a l Ha Hnd IH]; [done|]. rewrite filter_cons.
      destruct (decide (a = location APack i)) as [->|Hne].
      - rewrite IH. rewrite (decide_False _ _ Ha). rewrite decide_True by left. done.
      - rewrite IH. destruct (decide (location APack i ∈ l)) as [Hl|Hl].
        + rewrite decide_True by (by right). done.
        + rewrite decide_False; [done|]. rewrite elem_of_cons. intros [E|E]; [by symmetry in E|done]. }
    destruct (decide (location APack i ∈ l)), (decide (is_Some (m APack !! i))); tauto || done.
Qed.
Print Assumptions C50_listings_name_the_objects.

(** *** A run: two packs and a snapshot stored, one pack removed again, one copy cut
    short; and what other names give. *)
Definition lc_id (b : byte) : oid := replicate 28 b.
Definition lc_run : list action :=
  [Store APack (lc_id x01) [x61]; Store APack (lc_id x02) [x62]; Store ASnapshot (lc_id x02) [x63];
   CutShort (location APack (lc_id x03) ++ ascii_bytes ".f00.part") [x64]; Remove APack (lc_id x01)].
Example C50_witness :
  Forall action_wf lc_run /\
  list_objects (foldl act ∅ lc_run) APack = [location APack (lc_id x02)] /\
  list_objects (foldl act ∅ lc_run) ASnapshot = [location ASnapshot (lc_id x02)] /\
  get_object (foldl act ∅ lc_run) APack (lc_id x02) = Ok [x62] /\
  get_object (foldl act ∅ lc_run) APack (lc_id x01) = Err /\
  destination (ascii_bytes "notes.txt") = Panic /\
  id_from_path (ascii_bytes "packs/notes.txt") = Err /\
  id_from_path (ascii_bytes "packs/..") = Err.
Proof.
  split; [|vm_compute; auto 10].
  repeat constructor; vm_compute; reflexivity.
Qed.

(** Not every name that gives an id is a location: a stray file with the stem of an
    id is taken for the object. *)
Theorem C50_refuted_stray_file : exists st i p, p ∈ list_objects st APack /\ id_from_path p = Ok i /\ p <> location APack i /\
  get_object st APack i = Err.
Proof.
  set (p := ascii_bytes "packs/" ++ oid_print (lc_id x01) ++ ascii_bytes ".bak").
  exists {[ p := [] ]}, (lc_id x01), p. split; [|split; [|split]].
  - unfold list_objects, be_list. rewrite map_to_list_singleton. apply elem_of_list_filter.
    split; [split; vm_compute; congruence|left].
  - vm_compute. reflexivity.
  - apply (bool_decide_unpack _). vm_compute. exact I.
  - vm_compute. reflexivity.
Qed.
Print Assumptions C50_refuted_stray_file.
