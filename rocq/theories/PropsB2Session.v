(** C78: what goes to Backblaze, and what is made of its answers. *)

From Verif Require Import Base Formats Json CloudStore B2Session.

(** ** What the theorems speak about *)

(** [j.a.b.c] in an answer. *)
Definition at_path (j : json) (path : list string) : json := foldl (fun j k => jget j (ascii_bytes k)) j path.

(** The three answers let in an account that may do everything, and name the bucket. *)
Definition lets_in (bucket : bytes) (v br ur : json) (s : session) : Prop :=
  (exists account, at_path v ["accountId"] = JStr account) /\
  at_path v ["authorizationToken"] = JStr (se_token s) /\
  at_path v ["apiInfo"; "storageApi"; "apiUrl"] = JStr (se_url s) /\
  (exists capes, at_path v ["apiInfo"; "storageApi"; "capabilities"] = JArr (map JStr capes) /\
     ascii_bytes "listFiles" ∈ capes /\ ascii_bytes "readFiles" ∈ capes /\ ascii_bytes "writeFiles" ∈ capes /\ ascii_bytes "deleteFiles" ∈ capes) /\
  (exists bs1 b bs2, at_path br ["buckets"] = JArr (bs1 ++ b :: bs2) /\
     at_path b ["bucketName"] = JStr bucket /\ at_path b ["bucketId"] = JStr (se_bucket_id s) /\
     (forall b', b' ∈ bs1 -> at_path b' ["bucketName"] <> JStr bucket)) /\
  at_path ur ["uploadUrl"] = JStr (se_upload_url s) /\ at_path ur ["authorizationToken"] = JStr (se_upload_token s) /\
  se_bucket s = bucket.

(** An answer says what a file is, and what is on a page (CloudStore.v). *)
Definition says_file (f : json) (e : entry) : Prop :=
  at_path f ["action"] = JStr (if en_upload e then ascii_bytes "upload" else ascii_bytes "hide") /\
  at_path f ["fileName"] = JStr (en_name e) /\ at_path f ["contentLength"] = JNum (en_len e) /\ (en_len e < 2 ^ 64)%N.
Definition says_page (j : json) (p : list entry * option bytes) : Prop :=
  (exists fs, at_path j ["files"] = JArr fs /\ Forall2 says_file fs p.1) /\
  at_path j ["nextFileName"] = match p.2 with Some n => JStr n | None => JNull end.
(** A request asks for the files with a prefix, from a name on. *)
Definition wants (q : request) (prefix : bytes) (start : option bytes) : Prop :=
  (forall p, (ascii_bytes "prefix", p) ∈ rq_query q <-> p = prefix) /\
  (forall n, (ascii_bytes "startFileName", n) ∈ rq_query q <-> start = Some n).
(** Each answer gives the page the request asks for, of the files there are at the time. *)
Inductive answered : list (request * option json) -> list (list entry) -> Prop :=
| answered_last q j prefix start many files es : wants q prefix start -> 0 < many ->
    page many files prefix start = (es, None) -> says_page j (es, None) -> answered [(q, Some j)] [files]
| answered_next q j prefix start many files es n l states : wants q prefix start -> 0 < many ->
    page many files prefix start = (es, Some n) -> says_page j (es, Some n) ->
    answered l states -> answered ((q, Some j) :: l) (files :: states).

(** ** Lemmas *)

Lemma as_str_some j s : as_str j = Some s <-> j = JStr s.
Proof. destruct j; cbn; split; congruence. Qed.
Lemma as_arr_some j l : as_arr j = Some l <-> j = JArr l.
Proof. destruct j; cbn; split; congruence. Qed.
Lemma needs_fine {A B} (o : option A) (k : A -> talk B) l b : talks (needs o k) l (Fine b) <-> exists a, o = Some a /\ talks (k a) l (Fine b).
Proof.
  destruct o as [a|]; cbn.
  - split; [eauto|]. by intros (a' & [= ->] & ?).
  - split; [intros HT; inversion HT|by intros (? & ? & _)].
Qed.
Lemma asks_fine {A} q (k : json -> talk A) l a : talks (Asks q k) l (Fine a) <-> exists j l', l = (q, Some j) :: l' /\ talks (k j) l' (Fine a).
Proof.
  split; [intros HT; inversion HT; subst; eauto|]. intros (j & l' & -> & HT). by constructor.
Qed.
Lemma ends_fine {A} (r : b2_result A) l a : talks (Ends r) l (Fine a) <-> l = [] /\ r = Fine a.
Proof. split; [intros HT; by inversion HT; subst|]. intros [-> ->]. constructor. Qed.
Lemma strings capes l : mapM as_str capes = Some l <-> capes = map JStr l.
Proof.
  rewrite mapM_Some. split.
  - induction 1 as [|j s js ss Hj _ IH]; [done|]. apply as_str_some in Hj as ->. cbn. by f_equal.
  - intros ->. induction l; constructor; auto.
Qed.
Lemma has_rights (capes : list bytes) : forallb (fun r => bool_decide (r ∈ capes)) rights = true <->
  ascii_bytes "listFiles" ∈ capes /\ ascii_bytes "readFiles" ∈ capes /\ ascii_bytes "writeFiles" ∈ capes /\ ascii_bytes "deleteFiles" ∈ capes.
Proof.
  unfold rights. cbn [forallb]. rewrite !andb_true_iff, !bool_decide_eq_true. split; [intros (? & ? & ? & ? & _); split_and!; assumption|intros (? & ? & ? & ?); split_and!; (assumption || reflexivity)].
Qed.
Lemma first_bucket bs b bucket :
  (exists i, list_find (fun b => as_str (jget b (ascii_bytes "bucketName")) = Some bucket) bs = Some (i, b)) <->
  exists bs1 bs2, bs = bs1 ++ b :: bs2 /\ at_path b ["bucketName"] = JStr bucket /\ (forall b', b' ∈ bs1 -> at_path b' ["bucketName"] <> JStr bucket).
Proof.
  split.
  - intros [i (Hi & Hb & Hlt)%list_find_Some]. exists (take i bs), (drop (S i) bs). split_and!.
    + by rewrite take_drop_middle.
    + by apply as_str_some in Hb.
    + intros b' Hb'. apply elem_of_take in Hb' as (i' & Hi' & Hl). intros E. eapply (Hlt i' b'); [done|done|]. by apply as_str_some.
  - intros (bs1 & bs2 & -> & Hb & Hno). exists (length bs1). apply list_find_Some. split_and!.
    + by apply list_lookup_middle.
    + by apply as_str_some.
    + intros i b' Hi Hl E. apply as_str_some in E. rewrite lookup_app_l in Hi by done. apply (Hno b'); [|done]. by eapply elem_of_list_lookup_2.
Qed.

(** ** C78 *)

(** Logging in succeeds exactly if the server's three answers let the account in with all
    four rights and name the bucket; the session then has what they said. *)
Theorem C78_when_login_succeeds base64 key_id application_key bucket l s :
  talks (login base64 key_id application_key bucket) l (Fine s) <->
  exists q1 q2 q3 v br ur, l = [(q1, Some v); (q2, Some br); (q3, Some ur)] /\ lets_in bucket v br ur s /\
    rq_url q1 = login_url /\ rq_auth q1 = basic base64 key_id application_key /\ rq_query q1 = [] /\ rq_body q1 = [] /\ rq_redirects q1 = true /\
    (exists account, at_path v ["accountId"] = JStr account /\
       q2 = mkRequest (se_url s ++ ascii_bytes "/b2api/v2/b2_list_buckets") (se_token s)
         [(ascii_bytes "accountId", account); (ascii_bytes "bucketName", bucket)] [] true) /\
    q3 = mkRequest (se_url s ++ ascii_bytes "/b2api/v2/b2_get_upload_url") (se_token s) [(ascii_bytes "bucketId", se_bucket_id s)] [] true.
Proof.
  unfold login. rewrite asks_fine. split.
  - intros (v & l1 & -> & HT). apply needs_fine in HT as (account & Ha%as_str_some & HT). apply needs_fine in HT as (token & Ht%as_str_some & HT).
    apply needs_fine in HT as (url & Hu%as_str_some & HT). apply needs_fine in HT as (cs & Hc%as_arr_some & HT). apply needs_fine in HT as (capes & ->%strings & HT).
    destruct (forallb _ rights) eqn:Er; [|by apply ends_fine in HT as [_ ?]]. apply has_rights in Er.
    unfold find_bucket in HT. apply asks_fine in HT as (br & l2 & -> & HT).
    destruct (as_arr (jget br (ascii_bytes "buckets"))) as [bs|] eqn:Ebs; [|by apply ends_fine in HT as [_ ?]]. apply as_arr_some in Ebs.
    destruct (list_find _ bs) as [[i b]|] eqn:Eb; [|by apply ends_fine in HT as [_ ?]].
    apply needs_fine in HT as (bid & Hbid%as_str_some & HT). unfold get_upload_url in HT. apply asks_fine in HT as (ur & l3 & -> & HT).
    apply needs_fine in HT as (uu & Huu%as_str_some & HT). apply needs_fine in HT as (ut & Hut%as_str_some & HT). apply ends_fine in HT as [-> [= <-]].
    destruct (proj1 (first_bucket bs b bucket)) as (bs1 & bs2 & -> & Hb & Hno); [eauto|].
    eexists _, _, _, v, br, ur. split; [done|]. split; [|split_and!; try done; by exists account].
    split; [by exists account|]. split; [done|]. split; [done|]. split; [by exists capes|]. split; [|done]. by exists bs1, b, bs2.
  - intros ([q1u q1a q1q q1b q1r] & q2 & q3 & v & br & ur & -> & HL & E1 & E2 & E3 & E4 & E5 & (account & Ha & ->) & ->). cbn [rq_url rq_auth rq_query rq_body rq_redirects] in *. subst.
    destruct HL as (_ & Ht & Hu & (capes & Hc & Hr) & (bs1 & b & bs2 & Hbs & Hb & Hbid & Hno) & Huu & Hut & Hbk).
    unfold at_path in *. cbn [foldl] in *.
    eexists _, _. split; [done|]. apply needs_fine. eexists. split; [by apply as_str_some|]. apply needs_fine. eexists. split; [by apply as_str_some|].
    apply needs_fine. eexists. split; [by apply as_str_some|]. apply needs_fine. eexists. split; [by apply as_arr_some|].
    apply needs_fine. exists capes. split; [by apply strings|]. cbv beta. rewrite (proj2 (has_rights capes) Hr).
    unfold find_bucket. apply asks_fine. eexists _, _. split; [done|]. rewrite Hbs. cbn [as_arr].
    destruct (proj2 (first_bucket (bs1 ++ b :: bs2) b bucket)) as [i ->]; [eauto 10|].
    apply needs_fine. exists (se_bucket_id s). split; [by apply as_str_some|]. unfold get_upload_url. apply asks_fine. eexists _, _. split; [done|].
    apply needs_fine. eexists. split; [by apply as_str_some|]. apply needs_fine. eexists. split; [by apply as_str_some|].
    apply ends_fine. split; [done|]. f_equal. rewrite <-Hbk. by destruct s.
Qed.

(** The key goes to Backblaze's own address, in the first request; nothing after it
    depends on the key: with another key and the same answers all is the same. *)
Theorem C78_the_key_is_sent_once base64 key_id application_key bucket l r :
  talks (login base64 key_id application_key bucket) l r ->
  exists j rest, l = (mkRequest login_url (basic base64 key_id application_key) [] [] true, j) :: rest /\
    forall base64' key_id' application_key',
      talks (login base64' key_id' application_key' bucket) ((mkRequest login_url (basic base64' key_id' application_key') [] [] true, j) :: rest) r.
Proof.
  unfold login. intros HT. inversion HT as [|q k j l' r' HT' Eq|q k Eq]; subst.
  - eexists _, _. split; [done|]. intros base64' key_id' application_key'. by constructor.
  - eexists _, _. split; [done|]. intros base64' key_id' application_key'. apply talks_fails.
Qed.

(** Listing a bucket: if the server answers with the pages asked for, all is what C54's
    theorems speak about. *)
Lemma page_read j es next : says_page j (es, next) -> read_page j = Some (shown es, next).
Proof.
  intros [(fs & Hf & HF) Hn]. unfold read_page, at_path in *. cbn [foldl fst snd] in *. rewrite Hf, Hn. cbn [as_arr].
  assert (omap listed_file fs = shown es) as ->; [|by destruct next].
  clear -HF. unfold shown. induction HF as [|f [n u len] fs es (H1 & H2 & H3 & H4) _ IH]; [done|].
  unfold at_path in *. cbn [foldl en_upload en_name en_len] in *. cbn [omap list_omap]. unfold listed_file at 1. rewrite H1, H2, H3. cbn [as_str as_u64].
  rewrite filter_cons. cbn [en_upload]. destruct u.
  - rewrite !decide_True by done. cbn. rewrite (proj2 (N.ltb_lt _ _)) by done. cbn. f_equal. exact IH.
  - rewrite !decide_False by done. exact IH.
Qed.
Lemma list_wants s prefix start : wants (list_request s (Some prefix) start) prefix start.
Proof.
  unfold wants, list_request. cbn [rq_query]. split; intros x; rewrite !elem_of_app, !elem_of_cons.
  - split; [|intros ->; right; left; by left].
    intros [[[=]|[[=]|Hx%elem_of_nil]]|[[[= ->]|Hx%elem_of_nil]|Hx]]; try done. destruct start; [apply elem_of_list_singleton in Hx as [=]|by apply elem_of_nil in Hx].
  - split; [|intros ->; right; right; by left].
    intros [[[=]|[[=]|Hx%elem_of_nil]]|[[[=]|Hx%elem_of_nil]|Hx]]; try done. destruct start; [by apply elem_of_list_singleton in Hx as [= ->]|by apply elem_of_nil in Hx].
Qed.
Lemma wants_same q p p' st st' : wants q p st -> wants q p' st' -> p' = p /\ st' = st.
Proof.
  intros [H1 H2] [H1' H2']. split; [apply H1, H1'; done|].
  destruct st as [n|]; [by apply H2', H2|]. destruct st' as [n|]; [|done]. symmetry. by apply H2, H2'.
Qed.
Theorem C78_listings_are_read_right s prefix start l states r :
  lists s (Some prefix) start l r -> answered l states ->
  exists out, r = Fine out /\ list_pages prefix states start out.
Proof.
  intros HL. revert states. induction HL as [start|start j Hj|start j fs Hj|start j fs n l r Hj HL IH]; intros states HA; inversion HA as [? ? p0 st0 many files es Hw Hm Hp Hs|? ? p0 st0 many files es n' ? states' Hw Hm Hp Hs HA']; subst;
    apply page_read in Hs; rewrite Hs in Hj; try done; destruct (wants_same _ _ _ _ _ (list_wants s prefix start) Hw) as [-> ->].
  - injection Hj as <-. eexists. split; [done|]. by eapply list_last.
  - injection Hj as <- <-. destruct (IH _ HA') as (out & -> & HP). eexists. split; [done|]. by eapply list_next.
Qed.
(** Every request for it goes to the server's address, with the session's token, for the session's bucket. *)
Theorem C78_listings_ask_for_the_bucket s prefix start l r q a :
  lists s prefix start l r -> (q, a) ∈ l ->
  rq_url q = se_url s ++ ascii_bytes "/b2api/v2/b2_list_file_names" /\ rq_auth q = se_token s /\
  (ascii_bytes "bucketId", se_bucket_id s) ∈ rq_query q /\ rq_redirects q = false.
Proof.
  assert (forall st, let q := list_request s prefix st in rq_url q = se_url s ++ ascii_bytes "/b2api/v2/b2_list_file_names" /\ rq_auth q = se_token s /\
    (ascii_bytes "bucketId", se_bucket_id s) ∈ rq_query q /\ rq_redirects q = false) as Hq.
  { intros st. split_and!; try done. left. }
  induction 1 as [| | |start j fs n l r Hj HL IH]; intros Hin; try (apply elem_of_list_singleton in Hin; injection Hin as -> _; apply Hq).
  apply elem_of_cons in Hin as [[= -> _]|Hin]; [apply Hq|by apply IH].
Qed.
(** But files that the answer does not describe as expected are left out without a word. *)
Theorem C78_refuted_malformed_entries_are_reported : exists s j name,
  lists s None None [(list_request s None None, Some j)] (Fine []) /\
  exists f, at_path j ["files"] = JArr [f] /\ at_path f ["action"] = JStr (ascii_bytes "upload") /\ at_path f ["fileName"] = JStr name.
Proof.
  exists (mkSession [] [] [] [] [] []),
    (JObj [(ascii_bytes "files", JArr [JObj [(ascii_bytes "action", JStr (ascii_bytes "upload")); (ascii_bytes "fileName", JStr (ascii_bytes "packs/a"))]])]),
    (ascii_bytes "packs/a").
  split; [by apply lists_last|]. eexists. split; [reflexivity|]. split; reflexivity.
Qed.

(** Nothing is removed unless the answer lists exactly one version under the name; then
    what is removed is that version, under that name. *)
Theorem C78_removes_one_version_or_none s name l r :
  talks (remove_file s name) l r ->
  (forall q a, (q, a) ∈ tail l -> exists q0 j v id, head l = Some (q0, Some j) /\
     (ascii_bytes "prefix", name) ∈ rq_query q0 /\ (ascii_bytes "bucketId", se_bucket_id s) ∈ rq_query q0 /\
     at_path j ["files"] = JArr [v] /\ at_path v ["fileId"] = JStr id /\
     q = mkRequest (se_url s ++ ascii_bytes "/b2api/v2/b2_delete_file_version") (se_token s) []
           [(ascii_bytes "fileName", name); (ascii_bytes "fileId", id)] true) /\
  length l <= 2 /\ (r = Fine tt <-> exists qa1 q2 a2, l = [qa1; (q2, Some a2)]).
Proof.
  unfold remove_file. intros HT. inversion HT as [|q k j l' r' HT' Eq|q k Eq]; subst; cbn [tail head].
  2: { split; [intros q a Hx; by apply elem_of_nil in Hx|]. split; [cbn; lia|]. split; [done|]. by intros (? & ? & ? & [=]). }
  assert (forall l1 r1, talks (Ends (Fails UnexpectedResponse)) l1 r1 -> l1 = [] /\ r1 = @Fails unit UnexpectedResponse) as Hend by (intros l1 r1 HE; by inversion HE; subst).
  destruct (as_arr (jget j (ascii_bytes "files"))) as [vs|] eqn:Ev; cbn [needs] in HT'; 
    [|apply Hend in HT' as [-> ->]; split; [intros q a Hx; by apply elem_of_nil in Hx|]; split; [cbn; lia|]; split; [done|]; by intros (? & ? & ? & [=])].
  destruct vs as [|v [|v2 vs]];
    [apply Hend in HT' as [-> ->]; split; [intros q a Hx; by apply elem_of_nil in Hx|]; split; [cbn; lia|]; split; [done|]; by intros (? & ? & ? & [=])| |
     apply Hend in HT' as [-> ->]; split; [intros q a Hx; by apply elem_of_nil in Hx|]; split; [cbn; lia|]; split; [done|]; by intros (? & ? & ? & [=])].
  destruct (as_str (jget v (ascii_bytes "fileId"))) as [id|] eqn:Ei; cbn [needs] in HT';
    [|apply Hend in HT' as [-> ->]; split; [intros q a Hx; by apply elem_of_nil in Hx|]; split; [cbn; lia|]; split; [done|]; by intros (? & ? & ? & [=])].
  apply as_arr_some in Ev. apply as_str_some in Ei.
  inversion HT' as [|q k j' l'' r' HT'' Eq|q k Eq]; subst.
  - inversion HT''; subst. split; [|split; [cbn; lia|split; [eauto|done]]].
    intros q a Hx. apply elem_of_list_singleton in Hx. injection Hx as -> _. eexists _, j, v, id. split; [done|]. cbn [rq_query].
    split; [right; left|]. split; [left|]. done.
  - split; [|split; [cbn; lia|split; [done|by intros (? & ? & ? & [=])]]].
    intros q a Hx. apply elem_of_list_singleton in Hx. injection Hx as -> _. eexists _, j, v, id. split; [done|]. cbn [rq_query].
    split; [right; left|]. split; [left|]. done.
Qed.

(** With a server that lists the versions there are, what it does is what C42's theorems
    speak about.  [denotes]: the version an id was given to. *)
Definition says_versions (denotes : bytes -> option (bytes * bytes)) (j : json) (vs : list (bytes * bytes)) : Prop :=
  exists fs, at_path j ["files"] = JArr fs /\ Forall2 (fun f v => exists id, at_path f ["fileId"] = JStr id /\ denotes id = Some v) fs vs.
(** A version is deleted if it is there under that name; with the only one the file goes. *)
Definition deletes (denotes : bytes -> option (bytes * bytes)) (q : request) (b b' : bucket) : Prop :=
  exists n id v vs, rq_body q = [(ascii_bytes "fileName", n); (ascii_bytes "fileId", id)] /\ denotes id = Some (n, v) /\
    b !! n = Some vs /\ (vs = [v] -> b' = delete n b).
(** Requests may fail before or after they have an effect. *)
Inductive served (denotes : bytes -> option (bytes * bytes)) (b : bucket) : list (request * option json) -> bucket -> Prop :=
| served_not q : served denotes b [(q, None)] b
| served_list q j p : (ascii_bytes "prefix", p) ∈ rq_query q -> says_versions denotes j (versions b p) -> served denotes b [(q, Some j)] b
| served_delete q j p q' a b' : (ascii_bytes "prefix", p) ∈ rq_query q -> says_versions denotes j (versions b p) -> deletes denotes q' b b' ->
    served denotes b [(q, Some j); (q', a)] b'
| served_refused q j p q' : (ascii_bytes "prefix", p) ∈ rq_query q -> says_versions denotes j (versions b p) ->
    served denotes b [(q, Some j); (q', None)] b.

Lemma only_version (b : bucket) n v : versions b n = [(n, v)] -> b !! n = Some [v].
Proof.
  intros E. unfold versions in E.
  assert ((n, v) ∈ concat (map (fun nv : bytes * list bytes => map (fun v => (nv.1, v)) nv.2) (filter (fun nv => begins_with n nv.1 = true) (map_to_list b)))) as Hin by (rewrite E; left).
  apply elem_of_list_In, in_concat in Hin as (x & (nv & <- & Hnv%elem_of_list_In)%in_map_iff & (v' & [= En ->] & Hv)%in_map_iff). destruct nv as [n' vs]. cbn in En, Hv. subst n'.
  apply elem_of_list_filter in Hnv as [Hb Hnv]. apply elem_of_list_In in Hv. pose proof Hnv as Hl. apply elem_of_map_to_list in Hl. rewrite Hl.
  apply elem_of_list_split in Hnv as (l1 & l2 & El). rewrite El, filter_app, filter_cons, decide_True in E by done. rewrite map_app, concat_app in E. cbn in E.
  apply (f_equal length) in E. rewrite !app_length, map_length in E. cbn in E.
  destruct vs as [|v0 [|v1 vs]]; [by apply elem_of_nil in Hv|by apply elem_of_list_singleton in Hv as ->|cbn in E; lia].
Qed.
Theorem C78_removals_are_right (denotes : bytes -> option (bytes * bytes)) (s : session) (name : bytes) (b b' : bucket) (l : list (request * option json)) (r : b2_result unit) :
  talks (remove_file s name) l r -> served denotes b l b' ->
  delete_attempt name b (match r with Fine _ => Answer tt | Fails _ => OtherError end) b'.
Proof.
  intros HT HS. assert (forall q0 a0 l0, l = (q0, a0) :: l0 -> forall p, (ascii_bytes "prefix", p) ∈ rq_query q0 -> p = name) as Hp.
  { intros q0 a0 l0 -> p Hin. unfold remove_file in HT. inversion HT; subst; cbn [rq_query] in Hin;
      (apply elem_of_cons in Hin as [[=]|Hin]; by apply elem_of_list_singleton in Hin as [= ->]). }
  apply C78_removes_one_version_or_none in HT as (Hd & _ & Hr).
  assert ((forall qa1 q2 a2, l <> [qa1; (q2, Some a2)]) -> exists e, r = Fails e) as Hf.
  { intros Hl. destruct r as [[]|e]; [|by eexists]. destruct (proj1 Hr eq_refl) as (qa1 & q2 & a2 & E). by destruct (Hl _ _ _ E). }
  destruct HS as [q|q j p Hq Hj|q j p q' a b' Hq Hj Hdel|q j p q' Hq Hj].
  - destruct Hf as [e ->]; [done|]. apply delete_fails.
  - destruct Hf as [e ->]; [done|]. apply delete_fails.
  - apply (Hp _ _ _ eq_refl) in Hq as ->. destruct (Hd q' a) as (q0 & j0 & v & id & [= <- <-] & _ & _ & Hv & Hid & ->); [left|].
    destruct Hdel as (n & id' & x & vs & [= <- <-] & Hden & Hb & Hdel).
    destruct Hj as (fs & Hfs & HF). rewrite Hfs in Hv. injection Hv as ->.
    apply Forall2_cons_inv_l in HF as (w & ws & (id2 & Hid2 & Hw) & HF & Hvs). apply Forall2_nil_inv_l in HF as ->.
    rewrite Hid in Hid2. injection Hid2 as <-. rewrite Hden in Hw. injection Hw as <-.
    pose proof (only_version _ _ _ Hvs) as Hb'. rewrite Hb in Hb'. injection Hb' as ->. rewrite Hdel by done.
    destruct a as [a|].
    + rewrite (proj2 Hr) by eauto. by eapply delete_ok.
    + destruct Hf as [e ->]; [done|]. by eapply delete_lost.
  - destruct Hf as [e ->]; [done|]. apply delete_fails.
Qed.

(** Whatever a session asks for goes either to the address the log-in gave, with the token it gave,
    or to the upload address with the upload token; neither token goes anywhere else. *)
Inductive asked_by (s : session) : request -> Prop :=
| asked_list prefix start l r q a : lists s prefix start l r -> (q, a) ∈ l -> asked_by s q
| asked_get name : asked_by s (get_request s name)
| asked_put name : asked_by s (put_request s name)
| asked_remove name l r q a : talks (remove_file s name) l r -> (q, a) ∈ l -> asked_by s q.
Theorem C78_tokens_go_where_they_belong s q : asked_by s q ->
  (rq_auth q = se_token s /\ exists rest, rq_url q = se_url s ++ ascii_bytes "/" ++ rest) \/
  (rq_auth q = se_upload_token s /\ rq_url q = se_upload_url s).
Proof.
  destruct 1 as [prefix start l r q a HL Hin|name|name|name l r q a HT Hin].
  - destruct (C78_listings_ask_for_the_bucket _ _ _ _ _ _ _ HL Hin) as (-> & -> & _). left. split; [done|].
    by exists (ascii_bytes "b2api/v2/b2_list_file_names").
  - left. split; [done|]. by exists (ascii_bytes "file/" ++ se_bucket s ++ ascii_bytes "/" ++ name).
  - by right.
  - left. destruct l as [|[q0 a0] l]; [by apply elem_of_nil in Hin|]. apply elem_of_cons in Hin as [[= -> ->]|Hin].
    + unfold remove_file in HT. inversion HT; subst; (split; [done|]; by exists (ascii_bytes "b2api/v2/b2_list_file_versions")).
    + apply C78_removes_one_version_or_none in HT as [HT _]. destruct (HT q a Hin) as (? & ? & ? & ? & _ & _ & _ & _ & _ & ->).
      split; [done|]. by exists (ascii_bytes "b2api/v2/b2_delete_file_version").
Qed.

(** Once logged in, a file is fetched by its name from the bucket that was configured, at the
    address the log-in gave, and put under its name at the address given for uploads. *)
Theorem C78_files_go_by_their_names base64 key_id application_key bucket l s name :
  talks (login base64 key_id application_key bucket) l (Fine s) ->
  exists q1 v qa2 q3 ur api up token, l = [(q1, Some v); qa2; (q3, Some ur)] /\
    at_path v ["apiInfo"; "storageApi"; "apiUrl"] = JStr api /\ at_path ur ["uploadUrl"] = JStr up /\ at_path ur ["authorizationToken"] = JStr token /\
    rq_url (get_request s name) = api ++ ascii_bytes "/file/" ++ bucket ++ ascii_bytes "/" ++ name /\
    rq_url (put_request s name) = up /\ rq_auth (put_request s name) = token /\ rq_body (put_request s name) = [(ascii_bytes "X-Bz-File-Name", name)].
Proof.
  intros (q1 & q2 & q3 & v & br & ur & -> & (_ & _ & Hu & _ & _ & Hup & Ht & Hb) & _)%C78_when_login_succeeds.
  exists q1, v, (q2, Some br), q3, ur, (se_url s), (se_upload_url s), (se_upload_token s). split_and!; try done. cbn [get_request rq_url]. by rewrite Hb.
Qed.

(** ** A concrete case: an account with one more right than needed and two buckets *)

Definition str (s : string) : json := JStr (ascii_bytes s).
Definition obj (l : list (string * json)) : json := JObj (map (fun kv => (ascii_bytes kv.1, kv.2)) l).
Definition ex_login : json := obj [("accountId", str "me"); ("authorizationToken", str "t1");
  ("apiInfo", obj [("storageApi", obj [("apiUrl", str "https://api1");
     ("capabilities", JArr [str "deleteFiles"; str "listFiles"; str "shareFiles"; str "readFiles"; str "writeFiles"])])])].
Definition ex_buckets : json := obj [("buckets", JArr [
  obj [("bucketName", str "other"); ("bucketId", str "b0")]; obj [("bucketId", str "b1"); ("bucketName", str "mine")]])].
Definition ex_upload : json := obj [("uploadUrl", str "https://up"); ("authorizationToken", str "t2")].
Definition ex_session : session := mkSession (ascii_bytes "t1") (ascii_bytes "https://api1") (ascii_bytes "https://up") (ascii_bytes "t2") (ascii_bytes "mine") (ascii_bytes "b1").
Example C78_login_witness : lets_in (ascii_bytes "mine") ex_login ex_buckets ex_upload ex_session /\
  exists l, talks (login (fun x => x) (ascii_bytes "id") (ascii_bytes "secret") (ascii_bytes "mine")) l (Fine ex_session) /\
    talks (login (fun x => x) (ascii_bytes "id") (ascii_bytes "secret") (ascii_bytes "yours")) (take 1 l ++
      [(mkRequest (ascii_bytes "https://api1/b2api/v2/b2_list_buckets") (ascii_bytes "t1")
         [(ascii_bytes "accountId", ascii_bytes "me"); (ascii_bytes "bucketName", ascii_bytes "yours")] [] true, Some ex_buckets)]) (Fails NotFound).
Proof.
  split.
  - split; [exists (ascii_bytes "me"); vm_compute; reflexivity|]. split; [vm_compute; reflexivity|]. split; [vm_compute; reflexivity|].
    split. { exists [ascii_bytes "deleteFiles"; ascii_bytes "listFiles"; ascii_bytes "shareFiles"; ascii_bytes "readFiles"; ascii_bytes "writeFiles"].
      split; [vm_compute; reflexivity|]. repeat split; rewrite !elem_of_cons; auto 10. }
    split. { exists [obj [("bucketName", str "other"); ("bucketId", str "b0")]], (obj [("bucketId", str "b1"); ("bucketName", str "mine")]), [].
      split; [vm_compute; reflexivity|]. split; [vm_compute; reflexivity|]. split; [vm_compute; reflexivity|].
      intros b' ->%elem_of_list_singleton. vm_compute. discriminate. }
    split; [vm_compute; reflexivity|]. split; [vm_compute; reflexivity|]. reflexivity.
  - eexists [(_, Some ex_login); (_, Some ex_buckets); (_, Some ex_upload)]. split.
    + vm_compute. repeat constructor.
    + vm_compute. repeat constructor.
Qed.

(** A listing in two pages, and a removal. *)
Definition ex_page1 : json := obj [("files", JArr [obj [("action", str "upload"); ("fileName", str "packs/a"); ("contentLength", JNum 7)]]); ("nextFileName", str "packs/b")].
Definition ex_page2 : json := obj [("files", JArr [obj [("fileName", str "packs/b"); ("contentLength", JNum 0); ("action", str "hide")]]); ("nextFileName", JNull)].
Definition ex_files : list entry := [mkEntry (ascii_bytes "packs/a") true 7; mkEntry (ascii_bytes "packs/b") false 0].
Example C78_listing_witness : exists l,
  lists ex_session (Some (ascii_bytes "packs/")) None l (Fine [(ascii_bytes "packs/a", 7%N)]) /\
  answered l [ex_files; ex_files] /\ length l = 2.
Proof.
  eexists. split; [|split].
  - eapply (lists_next _ _ _ ex_page1 [(ascii_bytes "packs/a", 7%N)] (ascii_bytes "packs/b") _ (Fine [])); [vm_compute; reflexivity|].
    eapply (lists_last _ _ _ ex_page2); vm_compute; reflexivity.
  - eapply (answered_next _ _ (ascii_bytes "packs/") None 1 ex_files [mkEntry (ascii_bytes "packs/a") true 7] (ascii_bytes "packs/b")); [apply list_wants|lia|vm_compute; reflexivity| |].
    + split; [|vm_compute; reflexivity]. eexists. split; [vm_compute; reflexivity|]. constructor; [|constructor]. by vm_compute.
    + eapply (answered_last _ _ (ascii_bytes "packs/") (Some (ascii_bytes "packs/b")) 1 ex_files [mkEntry (ascii_bytes "packs/b") false 0]); [apply list_wants|lia|vm_compute; reflexivity|].
      split; [|vm_compute; reflexivity]. eexists. split; [vm_compute; reflexivity|]. constructor; [|constructor]. by vm_compute.
  - reflexivity.
Qed.
Definition ex_id (id : bytes) : option (bytes * bytes) := if decide (id = ascii_bytes "f1") then Some (ascii_bytes "packs/a", ascii_bytes "x") else None.
Definition ex_bucket : bucket := {[ascii_bytes "packs/a" := [ascii_bytes "x"]]}.
Example C78_removal_witness : exists l, talks (remove_file ex_session (ascii_bytes "packs/a")) l (Fine tt) /\ length l = 2 /\
  served ex_id ex_bucket l ∅.
Proof.
  eexists [(mkRequest (ascii_bytes "https://api1/b2api/v2/b2_list_file_versions") _ [_; _] _ _, Some (obj [("files", JArr [obj [("fileId", str "f1")]])])); (mkRequest _ _ _ _ _, Some JNull)].
  split; [|split; [done|]].
  { unfold remove_file. apply talks_on. cbn [needs as_arr]. match goal with |- talks (needs ?o _) _ _ => change o with (Some [obj [("fileId", str "f1")]]) end. cbn [needs].
    match goal with |- talks (needs ?o _) _ _ => change o with (Some (ascii_bytes "f1")) end. cbn [needs]. apply talks_on. apply talks_end. }
  apply (served_delete _ _ _ _ (ascii_bytes "packs/a")).
  - right; left.
  - eexists. split; [reflexivity|]. assert (versions ex_bucket (ascii_bytes "packs/a") = [(ascii_bytes "packs/a", ascii_bytes "x")]) as -> by (vm_compute; reflexivity).
    constructor; [|constructor]. eexists. split; [reflexivity|]. vm_compute. reflexivity.
  - exists (ascii_bytes "packs/a"), (ascii_bytes "f1"), (ascii_bytes "x"), [ascii_bytes "x"]. split; [reflexivity|]. split; [vm_compute; reflexivity|].
    unfold ex_bucket. split; [apply lookup_singleton|]. intros _. by rewrite delete_singleton.
Qed.
Print Assumptions C78_when_login_succeeds.
Print Assumptions C78_the_key_is_sent_once.
Print Assumptions C78_listings_are_read_right.
Print Assumptions C78_listings_ask_for_the_bucket.
Print Assumptions C78_refuted_malformed_entries_are_reported.
Print Assumptions C78_removes_one_version_or_none.
Print Assumptions C78_tokens_go_where_they_belong.
Print Assumptions C78_files_go_by_their_names.
Print Assumptions C78_removals_are_right.
