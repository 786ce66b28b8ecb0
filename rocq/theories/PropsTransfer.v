(** C77: the bytes shown as compressed, uploaded and downloaded are the bytes of the files. *)

From Verif Require Import Base Formats Pack CloudStore DiskCache Filtered Transfer.

(** Bytes of some files together. *)
Definition sizes (l : list bytes) : N := foldr (fun x n => N.of_nat (length x) + n)%N 0%N l.
(** Bytes some calls to read gave, and some calls to write took. *)
Definition given {A} (l : list (A * result bytes)) : N := sizes (map (fun c => match c.2 with Ok x => x | _ => [] end) l).
Definition taken {A} (l : list (A * result nat)) : N :=
  foldr (fun c n => (match c.2 with Ok k => N.of_nat k | _ => 0 end + n)%N) 0%N l.
(** Bytes a pack file has besides the compressed blobs: 9 for the magic number, 4 for a length, and the manifest. *)
Definition besides (zm : bytes) : N := (9 + N.of_nat (length zm) + 4)%N.

(** ** Lemmas *)

Lemma sizes_app a b : sizes (a ++ b) = (sizes a + sizes b)%N.
Proof. induction a as [|x a IH]; cbn; [done|]. unfold sizes in *. rewrite IH. lia. Qed.

Lemma counted_read_steps {St} (read : reader St) s c n r s' c' :
  count_read read (s, c) n r (s', c') <-> read s n r s' /\ c' = (c + match r with Ok x => N.of_nat (length x) | _ => 0 end)%N.
Proof.
  split.
  - intros HR. inversion HR; subst; split; auto; lia.
  - intros [HR ->]. destruct r; [by constructor|..]; rewrite N.add_0_r; by constructor.
Qed.
Lemma counted_write_steps {St} (write : writer St) s c x r s' c' :
  count_write write (s, c) x r (s', c') <-> write s x r s' /\ c' = (c + match r with Ok k => N.of_nat k | _ => 0 end)%N.
Proof.
  split.
  - intros HR. inversion HR; subst; split; auto; lia.
  - intros [HR ->]. destruct r; [by constructor|..]; rewrite N.add_0_r; by constructor.
Qed.

(** What was read from a file and what is to come are what there was. *)
Lemma file_read_left rest n r rest' : file_read rest n r rest' -> rest = match r with Ok x => x | _ => [] end ++ rest'.
Proof. intros HR. inversion HR; subst; try done. by rewrite take_drop. Qed.
Lemma count_file_left rest c n r rest' c' : count_read file_read (rest, c) n r (rest', c') ->
  (c' + N.of_nat (length rest') = c + N.of_nat (length rest) /\ c <= c')%N.
Proof.
  intros [HR ->]%counted_read_steps. apply file_read_left in HR as ->. rewrite app_length. destruct r; cbn; lia.
Qed.
Lemma calls_file_left l : forall rest c rest' c', calls (count_read file_read) (rest, c) l (rest', c') ->
  (c' + N.of_nat (length rest') = c + N.of_nat (length rest) /\ c <= c')%N.
Proof.
  induction l as [|[n r] l IH]; intros rest c rest' c' HC; inversion HC as [|? ? ? [rest1 c1] ? ? H1 H2]; subst; [lia|].
  apply count_file_left in H1. apply IH in H2. lia.
Qed.
Lemma file_nothing rest n rest' : 0 < n -> file_read rest n (Ok []) rest' -> rest = [] /\ rest' = [].
Proof.
  intros Hn HR. remember (Ok []) as r eqn:Er. destruct HR as [rest n k Hk Hkn Hl| | |]; try done; [|lia].
  exfalso. injection Er as Er. assert (length (take k rest) = 0) as Hz by (by rewrite Er). rewrite take_length in Hz. lia.
Qed.
Lemma copies_file rest c r rest' c' : copies (count_read file_read) (rest, c) r (rest', c') ->
  (c' + N.of_nat (length rest') = c + N.of_nat (length rest) /\ c <= c')%N /\ (forall y, r = Ok y -> y = rest /\ rest' = []).
Proof.
  remember (rest, c) as s eqn:Es. remember (rest', c') as s' eqn:Es'. intros HC. revert rest c Es rest' c' Es'.
  induction HC as [s n b [rest1 c1] r s2 HR Hb HC IH|s n s' Hn HR|s n s' HR|s n s' HR|s]; intros rest c -> rest' c' E; subst.
  - destruct (IH rest1 c1 eq_refl rest' c' eq_refl) as [IH1 IH2]. pose proof (count_file_left _ _ _ _ _ _ HR) as Hl. split; [lia|].
    intros y Hy. destruct r as [y'| |]; try done. cbn in Hy. injection Hy as <-. destruct (IH2 y' eq_refl) as [-> ->].
    apply counted_read_steps in HR as [HR _]. by rewrite (file_read_left _ _ _ _ HR).
  - split; [by eapply count_file_left|]. intros y [= <-]. apply counted_read_steps in HR as [HR _].
    destruct (file_nothing _ _ _ Hn HR) as [-> ->]. done.
  - split; [by eapply count_file_left|done].
  - split; [by eapply count_file_left|done].
  - injection E as -> ->. split; [lia|done].
Qed.
Lemma retry_file hex_sha1 len s c n r s' c' : retry_run (counted_put hex_sha1 len) (s, c) n r (s', c') ->
  (c' + N.of_nat (length (up_rest s')) = c + N.of_nat (length (up_rest s)) /\ c <= c')%N /\ (r = Ok tt -> up_rest s' = []).
Proof.
  remember (s, c) as p eqn:Ep. remember (s', c') as p' eqn:Ep'. intros HR. revert s c Ep s' c' Ep'.
  induction HR as [p a p' HP|p p' HP|p [s1 c1] n r p' HP HR IH]; intros s c -> s' c' E; subst.
  - inversion HP as [? ? l rest ? ? ? HC Hput Er]; subst. apply calls_file_left in HC. split; [lia|]. intros _. by inversion Hput; subst.
  - inversion HP as [? ? l rest ? ? ? HC Hput Er]; subst. apply calls_file_left in HC. split; [lia|done].
  - inversion HP as [? ? l rest ? ? ? HC Hput Er]; subst. apply calls_file_left in HC.
    destruct (IH s1 c1 eq_refl s' c' eq_refl) as [IH1 IH2]. split; [lia|done].
Qed.
Lemma one_write hex_sha1 b x c r c' : counted_write hex_sha1 b x c r c' ->
  (c <= c' <= c + N.of_nat (length x))%N /\ (r = Ok tt -> c' = (c + N.of_nat (length x))%N).
Proof.
  intros HW. inversion HW as [| | | | |? ? r' rest ? later HC|? ? n r' s ? later HC]; subst; try (split; [lia|done]).
  - destruct (copies_file _ _ _ _ _ HC) as [H1 H2]. split; [lia|]. intros E. destruct r' as [y| |]; try done.
    destruct (H2 y eq_refl) as [_ ->]. cbn in H1. lia.
  - destruct (retry_file _ _ _ _ _ _ _ _ HC) as [H1 H2]. cbn [up_rest] in H1. split; [lia|]. intros E. destruct r' as [[]| |]; try done.
    rewrite H2 in H1 by done. cbn in H1. lia.
Qed.
Lemma writes_file z : forall f c r f' c', writes_all (count_write file_write) (f, c) z r (f', c') -> r = Ok tt ->
  f' = f ++ z /\ c' = (c + N.of_nat (length z))%N.
Proof.
  intros f c r f' c'. remember (f, c) as s eqn:Es. remember (f', c') as s' eqn:Es'. intros HW. revert f c Es f' c' Es'.
  induction HW as [s|s x k [f1 c1] r s2 Hx Hk HW HA IH|s x s1 Hx HW|s x s1 Hx HW|s x s1 Hx HW]; intros f c Es f' c' Es' Hr; subst; try done.
  - injection Es' as -> ->. rewrite app_nil_r. cbn. split; [done|lia].
  - destruct (IH f1 c1 eq_refl f' c' eq_refl eq_refl) as [-> ->]. apply counted_write_steps in HW as [HW ->]. inversion HW; subst.
    rewrite <-(app_assoc f), take_drop, drop_length. split; [done|]. lia.
Qed.

Lemma given_cons {A} (a : A) r l : given ((a, r) :: l) = (match r with Ok x => N.of_nat (length x) | _ => 0 end + given l)%N.
Proof. unfold given. cbn. by destruct r. Qed.

Lemma taken_cons {A} (a : A) r l : taken ((a, r) :: l) = (match r with Ok k => N.of_nat k | _ => 0 end + taken l)%N.
Proof. done. Qed.

Lemma got_from always_read name works s x s' : cached_op always_read (Read name) works s (Some (Got x)) s' ->
  (always_read = false /\ ca_files (cd_cache s) !! name = Some x) \/ (if works then cd_repo s !! name else None) = Some x.
Proof.
  intros HC. inversion HC; subst.
  - left. split; [done|]. match goal with E : try_read _ _ _ = _ |- _ => unfold try_read in E end.
    destruct (ca_files (cd_cache s) !! name); [|done]. congruence.
  - right. match goal with E : match ?r with Ok _ => _ | _ => _ end = _ |- _ => destruct r; [|done..] end. congruence.
Qed.

(** ** C77 *)

(** Counting changes nothing: whoever reads or writes through the counter sees what they
    would see without, and the count grows by the bytes that went through. *)
Theorem C77_counting_changes_nothing (St : Type) :
  (forall (read : reader St) s c l s' c',
     calls (count_read read) (s, c) l (s', c') <-> calls read s l s' /\ c' = (c + given l)%N) /\
  (forall (write : writer St) s c l s' c',
     calls (count_write write) (s, c) l (s', c') <-> calls write s l s' /\ c' = (c + taken l)%N).
Proof.
  split; intros call s c l; revert s c; induction l as [|[a r] l IH]; intros s c s' c'; split.
  - intros HC. inversion HC; subst. split; [constructor|cbn; lia].
  - intros [HC ->]. inversion HC; subst. cbn. rewrite N.add_0_r. constructor.
  - intros HC. inversion HC as [|? ? ? [s1 c1] ? ? H1 H2]; subst. apply counted_read_steps in H1 as [H1 ->]. apply IH in H2 as [H2 ->].
    split; [by econstructor|]. rewrite given_cons. destruct r; lia.
  - intros [HC ->]. inversion HC as [|? ? ? s1 ? ? H1 H2]; subst. econstructor; [by apply (counted_read_steps call s c a r s1)|].
    apply IH. split; [done|]. rewrite given_cons. destruct r; lia.
  - intros HC. inversion HC; subst. split; [constructor|cbn; lia].
  - intros [HC ->]. inversion HC; subst. cbn. rewrite N.add_0_r. constructor.
  - intros HC. inversion HC as [|? ? ? [s1 c1] ? ? H1 H2]; subst. apply counted_write_steps in H1 as [H1 ->]. apply IH in H2 as [H2 ->].
    split; [by econstructor|]. rewrite taken_cons. destruct r; lia.
  - intros [HC ->]. inversion HC as [|? ? ? s1 ? ? H1 H2]; subst. econstructor; [by apply (counted_write_steps call s c a r s1)|].
    apply IH. split; [done|]. rewrite taken_cons. destruct r; lia.
Qed.

(** The same for whole operations: with and without the counters, the cache and the
    repository behind it, and uploads to a bucket, can do the same. *)
Lemma can_copy x c : exists c', copies (count_read file_read) (x, c) (Ok x) ([], c').
Proof.
  assert (exists c', copies (count_read file_read) ([], c) (Ok []) ([], c')) as [c0 H0].
  { eexists. eapply (copies_end _ _ 1); [lia|]. apply (count_read_ok file_read [] c 1 [] []). apply file_end. }
  destruct x as [|b x]; [by exists c0|]. eexists. rewrite <-(app_nil_r (b :: x)) at 2.
  eapply (copies_some _ _ (length (b :: x)) (b :: x) _ (Ok [])); [|done|].
  - eapply (count_read_ok file_read (b :: x) c _ (b :: x) []).
    pose proof (file_some (b :: x) (length (b :: x)) (length (b :: x))) as Hf. rewrite firstn_all, drop_all in Hf. apply Hf; cbn; lia.
  - eapply (copies_end _ _ 1); [lia|]. apply (count_read_ok file_read [] _ 1 [] []). apply file_end.
Qed.
Lemma can_read x k c : exists l c', calls (count_read file_read) (x, c) l (drop k x, c').
Proof.
  destruct (decide (length (take k x) = 0)) as [Hz|Hz].
  - exists [], c. assert (drop k x = x) as ->; [|apply calls_none].
    rewrite <-(take_drop k x) at 2. by rewrite (nil_length_inv _ Hz).
  - rewrite take_length in Hz. exists [(length x, Ok (take (k `min` length x) x))]. eexists. econstructor; [|apply calls_none].
    eapply (count_read_ok file_read x c (length x) (take (k `min` length x) x) (drop k x)).
    assert (drop k x = drop (k `min` length x) x) as ->.
    { destruct (decide (k <= length x)); [by rewrite Nat.min_l|]. rewrite Nat.min_r by lia. rewrite !drop_ge; [done|lia|lia]. }
    apply file_some; lia.
Qed.
Theorem C77_counting_changes_no_operation :
  (forall always_read o works s c r s', (exists c', counted_op always_read o works (s, c) r (s', c')) <-> cached_op always_read o works s r s') /\
  (forall hex_sha1 len s c n r s', (exists c', retry_run (counted_put hex_sha1 len) (s, c) n r (s', c')) <-> cloud_write hex_sha1 len s n r s').
Proof.
  split.
  - intros always_read o works s c r s'. split; [intros [c' HO]; by inversion HO; subst|].
    intros HO. destruct o as [name|name x|name|lim]; [|exists c; by apply counted_other..].
    destruct (decide (always_read = false /\ is_Some (ca_files (cd_cache s) !! name))) as [[-> Hh]|Hh]; [exists c; by apply counted_hit|].
    assert (always_read = true \/ ca_files (cd_cache s) !! name = None) as Hm.
    { destruct always_read; [by left|right]. destruct (ca_files (cd_cache s) !! name) eqn:E; [|done]. destruct Hh. split; [done|]. by eexists. }
    destruct (if works then cd_repo s !! name else None) as [x|] eqn:E.
    + destruct (can_copy x c) as [c' Hc]. exists c'. by eapply counted_fetch.
    + exists c. by eapply counted_missing.
  - intros hex_sha1 len s c n r s'. unfold cloud_write. split.
    + intros [c' HR]. remember (s, c) as p eqn:Ep. remember (s', c') as p' eqn:Ep'. revert s c Ep s' c' Ep'.
      induction HR as [p a p' HP|p p' HP|p [s1 c1] n r p' HP HR IH]; intros s c -> s' c' E; subst; inversion HP; subst.
      * by apply retry_ok.
      * by apply retry_io.
      * eapply retry_again; [done|]. by eapply IH.
    + intros HR. revert c. induction HR as [s a s' HP|s s' HP|s s1 n r s' HP HR IH]; intros c.
      * assert (exists k, up_rest s' = drop k (up_rest s)) as [k Hk].
        { inversion HP; subst; cbn; exists (length (up_rest s)); by rewrite drop_all. }
        destruct (can_read (up_rest s) k c) as (l & c' & Hl). exists c'. apply retry_ok. by eapply counted_attempt.
      * inversion HP.
      * assert (exists k, up_rest s1 = drop k (up_rest s)) as [k Hk].
        { inversion HP; subst; cbn; [exists (length (up_rest s)); by rewrite drop_all|by eexists]. }
        destruct (can_read (up_rest s) k c) as (l & c1 & Hl). destruct (IH c1) as [c' Hc]. exists c'. eapply retry_again; [|exact Hc].
        by eapply counted_attempt.
Qed.

(** After uploading some files, what is shown is exactly their sizes, wherever they are
    stored and however often requests failed and were repeated.  If it fails on the way,
    it is not more than their sizes. *)
Theorem C77_uploaded_bytes_are_those_of_the_files hex_sha1 b l c r c' :
  counted_upload hex_sha1 b l c r c' ->
  (c <= c' <= c + sizes l)%N /\ (r = Ok tt -> c' = (c + sizes l)%N).
Proof.
  induction 1 as [c|x l c c1 r c2 HW _ [IH1 IH2]|x l c r c1 HW Hr]; cbn.
  - split; [lia|]. intros _. lia.
  - apply one_write in HW as [_ HW]. rewrite HW in * by done. unfold sizes in *. split; [lia|]. intros E. rewrite IH2 by done. lia.
  - apply one_write in HW as [HW _]. split; [lia|done].
Qed.

(** Nor is it ever more while a file is being sent. *)
Theorem C77_never_more_meanwhile b x c c' : seen_writing b x c c' -> (c <= c' <= c + N.of_nat (length x))%N.
Proof.
  destruct b; cbn; [lia|lia|..]; intros (l & rest & HC%calls_file_left); lia.
Qed.

(** A file that was read is shown as downloaded, in full, unless the cache had it. *)
Theorem C77_downloaded_bytes_are_those_of_the_file always_read name works s c x s' c' :
  counted_op always_read (Read name) works (s, c) (Some (Got x)) (s', c') ->
  c' = if negb always_read && bool_decide (is_Some (ca_files (cd_cache s) !! name)) then c else (c + N.of_nat (length x))%N.
Proof.
  intros HO. inversion HO as [? ? ? ? ? ? Ha Hc HC|? ? ? ? ? ? Ha Hn HC|? ? ? ? ? ? y rest ? Ha Hn HF HC|? ? ? ? ? ? y l rest ? Ha Hn Ho|? ? ? ? ? ? Ho]; subst.
  - by rewrite bool_decide_eq_true_2 by done.
  - exfalso. destruct (got_from _ _ _ _ _ _ HC) as [[-> E]|E]; [|congruence]. destruct Ha as [?|Ha]; congruence.
  - destruct (copies_file _ _ _ _ _ HF) as [H1 H2]. destruct (H2 y eq_refl) as [_ ->]. cbn in H1.
    assert (negb always_read && bool_decide (is_Some (ca_files (cd_cache s) !! name)) = false) as ->.
    { destruct Ha as [->|Ha]; [done|]. rewrite bool_decide_eq_false_2; [apply andb_false_r|]. rewrite Ha. apply is_Some_None. }
    assert (x = y) as ->; [|lia]. destruct (got_from _ _ _ _ _ _ HC) as [[-> E]|E]; [|congruence]. destruct Ha as [?|Ha]; congruence.
  - by destruct (Ho x).
  - by destruct (Ho name).
Qed.

(** While and after any sequence of operations, finished or not, the count grows only by what
    is fetched: in one that [check] uses (it always reads from the repository), if all
    reads finish, by exactly the bytes they returned. *)
Definition got (l : list (op * option out)) : list bytes :=
  concat (map (fun o => match o with (Read _, Some (Got x)) => [x] | _ => [] end) l).
Definition only_finished (l : list (op * option out)) : Prop :=
  forall name r, (Read name, r) ∈ l -> exists x, r = Some (Got x).
Theorem C77_check_is_shown_as_what_it_read l s c s' c' :
  counted_ops true (s, c) l (s', c') -> only_finished l -> c' = (c + sizes (got l))%N.
Proof.
  revert s c. induction l as [|[o r] l IH]; intros s c HC Hf; inversion HC as [|? ? works ? [s1 c1] ? ? H1 H2]; subst.
  - cbn. lia.
  - rewrite (IH s1 c1 H2) by (intros n r' Hn; apply (Hf n r'); by right). unfold got. cbn [map concat]. rewrite sizes_app.
    destruct o as [name|name x|name|lim].
    + destruct (Hf name r) as [x ->]; [by left|]. apply C77_downloaded_bytes_are_those_of_the_file in H1. cbn in *. lia.
    + inversion H1; subst; cbn; lia.
    + inversion H1; subst; cbn; lia.
    + inversion H1; subst; cbn; lia.
Qed.
(** With the cache in use it is at most that, when all reads finish. *)
Theorem C77_the_cache_saves_downloads l s c s' c' :
  counted_ops false (s, c) l (s', c') -> only_finished l -> (c <= c' <= c + sizes (got l))%N.
Proof.
  revert s c. induction l as [|[o r] l IH]; intros s c HC Hf; inversion HC as [|? ? works ? [s1 c1] ? ? H1 H2]; subst.
  - cbn. lia.
  - assert (c1 <= c' <= c1 + sizes (got l))%N as Hl by (apply (IH s1 c1 H2); intros n r' Hn; apply (Hf n r'); by right).
    unfold got in *. cbn [map concat]. rewrite sizes_app. destruct o as [name|name x|name|lim].
    + destruct (Hf name r) as [x ->]; [by left|]. apply C77_downloaded_bytes_are_those_of_the_file in H1. cbn [negb andb] in H1.
      case_bool_decide; cbn [map concat sizes foldr]; lia.
    + inversion H1; subst; cbn [sizes foldr]; lia.
    + inversion H1; subst; cbn [sizes foldr]; lia.
    + inversion H1; subst; cbn [sizes foldr]; lia.
Qed.
(** Without a cache in between, opening a file counts it, whatever is read of it. *)
Theorem C77_opening_counts_the_file st name c x c' :
  direct_read st name c = (Ok x, c') -> st !! name = Some x /\ c' = (c + N.of_nat (length x))%N.
Proof. unfold direct_read. destruct (st !! name) as [y|]; [|done]. by intros [= <- <-]. Qed.

(** Compressed bytes are those of the compressed blobs, whatever pieces the compressor
    writes; the files are the pack files, so they have a few bytes and the manifest besides. *)
Theorem C77_compressed_bytes_are_those_in_the_packs l c fs c' :
  counted_packs l c fs c' ->
  fs = map (fun zz : bytes * bytes => pack_file zz.1 zz.2) l /\ c' = (c + sizes (map fst l))%N /\
  (c + sizes fs = c' + foldr (fun zz n => besides zz.2 + n) 0 l)%N.
Proof.
  induction 1 as [c|z zm l c f c1 fs c2 HP _ (IH1 & IH2 & IH3)]; [cbn; split_and!; [done|lia..]|].
  inversion HP as [? f0 ? HW]; subst. destruct (writes_file _ _ _ _ _ _ HW eq_refl) as [-> ->].
  assert ((pack_magic ++ z) ++ zm ++ be_bytes 4 (N.of_nat (length zm)) = pack_file z zm) as -> by (unfold pack_file; by rewrite <-app_assoc).
  cbn [map fst snd sizes foldr] in *. fold sizes in *.
  assert (N.of_nat (length (pack_file z zm)) = N.of_nat (length z) + besides zm)%N as Hl.
  { unfold pack_file, besides. rewrite !app_length, be_bytes_length. change (length pack_magic) with 9. lia. }
  split; [done|]. unfold sizes in *. rewrite Hl. lia.
Qed.

(** So when all the packs have been uploaded, what is shown as uploaded is what is shown
    as compressed, the manifests and 13 bytes for each pack. *)
Theorem C77_uploaded_and_compressed hex_sha1 b l fs compressed uploaded :
  counted_packs l 0 fs compressed -> counted_upload hex_sha1 b fs 0 (Ok tt) uploaded ->
  uploaded = (compressed + foldr (fun zz n => besides zz.2 + n) 0 l)%N /\ (l <> [] -> compressed < uploaded)%N.
Proof.
  intros HP HU. apply C77_compressed_bytes_are_those_in_the_packs in HP as (_ & _ & HP).
  apply C77_uploaded_bytes_are_those_of_the_files in HU as [_ HU]. rewrite HU in * by done. split; [lia|].
  intros Hl. destruct l as [|[z zm] l]; [done|]. cbn [foldr snd] in HP. unfold besides in HP at 1. lia.
Qed.

(** But with a filter it is not what goes to the repository: the bytes are counted
    before the filter program gets them. *)
Theorem C77_refuted_filtered_sizes : exists filter name x st st' c y,
  fwrite filter name x st (Ok tt) st' /\ counted_write (fun _ => []) CopiedOn x 0 (Ok tt) c /\
  st' !! name = Some y /\ c <> N.of_nat (length y).
Proof.
  exists (fun x eof y ok => eof = true /\ y = [] /\ ok = true), [], [Byte.x61], ∅, (<[[] := []]> ∅), 1%N, [].
  split; [|split; [|split]].
  - eapply (fwrite_done _ _ _ _ (mkPiping [Byte.x61] (Finished true) (Exited [] true))); [|done..].
    eapply rtc_l; [by apply (pipe_feed _ _ [] [Byte.x61] [] [])|]. cbn.
    eapply rtc_l; [apply pipe_close|]. eapply rtc_l; [by apply pipe_exit|]. eapply rtc_l; [apply pipe_finish|]. apply rtc_refl.
  - apply (copied_on _ [Byte.x61] 0 (Ok [Byte.x61]) [] 1 (Ok tt)).
    eapply (copies_some _ _ 1 [Byte.x61] _ (Ok [])); [|done|].
    + apply (count_read_ok file_read [Byte.x61] 0 1 [Byte.x61] []). by apply (file_some [Byte.x61] 1 1); cbn; lia.
    + eapply (copies_end _ _ 1); [lia|]. apply (count_read_ok file_read [] 1 1 [] []). apply file_end.
  - by rewrite lookup_insert.
  - done.
Qed.

(** ** Concrete cases *)

Definition ab : bytes := [Byte.x61; Byte.x62].
Definition no_hash (_ : bytes) : bytes := replicate 40 Byte.x30.
Lemma read_ab c : calls (count_read file_read) (ab, c) [(1, Ok [Byte.x61]); (8, Err); (8, Ok [Byte.x62])] ([], c + 1 + 1)%N.
Proof.
  econstructor; [apply (count_read_ok file_read ab c 1 [Byte.x61] [Byte.x62]); apply (file_some ab 1 1); cbn; lia|].
  econstructor; [apply (count_read_err file_read [Byte.x62] _ 8 [Byte.x62]); apply file_fails|].
  econstructor; [apply (count_read_ok file_read [Byte.x62] (c + 1)%N 8 [Byte.x62] []); apply (file_some [Byte.x62] 8 1); cbn; lia|].
  apply calls_none.
Qed.
Lemma copy_ab c : copies (count_read file_read) (ab, c) (Ok ab) ([], c + 2 + 0)%N.
Proof.
  eapply (copies_some _ _ 8 ab _ (Ok [])); [|done|].
  - apply (count_read_ok file_read ab c 8 ab []). apply (file_some ab 8 2); cbn; lia.
  - eapply (copies_end _ _ 1); [lia|]. apply (count_read_ok file_read [] (c + 2)%N 1 [] []). apply file_end.
Qed.

(** A file goes to a bucket at the second attempt, read in two pieces; then another. *)
Example C77_bucket_witness : counted_upload no_hash Bucket [ab; []] 5 (Ok tt) 7 /\ seen_writing Bucket ab 5 6.
Proof.
  split.
  - eapply (upload_next _ _ _ _ _ 7%N).
    + eapply (in_bucket _ _ _ 2 (Ok tt) (mkUpload [] [ab]) _ (Ok tt)). eapply (retry_again _ _ (mkUpload ab [], 5%N)).
      * eapply (counted_attempt _ _ _ _ []); [apply calls_none|apply (put_fails _ _ (mkUpload ab []) 0)|done].
      * apply retry_ok. eapply (counted_attempt _ _ _ _ _ [] 7); [apply (read_ab 5)|by apply (put_ok _ _ (mkUpload ab []) ab)|done].
    + eapply (upload_next _ _ _ _ _ 7%N); [|apply upload_none].
      eapply (in_bucket _ _ _ 1 (Ok tt) (mkUpload [] [[]]) _ (Ok tt)). apply retry_ok.
      eapply (counted_attempt _ _ _ _ [] []); [apply calls_none|by apply (put_ok _ _ (mkUpload [] []) [])|done].
  - exists [(1, Ok [Byte.x61])], [Byte.x62]. econstructor; [|apply calls_none].
    apply (count_read_ok file_read ab 5 1 [Byte.x61] [Byte.x62]). apply (file_some ab 1 1); cbn; lia.
Qed.

(** Reading a file twice: with the cache it is fetched once, [check] fetches it twice. *)
Definition ab_repo : gmap bytes bytes := {[ab := ab]}.
Definition no_rows : gmap bytes (Z * Z) := ∅.
Definition ab_row : gmap bytes (Z * Z) := {[ab := (3%Z, 2%Z)]}.
Definition empty_cache : cached := mkCached ab_repo (mkCache ∅ no_rows 10).
Lemma fetch_ab (always_read : bool) (fs : gmap bytes bytes) (rows : gmap bytes (Z * Z)) (c : N) : always_read = true \/ fs !! ab = None ->
  rows = no_rows \/ rows = ab_row ->
  counted_op always_read (Read ab) true (mkCached ab_repo (mkCache fs rows 10), c) (Some (Got ab))
    (mkCached ab_repo (mkCache (<[ab := ab]> fs) ab_row 10), (c + 2 + 0)%N).
Proof.
  intros Ha Hr. eapply counted_fetch; [done|by apply lookup_singleton|apply copy_ab|].
  set (c1 := if always_read then mkCache fs rows 10 else mkCache fs (delete ab rows) 10).
  apply (read_fetch always_read ab true 3 (mkCached ab_repo (mkCache fs rows 10)) c1 ab (mkCache (<[ab := ab]> fs) ab_row 10) (Ok tt));
    [|done|by apply lookup_singleton|].
  - unfold c1. destruct always_read; [done|]. destruct Ha as [?|Ha]; [done|]. unfold try_read. cbn [cd_cache ca_files ca_rows ca_limit]. by rewrite Ha.
  - exists [(ab, (3%Z, 2%Z))].
    assert (cache_insert 3 ab ab c1 = mkCache (<[ab := ab]> fs) ab_row 10) as ->.
    { unfold cache_insert, bump_row, insert_file, c1. destruct always_read, Hr as [->| ->]; cbn [ca_files ca_rows ca_limit]; f_equal;
        rewrite ?insert_delete_insert; unfold ab_row, no_rows; change (size_of ab) with 2%Z; by rewrite ?insert_singleton, ?insert_empty. }
    split; [|done]. split; [cbn [ca_rows]; unfold ab_row; by rewrite map_to_list_singleton|repeat constructor].
Qed.
Example C77_download_witness : exists s1 s2,
  counted_ops false (empty_cache, 0%N) [(Read ab, Some (Got ab)); (Read ab, Some (Got ab))] (s1, 2%N) /\
  counted_ops true (empty_cache, 0%N) [(Read ab, Some (Got ab)); (Read ab, Some (Got ab))] (s2, 4%N) /\
  only_finished [(Read ab, Some (Got ab)); (Read ab, Some (Got ab))].
Proof.
  eexists _, _. split_and!.
  - eapply ops_more; [apply fetch_ab; auto|]. eapply ops_more; [|apply ops_none].
    apply counted_hit; [done|by exists ab|]. eapply (read_hit _ _ true 4); [done|reflexivity].
  - eapply ops_more; [apply fetch_ab; auto|]. eapply ops_more; [apply (fetch_ab true); auto|]. apply ops_none.
  - intros n r Hr. rewrite !elem_of_cons in Hr. exists ab. destruct Hr as [Hr|[Hr|Hr]]; [by injection Hr..|by apply elem_of_nil in Hr].
Qed.

(** A pack whose compressed blobs are written in two pieces, and uploaded. *)
Example C77_packs_witness : exists fs,
  counted_packs [(ab, [Byte.x63])] 0 fs 2 /\ counted_upload no_hash CopiedOn fs 0 (Ok tt) 16.
Proof.
  exists [pack_file ab [Byte.x63]]. split.
  - eapply (packs_more _ _ _ _ _ 2%N); [|apply packs_none].
    apply (counted_finish ab [Byte.x63] 0 (pack_magic ++ ab) 2).
    eapply (writes_some _ _ _ 1 (pack_magic ++ [Byte.x61], 1%N)); [done|lia|apply (count_write_ok file_write _ 0 ab 1); apply (file_takes pack_magic ab 1); cbn; lia|].
    eapply (writes_some _ _ _ 1 (pack_magic ++ ab, 2%N)); [done|lia|apply (count_write_ok file_write _ 1 [Byte.x62] 1); apply (file_takes (pack_magic ++ [Byte.x61]) [Byte.x62] 1); cbn; lia|].
    apply writes_none.
  - eapply (upload_next _ _ _ _ _ 16%N); [|apply upload_none].
    apply (copied_on _ _ 0 (Ok (pack_file ab [Byte.x63])) [] 16 (Ok tt)).
    rewrite <-(app_nil_r (pack_file ab [Byte.x63])) at 2.
    eapply (copies_some _ _ 16 (pack_file ab [Byte.x63]) ([], 16%N) (Ok [])); [|done|].
    + apply (count_read_ok file_read (pack_file ab [Byte.x63]) 0 16 (pack_file ab [Byte.x63]) []).
      apply (file_some (pack_file ab [Byte.x63]) 16 16); vm_compute; lia.
    + eapply (copies_end _ _ 1); [lia|]. apply (count_read_ok file_read [] 16 1 [] []). apply file_end.
Qed.
Print Assumptions C77_counting_changes_nothing.
Print Assumptions C77_uploaded_bytes_are_those_of_the_files.
Print Assumptions C77_never_more_meanwhile.
Print Assumptions C77_downloaded_bytes_are_those_of_the_file.
Print Assumptions C77_check_is_shown_as_what_it_read.
Print Assumptions C77_the_cache_saves_downloads.
Print Assumptions C77_opening_counts_the_file.
Print Assumptions C77_compressed_bytes_are_those_in_the_packs.
Print Assumptions C77_uploaded_and_compressed.
Print Assumptions C77_refuted_filtered_sizes.
Print Assumptions C77_counting_changes_no_operation.
