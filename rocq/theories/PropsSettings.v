(** The settings a command works with: C62. *)

From Coq Require Import String.
From Verif Require Import Base Formats Filtered FsTree Init Settings PropsBackup.

(** ** Specification *)

(** Where the global settings are: where [--config] says, or else in the home. *)
Definition global_settings_at (home : option location) (p : config_flag) (q : location) : Prop :=
  p = Some (Some q) \/ p = None /\ exists h, home = Some h /\ q = h ++ [ascii_bytes ".config"; ascii_bytes "backpak.toml"].
(** What the file there says, if there is one. *)
Definition says (parse : bytes -> result settings_text) (f : files) (q : location) (t : option settings_text) : Prop :=
  match t with
  | None => f !! q = None
  | Some t => exists b, f !! q = Some (PFile b) /\ parse b = Ok t
  end.
(** The most specific place that says something, or else the default. *)
Fixpoint most_specific {A} (l : list (option A)) (otherwise : A) : A :=
  match l with
  | [] => otherwise
  | Some a :: _ => a
  | None :: l => most_specific l otherwise
  end.

(** * C62: settings come from the most specific place *)

(** With a global file: the flags, then the file [.backpak] in the current directory,
    then the global file, then the defaults.  Skips given as flags are added.  Missing:
    what the refutations below are about: [-C], commands without a global file, skips
    that [.backpak] says nothing about, and its [dereference]. *)
Theorem C62_settings_partial parse f home cwd p q g l wd :
  global_settings_at home p q -> says parse f q (Some g) -> says parse f (cwd ++ [ascii_bytes ".backpak"]) l ->
  (forall d, wd = Some d -> f !! d = Some PDir) ->
  exists c, start parse f home cwd p wd = Ok (c, most_specific [wd] cwd) /\
    se_cache_size c = most_specific [st_cache_size g] 1073741824%N /\
    (forall flags r, r ∈ command_skips c flags <->
       r ∈ flags \/ r ∈ most_specific (match l with Some t => [st_skips t] | None => [st_skips g] end) []) /\
    (forall flag, restore_output c flag = most_specific (map (fmap Some) [flag; l ≫= st_output; st_output g]) None) /\
    (forall L P, backup_dereferences c L P = most_specific [if L then Some true else None; if P then Some false else None; st_dereference g] false).
Proof.
  intros Hq (b & Eb & Ep) Hl Hwd.
  assert (exists c, load parse f home cwd p = Ok c /\
    c = mkSettings (default default_cache_size (st_cache_size g)) (match l with Some t => default [] (st_skips t) | None => default [] (st_skips g) end)
      (default false (st_dereference g)) (match l ≫= st_output with Some o => Some o | None => st_output g end)) as (c & Ec & Hc).
  { eexists. split; [|reflexivity]. assert (load_cwd parse f cwd = Ok (filled <$> l)) as El.
    { unfold load_cwd, read_to_string. destruct l as [t|]; simpl in Hl.
      - destruct Hl as (b' & -> & E'). cbn [rbind]. by rewrite E'.
      - by rewrite Hl. }
    unfold load, read_to_string. destruct Hq as [->|[-> (h & -> & ->)]]; cbn [of_option rbind]; rewrite Eb; cbn [rbind]; rewrite Ep; cbn [rbind]; rewrite El;
      destruct l as [t|]; reflexivity. }
  exists c. split; [unfold start; rewrite Ec; cbn [rbind]; destruct wd as [d|]; [by rewrite (Hwd d eq_refl)|done]|].
  subst c. cbn [se_cache_size]. split; [by destruct (st_cache_size g)|]. split; [|split].
  - intros flags r. unfold command_skips. rewrite elem_of_merge_skips. cbn [se_skips].
    destruct l as [t|]; cbn [most_specific]; [destruct (st_skips t)|destruct (st_skips g)]; simpl; tauto.
  - intros flag. unfold restore_output. cbn [se_output]. destruct flag as [o|]; [done|]. destruct (l ≫= st_output) as [o|]; [done|]. by destruct (st_output g).
  - intros L P. unfold backup_dereferences. cbn [se_dereference]. by destruct L, P, (st_dereference g).
Qed.

(** Whatever the files say: flags decide. *)
Theorem C62_flags_decide c : backup_dereferences c true false = true /\ backup_dereferences c false true = false /\
  (forall o, restore_output c (Some o) = Some o) /\ (forall flags r, r ∈ flags -> r ∈ command_skips c flags).
Proof.
  split; [done|]. split; [done|]. split; [done|]. intros flags r Hr. apply elem_of_merge_skips. by right.
Qed.

(** With [--config ""] no file has a say. *)
Theorem C62_no_file_has_a_say parse f home cwd wd c d : start parse f home cwd (Some None) wd = Ok (c, d) ->
  se_cache_size c = 1073741824%N /\ (forall flags r, r ∈ command_skips c flags <-> r ∈ flags) /\
  (forall flag, restore_output c flag = flag) /\ (forall L P, backup_dereferences c L P = L).
Proof.
  unfold start, load. cbn [rbind]. intros E. assert (c = default_settings) as ->. { destruct wd as [w|]; [destruct (f !! w) as [[]|]; try done|]; by injection E as <- _. }
  split; [done|]. split; [|split].
  - intros flags r. unfold command_skips. rewrite elem_of_merge_skips. simpl. rewrite elem_of_nil. tauto.
  - by intros [o|].
  - by intros [] [].
Qed.

(** With -C a command that goes on works in that directory, and it is one. *)
Theorem C62_commands_work_where_told parse f home cwd p wd c d :
  start parse f home cwd p wd = Ok (c, d) -> match wd with Some w => d = w /\ f !! w = Some PDir | None => d = cwd end.
Proof.
  unfold start. destruct (load parse f home cwd p) as [conf| |]; [|done..]. cbn [rbind].
  destruct wd as [w|]; [|by intros [= _ <-]]. destruct (f !! w) as [[]|]; try done. by intros [= _ <-].
Qed.
Print Assumptions C62_commands_work_where_told.

(** A settings file that is there and cannot be read stops the command. *)
Theorem C62_unreadable_settings_stop parse f home cwd p q wd e :
  global_settings_at home p q ->
  let unreadable b := match b with PFile b => parse b = Err | _ => True end in
  (f !! q = Some e /\ unreadable e \/
   (exists g, says parse f q (Some g)) /\ f !! (cwd ++ [ascii_bytes ".backpak"]) = Some e /\ unreadable e) ->
  start parse f home cwd p wd = Err.
Proof.
  intros Hq unreadable H. unfold start. assert (load parse f home cwd p = Err) as ->; [|done]. unfold load, read_to_string.
  destruct H as [[E1 E2]|((g & b & Eb & Ep) & E1 & E2)].
  - destruct Hq as [->|[-> (h & -> & ->)]]; cbn [of_option rbind]; rewrite E1; destruct e as [|b|]; try done; cbn [rbind]; by rewrite E2.
  - assert (load_cwd parse f cwd = Err) as El. { unfold load_cwd, read_to_string. rewrite E1. destruct e as [|b'|]; try done. cbn [rbind]. by rewrite E2. }
    destruct Hq as [->|[-> (h & -> & ->)]]; cbn [of_option rbind]; rewrite Eb; cbn [rbind]; rewrite Ep; cbn [rbind]; by rewrite El.
Qed.

(** ** What does not hold *)

(** Texts, by their first byte. *)
Definition ex_toml (b : bytes) : result settings_text :=
  match b with
  | [x01] => Ok (mkSettingsText None (Some [ascii_bytes "tmp"]) None None)
  | [x02] => Ok (mkSettingsText None (Some [ascii_bytes "build"]) (Some true) (Some (ascii_bytes "out")))
  | [x03] => Ok (mkSettingsText None None None (Some (ascii_bytes "out")))
  | _ => Err
  end.
Definition ex_me : location := [ascii_bytes "me"].
Definition ex_global : location := ex_me ++ [ascii_bytes ".config"; ascii_bytes "backpak.toml"].
Definition ex_work : location := [ascii_bytes "work"].
Definition ex_local : location := ex_work ++ [ascii_bytes ".backpak"].

(** Without a global file, [.backpak] is not read. *)
Theorem C62_refuted_without_global_file parse f h cwd l :
  says parse f (h ++ [ascii_bytes ".config"; ascii_bytes "backpak.toml"]) None ->
  says parse f (cwd ++ [ascii_bytes ".backpak"]) l ->
  exists c, start parse f (Some h) cwd None None = Ok (c, cwd) /\ forall flag, restore_output c flag = flag.
Proof. intros E _. exists default_settings. simpl in E. unfold start, load, read_to_string. cbn [of_option rbind]. rewrite E. split; [done|]. by intros [o|]. Qed.
Example C62_without_global_file_witness : exists c,
  start ex_toml (<[ex_work := PDir]> {[ex_local := PFile [x03]]}) (Some ex_me) ex_work None None = Ok (c, ex_work) /\ restore_output c None = None.
Proof.
  destruct (C62_refuted_without_global_file ex_toml (<[ex_work := PDir]> {[ex_local := PFile [x03]]}) ex_me ex_work
    (Some (mkSettingsText None None None (Some (ascii_bytes "out"))))) as (c & E & Ho).
  - vm_compute. reflexivity.
  - exists [x03]. split; vm_compute; reflexivity.
  - exists c. split; [exact E|apply Ho].
Qed.

(** [-C] changes the directory only afterwards: the file [.backpak] that is read is
    not the one where the command works, but the one where it was started. *)
Theorem C62_refuted_working_directory :
  let f := <[ex_work := PDir]> (<[ex_local := PFile [x03]]> {[ex_global := PFile [x01]]}) in
  exists c, start ex_toml f (Some ex_me) ex_me None (Some ex_work) = Ok (c, ex_work) /\
    says ex_toml f (ex_work ++ [ascii_bytes ".backpak"]) (Some (mkSettingsText None None None (Some (ascii_bytes "out")))) /\
    restore_output c None = None.
Proof.
  exists (filled (mkSettingsText None (Some [ascii_bytes "tmp"]) None None)). split; [vm_compute; reflexivity|]. split; [|vm_compute; reflexivity].
  exists [x03]. split; vm_compute; reflexivity.
Qed.

(** A [.backpak] that says nothing about skips nevertheless makes the global ones
    void, and what it says about [dereference] has no effect. *)
Theorem C62_refuted_local_file :
  let f t := <[ex_work := PDir]> (<[ex_local := PFile t]> {[ex_global := PFile [x01]]}) in
  (exists c g l, says ex_toml (f [x03]) ex_global (Some g) /\ says ex_toml (f [x03]) ex_local (Some l) /\
     st_skips g = Some [ascii_bytes "tmp"] /\ st_skips l = None /\
     start ex_toml (f [x03]) (Some ex_me) ex_work None None = Ok (c, ex_work) /\ command_skips c [] = []) /\
  (exists c l, says ex_toml (f [x02]) ex_local (Some l) /\ st_dereference l = Some true /\
     start ex_toml (f [x02]) (Some ex_me) ex_work None None = Ok (c, ex_work) /\ backup_dereferences c false false = false).
Proof.
  split.
  - eexists _, (mkSettingsText None (Some [ascii_bytes "tmp"]) None None), (mkSettingsText None None None (Some (ascii_bytes "out"))).
    split; [exists [x01]; split; vm_compute; reflexivity|]. split; [exists [x03]; split; vm_compute; reflexivity|]. split; [done|]. split; [done|].
    split; vm_compute; reflexivity.
  - eexists _, (mkSettingsText None (Some [ascii_bytes "build"]) (Some true) (Some (ascii_bytes "out"))).
    split; [exists [x02]; split; vm_compute; reflexivity|]. split; [done|]. split; vm_compute; reflexivity.
Qed.

(** ** Cases *)
Example C62_witness :
  let f := <[ex_work := PDir]> (<[ex_local := PFile [x02]]> {[ex_global := PFile [x01]]}) in
  exists c, start ex_toml f (Some ex_me) ex_work None None = Ok (c, ex_work) /\
    restore_output c None = Some (ascii_bytes "out") /\ restore_output c (Some (ascii_bytes "here")) = Some (ascii_bytes "here") /\
    ascii_bytes "build" ∈ command_skips c [ascii_bytes "x"] /\ ascii_bytes "x" ∈ command_skips c [ascii_bytes "x"] /\
    ascii_bytes "tmp" ∉ command_skips c [ascii_bytes "x"].
Proof.
  intros f.
  destruct (C62_settings_partial ex_toml f (Some ex_me) ex_work None ex_global
    (mkSettingsText None (Some [ascii_bytes "tmp"]) None None) (Some (mkSettingsText None (Some [ascii_bytes "build"]) (Some true) (Some (ascii_bytes "out")))) None)
    as (c & E & _ & Hs & Ho & _).
  - right. split; [done|]. by exists ex_me.
  - exists [x01]. split; vm_compute; reflexivity.
  - exists [x02]. split; vm_compute; reflexivity.
  - done.
  - exists c. split; [exact E|]. rewrite !Ho. split; [done|]. split; [done|]. rewrite !Hs. split; [right; by left|]. split; [left; by left|].
    simpl. rewrite !elem_of_list_singleton. intros [E'|E']; vm_compute in E'; discriminate E'.
Qed.
Example C62_unreadable_witness : start ex_toml (<[ex_work := PDir]> {[ex_global := PFile [x00]]}) (Some ex_me) ex_work None None = Err.
Proof.
  apply (C62_unreadable_settings_stop _ _ _ _ _ ex_global _ (PFile [x00])); [right; split; [done|]; by exists ex_me|].
  left. split; [vm_compute; reflexivity|done].
Qed.
Example C62_no_file_witness : exists c, start ex_toml (<[ex_work := PDir]> {[ex_global := PFile [x00]]}) (Some ex_me) ex_work (Some None) None = Ok (c, ex_work) /\
  forall L P, backup_dereferences c L P = L.
Proof.
  exists default_settings. split; [reflexivity|].
  by apply (C62_no_file_has_a_say ex_toml (<[ex_work := PDir]> {[ex_global := PFile [x00]]}) (Some ex_me) ex_work None default_settings ex_work eq_refl).
Qed.

Print Assumptions C62_settings_partial.
Print Assumptions C62_flags_decide.
Print Assumptions C62_no_file_has_a_say.
Print Assumptions C62_unreadable_settings_stop.
Print Assumptions C62_refuted_without_global_file.
Print Assumptions C62_refuted_working_directory.
Print Assumptions C62_refuted_local_file.
