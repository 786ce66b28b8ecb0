(** The settings a command works with: src/config.rs:17-104, src/main.rs:82-86,
    src/ui/backup.rs:86-99, src/ui/restore.rs:95, src/ui/copy.rs:55,
    src/ui/filter_snapshot.rs:50. *)

From Coq Require Import String.
From Verif Require Import Base Formats Filtered FsTree Init.

(** What a settings file gives: lines 17-41, before [serde]'s defaults. *)
Record settings_text := mkSettingsText {
  st_cache_size : option N;
  st_skips : option (list bytes);
  st_dereference : option bool;
  st_output : option bytes;
}.
(** Lines 17-41 [Configuration], and 43-52 its default; src/backend/cache.rs:33. *)
Record settings := mkSettings { se_cache_size : N; se_skips : list bytes; se_dereference : bool; se_output : option bytes }.
Definition default_cache_size : N := 1073741824.
Definition filled (t : settings_text) : settings :=
  mkSettings (default default_cache_size (st_cache_size t)) (default [] (st_skips t)) (default false (st_dereference t)) (st_output t).
Definition default_settings : settings := mkSettings default_cache_size [] false None.

(** [fs::read_to_string]: nothing there, something, or a failure. *)
Definition read_to_string (f : files) (p : location) : result (option bytes) :=
  match f !! p with
  | None => Ok None
  | Some (PFile b) => Ok (Some b)
  | Some _ => Err
  end.

Section settings.
(** Crate [toml], and what is not UTF-8. *)
Variable parse : bytes -> result settings_text.

(** Lines 96-104 *)
Definition load_cwd (f : files) (cwd : location) : result (option settings) :=
  let* s := read_to_string f (cwd ++ [ascii_bytes ".backpak"]) in
  match s with
  | None => Ok None
  | Some b => let* t := parse b in Ok (Some (filled t))
  end.

(** What [--config] was: [Some None] is the empty text. *)
Notation config_flag := (option (option location)).
(** Lines 54-94; relative paths are taken as resolved. *)
Definition load (f : files) (home : option location) (cwd : location) (p : config_flag) : result settings :=
  match p with
  | Some None => Ok default_settings
  | _ =>
      let* confpath :=
        match p with
        | Some (Some q) => Ok q
        | _ => let* h := of_option home in Ok (h ++ [ascii_bytes ".config"; ascii_bytes "backpak.toml"])
        end in
      let* s := read_to_string f confpath in
      match s with
      | None => Ok default_settings
      | Some b =>
          let* t := parse b in
          let conf := filled t in
          let* local_conf := load_cwd f cwd in
          Ok match local_conf with
             | Some lc =>
                 mkSettings (se_cache_size conf) (se_skips lc) (se_dereference conf)
                   (match se_output lc with Some o => Some o | None => se_output conf end)
             | None => conf
             end
      end
  end.

(** src/main.rs:82-86: the settings, and the directory the command then works in. *)
Definition start (f : files) (home : option location) (cwd : location) (p : config_flag) (working_directory : option location) : result (settings * location) :=
  let* conf := load f home cwd p in
  match working_directory with
  | None => Ok (conf, cwd)
  | Some d => match f !! d with Some PDir => Ok (conf, d) | _ => Panic end
  end.
End settings.
Notation config_flag := (option (option location)).

(** ** What the commands make of them *)

(** src/ui/backup.rs:86-97; [clap] refuses both flags at once. *)
Definition backup_dereferences (c : settings) (dereference no_dereference : bool) : bool :=
  if dereference then true else if no_dereference then false else se_dereference c.
(** src/ui/backup.rs:99, src/ui/copy.rs:55, src/ui/filter_snapshot.rs:50 *)
Definition command_skips (c : settings) (args : list bytes) : list bytes := merge_skips (se_skips c) args.
(** src/ui/restore.rs:95 *)
Definition restore_output (c : settings) (output : option bytes) : option bytes :=
  match output with Some o => Some o | None => se_output c end.
