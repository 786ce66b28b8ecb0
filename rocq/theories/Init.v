(** Setting up a repository: src/ui/init.rs, src/backend/fs.rs:25-76,
    src/backend/backblaze.rs:14-41 and opening it: src/backend.rs:371-431. *)

From Coq Require Import String.
From Verif Require Import Base Formats Filtered.

(** ** Files

    What is where; the root is [[]].  Links, permissions and other programs are not
    modelled. *)
Inductive place := PDir | PFile (b : bytes) | POther.
Notation location := (list bytes).
Notation files := (gmap location place).

(** The files and directories right below. *)
Definition below (p q : location) : Prop := exists x, q = p ++ [x].
Global Instance below_dec p q : Decision (below p q).
Proof.
  destruct (decide (q = p ++ match last q with Some x => [x] | None => [] end /\ q <> p)) as [[E N]|N].
  - left. destruct (last q) as [x|]; [by exists x|]. by rewrite app_nil_r in E.
  - right. intros [x ->]. apply N. rewrite last_snoc. split; [done|]. intros E. apply (f_equal List.length) in E. rewrite app_length in E. simpl in E. lia.
Defined.
Definition entries_below (f : files) (p : location) : list (location * place) :=
  List.filter (fun e : location * place => bool_decide (below p e.1)) (map_to_list f).

(** What init does to the files, each at once: [fs::create_dir], opening with
    [create_new], and appending some bytes. *)
Inductive fsop := IMkdir (p : location) | ICreate (p : location) | IAppend (p : location) (b : bytes).
Definition apply_fsop (f : files) (o : fsop) : result files :=
  match o with
  | IMkdir p =>
      match f !! p, f !! removelast p with
      | None, Some PDir => Ok (<[p := PDir]> f)
      | _, _ => Err
      end
  | ICreate p =>
      match f !! p, f !! removelast p with
      | None, Some PDir => Ok (<[p := PFile []]> f)
      | _, _ => Err
      end
  | IAppend p b =>
      match f !! p with
      | Some (PFile a) => Ok (<[p := PFile (a ++ b)]> f)
      | _ => Err
      end
  end.
Fixpoint apply_fsops (f : files) (os : list fsop) : result files :=
  match os with
  | [] => Ok f
  | o :: os' => let* f' := apply_fsop f o in apply_fsops f' os'
  end.

(** ** The configuration *)

(** src/backend.rs:34-47 [Kind]; the pack size and it are what [Filtered.config_file]
    leaves open. *)
Inductive backend_kind :=
| Filesystem (force_cache : bool)
| Backblaze (key_id application_key bucket : bytes) (connections : N).
Notation settings_of := (N * backend_kind)%type.

(** ** src/ui/init.rs *)

(** Lines 11-47; [ia_pack_size] is what the text given was read as (lines 50-55). *)
Record init_args := mkInitArgs { ia_pack_size : option N; ia_gpg : option bytes; ia_kind : backend_kind }.
(** src/pack.rs:43 *)
Definition default_pack_size : N := 100000000.

(** Lines 86-89 *)
Definition plaintext : bytes :=
  ascii_bytes "I'd like some help remembering stuff." ++ [x0a] ++
  ascii_bytes "I wonder if I could come down and see you," ++ [x0a] ++
  ascii_bytes "and we could drink and talk and remember." ++ [x0a] ++ ascii_bytes "r".

Section init.
(** [sh -c]: what a command prints given some input, if it succeeds.  That it starts
    and takes its input is taken for granted. *)
Variable sh : bytes -> bytes -> option bytes.
(** Crate [toml]: the configuration as text, and text as configuration. *)
Variable print : config_file settings_of -> result bytes.
Variable parse : bytes -> result (config_file settings_of).

(** Lines 91-129 *)
Definition round_trip_filter_test (filter unfilter : bytes) : result unit :=
  let* filtered := of_option (sh filter plaintext) in
  let* unfiltered := of_option (sh unfilter filtered) in
  if bool_decide (unfiltered = plaintext) then Ok tt else Err.

(** Lines 56-61 *)
Definition gpg_filter (recipient : bytes) : bytes * bytes :=
  (ascii_bytes "gpg --encrypt --quiet --recipient " ++ recipient, ascii_bytes "gpg --decrypt --quiet").

(** Lines 49-64, then src/backend/fs.rs:46-50 or src/backend/backblaze.rs:23-32. *)
Definition init_configuration (a : init_args) : result (configuration settings_of) :=
  let filter := gpg_filter <$> ia_gpg a in
  let* _ := match filter with Some (f, u) => round_trip_filter_test f u | None => Ok tt end in
  Ok (mkConfiguration (default default_pack_size (ia_pack_size a), ia_kind a) filter).

(** Lines 65-84: what is done to the files, if it gets that far.  The text is written
    in [pieces].  For directories src/backend/fs.rs:25-60: an existing one must be empty. *)
Definition config_at (repo : location) : location := repo ++ [ascii_bytes "config.toml"].
Definition subdirs (repo : location) : list location :=
  map (fun d => repo ++ [d]) [ascii_bytes "packs"; ascii_bytes "indexes"; ascii_bytes "snapshots"].
Definition init_ops (f : files) (repo : location) (k : backend_kind) (pieces : list bytes) : result (list fsop) :=
  match k with
  | Filesystem _ =>
      let* first :=
        match f !! repo with
        | None => Ok [IMkdir repo]
        | Some PDir => if bool_decide (entries_below f repo = []) then Ok [] else Err
        | Some _ => Err
        end in
      Ok (first ++ map IMkdir (subdirs repo) ++ ICreate (config_at repo) :: map (IAppend (config_at repo)) pieces)
  | Backblaze _ _ _ _ => Ok (ICreate repo :: map (IAppend repo) pieces)
  end.

(** All of it; [pieces] is any way to cut the text up. *)
Definition init (f : files) (repo : location) (a : init_args) (pieces : list bytes) (os : list fsop) : Prop :=
  exists c text, init_configuration a = Ok c /\ print (write_config c) = Ok text /\ concat pieces = text /\
    init_ops f repo (ia_kind a) pieces = Ok os.
(** As things are after it: done, or stopped before the [n]th step. *)
Definition init_done (f : files) (repo : location) (a : init_args) (f' : files) : Prop :=
  exists pieces os, init f repo a pieces os /\ apply_fsops f os = Ok f'.
Definition init_stopped (f : files) (repo : location) (a : init_args) (f' : files) : Prop :=
  exists pieces os n, init f repo a pieces os /\ apply_fsops f (take n os) = Ok f'.

(** ** Opening *)

(** src/backend/fs.rs:63-72 [FilesystemBackend::open] *)
Definition open_directory (f : files) (repo : location) : result unit :=
  if forallb (fun p => match f !! p with Some _ => true | None => false end) (repo :: subdirs repo) then Ok tt else Err.

(** src/backend.rs:371-431 [open]: the configuration, and whether there is a cache.
    That the bucket can be reached is taken for granted. *)
Definition open_repository (f : files) (repo : location) : result (configuration settings_of * bool) :=
  let* text :=
    match f !! repo with
    | Some PDir => match f !! config_at repo with Some (PFile b) => Ok b | _ => Err end
    | Some (PFile b) => Ok b
    | _ => Err
    end in
  let* cf := parse text in
  let* c := read_config cf in
  match (co_same c).2 with
  | Filesystem force_cache =>
      let* _ := open_directory f repo in
      Ok (c, force_cache || match co_filter c with Some _ => true | None => false end)
  | Backblaze _ _ _ _ => Ok (c, true)
  end.
End init.
