(** Filtered repositories and their configuration.  Models src/backend/filter.rs and
    src/backend.rs:49-100, 389-431. *)

From Verif Require Import Base Formats.

(** ** src/backend.rs:49-100: the configuration

    What is in the file, once parsed: [A] stands for the fields that are taken over as
    they are, the size of packs and the kind of backend. *)
Record config_file (A : Type) := mkConfigFile { cf_same : A; cf_filter : option bytes; cf_unfilter : option bytes }.
Record configuration (A : Type) := mkConfiguration { co_same : A; co_filter : option (bytes * bytes) }.
Arguments mkConfigFile {A}. Arguments cf_same {A}. Arguments cf_filter {A}. Arguments cf_unfilter {A}.
Arguments mkConfiguration {A}. Arguments co_same {A}. Arguments co_filter {A}.

(** src/backend.rs:71-85 [read_config], after parsing. *)
Definition read_config {A} (c : config_file A) : result (configuration A) :=
  match cf_filter c, cf_unfilter c with
  | Some f, Some u => Ok (mkConfiguration (cf_same c) (Some (f, u)))
  | None, None => Ok (mkConfiguration (cf_same c) None)
  | _, _ => Err
  end.
(** src/backend.rs:87-100 [write_config], before printing. *)
Definition write_config {A} (c : configuration A) : config_file A :=
  match co_filter c with
  | Some (f, u) => mkConfigFile (co_same c) (Some f) (Some u)
  | None => mkConfigFile (co_same c) None None
  end.

(** ** Programs

    [prog x eof y ok]: the program may end, successfully or not, having written [y], when
    it has been given [x] so far, and with [eof] that this is all. *)
Notation program := (bytes -> bool -> bytes -> bool -> Prop).

(** The thread that copies to the program (src/backend/filter.rs:86-91, 127-135): at work;
    done, with the pipe closed; ended, as [is_finished] and [join] see it. *)
Inductive copying := Feeding | Closed (ok : bool) | Finished (ok : bool).
(** The program, with what it has written so far. *)
Inductive child := Running (out : bytes) | Exited (out : bytes) (ok : bool).
Record piping := mkPiping { pi_fed : bytes; pi_copy : copying; pi_child : child }.
Definition pipe_start : piping := mkPiping [] Feeding (Running []).
Definition closed (c : copying) : bool := match c with Feeding => false | _ => true end.

(** [x] is what there is to copy. *)
Inductive pipe_step (x : bytes) (prog : program) : piping -> piping -> Prop :=
| pipe_feed a b rest out : x = a ++ b ++ rest ->
    pipe_step x prog (mkPiping a Feeding (Running out)) (mkPiping (a ++ b) Feeding (Running out))
| pipe_close c : pipe_step x prog (mkPiping x Feeding c) (mkPiping x (Closed true) c)
(* the source cannot be read, or the program has gone *)
| pipe_break a c : pipe_step x prog (mkPiping a Feeding c) (mkPiping a (Closed false) c)
| pipe_finish a ok c : pipe_step x prog (mkPiping a (Closed ok) c) (mkPiping a (Finished ok) c)
| pipe_emit a t out more : pipe_step x prog (mkPiping a t (Running out)) (mkPiping a t (Running (out ++ more)))
| pipe_exit a t out ok : prog a (closed t) out ok ->
    pipe_step x prog (mkPiping a t (Running out)) (mkPiping a t (Exited out ok)).

(** ** src/backend/filter.rs:103-158 [write]

    [x] is written as [name] to what is stored.  A write to the repository behind either
    is done or has no effect (C41). *)
Notation fstored := (gmap bytes bytes).
Inductive fwrite (filter : program) (name x : bytes) (st : fstored) : result unit -> fstored -> Prop :=
(* the program cannot be started, no temporary file, or its output cannot be copied there *)
| fwrite_fails : fwrite filter name x st Err st
(* lines 142, 147: the thread is joined, the program waited for *)
| fwrite_ends p t_ok out ok : rtc (pipe_step x filter) pipe_start p ->
    pi_copy p = Finished t_ok -> pi_child p = Exited out ok -> t_ok && ok = false ->
    fwrite filter name x st Err st
| fwrite_raw_fails p out : rtc (pipe_step x filter) pipe_start p ->
    pi_copy p = Finished true -> pi_child p = Exited out true ->
    fwrite filter name x st Err st
| fwrite_done p out : rtc (pipe_step x filter) pipe_start p ->
    pi_copy p = Finished true -> pi_child p = Exited out true ->
    fwrite filter name x st (Ok tt) (<[name := out]> st).

(** ** src/backend/filter.rs:33-68 [UnfilterRead::read]

    How many bytes have been handed out, and whether the handle of the thread is still
    there. *)
Record unfilter_read := mkUnfilterRead { ur_pipe : piping; ur_given : nat; ur_handle : bool }.
Definition unfilter_start : unfilter_read := mkUnfilterRead pipe_start 0 true.
Definition written (c : child) : bytes := match c with Running out => out | Exited out _ => out end.

(** Into a buffer of [n] bytes, [n > 0].  While the program is running and has written
    nothing new the call blocks. *)
Inductive uread : unfilter_read -> nat -> result bytes -> unfilter_read -> Prop :=
| uread_some p g h n k : 0 < k -> k <= n -> g + k <= length (written (pi_child p)) ->
    uread (mkUnfilterRead p g h) n (Ok (take k (drop g (written (pi_child p))))) (mkUnfilterRead p (g + k) h)
| uread_end a t out ok h n :
    uread (mkUnfilterRead (mkPiping a t (Exited out ok)) (length out) h) n
      (if ok then
         if h then match t with Finished true => Ok [] | Finished false => Err | _ => Panic end
         else Panic
       else Err)
      (mkUnfilterRead (mkPiping a t (Exited out ok)) (length out) (if ok then false else h)).

(** A caller that reads until it gets nothing ([io::copy]): what it ends up with; [y] is
    the file. *)
Inductive consume (y : bytes) (unfilter : program) : unfilter_read -> result bytes -> Prop :=
| consume_step p p' g h r : pipe_step y unfilter p p' ->
    consume y unfilter (mkUnfilterRead p' g h) r -> consume y unfilter (mkUnfilterRead p g h) r
| consume_some u n b u' r : 0 < n -> uread u n (Ok b) u' -> b <> [] ->
    consume y unfilter u' r -> consume y unfilter u (let* rest := r in Ok (b ++ rest))
| consume_end u n u' : 0 < n -> uread u n (Ok []) u' -> consume y unfilter u (Ok [])
| consume_err u n u' : 0 < n -> uread u n Err u' -> consume y unfilter u Err
| consume_panic u n u' : 0 < n -> uread u n Panic u' -> consume y unfilter u Panic.

(** src/backend/filter.rs:71-101 [read], and reading all of it: opening the file or
    starting the program may fail. *)
Definition fread (unfilter : program) (name : bytes) (st : fstored) (r : result bytes) : Prop :=
  r = Err \/ exists y, st !! name = Some y /\ consume y unfilter unfilter_start r.
