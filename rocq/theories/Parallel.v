(** Work done by several threads: src/concurrently.rs, with src/semaphored.rs:19-59
    at its atomic steps and src/lib.rs:75-83 [fatal].

    [concurrently] and [map_concurrently] are one: what a function does when it went
    well ([results.push], or taking a lock and adding to what is shared, which may
    itself turn out wrong as in src/index.rs:228-233) is [add]. [named_concurrently]
    only differs in the threads' names.

    Simplifications: memory is sequentially consistent; each function's outcome is
    fixed beforehand, so functions do not wait for one another (for those that do
    see Pipeline.v); threads can always be started. *)

From Verif Require Import Base.

(** A spawned thread; the flag says that its function panicked. *)
Inductive thread :=
| TRun                  (* not finished with its function *)
| TFail                 (* in [fatal], before [exit] *)
| TDone (panicked : bool)   (* about to drop the guard: semaphored.rs:54 *)
| TWake (panicked : bool)   (* about to call [wake_one]: semaphored.rs:56 *)
| TExit (panicked : bool).
Global Instance thread_eq_dec : EqDecision thread.
Proof. solve_decision. Defined.
(** The thread that called. *)
Inductive main :=
| MNext                 (* head of the loop: concurrently.rs:27 *)
| MTry (prev : N)       (* before the exchange: semaphored.rs:30 *)
| MEnter                (* about to wait: semaphored.rs:35 *)
| MAsleep
| MHave                 (* has the guard, about to spawn: concurrently.rs:31 *)
| MJoin                 (* at the end of the scope *)
| MReturned
| MPanicked             (* [thread::scope] panics if a thread did *)
| MGone.                (* the program has ended with an error *)

Section parallel.
Context {T S : Type}.
Variable jobs : list (result T).
Variable add : T -> S -> result S.

Record state := mkState { word : N; boss : main; threads : list thread; shared : S }.

(** Started are the functions of the first [length threads] jobs. *)
Definition begin (cpus : N) (s : S) : state := mkState cpus MNext [] s.

(** One atomic action of the boss or of a thread.  The label tells the steps that happen for
    no reason: the weak exchange failing, and waking up. *)
Inductive step : bool -> state -> state -> Prop :=
| st_next c ts s : length ts < length jobs ->
    step true (mkState c MNext ts s) (mkState c (MTry 1) ts s)
| st_last c ts s : length ts = length jobs ->
    step true (mkState c MNext ts s) (mkState c MJoin ts s)
| st_cas c ts s : step true (mkState c (MTry c) ts s) (mkState (c - 1) MHave ts s)
| st_cas_fail c p ts s :
    step (negb (bool_decide (p = c))) (mkState c (MTry p) ts s)
      (mkState c (if bool_decide (c = 0%N) then MEnter else MTry c) ts s)
| st_wait c ts s :
    step true (mkState c MEnter ts s) (mkState c (if bool_decide (c = 0%N) then MAsleep else MTry 1) ts s)
| st_spurious c ts s : step false (mkState c MAsleep ts s) (mkState c (MTry 1) ts s)
| st_spawn c ts s : step true (mkState c MHave ts s) (mkState c MNext (ts ++ [TRun]) s)
(* the function ends *)
| st_ok c m ts s i v s' : ts !! i = Some TRun -> jobs !! i = Some (Ok v) -> add v s = Ok s' ->
    m <> MGone -> step true (mkState c m ts s) (mkState c m (<[i := TDone false]> ts) s')
| st_err c m ts s i : ts !! i = Some TRun ->
    (jobs !! i = Some Err \/ exists v, jobs !! i = Some (Ok v) /\ add v s = Err) ->
    m <> MGone -> step true (mkState c m ts s) (mkState c m (<[i := TFail]> ts) s)
| st_panic c m ts s i : ts !! i = Some TRun ->
    (jobs !! i = Some Panic \/ exists v, jobs !! i = Some (Ok v) /\ add v s = Panic) ->
    m <> MGone -> step true (mkState c m ts s) (mkState c m (<[i := TDone true]> ts) s)
| st_exit c m ts s i : ts !! i = Some TFail -> m <> MGone ->
    step true (mkState c m ts s) (mkState c MGone ts s)
| st_release c m ts s i p : ts !! i = Some (TDone p) -> m <> MGone ->
    step true (mkState c m ts s)
      (mkState ((c + 1) mod 2 ^ 32) m (<[i := if bool_decide (c = 0%N) then TWake p else TExit p]> ts) s)
| st_wake c m ts s i p : ts !! i = Some (TWake p) -> m <> MGone ->
    step true (mkState c m ts s)
      (mkState c (match m with MAsleep => MTry 1 | _ => m end) (<[i := TExit p]> ts) s)
| st_join c ts s : Forall (fun t => exists p, t = TExit p) ts ->
    step true (mkState c MJoin ts s)
      (mkState c (if bool_decide (TExit true ∈ ts) then MPanicked else MReturned) ts s).

(** A run: how many steps, how many of them for no reason. *)
Inductive run : nat -> nat -> state -> state -> Prop :=
| run_nil s : run 0 0 s s
| run_snoc n m b s s' s'' : run n m s s' -> step b s' s'' -> run (1 + n) ((if b then 0 else 1) + m) s s''.

(** Threads at work. *)
Definition working (t : thread) : bool := match t with TRun | TFail => true | _ => false end.
Definition final (s : state) : Prop := boss s = MReturned \/ boss s = MPanicked \/ boss s = MGone.
End parallel.
Arguments state : clear implicits.
