(** The counting semaphore: src/semaphored.rs, used by src/backend/semaphored.rs
    around each request and by src/concurrently.rs around each spawned thread.

    Simplifications: memory is sequentially consistent (there is one shared word,
    so its modification order is all that matters); the number of threads is fixed
    but arbitrary, an idle thread standing for one that is not there yet or any more. *)

From Verif Require Import Base.

(** Where a thread is. *)
Inductive tstate :=
| Idle            (** outside, or finished *)
| Try (prev : N)  (** in the loop, before the compare-and-exchange: lines 29-30 *)
| Enter           (** about to call [wait]: line 35 *)
| Asleep          (** in the futex queue *)
| Hold            (** has a guard *)
| Waking.         (** in [drop], before [wake_one]: line 56 *)

Global Instance tstate_eq_dec : EqDecision tstate.
Proof. solve_decision. Defined.

(** The shared word and the threads. *)
Definition sem : Type := N * list tstate.

(** One atomic action.  [taker i]: thread [i] may ask for a permit. *)
Inductive sem_step (taker : nat -> Prop) : sem -> sem -> Prop :=
(** src/semaphored.rs:28: [let mut prev = 1] *)
| ss_begin c ts i : ts !! i = Some Idle -> taker i ->
    sem_step taker (c, ts) (c, <[i := Try 1]> ts)
(** lines 30-31: the exchange succeeds *)
| ss_cas c ts i : ts !! i = Some (Try c) ->
    sem_step taker (c, ts) ((c - 1)%N, <[i := Hold]> ts)
(** lines 32-45: it fails, perhaps for no reason since it is the weak variant *)
| ss_cas_fail c ts i p : ts !! i = Some (Try p) ->
    sem_step taker (c, ts) (c, <[i := if bool_decide (c = 0%N) then Enter else Try c]> ts)
(** line 35: [wait] sleeps if the word is still 0, atomically with the check *)
| ss_wait c ts i : ts !! i = Some Enter ->
    sem_step taker (c, ts) (c, <[i := if bool_decide (c = 0%N) then Asleep else Try 1]> ts)
(** it may return for no reason *)
| ss_spurious c ts i : ts !! i = Some Asleep ->
    sem_step taker (c, ts) (c, <[i := Try 1]> ts)
(** line 54: [fetch_add], modulo 2^32 *)
| ss_release c ts i : ts !! i = Some Hold ->
    sem_step taker (c, ts) (((c + 1) mod 2 ^ 32)%N, <[i := if bool_decide (c = 0%N) then Waking else Idle]> ts)
(** line 56: [wake_one] wakes one of the sleepers, any of them *)
| ss_wake c ts i j : ts !! i = Some Waking -> ts !! j = Some Asleep ->
    sem_step taker (c, ts) (c, <[j := Try 1]> (<[i := Idle]> ts))
| ss_wake_nobody c ts i : ts !! i = Some Waking -> Forall (fun t => t <> Asleep) ts ->
    sem_step taker (c, ts) (c, <[i := Idle]> ts)
(** src/concurrently.rs:30-33: the guard moves to the new thread *)
| ss_move c ts i j : ts !! i = Some Hold -> ts !! j = Some Idle ->
    sem_step taker (c, ts) (c, <[j := Hold]> (<[i := Idle]> ts)).

(** src/backend/semaphored.rs:13-19 [new], src/concurrently.rs:9-11: [n] permits. *)
Definition sem_start (n : N) (threads : nat) : sem := (n, replicate threads Idle).
