(** The programs a filtered repository starts, and how they are ended with the program:
    src/lib.rs:53-83 [ChildGuard], [fatal] and where src/backend/filter.rs uses them.

    Simplifications: a thread runs one filter program at a time (those that run
    more are several threads here); process ids are any numbers, and a
    free one may be used for any new process; whether a process ends when asked to is
    left open; the mutex is never poisoned (nothing panics while it is held). *)

From Verif Require Import Base.

(** A process: one that this program started, still running or ended and not waited
    for yet, or any other. *)
Inductive proc := Ours (running : bool) | Stranger.

Inductive phase :=
| CNone                            (* no filter program *)
| CSpawned (p : N)                 (* filter.rs:76-82, 106-112: started, not yet in the list *)
| CHeld (p : N)                    (* filter.rs:99, 113: in the list *)
| CReaped (p : N)                  (* filter.rs:48, 148: waited for, still in the list *)
| CFatal (taken todo : list N)     (* lib.rs:78-81: has the lock; what was in the list, and what is left of it *)
| CExiting (taken : list N).       (* lib.rs:82 *)

Record world := mkWorld {
  procs : gmap N proc;
  children : gset N;             (* lib.rs:53 [CHILDREN] *)
  phases : list phase;
  asked : list (N * option proc);   (* who was sent SIGTERM, and what it was *)
  ended : bool;
}.
Definition in_fatal (p : phase) : bool := match p with CFatal _ _ => true | _ => false end.
(** The mutex is free. *)
Definition unlocked (w : world) : Prop := forall i p, phases w !! i = Some p -> in_fatal p = false.
Definition set_phase (i : nat) (p : phase) (w : world) : world :=
  mkWorld (procs w) (children w) (<[i := p]> (phases w)) (asked w) (ended w).
Definition set_procs (ps : gmap N proc) (w : world) : world := mkWorld ps (children w) (phases w) (asked w) (ended w).
Definition set_children (cs : gset N) (w : world) : world := mkWorld (procs w) cs (phases w) (asked w) (ended w).

(** [n] threads, whatever others are running. *)
Definition fresh_world (others : gset N) (n : nat) : world :=
  mkWorld (gset_to_gmap Stranger others) ∅ (replicate n CNone) [] false.

(** The ways a thread lets go of its program without waiting for it. *)
Inductive happening :=
| HSpawn (i : nat) (p : N) | HRegister (i : nat) | HReap (i : nat) | HForget (i : nat)
| HKilled (i : nat) (p : N)     (* filter.rs:27-31: killed first *)
| HLeft (i : nat) (p : N)       (* filter.rs:123, 145: an error in [write]: not killed *)
| HEnds (p : N) | HStranger (p : N) | HStrangerEnds (p : N)
| HFatal (i : nat) | HAsk (i : nat) (p : N) | HUnlock (i : nat) | HExit (i : nat).

Inductive happens_in : happening -> world -> world -> Prop :=
| hi_spawn w i p : phases w !! i = Some CNone -> procs w !! p = None ->
    happens_in (HSpawn i p) w (set_procs (<[p := Ours true]> (procs w)) (set_phase i (CSpawned p) w))
(* lib.rs:59-62 *)
| hi_register w i p : phases w !! i = Some (CSpawned p) -> unlocked w ->
    happens_in (HRegister i) w (set_children ({[p]} ∪ children w) (set_phase i (CHeld p) w))
(* [wait] returns once the process has ended, and its id is free *)
| hi_reap w i p : phases w !! i = Some (CHeld p) -> procs w !! p = Some (Ours false) ->
    happens_in (HReap i) w (set_procs (delete p (procs w)) (set_phase i (CReaped p) w))
(* lib.rs:66-70 *)
| hi_forget w i p : phases w !! i = Some (CReaped p) -> unlocked w ->
    happens_in (HForget i) w (set_children (children w ∖ {[p]}) (set_phase i CNone w))
(* filter.rs:27-31, then the guard; in one step here. The system ends it; it keeps its id, for nobody waits for it *)
| hi_killed w i p : phases w !! i = Some (CHeld p) -> unlocked w ->
    happens_in (HKilled i p) w (set_procs (<[p := Ours false]> (procs w)) (set_children (children w ∖ {[p]}) (set_phase i CNone w)))
| hi_left w i p : phases w !! i = Some (CHeld p) -> unlocked w ->
    happens_in (HLeft i p) w (set_children (children w ∖ {[p]}) (set_phase i CNone w))
| hi_ends w p : procs w !! p = Some (Ours true) -> happens_in (HEnds p) w (set_procs (<[p := Ours false]> (procs w)) w)
| hi_stranger w p : procs w !! p = None -> happens_in (HStranger p) w (set_procs (<[p := Stranger]> (procs w)) w)
| hi_stranger_ends w p : procs w !! p = Some Stranger -> happens_in (HStrangerEnds p) w (set_procs (delete p (procs w)) w)
(* lib.rs:78: the lock is held until the loop is over; the order is the hash set's *)
| hi_fatal w i l : phases w !! i = Some CNone -> unlocked w -> l ≡ₚ elements (children w) ->
    happens_in (HFatal i) w (set_phase i (CFatal l l) w)
(* lib.rs:79-80: whatever has that id *)
| hi_ask w i l p ps : phases w !! i = Some (CFatal l (p :: ps)) ->
    happens_in (HAsk i p) w
      (mkWorld (procs w) (children w) (<[i := CFatal l ps]> (phases w)) (asked w ++ [(p, procs w !! p)]) (ended w))
| hi_unlock w i l : phases w !! i = Some (CFatal l []) -> happens_in (HUnlock i) w (set_phase i (CExiting l) w)
| hi_exit w i l : phases w !! i = Some (CExiting l) ->
    happens_in (HExit i) w (mkWorld (procs w) (children w) (phases w) (asked w) true).

(** Until the program has ended. *)
Inductive goes_on : list happening -> world -> world -> Prop :=
| go_nil w : goes_on [] w w
| go_snoc hs h w w' w'' : goes_on hs w w' -> ended w' = false -> happens_in h w' w'' -> goes_on (hs ++ [h]) w w''.
