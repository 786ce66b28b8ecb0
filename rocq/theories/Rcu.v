(** The place a thread publishes what it is working on, for the progress display of
    another to read: src/rcu.rs.

    Simplifications: memory is sequentially consistent (the [Release] swap and the
    consuming load of rcu.rs:42 and 55 are single steps of one order); boxes have numbers that
    are not used twice, so that using one after it is freed shows; of crossbeam_epoch this is all that is
    assumed: what is handed to [defer_destroy] may be destroyed at any moment from when the
    last guard goes that was there when it was handed over. *)

From Verif Require Import Base.

(** A call of [update] or [borrow], from its [pin] to the end of its guard.  Guards are
    named by their calls. *)
Inductive call (A : Type) :=
| Updating (v : A)          (* rcu.rs:41: pinned, not swapped yet *)
| Replaced (prev : nat)     (* rcu.rs:42: swapped, the previous box not handed over yet *)
| Leaving                   (* rcu.rs:44-46: handed over *)
| Borrowing                 (* rcu.rs:54: pinned, not loaded yet *)
| Borrowed (p : nat).       (* rcu.rs:55-60, 64-70: a [Borrow] *)
Arguments Updating {A}. Arguments Replaced {A}. Arguments Leaving {A}. Arguments Borrowing {A}. Arguments Borrowed {A}.

Record rcu (A : Type) := mkRcu {
  heap : gmap nat A;                    (* the boxes that are not freed *)
  used : gset nat;                      (* the boxes there have been *)
  inner : option nat;                   (* rcu.rs:11; [None]: dropped *)
  calls : gmap nat (call A);
  deferred : list (nat * gset nat);     (* handed over, and the guards waited for *)
}.
Arguments mkRcu {A}. Arguments heap {A}. Arguments used {A}. Arguments inner {A}. Arguments calls {A}. Arguments deferred {A}.

(** What can be seen of a step.  A [Read] of [None] is of freed memory. *)
Inductive label (A : Type) :=
| Quiet | Publish (a : nat) (v : A) | Borrow (i : nat) | Read (i : nat) (o : option A) | Release (i : nat)
| Destroy (a : nat) | Dropped (a : nat) | Panicked.
Arguments Quiet {A}. Arguments Publish {A}. Arguments Borrow {A}. Arguments Read {A}. Arguments Release {A}.
Arguments Destroy {A}. Arguments Dropped {A}. Arguments Panicked {A}.

(** rcu.rs:34-37 [new] (and 14-19 [default]). *)
Definition new_rcu {A} (v : A) : rcu A := mkRcu {[0 := v]} {[0]} (Some 0) ∅ [].

Definition set_call {A} (i : nat) (c : call A) (s : rcu A) : rcu A :=
  mkRcu (heap s) (used s) (inner s) (<[i := c]> (calls s)) (deferred s).

(** One step of any thread.  A call takes [&self]: none starts once the [Rcu] is dropped. *)
Inductive rcu_step {A} (s : rcu A) : label A -> rcu A -> Prop :=
(* rcu.rs:40-41 *)
| st_update i v : inner s <> None -> calls s !! i = None -> rcu_step s Quiet (set_call i (Updating v) s)
(* rcu.rs:42 *)
| st_swap i v a p : calls s !! i = Some (Updating v) -> a ∉ used s -> inner s = Some p ->
    rcu_step s (Publish a v)
      (mkRcu (<[a := v]> (heap s)) ({[a]} ∪ used s) (Some a) (<[i := Replaced p]> (calls s)) (deferred s))
(* rcu.rs:43 *)
| st_swap_null i v : calls s !! i = Some (Updating v) -> inner s = None -> rcu_step s Panicked s
(* rcu.rs:44-46 *)
| st_defer i p : calls s !! i = Some (Replaced p) ->
    rcu_step s Quiet
      (mkRcu (heap s) (used s) (inner s) (<[i := Leaving]> (calls s)) ((p, dom (calls s)) :: deferred s))
(* rcu.rs:53-54 *)
| st_borrow i : inner s <> None -> calls s !! i = None -> rcu_step s Quiet (set_call i Borrowing s)
(* rcu.rs:55 *)
| st_load i p : calls s !! i = Some Borrowing -> inner s = Some p -> rcu_step s (Borrow i) (set_call i (Borrowed p) s)
(* rcu.rs:56 *)
| st_load_null i : calls s !! i = Some Borrowing -> inner s = None -> rcu_step s Panicked s
(* rcu.rs:75-79 [deref] *)
| st_read i p : calls s !! i = Some (Borrowed p) -> rcu_step s (Read i (heap s !! p)) s
(* the guard goes: at the end of [update], or with the [Borrow] *)
| st_release i c : calls s !! i = Some c -> (c = Leaving \/ exists p, c = Borrowed p) ->
    rcu_step s (Release i)
      (mkRcu (heap s) (used s) (inner s) (delete i (calls s)) (map (fun d => (d.1, d.2 ∖ {[i]})) (deferred s)))
(* crossbeam_epoch, on any thread *)
| st_destroy p d1 d2 : deferred s = d1 ++ (p, ∅) :: d2 ->
    rcu_step s (Destroy p) (mkRcu (delete p (heap s)) (used s) (inner s) (calls s) (d1 ++ d2))
(* rcu.rs:21-31 [drop], which takes [&mut self]: no call is under way.  A [Borrow] may be
   there, for its type (64-70) has no lifetime. *)
| st_drop p : inner s = Some p -> (forall i c, calls s !! i = Some c -> exists q, c = Borrowed q) ->
    rcu_step s (Dropped p) (mkRcu (delete p (heap s)) (used s) None (calls s) (deferred s)).

(** What happens to an [Rcu] that starts with [v0]. *)
Inductive rcu_runs {A} (v0 : A) : list (label A) -> rcu A -> Prop :=
| runs_new : rcu_runs v0 [] (new_rcu v0)
| runs_step t s l s' : rcu_runs v0 t s -> rcu_step s l s' -> rcu_runs v0 (t ++ [l]) s'.
