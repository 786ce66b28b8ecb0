(** Progress output.  Models src/progress.rs:108-154 and 191-214. *)

From Verif Require Import Base Formats Hashing Locations.

(** ** src/progress.rs:191-214 [truncate_path]

    A text is shown as a list of symbols (grapheme clusters, crate
    unicode-segmentation); the string that is returned is their concatenation.
    [checks]: whether arithmetic is checked for overflow (as in debug builds) or wraps
    (as in release builds).  [w] is the width of the terminal. *)
Definition usize_sub (checks : bool) (a b : nat) : result Z :=
  if (checks && bool_decide (a < b)) then Panic else Ok ((Z.of_nat a - Z.of_nat b) mod 2 ^ 64)%Z.
Definition usize_add (checks : bool) (a b : Z) : result Z :=
  if (checks && bool_decide (2 ^ 64 <= a + b)%Z) then Panic else Ok ((a + b) mod 2 ^ 64)%Z.
(** [l[i..]] and [l[..i]] *)
Definition slice_from {A} (i : Z) (l : list A) : result (list A) :=
  if bool_decide (0 <= i <= Z.of_nat (length l))%Z then Ok (drop (Z.to_nat i) l) else Panic.
Definition slice_to {A} (i : Z) (l : list A) : result (list A) :=
  if bool_decide (0 <= i <= Z.of_nat (length l))%Z then Ok (take (Z.to_nat i) l) else Panic.

Definition dots : list bytes := [[dot]; [dot]; [dot]].

Definition truncate_path (checks : bool) (graphemes : bytes -> list bytes) (p : bytes) (w : nat) : result (list bytes) :=
  if bool_decide (w <= 3) then Ok (replicate w [dot])
  else
    let syms := graphemes p in
    if bool_decide (w < length syms) then
      match file_name p with
      | None => Panic                                   (* unwrap, line 202 *)
      | Some f =>
          let back := graphemes f in
          if bool_decide (w - 3 <= length back) then
            let* d := usize_sub checks (length back) w in
            let* i := usize_add checks d 3 in
            let* tail := slice_from i back in
            Ok (dots ++ tail)
          else
            let* front := slice_to (Z.of_nat (w - length back - 3)) syms in
            Ok (front ++ dots ++ back)
      end
    else Ok syms.

(** ** src/progress.rs:146-154 [spinner]: [None] is [unreachable_unchecked]. *)
Definition spinner (i : N) : option byte :=
  match (i mod 4)%N with
  | 0%N => Some x7c | 1%N => Some x2f | 2%N => Some x2d | 3%N => Some x5c
  | _ => None
  end.

(** ** src/progress.rs:75-144: the thread that draws

    [join] sets the flag and wakes the thread; [periodically] draws, and once it has
    seen the flag draws one last time.  [draw i] may fail. *)
Inductive drawer := Drawing (i : nat) (last : bool) | Looking (i : nat) | Returned (ok : bool).
Record pstate := mkPs { ps_flag : bool; ps_drawer : drawer; ps_drawn : list (nat * bool) (* round, was the flag set *) }.
Definition pstart : pstate := mkPs false (Drawing 0 false) [].
Inductive pstep : pstate -> pstate -> Prop :=
| p_draw f i last d : pstep (mkPs f (Drawing i last) d) (mkPs f (if last then Returned true else Looking i) (d ++ [(i, f)]))
| p_draw_fails f i last d : pstep (mkPs f (Drawing i last) d) (mkPs f (Returned false) d)
| p_see i d : pstep (mkPs true (Looking i) d) (mkPs true (Drawing (S i) true) d)
| p_time i d : pstep (mkPs false (Looking i) d) (mkPs false (Drawing (S i) false) d) (* not set, and time is up *)
| p_set w d : pstep (mkPs false w d) (mkPs true w d).
