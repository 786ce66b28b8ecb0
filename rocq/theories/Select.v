(** Choosing snapshots: by name, as a list, and the ones to forget.

    Models src/snapshot.rs:236-302 and src/ui/forget.rs. *)

From Verif Require Import Base OMap Formats Hashing Repo.

Definition is_digit (b : byte) : bool := ((48 <=? b2n b) && (b2n b <=? 57))%N.
Definition digits_value (ds : bytes) : N := foldl (fun a b => 10 * a + (b2n b - 48))%N 0%N ds.

Fixpoint strip_prefix (p s : bytes) : option bytes :=
  match p, s with
  | [], _ => Some s
  | a :: p', b :: s' => if bool_decide (a = b) then strip_prefix p' s' else None
  | _ :: _, [] => None
  end.
Definition starts_with (p s : bytes) : bool := match strip_prefix p s with Some _ => true | None => false end.

(** src/snapshot.rs:251-264: the regular expression
    [^(?:LAST|HEAD)(?:(~)|(?:~([0-9]+)))?$] and the number it stands for.  The
    number is parsed as [usize], 64 bits here; [unwrap] panics if it is too big. *)
Definition parse_last (s : bytes) : option (result N) :=
  match strip_prefix (ascii_bytes "LAST") s, strip_prefix (ascii_bytes "HEAD") s with
  | Some r, _ | None, Some r =>
      match strip_prefix (ascii_bytes "~") r with
      | None => match r with [] => Some (Ok 0%N) | _ :: _ => None end
      | Some [] => Some (Ok 1%N)
      | Some (d :: ds) =>
          if forallb is_digit (d :: ds)
          then Some (if (digits_value (d :: ds) <? 2 ^ 64)%N then Ok (digits_value (d :: ds)) else Panic)
          else None
      end
  | None, None => None
  end.

(** src/snapshot.rs:237-286 [find].  (In line 267, [index + 1] wraps if the number
    is the biggest there is, as in a release build; it is only printed.) *)
Definition find_snapshot (snaps : list (snapshot * oid)) (s : bytes) : result (snapshot * oid) :=
  match oid_parse s with
  | Some id => of_option (List.find (fun x : snapshot * oid => bool_decide (x.2 = id)) snaps)
  | None =>
      match parse_last s with
      | Some n => let* n := n in of_option (if (n <? N.of_nat (length snaps))%N then rev snaps !! N.to_nat n else None)
      | None =>
          if Nat.ltb (length s) 4 then Err
          else match List.filter (fun x : snapshot * oid => starts_with s (oid_print x.2)) snaps with
               | [x] => Ok x
               | _ => Err
               end
      end
  end.

(** Rust's [sort_by_key], which is stable, by time. *)
Fixpoint insert_by_time (x : snapshot * oid) (l : list (snapshot * oid)) : list (snapshot * oid) :=
  match l with
  | [] => [x]
  | y :: l' => if (sn_time x.1 <=? sn_time y.1)%Z then x :: l else y :: insert_by_time x l'
  end.
Definition sort_by_time (l : list (snapshot * oid)) : list (snapshot * oid) := foldr insert_by_time [] l.

(** [dedup_by]: drops every element whose id is that of the last one kept. *)
Fixpoint dedup_from (x : snapshot * oid) (l : list (snapshot * oid)) : list (snapshot * oid) :=
  match l with
  | [] => [x]
  | y :: l' => if bool_decide (y.2 = x.2) then dedup_from x l' else x :: dedup_from y l'
  end.
Definition dedup (l : list (snapshot * oid)) : list (snapshot * oid) :=
  match l with [] => [] | x :: l' => dedup_from x l' end.

Fixpoint find_all (snaps : list (snapshot * oid)) (args : list bytes) : result (list (snapshot * oid)) :=
  match args with
  | [] => Ok []
  | a :: args' =>
      let* x := find_snapshot snaps a in
      let* xs := find_all snaps args' in
      Ok (x :: xs)
  end.

(** src/snapshot.rs:289-302 [from_args_list] *)
Definition from_args_list (snaps : list (snapshot * oid)) (args : list bytes) : result (list (snapshot * oid)) :=
  let* found := find_all snaps args in
  Ok (dedup (sort_by_time found)).

(** src/ui/forget.rs:82-102 [forget_snapshot_list]: the ids to remove, in order; a
    name that is not found is reported and skipped. *)
Fixpoint forget_list (snaps : list (snapshot * oid)) (args : list bytes) : result (list oid * bool) :=
  match args with
  | [] => Ok ([], true)
  | a :: args' =>
      match find_snapshot snaps a with
      | Panic => Panic
      | Err => let* r := forget_list snaps args' in Ok (r.1, false)
      | Ok x => let* r := forget_list snaps args' in Ok (x.2 :: r.1, r.2)
      end
  end.

(** src/ui/forget.rs:39-51 [run]: one argument DUPLICATES, or names.  The ids
    removed, and whether all names were found. *)
Definition forget_ids (snaps : list (snapshot * oid)) (args : list bytes) : result (list oid * bool) :=
  if bool_decide (args = [ascii_bytes "DUPLICATES"]) then Ok (repeats None snaps, true)
  else forget_list snaps args.
