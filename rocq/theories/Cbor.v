(** CBOR (RFC 8949) as written and read by the [ciborium] crate.

    Every structure backpak stores (pack manifests, indexes, trees, snapshots)
    goes through [ciborium::into_writer] / [ciborium::from_reader]
    (src/pack.rs:66, src/index.rs:160, src/tree.rs:337, src/snapshot.rs:138).
    ciborium is a dependency whose source is not in /repo; this file models the
    part of the format those calls use.  Simplifications: indefinite-length
    strings, tags and floats are rejected by the decoder (backpak never writes
    them). *)

From Verif Require Import Base.

Inductive cbor :=
| CUint (n : N)                              (* major 0 *)
| CNint (n : N)                              (* major 1: the integer -1-n *)
| CBytes (b : bytes)                         (* major 2 *)
| CText (b : bytes)                          (* major 3, UTF-8 *)
| CArr (l : list cbor)                       (* major 4, definite on output *)
| CMap (indef : bool) (l : list (cbor * cbor)) (* major 5; serde's flatten writes indefinite maps *)
| CBool (b : bool)                           (* f4, f5 *)
| CNull.                                     (* f6 *)

(** Induction principle reaching through the nested lists. *)
Section cbor_ind.
Variable P : cbor -> Prop.
Hypothesis Huint : forall n, P (CUint n).
Hypothesis Hnint : forall n, P (CNint n).
Hypothesis Hbytes : forall b, P (CBytes b).
Hypothesis Htext : forall b, P (CText b).
Hypothesis Harr : forall l, Forall P l -> P (CArr l).
Hypothesis Hmap : forall i l, Forall (fun kv => P kv.1 /\ P kv.2) l -> P (CMap i l).
Hypothesis Hbool : forall b, P (CBool b).
Hypothesis Hnull : P CNull.

Fixpoint cbor_ind' (v : cbor) : P v :=
  match v with
  | CUint n => Huint n
  | CNint n => Hnint n
  | CBytes b => Hbytes b
  | CText b => Htext b
  | CArr l => Harr l
      ((fix go l : Forall P l :=
         match l with
         | [] => Forall_nil_2 P
         | x :: l' => Forall_cons_2 P x l' (cbor_ind' x) (go l')
         end) l)
  | CMap i l => Hmap i l
      ((fix go l : Forall (fun kv => P kv.1 /\ P kv.2) l :=
         match l with
         | [] => Forall_nil_2 _
         | (k, x) :: l' =>
             Forall_cons_2 (fun kv => P kv.1 /\ P kv.2) (k, x) l'
               (conj (cbor_ind' k) (cbor_ind' x)) (go l')
         end) l)
  | CBool b => Hbool b
  | CNull => Hnull
  end.
End cbor_ind.

(** ** UTF-8 validity (as [str::from_utf8]) *)

Definition is_cont (b : byte) : bool := (128 <=? b2n b)%N && (b2n b <? 192)%N.
Definition in_range (lo hi : N) (b : byte) : bool := (lo <=? b2n b)%N && (b2n b <=? hi)%N.

Fixpoint utf8_valid (l : bytes) : bool :=
  match l with
  | [] => true
  | b0 :: l1 =>
      if (b2n b0 <? 128)%N then utf8_valid l1
      else if in_range 194 223 b0 then
        match l1 with
        | b1 :: l2 => is_cont b1 && utf8_valid l2
        | _ => false
        end
      else if in_range 224 239 b0 then
        match l1 with
        | b1 :: b2 :: l3 =>
            (if N.eqb (b2n b0) 224 then in_range 160 191 b1
             else if N.eqb (b2n b0) 237 then in_range 128 159 b1
             else is_cont b1) && is_cont b2 && utf8_valid l3
        | _ => false
        end
      else if in_range 240 244 b0 then
        match l1 with
        | b1 :: b2 :: b3 :: l4 =>
            (if N.eqb (b2n b0) 240 then in_range 144 191 b1
             else if N.eqb (b2n b0) 244 then in_range 128 143 b1
             else is_cont b1) && is_cont b2 && is_cont b3 && utf8_valid l4
        | _ => false
        end
      else false
  end.

(** ** Encoding *)

(** Header with the shortest possible argument. *)
Definition enc_head (major n : N) : bytes :=
  if (n <? 24)%N then [n2b (major * 32 + n)]
  else if (n <? 2 ^ 8)%N then n2b (major * 32 + 24) :: be_bytes 1 n
  else if (n <? 2 ^ 16)%N then n2b (major * 32 + 25) :: be_bytes 2 n
  else if (n <? 2 ^ 32)%N then n2b (major * 32 + 26) :: be_bytes 4 n
  else n2b (major * 32 + 27) :: be_bytes 8 n.

Fixpoint enc (v : cbor) : bytes :=
  match v with
  | CUint n => enc_head 0 n
  | CNint n => enc_head 1 n
  | CBytes b => enc_head 2 (N.of_nat (length b)) ++ b
  | CText b => enc_head 3 (N.of_nat (length b)) ++ b
  | CArr l => enc_head 4 (N.of_nat (length l)) ++ concat (map enc l)
  | CMap false l =>
      enc_head 5 (N.of_nat (length l)) ++ concat (map (fun kv => enc kv.1 ++ enc kv.2) l)
  | CMap true l =>
      n2b 191 :: concat (map (fun kv => enc kv.1 ++ enc kv.2) l) ++ [n2b 255]
  | CBool b => [n2b (if b then 245 else 244)]
  | CNull => [n2b 246]
  end.

(** ** Decoding *)

Definition split_exact (n : N) (l : bytes) : option (bytes * bytes) :=
  if (n <=? N.of_nat (length l))%N
  then Some (take (N.to_nat n) l, drop (N.to_nat n) l)
  else None.

(** Header: major type, argument ([None] = indefinite), rest.  Non-minimal
    arguments are accepted, as ciborium does. *)
Definition dec_head (l : bytes) : option (N * option N * bytes) :=
  match l with
  | [] => None
  | b :: l' =>
      let major := (b2n b / 32)%N in
      let minor := (b2n b mod 32)%N in
      let wide w :=
        match split_exact w l' with
        | Some (a, r) => Some (major, Some (be_num 0 a), r)
        | None => None
        end in
      if (minor <? 24)%N then Some (major, Some minor, l')
      else if N.eqb minor 24 then wide 1%N
      else if N.eqb minor 25 then wide 2%N
      else if N.eqb minor 26 then wide 4%N
      else if N.eqb minor 27 then wide 8%N
      else if N.eqb minor 31 then Some (major, None, l')
      else None
  end.

Definition is_break (l : bytes) : option bytes :=
  match l with
  | b :: l' => if N.eqb (b2n b) 255 then Some l' else None
  | [] => None
  end.

(** The fuel only bounds recursion; [decode] supplies enough for any input. *)
Fixpoint dec (fuel : nat) (l : bytes) {struct fuel} : option (cbor * bytes) :=
  match fuel with
  | O => None
  | S f =>
      match dec_head l with
      | None => None
      | Some (0%N, Some n, r) => Some (CUint n, r)
      | Some (1%N, Some n, r) => Some (CNint n, r)
      | Some (2%N, Some n, r) =>
          match split_exact n r with Some (a, r') => Some (CBytes a, r') | None => None end
      | Some (3%N, Some n, r) =>
          match split_exact n r with
          | Some (a, r') => if utf8_valid a then Some (CText a, r') else None
          | None => None
          end
      | Some (4%N, Some n, r) =>
          match dec_seq f n r with Some (vs, r') => Some (CArr vs, r') | None => None end
      | Some (4%N, None, r) =>
          match dec_seq_indef f r with Some (vs, r') => Some (CArr vs, r') | None => None end
      | Some (5%N, Some n, r) =>
          match dec_pairs f n r with Some (vs, r') => Some (CMap false vs, r') | None => None end
      | Some (5%N, None, r) =>
          match dec_pairs_indef f r with Some (vs, r') => Some (CMap true vs, r') | None => None end
      | Some (7%N, Some 20%N, r) => Some (CBool false, r)
      | Some (7%N, Some 21%N, r) => Some (CBool true, r)
      | Some (7%N, Some 22%N, r) => Some (CNull, r)
      | _ => None
      end
  end
with dec_seq (fuel : nat) (n : N) (l : bytes) {struct fuel} : option (list cbor * bytes) :=
  match n with
  | 0%N => Some ([], l)
  | _ =>
      match fuel with
      | O => None
      | S f =>
          match dec f l with
          | None => None
          | Some (v, r) =>
              match dec_seq f (N.pred n) r with
              | Some (vs, r') => Some (v :: vs, r')
              | None => None
              end
          end
      end
  end
with dec_seq_indef (fuel : nat) (l : bytes) {struct fuel} : option (list cbor * bytes) :=
  match is_break l with
  | Some r => Some ([], r)
  | None =>
      match fuel with
      | O => None
      | S f =>
          match dec f l with
          | None => None
          | Some (v, r) =>
              match dec_seq_indef f r with
              | Some (vs, r') => Some (v :: vs, r')
              | None => None
              end
          end
      end
  end
with dec_pairs (fuel : nat) (n : N) (l : bytes) {struct fuel} : option (list (cbor * cbor) * bytes) :=
  match n with
  | 0%N => Some ([], l)
  | _ =>
      match fuel with
      | O => None
      | S f =>
          match dec f l with
          | None => None
          | Some (k, r) =>
              match dec f r with
              | None => None
              | Some (v, r2) =>
                  match dec_pairs f (N.pred n) r2 with
                  | Some (vs, r') => Some ((k, v) :: vs, r')
                  | None => None
                  end
              end
          end
      end
  end
with dec_pairs_indef (fuel : nat) (l : bytes) {struct fuel} : option (list (cbor * cbor) * bytes) :=
  match is_break l with
  | Some r => Some ([], r)
  | None =>
      match fuel with
      | O => None
      | S f =>
          match dec f l with
          | None => None
          | Some (k, r) =>
              match dec f r with
              | None => None
              | Some (v, r2) =>
                  match dec_pairs_indef f r2 with
                  | Some (vs, r') => Some ((k, v) :: vs, r')
                  | None => None
                  end
              end
          end
      end
  end.

Definition decode (l : bytes) : option (cbor * bytes) := dec (S (2 * length l)) l.

(** Values the encoder can represent: 64-bit arguments, valid UTF-8 in texts. *)
Fixpoint cbor_wf (v : cbor) : Prop :=
  match v with
  | CUint n | CNint n => (n < 2 ^ 64)%N
  | CBytes b => (N.of_nat (length b) < 2 ^ 64)%N
  | CText b => (N.of_nat (length b) < 2 ^ 64)%N /\ utf8_valid b = true
  | CArr l => (N.of_nat (length l) < 2 ^ 64)%N /\ foldr (fun v P => cbor_wf v /\ P) True l
  | CMap i l =>
      (i = false -> (N.of_nat (length l) < 2 ^ 64)%N)
      /\ foldr (fun kv P => (cbor_wf kv.1 /\ cbor_wf kv.2) /\ P) True l
  | CBool _ | CNull => True
  end.
