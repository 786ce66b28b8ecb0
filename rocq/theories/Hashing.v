(** Object ids: text form, and hashing while reading or writing.

    Models src/hashing.rs. *)

From Verif Require Import Base Formats.

(** ** Base 32 (src/hashing.rs:12-17, crate [data_encoding])

    [Specification] with the 32 symbols below, most significant bit first, no
    padding, trailing bits checked (the crate's defaults). *)

Definition symbols : bytes := ascii_bytes "0123456789abcdefghijklmnopqrstuv".

(** [w] bits of a number, most significant first. *)
Fixpoint bits_of (w : nat) (n : N) : list bool :=
  match w with
  | O => []
  | S w' => N.testbit n (N.of_nat w') :: bits_of w' n
  end.

Fixpoint num_of (acc : N) (l : list bool) : N :=
  match l with
  | [] => acc
  | b :: l' => num_of (2 * acc + (if b then 1 else 0))%N l'
  end.

(** Cut a bit string into groups of [k]; the last one is filled up with zeros. *)
Fixpoint groups (k : nat) (fuel : nat) (l : list bool) : list (list bool) :=
  match fuel with
  | O => []
  | S f =>
      match l with
      | [] => []
      | _ => let g := take k l in
             (g ++ replicate (k - length g) false) :: groups k f (drop k l)
      end
  end.

Definition byte_bits (l : bytes) : list bool := concat (map (fun b => bits_of 8 (b2n b)) l).

Definition sym (g : list bool) : byte := nth (N.to_nat (num_of 0 g)) symbols x00.

Fixpoint index_of (b : byte) (l : bytes) : option nat :=
  match l with
  | [] => None
  | x :: l' => if bool_decide (x = b) then Some O else S <$> index_of b l'
  end.

Definition unsym (b : byte) : option (list bool) :=
  i ← index_of b symbols; Some (bits_of 5 (N.of_nat i)).

(** [BASE32.encode] *)
Definition base32_encode (l : bytes) : bytes :=
  let bits := byte_bits l in map sym (groups 5 (length bits) bits).

(** [BASE32.decode]: the length must be one an encoder can produce, every
    character a symbol, the unused trailing bits zero. *)
Definition base32_decode (s : bytes) : option bytes :=
  vals ← mapM unsym s;
  if bool_decide (length s mod 8 ∈ [0; 2; 4; 5; 7]) then
    let bits := concat vals in
    let n := length bits / 8 in
    if forallb negb (drop (8 * n) bits)
    then Some (map (fun g => n2b (num_of 0 g)) (groups 8 n (take (8 * n) bits)))
    else None
  else None.

(** src/hashing.rs:54-58 [Display for ObjectId]. *)
Definition oid_print (i : oid) : bytes := base32_encode i.

(** src/hashing.rs:60-76 [FromStr for ObjectId]. *)
Definition oid_parse (s : bytes) : option oid :=
  b ← base32_decode s;
  if Nat.eqb (length b) 28 then Some b else None.

(** src/hashing.rs:41-45 [short_name]. *)
Definition short_name (i : oid) : bytes := take 8 (oid_print i).

(** ** Hashing readers and writers (src/hashing.rs:120-174)

    The incremental SHA-224 state is modelled by the bytes absorbed so far; the
    digest function itself is a parameter [H]. *)

Section hashing.
Variable H : bytes -> oid.

Record hasher := mkHasher { absorbed : bytes }.
Definition hasher_new : hasher := mkHasher [].
Definition hasher_update (h : hasher) (b : bytes) : hasher := mkHasher (absorbed h ++ b).
Definition hasher_finalize (h : hasher) : oid := H (absorbed h).

(** An OS-level reader: the bytes left, and how many bytes it will hand out at
    each call (never more than asked for or left). *)
Definition os_read (want give : nat) (inner : bytes) : bytes * bytes :=
  let n := want `min` give `min` length inner in (take n inner, drop n inner).

(** src/hashing.rs:138-144 [HashingReader::read]. *)
Definition hreader_read (want give : nat) (st : bytes * hasher) : bytes * (bytes * hasher) :=
  let '(buf, rest) := os_read want give st.1 in
  (buf, (rest, hasher_update st.2 buf)).

(** A caller reading with buffer sizes and OS behaviour [calls]. *)
Fixpoint hreader_run (calls : list (nat * nat)) (st : bytes * hasher) : bytes * (bytes * hasher) :=
  match calls with
  | [] => ([], st)
  | (want, give) :: calls' =>
      let '(b, st1) := hreader_read want give st in
      let '(bs, st2) := hreader_run calls' st1 in
      (b ++ bs, st2)
  end.

(** src/hashing.rs:164-169 [HashingWriter::write]: the inner writer takes
    [accept] bytes of the buffer; only those are hashed. *)
Definition hwriter_write (accept : nat) (buf : bytes) (st : bytes * hasher) : nat * (bytes * hasher) :=
  let n := accept `min` length buf in
  (n, (st.1 ++ take n buf, hasher_update st.2 (take n buf))).

(** [Write::write_all]: keep writing the unwritten rest. Each element of [accepts]
    is what the inner writer takes next; it gives up when they run out. *)
Fixpoint hwriter_write_all (accepts : list nat) (buf : bytes) (st : bytes * hasher)
  : option (list nat * (bytes * hasher)) :=
  match buf with
  | [] => Some (accepts, st)
  | _ =>
      match accepts with
      | [] => None
      | a :: accepts' =>
          let '(n, st') := hwriter_write a buf st in
          match n with
          | O => None (* WriteZero error *)
          | _ => hwriter_write_all accepts' (drop n buf) st'
          end
      end
  end.

Definition hwriter_run (accepts : list nat) (bufs : list bytes) (st : bytes * hasher)
  : option (list nat * (bytes * hasher)) :=
  foldl (fun acc buf => '(a, st) ← acc; hwriter_write_all a buf st) (Some (accepts, st)) bufs.

End hashing.
