(** Reading JSON, after RFC 8259: a specification that does not know how the program writes
    it.  Booleans, negative numbers, fractions and escaped surrogate pairs are not read. *)

From Verif Require Import Base OMap Formats Hashing Select Cat Json.

Fixpoint skip_space (s : bytes) : bytes :=
  match s with
  | x20 :: r | x09 :: r | x0a :: r | x0d :: r => skip_space r
  | _ => s
  end.

Definition hex_value (b : byte) : option N :=
  let n := b2n b in
  if ((48 <=? n) && (n <=? 57))%N then Some (n - 48)%N
  else if ((97 <=? n) && (n <=? 102))%N then Some (n - 87)%N
  else if ((65 <=? n) && (n <=? 70))%N then Some (n - 55)%N
  else None.
(** A code point of the basic plane in UTF-8. *)
Definition utf8_of (n : N) : option bytes :=
  if (n <? 128)%N then Some [n2b n]
  else if (n <? 2048)%N then Some [n2b (192 + n / 64); n2b (128 + n mod 64)]
  else if ((55296 <=? n) && (n <? 57344))%N then None
  else Some [n2b (224 + n / 4096); n2b (128 + n / 64 mod 64); n2b (128 + n mod 64)].

(** The rest of a string, after its opening quote. *)
Fixpoint read_str (s : bytes) : option (bytes * bytes) :=
  match s with
  | [] => None
  | x22 :: r => Some ([], r)
  | x5c :: x22 :: r => '(t, r') ← read_str r; Some (x22 :: t, r')
  | x5c :: x5c :: r => '(t, r') ← read_str r; Some (x5c :: t, r')
  | x5c :: x2f :: r => '(t, r') ← read_str r; Some (x2f :: t, r')
  | x5c :: x62 :: r => '(t, r') ← read_str r; Some (x08 :: t, r')
  | x5c :: x66 :: r => '(t, r') ← read_str r; Some (x0c :: t, r')
  | x5c :: x6e :: r => '(t, r') ← read_str r; Some (x0a :: t, r')
  | x5c :: x72 :: r => '(t, r') ← read_str r; Some (x0d :: t, r')
  | x5c :: x74 :: r => '(t, r') ← read_str r; Some (x09 :: t, r')
  | x5c :: x75 :: a :: b :: c :: d :: r =>
      a' ← hex_value a; b' ← hex_value b; c' ← hex_value c; d' ← hex_value d;
      u ← utf8_of (((a' * 16 + b') * 16 + c') * 16 + d')%N;
      '(t, r') ← read_str r; Some (u ++ t, r')
  | x5c :: _ => None
  | b :: r => if (b2n b <? 32)%N then None else '(t, r') ← read_str r; Some (b :: t, r')
  end.

(** The longest run of digits. *)
Fixpoint read_digits (s : bytes) : bytes * bytes :=
  match s with
  | b :: r => if is_digit b then let '(ds, r') := read_digits r in (b :: ds, r') else ([], s)
  | [] => ([], [])
  end.
(** An integer: no leading zero, no fraction, no exponent. *)
Definition read_num (s : bytes) : option (N * bytes) :=
  let '(ds, r) := read_digits s in
  if match ds with [] => false | x30 :: _ :: _ => false | _ => true end &&
     match r with x2e :: _ | x65 :: _ | x45 :: _ => false | _ => true end
  then Some (digits_value ds, r) else None.

Fixpoint read_value (fuel : nat) (s : bytes) {struct fuel} : option (json * bytes) :=
  match fuel with
  | 0 => None
  | S f =>
      match skip_space s with
      | x6e :: x75 :: x6c :: x6c :: r => Some (JNull, r)
      | x22 :: r => '(t, r') ← read_str r; Some (JStr t, r')
      | x5b :: r =>
          match skip_space r with
          | x5d :: r' => Some (JArr [], r')
          | _ => '(l, r') ← read_items f r; Some (JArr l, r')
          end
      | x7b :: r =>
          match skip_space r with
          | x7d :: r' => Some (JObj [], r')
          | _ => '(l, r') ← read_members f r; Some (JObj l, r')
          end
      | s' => '(n, r) ← read_num s'; Some (JNum n, r)
      end
  end
with read_items (fuel : nat) (s : bytes) {struct fuel} : option (list json * bytes) :=
  match fuel with
  | 0 => None
  | S f =>
      '(v, r) ← read_value f s;
      match skip_space r with
      | x2c :: r' => '(l, r'') ← read_items f r'; Some (v :: l, r'')
      | x5d :: r' => Some ([v], r')
      | _ => None
      end
  end
with read_members (fuel : nat) (s : bytes) {struct fuel} : option (list (bytes * json) * bytes) :=
  match fuel with
  | 0 => None
  | S f =>
      match skip_space s with
      | x22 :: r0 =>
          '(k, r1) ← read_str r0;
          match skip_space r1 with
          | x3a :: r2 =>
              '(v, r) ← read_value f r2;
              match skip_space r with
              | x2c :: r' => '(l, r'') ← read_members f r'; Some ((k, v) :: l, r'')
              | x7d :: r' => Some ([(k, v)], r')
              | _ => None
              end
          | _ => None
          end
      | _ => None
      end
  end.

(** A whole text. *)
Definition read_json (s : bytes) : option json :=
  match read_value (S (length s)) s with
  | Some (j, r) => match skip_space r with [] => Some j | _ => None end
  | None => None
  end.

(** What an object has under a name. *)
Definition look (name : string) (j : json) : option json :=
  match j with
  | JObj l => snd <$> List.find (fun kv : bytes * json => bool_decide (kv.1 = ascii_bytes name)) l
  | _ => None
  end.

(** ** What is to be seen of each kind of object *)

Definition text_is (s : string) (o : option json) : Prop := o = Some (JStr (ascii_bytes s)).
(** A text that stands for an id. *)
Definition id_is (i : oid) (o : option json) : Prop := exists s, o = Some (JStr s) /\ oid_parse s = Some i.
Definition ids_are (is : list oid) (o : option json) : Prop :=
  exists l, o = Some (JArr l) /\ Forall2 (fun i j => id_is i (Some j)) is l.
Definition texts_are (ts : list bytes) (o : option json) : Prop := o = Some (JArr (map JStr ts)).

Definition entry_seen (e : entry) (j : json) : Prop :=
  text_is (match e_type e with Chunk => "chunk" | Tree => "tree" end) (look "type" j) /\
  look "length" j = Some (JNum (e_len e)) /\ id_is (e_id e) (look "id" j).
Definition manifest_seen (m : manifest) (j : json) : Prop := exists l, j = JArr l /\ Forall2 entry_seen m l.
Definition index_seen (ix : index) (j : json) : Prop :=
  ids_are (ix_supersedes ix) (look "supersedes" j) /\
  exists l, look "packs" j = Some (JObj l) /\ NoDup l.*1 /\
    Forall2 (fun (pm : oid * manifest) (kv : bytes * json) => oid_parse kv.1 = Some pm.1 /\ manifest_seen pm.2 kv.2) (ix_packs ix) l.

Section times.
Variable show_time : Z -> bytes.
Variable show_zoned : Z -> bytes -> bytes.

Definition time_is (z : Z) (o : option json) : Prop := o = Some (JStr (show_time z)).
Definition maybe_time_is (z : option Z) (o : option json) : Prop :=
  match z with Some z => time_is z o | None => o = Some JNull end.
Definition metadata_seen (m : metadata) (j : json) : Prop :=
  match m with
  | Posix p =>
      text_is "posix" (look "type" j) /\ look "mode" j = Some (JNum (p_mode p)) /\ look "size" j = JNum <$> p_size p /\
      look "uid" j = Some (JNum (p_uid p)) /\ look "gid" j = Some (JNum (p_gid p)) /\
      time_is (p_atime p) (look "atime" j) /\ time_is (p_mtime p) (look "mtime" j)
  | Windows w =>
      text_is "windows" (look "type" j) /\ look "attributes" j = Some (JNum (w_attributes w)) /\ look "size" j = JNum <$> w_size w /\
      maybe_time_is (w_creation w) (look "creation_time" j) /\ maybe_time_is (w_access w) (look "access_time" j) /\
      maybe_time_is (w_write w) (look "write_time" j)
  end.
Definition node_seen (n : node) (j : json) : Prop :=
  match n_contents n with
  | CFile cs => ids_are cs (look "chunks" j) /\ look "tree" j = None /\ look "symlink" j = None
  | CDir t => look "chunks" j = None /\ id_is t (look "tree" j) /\ look "symlink" j = None
  | CSymlink t => look "chunks" j = None /\ look "tree" j = None /\ look "symlink" j = Some (JStr t)
  end /\
  exists m, look "metadata" j = Some m /\ metadata_seen (n_meta n) m.
Definition tree_seen (t : tree) (j : json) : Prop :=
  exists l, j = JObj l /\ NoDup l.*1 /\
    Forall2 (fun (e : bytes * node) (kv : bytes * json) => kv.1 = e.1 /\ node_seen e.2 kv.2) t l.
Definition snapshot_seen (s : snapshot) (j : json) : Prop :=
  look "time" j = Some (JStr (show_zoned (sn_time s) (sn_tz s))) /\ look "author" j = Some (JStr (sn_author s)) /\
  texts_are (sn_tags s) (look "tags" j) /\ texts_are (sn_paths s) (look "paths" j) /\ id_is (sn_tree s) (look "tree" j).

(** What a reader of JSON sees in what is printed. *)
Definition seen (c : cat_shown) (j : json) : Prop :=
  match c with
  | ShowBytes _ => False
  | ShowTree t => tree_seen t j
  | ShowPack m => manifest_seen m j
  | ShowIndex ix => index_seen ix j
  | ShowSnapshot s => snapshot_seen s j
  end.
End times.

(** What the types of the program can hold. *)
Definition shown_wf (c : cat_shown) : Prop :=
  match c with
  | ShowBytes _ => True
  | ShowTree t => tree_wf t
  | ShowPack m => manifest_wf m
  | ShowIndex ix => index_wf ix
  | ShowSnapshot s => snapshot_wf s
  end.
(** Of that, only this matters here: ids are 28 bytes long, and maps have each key once. *)
Definition ids_in (c : contents) : list oid := match c with CFile cs => cs | CDir i => [i] | CSymlink _ => [] end.
Definition shown_ok (c : cat_shown) : Prop :=
  match c with
  | ShowBytes _ => True
  | ShowTree t => om_sorted t /\ Forall (fun e : bytes * node => Forall oid_wf (ids_in (n_contents e.2))) t
  | ShowPack m => Forall (fun e => oid_wf (e_id e)) m
  | ShowIndex ix => om_sorted (ix_packs ix) /\ Forall oid_wf (ix_supersedes ix) /\
      Forall (fun pm : oid * manifest => oid_wf pm.1 /\ Forall (fun e => oid_wf (e_id e)) pm.2) (ix_packs ix)
  | ShowSnapshot s => oid_wf (sn_tree s)
  end.
Definition same_kind (c c' : cat_shown) : Prop :=
  match c, c' with
  | ShowBytes _, ShowBytes _ | ShowTree _, ShowTree _ | ShowPack _, ShowPack _ | ShowIndex _, ShowIndex _
  | ShowSnapshot _, ShowSnapshot _ => True
  | _, _ => False
  end.
