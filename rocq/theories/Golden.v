(** The model's formats against the reference files kept in the repository.

    The property theorems take the hash as a parameter.  Here it is the real
    one, SHA-224 (src/hashing.rs:19-39, crate [sha2]), written out from FIPS
    180-4; with it the encoders of [Formats] and the id printer of [Hashing]
    give exactly the bytes of tests/references/*.stability and the id texts
    asserted by the code's own tests.  These are tests of the model's
    faithfulness, not proofs about it; the one theorem is that ids have 28
    bytes, the premise of the theorems that take a hash. *)

From Verif Require Import Base Cbor Formats Hashing.
From Coq Require Import String.
Local Open Scope N_scope.

(** ** SHA-224 *)

Definition w32 (n : N) : N := N.land n 0xffffffff.
Definition add32 (a b : N) : N := w32 (a + b).
Definition rotr (k n : N) : N := N.lor (N.shiftr n k) (w32 (N.shiftl n (32 - k))).
Definition xor3 (a b c : N) : N := N.lxor a (N.lxor b c).

Definition ch (x y z : N) : N := N.lxor (N.land x y) (N.ldiff z x).
Definition maj (x y z : N) : N := xor3 (N.land x y) (N.land x z) (N.land y z).
Definition bsig0 (x : N) : N := xor3 (rotr 2 x) (rotr 13 x) (rotr 22 x).
Definition bsig1 (x : N) : N := xor3 (rotr 6 x) (rotr 11 x) (rotr 25 x).
Definition ssig0 (x : N) : N := xor3 (rotr 7 x) (rotr 18 x) (N.shiftr x 3).
Definition ssig1 (x : N) : N := xor3 (rotr 17 x) (rotr 19 x) (N.shiftr x 10).

Definition round_constants : list N :=
  [0x428a2f98; 0x71374491; 0xb5c0fbcf; 0xe9b5dba5; 0x3956c25b; 0x59f111f1;
   0x923f82a4; 0xab1c5ed5; 0xd807aa98; 0x12835b01; 0x243185be; 0x550c7dc3;
   0x72be5d74; 0x80deb1fe; 0x9bdc06a7; 0xc19bf174; 0xe49b69c1; 0xefbe4786;
   0x0fc19dc6; 0x240ca1cc; 0x2de92c6f; 0x4a7484aa; 0x5cb0a9dc; 0x76f988da;
   0x983e5152; 0xa831c66d; 0xb00327c8; 0xbf597fc7; 0xc6e00bf3; 0xd5a79147;
   0x06ca6351; 0x14292967; 0x27b70a85; 0x2e1b2138; 0x4d2c6dfc; 0x53380d13;
   0x650a7354; 0x766a0abb; 0x81c2c92e; 0x92722c85; 0xa2bfe8a1; 0xa81a664b;
   0xc24b8b70; 0xc76c51a3; 0xd192e819; 0xd6990624; 0xf40e3585; 0x106aa070;
   0x19a4c116; 0x1e376c08; 0x2748774c; 0x34b0bcb5; 0x391c0cb3; 0x4ed8aa4a;
   0x5b9cca4f; 0x682e6ff3; 0x748f82ee; 0x78a5636f; 0x84c87814; 0x8cc70208;
   0x90befffa; 0xa4506ceb; 0xbef9a3f7; 0xc67178f2].

Definition initial_state : list N :=
  [0xc1059ed8; 0x367cd507; 0x3070dd17; 0xf70e5939; 0xffc00b31; 0x68581511;
   0x64f98fa7; 0xbefa4fa4].

(** The message schedule: the next word from the last sixteen, oldest first. *)
Definition next_word (w : list N) : N :=
  match w with
  | [w0; w1; _; _; _; _; _; _; _; w9; _; _; _; _; w14; _] =>
      add32 (add32 (ssig1 w14) w9) (add32 (ssig0 w1) w0)
  | _ => 0
  end.

Definition round (s : list N) (k w : N) : list N :=
  match s with
  | [a; b; c; d; e; f; g; h] =>
      let t1 := add32 (add32 h (bsig1 e)) (add32 (ch e f g) (add32 k w)) in
      let t2 := add32 (bsig0 a) (maj a b c) in
      [add32 t1 t2; a; b; c; add32 d t1; e; f; g]
  | _ => s
  end.

Fixpoint rounds (ks : list N) (w : list N) (s : list N) : list N :=
  match ks with
  | [] => s
  | k :: ks' =>
      match w with
      | [] => s
      | x :: w' => rounds ks' (w' ++ [next_word w])%list (round s k x)
      end
  end.

Definition block (s : list N) (words : list N) : list N :=
  zip_with add32 s (rounds round_constants words s).

Fixpoint words_of (l : bytes) : list N :=
  match l with
  | a :: b :: c :: d :: l' => be_num 0 [a; b; c; d] :: words_of l'
  | _ => []
  end.

Fixpoint blocks (fuel : nat) (s : list N) (words : list N) : list N :=
  match fuel, words with
  | O, _ | _, [] => s
  | S f, _ => blocks f (block s (take 16 words)) (drop 16 words)
  end.

(** A one bit, zeros up to the last eight bytes of a block, the length in bits. *)
Definition padded (m : bytes) : bytes :=
  (m ++ x80 :: replicate (N.to_nat ((119 - N.of_nat (List.length m) mod 64) mod 64)) x00 ++
   be_bytes 8 (8 * N.of_nat (List.length m)))%list.

Definition sha224 (m : bytes) : oid :=
  let w := words_of (padded m) in
  List.concat (map (be_bytes 4) (take 7 (blocks (List.length w) initial_state w))).

(** ** Ids have 28 bytes *)

Lemma round_length s k w : List.length s = 8%nat → List.length (round s k w) = 8%nat.
Proof. do 8 (destruct s as [|? s]; [done|]). by destruct s. Qed.

Lemma rounds_length ks : ∀ w s, List.length s = 8%nat → List.length (rounds ks w s) = 8%nat.
Proof.
  induction ks as [|k ks IH]; intros w s Hs; [done|]. destruct w as [|x w]; [done|].
  cbn [rounds]. by apply IH, round_length.
Qed.

Lemma blocks_length fuel : ∀ w s, List.length s = 8%nat → List.length (blocks fuel s w) = 8%nat.
Proof.
  induction fuel as [|f IH]; intros w s Hs; [done|]. cbn [blocks]. destruct w as [|x w]; [done|].
  apply IH. unfold block. rewrite zip_with_length, rounds_length by done. lia.
Qed.

Lemma four_each (l : list N) : List.length (List.concat (map (be_bytes 4) l)) = (4 * List.length l)%nat.
Proof.
  induction l as [|x l IH]; [done|]. cbn [map List.concat List.length].
  rewrite app_length, be_bytes_length, IH. lia.
Qed.

Theorem sha224_length m : List.length (sha224 m) = 28%nat.
Proof.
  unfold sha224. cbv zeta. rewrite four_each, take_length, blocks_length by done. done.
Qed.

Print Assumptions sha224_length.

(** ** Reference files *)

Definition hex_digit (c : Ascii.ascii) : N :=
  let n := Ascii.N_of_ascii c in if n <? 58 then n - 48 else n - 87.

Fixpoint of_hex (s : string) : bytes :=
  match s with
  | String a (String b s') => n2b (16 * hex_digit a + hex_digit b) :: of_hex s'
  | _ => []
  end.

Definition hash (s : string) : oid := sha224 (ascii_bytes s).

(** FIPS 180-4's own example. *)
Example sha224_abc :
  hash "abc" = of_hex "23097d223405d8228642a477bda255b32aadbce4bda0b3f7e36c9da7".
Proof. vm_compute. reflexivity. Qed.

(** src/pack.rs:501-533, tests/references/pack.stability. *)
Definition golden_pack : manifest :=
  [mkEntry Chunk 42 (hash "first"); mkEntry Tree 22 (hash "second"); mkEntry Chunk 42 (hash "third")].

Definition pack_stability : bytes := of_hex
  ("83a36474797065656368756e6b666c656e677468182a626964581c25dcea7702a33590fbc3b7" ++
   "7fca5c7e4185bf695016c6aac206732f2fa364747970656474726565666c656e677468166269" ++
   "64581cec509df26f24b037062470e4a3067e5208734c7b0efcf37bca421d21a3647479706565" ++
   "6368756e6b666c656e677468182a626964581cf4d22c82a590c71cf552851ad0d4f548a52038" ++
   "874ba6f7612c4c59e5").

Example pack_format : enc_manifest golden_pack = pack_stability.
Proof. vm_compute. reflexivity. Qed.

Example pack_id :
  oid_print (sha224 pack_stability) = ascii_bytes "7c3gq0qmkioptdivd2iid0j3s7u7coci7vmluicktm20q".
Proof. vm_compute. reflexivity. Qed.

(** src/index.rs:376-447, tests/references/index.stability. *)
Definition golden_index : Formats.index :=
  mkIndex [hash "Some previous index"; hash "Another previous index"]
    [(hash "pack o' chunks", [mkEntry Chunk 42 (hash "a chunk"); mkEntry Chunk 9001 (hash "another chunk")]);
     (hash "pack o'trees", [mkEntry Tree 182 (hash "first tree"); mkEntry Tree 22 (hash "second tree");
                            mkEntry Tree 11 (hash "third tree")])].

Definition index_stability : bytes := of_hex
  ("a26a7375706572736564657382581c329befd9e1bffd18c4c7d05a739bca4afac532372dc54d" ++
   "cdf6a47da9581c945a971b98a2adc42c3ca61656e2089d48d7e0d061b49ab48917d7e6657061" ++
   "636b73a2581cbf3975bd81535ece40f3f1a9c1ec6b2b40fb672dc6820522e407917182a36474" ++
   "797065656368756e6b666c656e677468182a626964581c8e271c18dff8b2a73c8be0fc2e6eb1" ++
   "9ce853918696c597d98e4fe1caa36474797065656368756e6b666c656e677468192329626964" ++
   "581c429e32a2b951547591ef5a14c0fe5e605dd472138fa7e67b00d38938581cc92cd38de241" ++
   "a08b21593ab23ff30600236e013a9319383094d918a483a364747970656474726565666c656e" ++
   "67746818b6626964581cca9e3a603fdaa767eefc8de804d1c56b3e1c3d1d886f23290360f852" ++
   "a364747970656474726565666c656e67746816626964581c15c418791a30a98f06ce8fe8b30f" ++
   "17d4239b3fd9a2bc1d2ff262e17da364747970656474726565666c656e6774680b626964581c" ++
   "a792c4e62ac50d7c746e0a2e505d8d27a1abe9cba7778993a82aee76").

Example index_format : enc_index golden_index = index_stability.
Proof. vm_compute. reflexivity. Qed.

Example index_id :
  oid_print (sha224 index_stability) = ascii_bytes "e3vr9p4gmumq8i1dafgum50iirupu6ahk9fn6c781b09a".
Proof. vm_compute. reflexivity. Qed.

(** src/snapshot.rs:310-353, tests/references/snapshot.stability (the stored
    form of version 1; the text of the time is jiff's). *)
Definition golden_snapshot : snapshot1 :=
  mkSnapshot1 (ascii_bytes "1969-07-20T20:17:40+00:00[UTC]") (ascii_bytes "Neil")
    [ascii_bytes "Apollo"; ascii_bytes "NASA"]
    [ascii_bytes "moon/orbit"; ascii_bytes "moon/tranquility-base"] (hash "One small step").

Definition snapshot_stability : bytes := of_hex
  ("a56474696d65781e313936392d30372d32305432303a31373a34302b30303a30305b5554435d" ++
   "66617574686f72644e65696c6474616773826641706f6c6c6f644e415341657061746873826a" ++
   "6d6f6f6e2f6f72626974756d6f6f6e2f7472616e7175696c6974792d62617365647472656558" ++
   "1cb2db70f812e48413d8e70a1f065fce9c7913b978c99706d4410c4d21").

Example snapshot_format : enc_snapshot1 golden_snapshot = snapshot_stability.
Proof. vm_compute. reflexivity. Qed.

Example snapshot_id :
  oid_print (sha224 snapshot_stability) = ascii_bytes "4t84ab7sgsjjss803e30mdrokbnibg7ubpb4leds2e91g".
Proof. vm_compute. reflexivity. Qed.

(** src/tree.rs:616-673, tests/references/tree.stability. *)
Definition golden_tree : tree :=
  [(ascii_bytes "UnixFileNode",
    mkNode (CFile [hash "first chunk"; hash "second chunk"; hash "third chunk"])
      (Posix (mkPosix 0x1a4 (Some 42) 1234 5678 0x1642b15bce41bf7f%Z 0x1642b15bc6e7ddfc%Z)));
   (ascii_bytes "WindowsDirNode",
    mkNode (CDir (hash "some subdirectory"))
      (Windows (mkWindows 0xdeadbeef None None (Some 0x16426b8bda1b2b1c%Z) (Some 0x1640c912439aa033%Z))))].

Definition tree_stability : bytes := of_hex
  ("a26c556e697846696c654e6f6465bf666368756e6b7383581c32abc37ef460db38547e7c004f" ++
   "011a5aa18816c29b3a619993b01c6c581cefc14081ac2bd7b7140f62bd33ac19f3d4025accbb" ++
   "fe2480c545f421581c9acea78ad4d265fc240ba4d1e58865b37a931cfe2fff13eed314ab2f68" ++
   "6d65746164617461a7647479706565706f736978646d6f64651901a46473697a65182a637569" ++
   "641904d26367696419162e656174696d651b1642b15bce41bf7f656d74696d651b1642b15bc6" ++
   "e7ddfcff6e57696e646f77734469724e6f6465bf6474726565581cc68b6c611d35fa4fb03a35" ++
   "75e2c4539ffcd41056b103b7da3e5cdf4e686d65746164617461a564747970656777696e646f" ++
   "77736a617474726962757465731adeadbeef6d6372656174696f6e5f74696d65f66b61636365" ++
   "73735f74696d651b16426b8bda1b2b1c6a77726974655f74696d651b1640c912439aa033ff").

Example tree_format : enc_tree golden_tree = tree_stability.
Proof. vm_compute. reflexivity. Qed.

Example tree_id :
  oid_print (sha224 tree_stability) = ascii_bytes "8orh4h6b5dbmv2d7g0hu46rgsfhre7477kn9lgp97cqbe".
Proof. vm_compute. reflexivity. Qed.

(** And each file is read back as what was written. *)
Example golden_read :
  dec_manifest pack_stability = Some (golden_pack, []) ∧ dec_index index_stability = Some (golden_index, []) ∧
  dec_snapshot1 snapshot_stability = Some (golden_snapshot, []) ∧ dec_tree tree_stability = Some (golden_tree, []).
Proof. repeat split; vm_compute; reflexivity. Qed.

