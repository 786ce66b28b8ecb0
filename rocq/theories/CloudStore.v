(** The cloud backend.  Models b2/src/lib.rs:154-301 and src/backend/backblaze.rs:50-89,
    with the server as far as they depend on it. *)

From Verif Require Import Base Formats.

(** ** src/backend/backblaze.rs:51-67 [retry]

    An attempt changes the state and comes back with a value, an I/O error of this
    library ([b2::Error::Io]), or another error.  The pauses are left out. *)
Inductive response (A : Type) := Answer (a : A) | IoError | OtherError.
Arguments Answer {A} a.
Arguments IoError {A}.
Arguments OtherError {A}.

(** [retry_run attempt s n r s']: from [s], after [n] attempts, it returns [r]. *)
Inductive retry_run {St A : Type} (attempt : St -> response A -> St -> Prop) : St -> nat -> result A -> St -> Prop :=
| retry_ok s a s' : attempt s (Answer a) s' -> retry_run attempt s 1 (Ok a) s'
| retry_io s s' : attempt s IoError s' -> retry_run attempt s 1 Err s'
| retry_again s s1 n r s' : attempt s OtherError s1 -> retry_run attempt s1 n r s' -> retry_run attempt s (S n) r s'.

(** ** b2/src/lib.rs:212-252 [HashAppendingReader]

    [hex_sha1] is the text of the hash, 40 characters. *)
Section upload.
Variable hex_sha1 : bytes -> bytes.

Inductive hreader := Contents (rest seen : bytes) | HashSuffix (rest : bytes).
(** One [read] into a buffer of [n > 0] bytes; the source gives [k] of them, at least one
    unless it is at its end. *)
Inductive hread : hreader -> nat -> bytes -> hreader -> Prop :=
| hread_contents rest seen n k : 0 < k -> k <= n -> k <= length rest ->
    hread (Contents rest seen) n (take k rest) (Contents (drop k rest) (seen ++ take k rest))
| hread_turn seen n : 0 < n ->
    hread (Contents [] seen) n (take n (hex_sha1 seen)) (HashSuffix (drop n (hex_sha1 seen)))
| hread_suffix rest n : 0 < n -> hread (HashSuffix rest) n (take n rest) (HashSuffix (drop n rest)).
(** Reading until nothing comes. *)
Inductive hread_all : hreader -> bytes -> Prop :=
| hread_end r n r' : hread r n [] r' -> hread_all r []
| hread_more r n x r' y : hread r n x r' -> x <> [] -> hread_all r' y -> hread_all r (x ++ y).

(** ** b2/src/lib.rs:208-266 [put], 75-78 of the backend

    Whatever goes wrong in it is a [ureq::Error] and becomes [Error::Http]
    (b2/src/lib.rs:19-23), also when the connection or the source cannot be read; the
    other errors of the four requests are [UnexpectedResponse].  So there is no case with
    [IoError] here or below.

    What the server does with a body: the announced length must be there, and its last
    40 bytes be the hash of the others, which are stored as a new version. *)
Definition accepts (announced : nat) (body : bytes) : option bytes :=
  if bool_decide (length body = announced) then
    let x := take (length body - 40) body in
    if bool_decide (drop (length body - 40) body = hex_sha1 x) then Some x else None
  else None.

(** The source is read once, from where it was left; what is stored under the name. *)
Record upload := mkUpload { up_rest : bytes; up_stored : list bytes }.
(** [len]: the length announced (src/backend.rs:238, src/backend/filter.rs:153). *)
Inductive put_attempt (len : nat) : upload -> response unit -> upload -> Prop :=
| put_ok s x : accepts (len + 40) (up_rest s ++ hex_sha1 (up_rest s)) = Some x ->
    put_attempt len s (Answer tt) (mkUpload [] (up_stored s ++ [x]))
(* stored, but the answer is lost *)
| put_lost s x : accepts (len + 40) (up_rest s ++ hex_sha1 (up_rest s)) = Some x ->
    put_attempt len s OtherError (mkUpload [] (up_stored s ++ [x]))
(* something fails after [k] bytes of the source were read *)
| put_fails s k : put_attempt len s OtherError (mkUpload (drop k (up_rest s)) (up_stored s)).
Definition cloud_write (len : nat) : upload -> nat -> result unit -> upload -> Prop := retry_run (put_attempt len).
End upload.

(** ** b2/src/lib.rs:199-206 [get], 70-73 of the backend *)
Notation bucket := (gmap bytes (list bytes)). (* versions of each file, oldest first *)
(** A file that is not there is answered with status 404, which is not an I/O error. *)
Inductive get_attempt (b : bucket) (name : bytes) : unit -> response bytes -> unit -> Prop :=
| get_ok x vs : b !! name = Some vs -> last vs = Some x -> get_attempt b name tt (Answer x) tt
| get_missing : b !! name = None -> get_attempt b name tt OtherError tt
| get_fails vs : b !! name = Some vs -> get_attempt b name tt OtherError tt.

(** ** b2/src/lib.rs:268-301 [delete], 80-83 of the backend

    The versions of all files whose name begins with [name] are asked for. *)
Definition begins_with (p n : bytes) : bool := bool_decide (take (length p) n = p).
Definition versions (b : bucket) (p : bytes) : list (bytes * bytes) :=
  concat (map (fun nv => map (fun v => (nv.1, v)) nv.2) (filter (fun nv => begins_with p nv.1 = true) (map_to_list b))).
Inductive delete_attempt (name : bytes) : bucket -> response unit -> bucket -> Prop :=
| delete_ok (b : bucket) v : versions b name = [(name, v)] -> delete_attempt name b (Answer tt) (delete name b)
| delete_none (b : bucket) : versions b name = [] -> delete_attempt name b OtherError b
| delete_many (b : bucket) v1 v2 vs : versions b name = v1 :: v2 :: vs -> delete_attempt name b OtherError b
(* deleted, but the answer is lost *)
| delete_lost (b : bucket) v : versions b name = [(name, v)] -> delete_attempt name b OtherError (delete name b)
| delete_fails (b : bucket) : delete_attempt name b OtherError b.

(** ** b2/src/lib.rs:154-197 [list], 85-88 of the backend

    The server has the names in order, with what was done last ("upload", or for
    instance "hide") and a length.  It answers with up to [many > 0] of those with the
    prefix, from a name on, and the name to go on from if there are more. *)
Record entry := mkEntry { en_name : bytes; en_upload : bool; en_len : N }.
Definition page (many : nat) (files : list entry) (prefix : bytes) (start : option bytes) : list entry * option bytes :=
  let all := filter (fun e => begins_with prefix (en_name e) = true) files in
  let rest := match start with None => all | Some s => filter (fun e => bytes_ltb (en_name e) s = false) all end in
  (take many rest, en_name <$> head (drop many rest)).
Definition shown (es : list entry) : list (bytes * N) :=
  map (fun e => (en_name e, en_len e)) (filter (fun e => en_upload e = true) es).

(** Others may change the files between the requests; [states] has the files at each. *)
Inductive list_pages (prefix : bytes) : list (list entry) -> option bytes -> list (bytes * N) -> Prop :=
| list_last many files start es : 0 < many -> page many files prefix start = (es, None) ->
    list_pages prefix [files] start (shown es)
| list_next many files states start es s rest : 0 < many -> page many files prefix start = (es, Some s) ->
    list_pages prefix states (Some s) rest ->
    list_pages prefix (files :: states) start (shown es ++ rest).
