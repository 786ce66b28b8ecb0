(** The bytes shown as compressed, uploaded and downloaded.  Models src/progress.rs:20-73
    and the counters of src/backend.rs:155-267 and src/pack.rs:202-300.

    The counters are [AtomicU64]s that are only added to; here they are unbounded. *)

From Verif Require Import Base Formats Pack CloudStore DiskCache.

(** A reader: [read s n r s'] when a call with a buffer of [n] bytes gives [r]. *)
Notation reader St := (St -> nat -> result bytes -> St -> Prop).
(** A writer: [write s x r s'] when a call with [x] takes as many bytes as [r] says. *)
Notation writer St := (St -> bytes -> result nat -> St -> Prop).

(** ** src/progress.rs:36-42 [AtomicCountRead::read] *)
Inductive count_read {St : Type} (read : reader St) : reader (St * N) :=
| count_read_ok s c n x s' : read s n (Ok x) s' -> count_read read (s, c) n (Ok x) (s', c + N.of_nat (length x))%N
| count_read_err s c n s' : read s n Err s' -> count_read read (s, c) n Err (s', c)
| count_read_panic s c n s' : read s n Panic s' -> count_read read (s, c) n Panic (s', c).

(** ** src/progress.rs:63-73 [AtomicCountWrite::write] *)
Inductive count_write {St : Type} (write : writer St) : writer (St * N) :=
| count_write_ok s c x k s' : write s x (Ok k) s' -> count_write write (s, c) x (Ok k) (s', c + N.of_nat k)%N
| count_write_err s c x s' : write s x Err s' -> count_write write (s, c) x Err (s', c)
| count_write_panic s c x s' : write s x Panic s' -> count_write write (s, c) x Panic (s', c).

(** Somebody makes some calls. *)
Inductive calls {St A R : Type} (call : St -> A -> result R -> St -> Prop) : St -> list (A * result R) -> St -> Prop :=
| calls_none s : calls call s [] s
| calls_more s a r s1 l s2 : call s a r s1 -> calls call s1 l s2 -> calls call s ((a, r) :: l) s2.

(** ** What is read from and written to *)

(** A file read from front to back; [rest] is to come.  A call gives at least one byte
    unless the file is at its end or the buffer has no room. *)
Inductive file_read : reader bytes :=
| file_some rest n k : 0 < k -> k <= n -> k <= length rest -> file_read rest n (Ok (take k rest)) (drop k rest)
| file_end n : file_read [] n (Ok []) []
| file_no_room rest : file_read rest 0 (Ok []) rest
| file_fails rest n : file_read rest n Err rest.

(** A file appended to: a call takes some of what it is given. *)
Inductive file_write : writer bytes :=
| file_takes file x k : k <= length x -> file_write file x (Ok k) (file ++ take k x)
| file_full file x : file_write file x Err file.

(** [io::copy]: reads until nothing comes.  The side written to may fail at any time. *)
Inductive copies {St : Type} (read : reader St) : St -> result bytes -> St -> Prop :=
| copies_some s n b s1 r s2 : read s n (Ok b) s1 -> b <> [] -> copies read s1 r s2 ->
    copies read s (let* rest := r in Ok (b ++ rest)) s2
| copies_end s n s' : 0 < n -> read s n (Ok []) s' -> copies read s (Ok []) s'
| copies_err s n s' : read s n Err s' -> copies read s Err s'
| copies_panic s n s' : read s n Panic s' -> copies read s Panic s'
| copies_not_taken s : copies read s Err s.

(** [write_all], as the compressor does: what is not taken is given again. *)
Inductive writes_all {St : Type} (write : writer St) : St -> bytes -> result unit -> St -> Prop :=
| writes_none s : writes_all write s [] (Ok tt) s
| writes_some s x k s1 r s2 : x <> [] -> 0 < k -> write s x (Ok k) s1 -> writes_all write s1 (drop k x) r s2 -> writes_all write s x r s2
| writes_zero s x s1 : x <> [] -> write s x (Ok 0) s1 -> writes_all write s x Err s1
| writes_err s x s1 : x <> [] -> write s x Err s1 -> writes_all write s x Err s1
| writes_panic s x s1 : x <> [] -> write s x Panic s1 -> writes_all write s x Panic s1.

(** ** src/backend.rs:236-267 [CachedBackend::write] *)

Section uploads.
Variable hex_sha1 : bytes -> bytes.

(** Where the file goes to (src/backend.rs:134-153): the directory itself or, for tests,
    the memory; or through the cache to a directory or a filter program, which copy what
    they are given (src/backend/fs.rs:87-91, src/backend/filter.rs:103-158), or to a bucket. *)
Inductive backing := Direct | InMemory | CopiedOn | Bucket.

(** An attempt of [put] (CloudStore.v) with its source counted: what it reads is what it
    leaves less. *)
Inductive counted_put (len : nat) : upload * N -> response unit -> upload * N -> Prop :=
| counted_attempt s c l rest c' r s' : calls (count_read file_read) (up_rest s, c) l (rest, c') ->
    put_attempt hex_sha1 len s r s' -> up_rest s' = rest -> counted_put len (s, c) r (s', c').

(** The file [x] is stored; the counter goes from [c] to [c']. *)
Inductive counted_write : backing -> bytes -> N -> result unit -> N -> Prop :=
(* 240-245 *)
| direct_fails x c : counted_write Direct x c Err c
| direct_done x c : counted_write Direct x c (Ok tt) (c + N.of_nat (length x))
(* 258-264; the file is unlinked last *)
| memory_fails x c : counted_write InMemory x c Err c
| memory_done x c r : r <> Panic -> counted_write InMemory x c r (c + N.of_nat (length x))
(* 246-257; [later]: what comes after reading it, there and in the cache *)
| seek_fails b x c : b = CopiedOn \/ b = Bucket -> counted_write b x c Err c
| copied_on x c r rest c' later : copies (count_read file_read) (x, c) r (rest, c') ->
    counted_write CopiedOn x c (let* _ := r in later) c'
| in_bucket x c n r s c' later : retry_run (counted_put (length x)) (mkUpload x [], c) n r (s, c') ->
    counted_write Bucket x c (let* _ := r in later) c'.

(** What the counter can be seen to be meanwhile. *)
Definition seen_writing (b : backing) (x : bytes) (c c' : N) : Prop :=
  match b with
  | Direct | InMemory => c' = c \/ c' = (c + N.of_nat (length x))%N
  | CopiedOn | Bucket => exists l rest, calls (count_read file_read) (x, c) l (rest, c')
  end.

(** src/upload.rs:16-32: files one after another until one fails. *)
Inductive counted_upload (b : backing) : list bytes -> N -> result unit -> N -> Prop :=
| upload_none c : counted_upload b [] c (Ok tt) c
| upload_next x l c c1 r c2 : counted_write b x c (Ok tt) c1 -> counted_upload b l c1 r c2 -> counted_upload b (x :: l) c r c2
| upload_fails x l c r c1 : counted_write b x c r c1 -> r <> Ok tt -> counted_upload b (x :: l) c r c1.
End uploads.

(** ** src/backend.rs:179-231 [CachedBackend::read] *)

(** 181-194: the length of the file is added as it is opened. *)
Definition direct_read (st : gmap bytes bytes) (name : bytes) (c : N) : result bytes * N :=
  match st !! name with
  | Some x => (Ok x, (c + N.of_nat (length x))%N)
  | None => (Err, c)
  end.

(** 195-224, on top of DiskCache.v: nothing is added if the cache has the file; otherwise
    what is fetched is counted as it is copied to the cache.  A process may stop or fail
    on the way. *)
Inductive counted_op (always_read : bool) : op -> bool -> cached * N -> option out -> cached * N -> Prop :=
| counted_hit name works s c o s' : always_read = false -> is_Some (ca_files (cd_cache s) !! name) ->
    cached_op always_read (Read name) works s o s' -> counted_op always_read (Read name) works (s, c) o (s', c)
| counted_missing name (works : bool) s c o s' : always_read = true \/ ca_files (cd_cache s) !! name = None ->
    (if works then cd_repo s !! name else None) = None ->
    cached_op always_read (Read name) works s o s' -> counted_op always_read (Read name) works (s, c) o (s', c)
| counted_fetch name (works : bool) s c o s' x rest c' : always_read = true \/ ca_files (cd_cache s) !! name = None ->
    (if works then cd_repo s !! name else None) = Some x ->
    copies (count_read file_read) (x, c) (Ok x) (rest, c') ->
    cached_op always_read (Read name) works s o s' -> counted_op always_read (Read name) works (s, c) o (s', c')
| counted_fetch_fails name works s c o s' x l rest c' : always_read = true \/ ca_files (cd_cache s) !! name = None ->
    cd_repo s !! name = Some x -> (forall y, o <> Some (Got y)) ->
    calls (count_read file_read) (x, c) l (rest, c') ->
    cached_op always_read (Read name) works s o s' -> counted_op always_read (Read name) works (s, c) o (s', c')
| counted_other o works s c r s' : (forall name, o <> Read name) -> cached_op always_read o works s r s' ->
    counted_op always_read o works (s, c) r (s', c).
Inductive counted_ops (always_read : bool) : cached * N -> list (op * option out) -> cached * N -> Prop :=
| ops_none s : counted_ops always_read s [] s
| ops_more s o works r s1 l s2 : counted_op always_read o works s r s1 -> counted_ops always_read s1 l s2 ->
    counted_ops always_read s ((o, r) :: l) s2.

(** ** src/pack.rs:212-227, 265-300 [PackfileWriter]

    The counter is behind the compressor: neither the magic number (line 219) nor the
    manifest and its length (line 284), which are written to the file itself, are counted.
    [z] is the compressed stream, [zm] the compressed manifest. *)
Inductive counted_pack (z zm : bytes) : N -> bytes -> N -> Prop :=
| counted_finish c f c' : writes_all (count_write file_write) (pack_magic, c) z (Ok tt) (f, c') ->
    counted_pack z zm c (f ++ zm ++ be_bytes 4 (N.of_nat (length zm))) c'.
(** One pack after another; both packers add to the same counter, in some order. *)
Inductive counted_packs : list (bytes * bytes) -> N -> list bytes -> N -> Prop :=
| packs_none c : counted_packs [] c [] c
| packs_more z zm l c f c1 fs c2 : counted_pack z zm c f c1 -> counted_packs l c1 fs c2 ->
    counted_packs ((z, zm) :: l) c (f :: fs) c2.
