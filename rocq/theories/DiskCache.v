(** The cache of repository files on the local disk, and a repository behind it.
    Models src/backend/cache.rs:81-193 and the cached side of src/backend.rs:177-283. *)

From Verif Require Import Base.

(** ** src/backend/cache.rs:27-79: a directory of files, and a database with a row
    (time last used, size) for each, and the limit.

    Numbers in the database are [i64]; here they are integers, so the sum in [prune]
    does not wrap (files would have to exceed 2^62 bytes). *)
Record cache := mkCache {
  ca_files : gmap bytes bytes;
  ca_rows : gmap bytes (Z * Z);
  ca_limit : Z
}.

Definition size_of (x : bytes) : Z := Z.of_nat (length x).

(** src/backend/cache.rs:116-122 [bump_row]; [now] is what the clock says. *)
Definition bump_row (now : Z) (name : bytes) (size : Z) (c : cache) : cache :=
  mkCache (ca_files c) (<[name := (now, size)]> (ca_rows c)) (ca_limit c).

(** src/backend/cache.rs:81-97 [try_read] *)
Definition try_read (now : Z) (name : bytes) (c : cache) : option bytes * cache :=
  match ca_files c !! name with
  | Some x => (Some x, bump_row now name (size_of x) c)
  | None => (None, mkCache (ca_files c) (delete name (ca_rows c)) (ca_limit c))
  end.

(** src/backend/cache.rs:102-114 [insert], [insert_file], in two steps: the file is
    put in place (FileMoves.v), then the row is written. *)
Definition insert_file (name x : bytes) (c : cache) : cache :=
  mkCache (<[name := x]> (ca_files c)) (ca_rows c) (ca_limit c).
Definition cache_insert (now : Z) (name x : bytes) (c : cache) : cache :=
  bump_row now name (size_of x) (insert_file name x c).

(** src/backend/cache.rs:124-141 [evict], also in two steps. *)
Definition delete_file (name : bytes) (c : cache) : cache :=
  mkCache (delete name (ca_files c)) (ca_rows c) (ca_limit c).
Definition evict (name : bytes) (c : cache) : cache :=
  mkCache (delete name (ca_files c)) (delete name (ca_rows c)) (ca_limit c).

(** src/backend/cache.rs:159-174: walks the rows while there is room.  [None]: all fit.
    Otherwise the time of the last row taken, and the rows left over. *)
Fixpoint scan (limit acc : Z) (oldest : option Z) (rows : list (bytes * (Z * Z))) : option (option Z * list (bytes * (Z * Z))) :=
  if (acc <? limit)%Z then
    match rows with
    | [] => None
    | (_, (t, s)) :: rows => scan limit (acc + s) (Some t) rows
    end
  else Some (oldest, rows).

(** src/backend/cache.rs:154-156: "ORDER BY time DESC" leaves the order of equal times open. *)
Definition newest_first (rows : gmap bytes (Z * Z)) (order : list (bytes * (Z * Z))) : Prop :=
  order ≡ₚ map_to_list rows /\ StronglySorted (fun a b => b.2.1 <= a.2.1)%Z order.

(** src/backend/cache.rs:143-193 [prune].  The rows go in one transaction; the files
    have been deleted by then. *)
Definition prune_with (order : list (bytes * (Z * Z))) (c : cache) : cache * result unit :=
  match scan (ca_limit c) 0 None order with
  | None => (c, Ok tt)
  | Some (oldest, rest) =>
      let files := foldr (fun r m => delete r.1 m) (ca_files c) rest in
      match oldest with
      | Some o => (mkCache files (filter (fun r => ~ (r.2.1 < o)%Z) (ca_rows c)) (ca_limit c), Ok tt)
      | None => (mkCache files (ca_rows c) (ca_limit c), Err)
      end
  end.
Definition prunes (c c' : cache) (r : result unit) : Prop :=
  exists order, newest_first (ca_rows c) order /\ prune_with order c = (c', r).

(** ** src/backend.rs:177-283: one user of one repository *)

(** Files in the repository go by the same names (the directory they are put in depends
    on the extension alone: C50). *)
Record cached := mkCached { cd_repo : gmap bytes bytes; cd_cache : cache }.
Definition on_cache (f : cache -> cache) (s : cached) : cached := mkCached (cd_repo s) (f (cd_cache s)).

Inductive op := Read (name : bytes) | Put (name x : bytes) | Remove (name : bytes) | SetLimit (limit : Z).
Inductive out := Got (x : bytes) | Done | Failed.

(** An operation at time [now]; [works] says whether the repository answers when it is
    asked.  The output is [None] when the process stops on the way. *)
Inductive cached_op (always_read : bool) : op -> bool -> cached -> option out -> cached -> Prop :=
(* read: 200-208 *)
| read_hit name works now s x c' : always_read = false ->
    try_read now name (cd_cache s) = (Some x, c') ->
    cached_op always_read (Read name) works s (Some (Got x)) (mkCached (cd_repo s) c')
| read_hit_stopped name works s : cached_op always_read (Read name) works s None s
(* read: 209-222 *)
| read_missing name (works : bool) now s c1 :
    (if always_read then c1 = cd_cache s else try_read now name (cd_cache s) = (None, c1)) ->
    (if works then cd_repo s !! name else None) = None ->
    cached_op always_read (Read name) works s (Some Failed) (mkCached (cd_repo s) c1)
| read_fetch_stopped name (works : bool) now s c1 x :
    (if always_read then c1 = cd_cache s else try_read now name (cd_cache s) = (None, c1)) ->
    works = true -> cd_repo s !! name = Some x ->
    cached_op always_read (Read name) works s None (mkCached (cd_repo s) (insert_file name x c1))
| read_fetch name (works : bool) now s c1 x c2 r :
    (if always_read then c1 = cd_cache s else try_read now name (cd_cache s) = (None, c1)) ->
    works = true -> cd_repo s !! name = Some x ->
    prunes (cache_insert now name x c1) c2 r ->
    cached_op always_read (Read name) works s (Some (match r with Ok _ => Got x | _ => Failed end)) (mkCached (cd_repo s) c2)
(* write: 246-257 *)
| put_refused name x s : cached_op always_read (Put name x) false s (Some Failed) s
| put_not_begun name x works s : cached_op always_read (Put name x) works s None s
| put_stopped name x s : cached_op always_read (Put name x) true s None (mkCached (<[name := x]> (cd_repo s)) (cd_cache s))
| put_stopped_later name x s :
    cached_op always_read (Put name x) true s None (mkCached (<[name := x]> (cd_repo s)) (insert_file name x (cd_cache s)))
| put_done name x now s c2 r :
    prunes (cache_insert now name x (cd_cache s)) c2 r ->
    cached_op always_read (Put name x) true s (Some (match r with Ok _ => Done | _ => Failed end))
      (mkCached (<[name := x]> (cd_repo s)) c2)
(* remove: 274-280 *)
| remove_stopped name works s : cached_op always_read (Remove name) works s None (on_cache (delete_file name) s)
| remove_stopped_later name works s : cached_op always_read (Remove name) works s None (on_cache (evict name) s)
| remove_stopped_last name s x : cd_repo s !! name = Some x ->
    cached_op always_read (Remove name) true s None (mkCached (delete name (cd_repo s)) (evict name (cd_cache s)))
| remove_refused name (works : bool) s : (if works then cd_repo s !! name else None) = None ->
    cached_op always_read (Remove name) works s (Some Failed) (on_cache (evict name) s)
| remove_done name s x : cd_repo s !! name = Some x ->
    cached_op always_read (Remove name) true s (Some Done) (mkCached (delete name (cd_repo s)) (evict name (cd_cache s)))
(* src/backend/cache.rs:69-73: someone opens the cache with another size *)
| set_limit limit works s :
    cached_op always_read (SetLimit limit) works s (Some Done)
      (on_cache (fun c => mkCache (ca_files c) (ca_rows c) limit) s).

(** ** Several threads and processes, and several repositories, behind one cache

    The steps of src/backend.rs:195-283 taken apart.  Rows and times only decide what
    [prune] deletes, so here it deletes whatever it likes whenever it likes. *)
Inductive doing :=
| Idle
| Missed (repo : nat) (name : bytes)
| Fetched (repo : nat) (name x : bytes)
| Written (name x : bytes)
| Evicted (repo : nat) (name : bytes).

Record world := mkWorld { wd_repos : nat -> gmap bytes bytes; wd_files : gmap bytes bytes; wd_doing : nat -> doing }.
Definition set {A} (f : nat -> A) (i : nat) (a : A) : nat -> A := fun j => if decide (j = i) then a else f j.

Inductive event := Returned (repo : nat) (name x : bytes) | Missing (repo : nat) (name : bytes)
  | Stored (repo : nat) (name x : bytes) | Removed (repo : nat) (name : bytes) | Silent.

Inductive wstep : world -> event -> world -> Prop :=
| w_hit w t r n x : wd_doing w t = Idle -> wd_files w !! n = Some x -> wstep w (Returned r n x) w
| w_miss w t r n : wd_doing w t = Idle ->
    wstep w Silent (mkWorld (wd_repos w) (wd_files w) (set (wd_doing w) t (Missed r n)))
| w_none w t r n : wd_doing w t = Missed r n -> wd_repos w r !! n = None ->
    wstep w (Missing r n) (mkWorld (wd_repos w) (wd_files w) (set (wd_doing w) t Idle))
| w_fetch w t r n x : wd_doing w t = Missed r n -> wd_repos w r !! n = Some x ->
    wstep w Silent (mkWorld (wd_repos w) (wd_files w) (set (wd_doing w) t (Fetched r n x)))
| w_insert w t r n x : wd_doing w t = Fetched r n x ->
    wstep w (Returned r n x) (mkWorld (wd_repos w) (<[n := x]> (wd_files w)) (set (wd_doing w) t Idle))
| w_put w t r n x : wd_doing w t = Idle ->
    wstep w (Stored r n x) (mkWorld (set (wd_repos w) r (<[n := x]> (wd_repos w r))) (wd_files w) (set (wd_doing w) t (Written n x)))
| w_put_insert w t n x : wd_doing w t = Written n x ->
    wstep w Silent (mkWorld (wd_repos w) (<[n := x]> (wd_files w)) (set (wd_doing w) t Idle))
| w_evict w t r n : wd_doing w t = Idle ->
    wstep w Silent (mkWorld (wd_repos w) (delete n (wd_files w)) (set (wd_doing w) t (Evicted r n)))
| w_remove w t r n : wd_doing w t = Evicted r n ->
    wstep w (Removed r n) (mkWorld (set (wd_repos w) r (delete n (wd_repos w r))) (wd_files w) (set (wd_doing w) t Idle))
| w_prune w n : wstep w Silent (mkWorld (wd_repos w) (delete n (wd_files w)) (wd_doing w))
(* a thread gives up, or its process is killed *)
| w_stop w t : wstep w Silent (mkWorld (wd_repos w) (wd_files w) (set (wd_doing w) t Idle)).

Inductive wrun : world -> list event -> world -> Prop :=
| wrun_nil w : wrun w [] w
| wrun_cons w e w1 es w' : wstep w e w1 -> wrun w1 es w' -> wrun w (e :: es) w'.
