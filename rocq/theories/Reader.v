(** Reading chunks out of packs through the chunk cache.
    Models src/read.rs:21-223. *)

From Verif Require Import Base OMap Formats Hashing Pack Index.

(** src/read.rs:21-32 [TimestampedChunk]; a stamp is a reading of the clock. *)
Record stamped := mkStamped { sc_stamp : N; sc_bytes : bytes }.

(** src/read.rs:41-53 [ChunkCache].  The heap is the map from ids to chunks; its
    order is the stamps'. *)
Record ccache := mkCcache { cc_map : gmap oid stamped; cc_space : N }.
Definition ccache_new : ccache := mkCcache ∅ 0.

(** src/read.rs:95-119 [ChunkReader], and how often the clock has been read.
    The set of packs read before only feeds a counter, so it is left out. *)
Record creader := mkReader { rd_cache : ccache; rd_biggest : N; rd_ticks : nat }.
Definition reader_new : creader := mkReader ccache_new 0 0.

Section reader.
Variable H : bytes -> oid.
Variable zdec : bytes -> bytes * bool.
Variable ix : index.
Variable bmap : gmap oid oid.
(** The pack files the backend returns. *)
Variable packs : gmap oid bytes.
(** What [Instant::now] returns the n-th time. *)
Variable clock : nat -> N.

Definition with_map (c : ccache) (m : gmap oid stamped) : ccache := mkCcache m (cc_space c).

(** src/read.rs:55-62 [ChunkCache::get] *)
Definition cc_get (id : oid) (s : creader) : option bytes * creader :=
  match cc_map (rd_cache s) !! id with
  | None => (None, s)
  | Some x =>
      (Some (sc_bytes x),
       mkReader (with_map (rd_cache s) (<[id := mkStamped (clock (rd_ticks s)) (sc_bytes x)]> (cc_map (rd_cache s))))
         (rd_biggest s) (S (rd_ticks s)))
  end.

(** src/read.rs:64-74 [ChunkCache::insert] *)
Definition cc_insert (id : oid) (b : bytes) (s : creader) : creader :=
  match cc_map (rd_cache s) !! id with
  | Some x =>
      mkReader (with_map (rd_cache s) (<[id := mkStamped (clock (rd_ticks s)) (sc_bytes x)]> (cc_map (rd_cache s))))
        (rd_biggest s) (S (rd_ticks s))
  | None =>
      mkReader (mkCcache (<[id := mkStamped (clock (rd_ticks s)) b]> (cc_map (rd_cache s)))
                  (cc_space (rd_cache s) + N.of_nat (length b)))
        (rd_biggest s) (S (rd_ticks s))
  end.

(** src/read.rs:76-92 [ChunkCache::shrink_to].  Each round takes some chunk with
    the earliest stamp; which of several, the heap decides, so that is left open. *)
Inductive shrinks (limit : N) : ccache -> result ccache -> Prop :=
| shrinks_done c : cc_map c = ∅ \/ (cc_space c <= limit)%N -> shrinks limit c (Ok c)
| shrinks_pop c id x r :
    (limit < cc_space c)%N -> cc_map c !! id = Some x ->
    (forall id' x', cc_map c !! id' = Some x' -> (sc_stamp x <= sc_stamp x')%N) ->
    (N.of_nat (length (sc_bytes x)) <= cc_space c)%N ->
    shrinks limit (mkCcache (delete id (cc_map c)) (cc_space c - N.of_nat (length (sc_bytes x)))) r ->
    shrinks limit c r
| shrinks_assert c id x :
    (limit < cc_space c)%N -> cc_map c !! id = Some x ->
    (forall id' x', cc_map c !! id' = Some x' -> (sc_stamp x <= sc_stamp x')%N) ->
    (cc_space c < N.of_nat (length (sc_bytes x)))%N ->
    shrinks limit c Panic.

(** The loop of [load_pack] (src/read.rs:192-219).  Trees are skipped without
    reading them from the stream.  What was inserted before a failure stays. *)
Fixpoint load_entries (m : manifest) (st : bytes * bool) (read : N) (s : creader) : result N * creader :=
  match m with
  | [] => (Ok read, s)
  | e :: m' =>
      match e_type e with
      | Tree => load_entries m' st read s
      | Chunk =>
          match read_take (e_len e) st with
          | Ok (b, st') =>
              if bool_decide (e_id e = H b)
              then load_entries m' st' (read + e_len e)%N (cc_insert (e_id e) b s)
              else (Err, s)
          | Err => (Err, s)
          | Panic => (Panic, s)
          end
      end
  end.

(** src/read.rs:179-222 [load_pack] *)
Definition load_pack (p : oid) (s : creader) : result N * creader :=
  match packs !! p with
  | None => (Err, s)
  | Some file =>
      match check_magic pack_magic file with
      | Ok body =>
          match om_get p (ix_packs ix) with
          | None => (Err, s)
          | Some m => load_entries m (zdec body) 0 s
          end
      | _ => (Err, s)
      end
  end.

(** src/read.rs:142-177 [read_blob]: from the reader's state to the outcome and
    the new state. *)
Inductive read_blob (s : creader) (id : oid) : result bytes -> creader -> Prop :=
| read_hit x s' : cc_get id s = (Some x, s') -> read_blob s id (Ok x) s'
| read_unknown : cc_get id s = (None, s) -> bmap !! id = None -> read_blob s id Err s
| read_load_fails p s' : cc_get id s = (None, s) -> bmap !! id = Some p ->
    load_pack p s = (Err, s') -> read_blob s id Err s'
| read_load_panics p s' : cc_get id s = (None, s) -> bmap !! id = Some p ->
    load_pack p s = (Panic, s') -> read_blob s id Panic s'
| read_shrink_panics p s' n : cc_get id s = (None, s) -> bmap !! id = Some p ->
    load_pack p s = (Ok n, s') -> shrinks (N.max (rd_biggest s) n * 2) (rd_cache s') Panic ->
    read_blob s id Panic s'
| read_miss p s' n c x s'' : cc_get id s = (None, s) -> bmap !! id = Some p ->
    load_pack p s = (Ok n, s') -> shrinks (N.max (rd_biggest s) n * 2) (rd_cache s') (Ok c) ->
    cc_get id (mkReader c (N.max (rd_biggest s) n) (rd_ticks s')) = (Some x, s'') ->
    read_blob s id (Ok x) s''
| read_unwrap p s' n c : cc_get id s = (None, s) -> bmap !! id = Some p ->
    load_pack p s = (Ok n, s') -> shrinks (N.max (rd_biggest s) n * 2) (rd_cache s') (Ok c) ->
    cc_map c !! id = None ->
    read_blob s id Panic (mkReader c (N.max (rd_biggest s) n) (rd_ticks s')).

(** Reads one after the other, going on after failures but not after a panic. *)
Inductive read_blobs : creader -> list oid -> list (result bytes) -> creader -> Prop :=
| reads_none s : read_blobs s [] [] s
| reads_panic s id ids s' : read_blob s id Panic s' -> read_blobs s (id :: ids) [Panic] s'
| reads_some s id ids r rs s' s'' : read_blob s id r s' -> r <> Panic -> read_blobs s' ids rs s'' ->
    read_blobs s (id :: ids) (r :: rs) s''.
End reader.
