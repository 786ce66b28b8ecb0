(** Cutting files into chunks.  Models src/chunk.rs:40-176 and the loading of
    files in src/file_util.rs:26-61. *)

From Verif Require Import Base Formats Hashing Pack.

(** ** src/file_util.rs:26-61

    Small files are read into memory.  Big ones are mapped: what is seen there is
    what the file has at the time.  The length stays what it was at first (a file cut
    short meanwhile kills the process when the missing part is touched). *)
Inductive loaded := Buffered (x : bytes) | Mapped (at_time : nat -> bytes).
Definition file_bytes (f : loaded) (t : nat) : bytes :=
  match f with Buffered x => x | Mapped g => g t end.
(** [size] is the length in the metadata, [x] what reading returns. *)
Definition read_file (size : N) (x : bytes) (g : nat -> bytes) : loaded :=
  if (size <? 10 * (1024 * 1024))%N then Buffered x else Mapped g.

(** ** src/chunk.rs:148-176 *)

(** Where the chunker cut: offset and length. *)
Notation cut := (nat * nat)%type.

(** [FileSpan], and reading it at some time: slicing out of bounds panics. *)
Record span := mkSpan { sp_file : loaded; sp_start : nat; sp_end : nat }.
Definition span_bytes (s : span) (t : nat) : result bytes :=
  let x := file_bytes (sp_file s) t in
  if bool_decide (sp_start s <= sp_end s /\ sp_end s <= length x)
  then Ok (take (sp_end s - sp_start s) (drop (sp_start s) x)) else Panic.

(** [Blob], for chunks of files. *)
Record chunk := mkChunk { ch_id : oid; ch_span : span }.

Section chunker.
Variable H : bytes -> oid.

(** 162-176 [chunk_to_blob] *)
Definition chunk_to_blob (f : loaded) (c : cut) (t : nat) : result chunk :=
  let s := mkSpan f c.1 (c.1 + c.2) in
  let* x := span_bytes s t in Ok (mkChunk (H x) s).

(** 91-108 [SmallFileChunker]; the file does not change, so any time will do. *)
Definition simple_chunker (f : loaded) (cuts : list cut) : list (result chunk) :=
  map (fun c => chunk_to_blob f c 0) cuts.

(** ** src/chunk.rs:110-137 [ThreadedChunker]

    One thread cuts, one hashes, with a channel to it and one to the consumer, each
    with room for 128.  A thread that panics or finishes closes its ends. *)
Definition room : nat := 128.

Inductive hand := Waiting | Holding (c : chunk) | Ended (panicked : bool).
Record tstate := mkTS {
  to_cut : list cut;          (* what the cutting thread has yet to send *)
  cutter_done : bool;         (* it has dropped its end *)
  cuts_ch : list cut;
  hasher : hand;
  blobs_ch : list chunk;
  received : list chunk;
  over : bool;                (* the iterator has returned [None] *)
  dropped : bool              (* the consumer has dropped the iterator *)
}.
Definition tstart (cuts : list cut) : tstate := mkTS cuts false [] Waiting [] [] false false.

Definition hasher_ended (h : hand) : bool := match h with Ended _ => true | _ => false end.

Inductive tstep (f : loaded) : tstate -> tstate -> Prop :=
(* the cutting thread: 122-126 *)
| t_send c cs q h b r o d : hasher_ended h = false -> length q < room ->
    tstep f (mkTS (c :: cs) false q h b r o d) (mkTS cs false (q ++ [c]) h b r o d)
| t_cut_all q h b r o d :
    tstep f (mkTS [] false q h b r o d) (mkTS [] true q h b r o d)
| t_cut_gives_up c cs q h b r o d : hasher_ended h = true ->
    tstep f (mkTS (c :: cs) false q h b r o d) (mkTS (c :: cs) true q h b r o d)
(* the hashing thread: 129-133; at some time [t] *)
| t_hash cs e c q b r o d t ch : chunk_to_blob f c t = Ok ch ->
    tstep f (mkTS cs e (c :: q) Waiting b r o d) (mkTS cs e q (Holding ch) b r o d)
| t_hash_panics cs e c q b r o d t : chunk_to_blob f c t = Panic ->
    tstep f (mkTS cs e (c :: q) Waiting b r o d) (mkTS cs e q (Ended true) b r o d)
| t_pass cs e q ch b r o : length b < room ->
    tstep f (mkTS cs e q (Holding ch) b r o false) (mkTS cs e q Waiting (b ++ [ch]) r o false)
| t_hash_gives_up cs e q ch b r o :
    tstep f (mkTS cs e q (Holding ch) b r o true) (mkTS cs e q (Ended false) b r o true)
| t_hashed_all cs b r o d :
    tstep f (mkTS cs true [] Waiting b r o d) (mkTS cs true [] (Ended false) b r o d)
(* the consumer: 73-79 *)
| t_next cs e q h ch b r :
    tstep f (mkTS cs e q h (ch :: b) r false false) (mkTS cs e q h b (r ++ [ch]) false false)
| t_over cs e q p r :
    tstep f (mkTS cs e q (Ended p) [] r false false) (mkTS cs e q (Ended p) [] r true false)
| t_drop cs e q h b r o :
    tstep f (mkTS cs e q h b r o false) (mkTS cs e q h [] r o true).

End chunker.
