(** Where dump writes: src/ui/dump.rs.  Browse.v has what it writes when it succeeds; here
    is also what is left when it does not. *)

From Verif Require Import Base OMap Formats Hashing Meta Forest FsTree Pack Pipeline Repo Browse.

(** What was printed, the contents of the file [--output] names, if it exists, and how the
    next writes go: each takes some of the bytes it is given (at most the number) or fails.  Once the list is
    over they take all.  The buffer of the standard output itself is left out: it is flushed
    together with the writer's. *)
Record outputs := mkOutputs { on_stdout : bytes; in_file : option bytes; writes : list (option nat) }.

(** src/ui/dump.rs:161-173 *)
Definition to_stdout (output : option bytes) : bool :=
  match output with Some p => bool_decide (p = ascii_bytes "-") | None => true end.

(** [write_all] of the standard library on the file or the standard output: goes on until all is
    taken, and fails if nothing is.  Gives what was taken, the writes to come and whether all is. *)
Fixpoint put (ws : list (option nat)) (b : bytes) : bytes * list (option nat) * bool :=
  match b with
  | [] => ([], ws, true)
  | _ :: _ =>
      match ws with
      | [] => (b, [], true)
      | None :: ws' | Some 0 :: ws' => ([], ws', false)
      | Some n :: ws' => let '(taken, ws2, all) := put ws' (drop n b) in (take n b ++ taken, ws2, all)
      end
  end.

(** src/ui/dump.rs:101-129: what [dump_dir] writes, call by call. *)
Definition dir_pieces (p : list bytes) (t : tree) : list bytes :=
  [render p; [slash]; [x0a]] ++
  concat (map (fun e : bytes * node => [render p; [slash]; e.1] ++
    match n_contents e.2 with
    | CDir _ => [[slash]]
    | CSymlink target => [ascii_bytes "-> "; target]
    | CFile _ => []
    end ++ [[x0a]]) t).

(** src/ui/dump.rs:137 *)
Definition symlink_pieces (p : list bytes) (target : bytes) : list bytes :=
  [render p; ascii_bytes " -> "; target; [x0a]].

Section dump_to.
Variable read : forest -> oid -> result (tree * forest).
Variable read_chunk : oid -> result bytes.
(** How much the writer keeps before it writes (8 KiB). *)
Variable capacity : nat.
Variable creatable : bool.
Variable output : option bytes.

(** src/ui/dump.rs:160-175 [open_writer]: a file is made or emptied. *)
Definition open_writer (s : outputs) : result outputs :=
  if to_stdout output then Ok s
  else if creatable then Ok (mkOutputs (on_stdout s) (Some []) (writes s)) else Err.

Definition write_to (b : bytes) (s : outputs) : outputs * bool :=
  let '(taken, ws, all) := put (writes s) b in
  (if to_stdout output then mkOutputs (on_stdout s ++ taken) (in_file s) ws
   else mkOutputs (on_stdout s) (Some (default [] (in_file s) ++ taken)) ws, all).

(** [BufWriter::flush_buf]: what could not be written stays in the buffer. *)
Definition flush (w : bytes * outputs) : bytes * outputs * bool :=
  let '(taken, _, all) := put (writes w.2) w.1 in
  (drop (length taken) w.1, (write_to w.1 w.2).1, all).

(** [BufWriter::write_all], all in all. *)
Definition buf_write (b : bytes) (w : bytes * outputs) : bytes * outputs * bool :=
  let spare := capacity - length w.1 in
  if bool_decide (length b < spare) then (w.1 ++ b, w.2, true)
  else
    let '(w1, ok) := if bool_decide (spare < length b) then flush w else (w, true) in
    if ok then
      if bool_decide (capacity <= length b) then
        let '(s2, all) := write_to b w1.2 in (w1.1, s2, all)
      else (w1.1 ++ b, w1.2, true)
    else (w1, false).

(** One piece after the other; reading one may fail. *)
Fixpoint write_pieces (ps : list (result bytes)) (w : bytes * outputs) : bytes * outputs * result unit :=
  match ps with
  | [] => (w, Ok tt)
  | Err :: _ => (w, Err)
  | Panic :: _ => (w, Panic)
  | Ok b :: ps' =>
      let '(w1, ok) := buf_write b w in
      if ok then write_pieces ps' w1 else (w1, Err)
  end.

(** src/ui/dump.rs:101-158: open, write the pieces, flush; and when the writer is
    dropped, it tries once more to write what is in the buffer, saying nothing. *)
Definition write_out (ps : list (result bytes)) (s : outputs) : outputs * result unit :=
  match open_writer s with
  | Err => (s, Err)
  | Panic => (s, Panic)
  | Ok s1 =>
      let '(w, r) := write_pieces ps ([], s1) in
      let '(w, r) := match r with
                     | Ok _ => let '(w1, ok) := flush w in (w1, if ok then Ok tt else Err)
                     | _ => (w, r)
                     end in
      ((flush w).1.2, r)
  end.

(** src/ui/dump.rs:48-98, the loop, as [dump_loop]. *)
Fixpoint dump_to_loop (cache : forest) (current : oid) (sofar : list bytes) (cs : list component) (s : outputs)
    : outputs * result unit :=
  match cs with
  | [] => (s, Ok tt)
  | CurDir :: cs' => dump_to_loop cache current sofar cs' s
  | RootOrParent :: _ => (s, Err)
  | Normal c :: cs' =>
      let here := sofar ++ [c] in
      match read cache current with
      | Err => (s, Err)
      | Panic => (s, Panic)
      | Ok (t, cache1) =>
          match om_get c t with
          | None => (s, Err)
          | Some n =>
              match n_contents n with
              | CDir sub =>
                  match cs' with
                  | [] =>
                      match read cache1 sub with
                      | Ok (t2, _) => write_out (Ok <$> dir_pieces here t2) s
                      | Err => (s, Err)
                      | Panic => (s, Panic)
                      end
                  | _ :: _ => dump_to_loop cache1 sub here cs' s
                  end
              | CSymlink target =>
                  match write_out (Ok <$> symlink_pieces here target) s with
                  | (s1, Ok _) => dump_to_loop cache1 current here cs' s1
                  | other => other
                  end
              | CFile chunks =>
                  match cs' with
                  | [] => write_out (read_chunk <$> chunks) s
                  | _ :: _ => (s, Err)
                  end
              end
          end
      end
  end.
Definition dump_to (cache : forest) (root : oid) (path : bytes) (s : outputs) : outputs * result unit :=
  dump_to_loop cache root [] (components path) s.
End dump_to.
