(** The backup pipeline: five threads joined by rendezvous channels.

    Models src/backup.rs:75-342, src/upload.rs, src/concurrently.rs:41-62 and the
    file-system effects of src/pack.rs:74-300 and src/index.rs:78-171.

    Simplifications.  Pack and index files are represented by what they decode to
    (see Pack.v, Index.v).  Temporary files are left out: nothing ever reads
    them.  A failure inside a worker thread ends the process
    (src/concurrently.rs:33-35), so it is a state without further steps of that
    thread; a crash is a state one simply stops in. *)

From stdpp Require Import functions.
From Verif Require Import Base OMap Formats Hashing Pack Index.

(** What is on the backend. *)
Record backend := mkBackend {
  k_packs : gmap oid (list blob);
  k_indexes : gmap oid index;
  k_snaps : gmap oid snapshot }.

(** The working directory: finished pack files, and the WIP index
    (src/index.rs:45 [WIP_NAME]). *)
Record workdir := mkWorkdir { w_packs : gmap oid (list blob); w_wip : option index }.

(** ** Resuming (src/backup.rs:261-332) *)

(** [find_cwd_packfiles]: the packs in the directory that the WIP index names.
    The directory's order is the index's here; the uploader treats them alike. *)
Definition find_cwd_packfiles (files : gmap oid (list blob)) (ix : index) : list oid :=
  List.filter (fun id => bool_decide (is_Some (files !! id))) (map fst (ix_packs ix)).

Definition find_resumable (k : backend) (w : workdir) : result (option (index * list oid)) :=
  match w_wip w with
  | None => Ok None
  | Some ix =>
      let cwd := find_cwd_packfiles (w_packs w) ix in
      let missing := List.filter (fun id => negb (bool_decide (id ∈ cwd))) (map fst (ix_packs ix)) in
      if forallb (fun id => bool_decide (is_Some (k_packs k !! id))) missing
      then Ok (Some (ix, cwd)) else Err
  end.

(** ** The threads *)

(** The main thread: packs found in the directory still to upload, then blobs
    still to send (src/ui/backup.rs:179-207, src/ui/prune.rs:188-220); then it
    waits for the others, after success or after an error of its own. *)
Inductive mphase :=
| MSend (ups : list oid) (bs : list blob)
| MWait (ok : bool)
| MDone (ok : bool).

(** A packer: receiving, sending the last pack, gone. *)
Inductive wphase := WRun | WLast | WExit.
Record worker := mkWorker { wk_packer : packer; wk_out : list packer_msg; wk_phase : wphase }.

(** The indexer: not started, receiving, sending the index, gone. *)
Inductive iphase :=
| INew (start : index)
| IRecv (st : indexer)
| ISend (ix : index)
| IExit.

(** The uploader: what it is doing. *)
Inductive job := JPack (id : oid) | JIndex (ix : index).
Inductive uphase := UIdle | UBusy (j : job) | UWritten (j : job) | UExit.

Record pstate := mkPstate {
  ps_main : mphase;
  ps_workers : blob_type -> worker;   (* chunk packer and tree packer *)
  ps_indexer : iphase;
  ps_uploader : uphase;
  ps_spawned : nat;                   (* threads started so far *)
  ps_files : gmap oid (list blob);    (* pack files in the working directory *)
  ps_wip : option index;
  ps_back : backend }.

Definition set_main m s := mkPstate m (ps_workers s) (ps_indexer s) (ps_uploader s) (ps_spawned s) (ps_files s) (ps_wip s) (ps_back s).
Definition set_worker (ty : blob_type) (w : worker) s := mkPstate (ps_main s) (<[ty := w]> (ps_workers s)) (ps_indexer s) (ps_uploader s) (ps_spawned s) (ps_files s) (ps_wip s) (ps_back s).
Definition set_indexer i s := mkPstate (ps_main s) (ps_workers s) i (ps_uploader s) (ps_spawned s) (ps_files s) (ps_wip s) (ps_back s).
Definition set_uploader u s := mkPstate (ps_main s) (ps_workers s) (ps_indexer s) u (ps_spawned s) (ps_files s) (ps_wip s) (ps_back s).
Definition set_spawned n s := mkPstate (ps_main s) (ps_workers s) (ps_indexer s) (ps_uploader s) n (ps_files s) (ps_wip s) (ps_back s).
Definition set_files f s := mkPstate (ps_main s) (ps_workers s) (ps_indexer s) (ps_uploader s) (ps_spawned s) f (ps_wip s) (ps_back s).
Definition set_wip x s := mkPstate (ps_main s) (ps_workers s) (ps_indexer s) (ps_uploader s) (ps_spawned s) (ps_files s) x (ps_back s).
Definition set_back k s := mkPstate (ps_main s) (ps_workers s) (ps_indexer s) (ps_uploader s) (ps_spawned s) (ps_files s) (ps_wip s) k.

(** The order in which the threads are started (src/backup.rs:193-242). *)
Definition tid (ty : blob_type) : nat := match ty with Chunk => 0 | Tree => 1 end.
Definition tid_indexer : nat := 2.
Definition tid_uploader : nat := 3.

Definition wexited (w : worker) : bool := match wk_phase w with WExit => true | _ => false end.
Definition iexited (i : iphase) : bool := match i with IExit => true | _ => false end.
Definition uexited (u : uphase) : bool := match u with UExit => true | _ => false end.
Definition running (s : pstate) : nat :=
  ps_spawned s - (Nat.b2n (wexited (ps_workers s Chunk)) + Nat.b2n (wexited (ps_workers s Tree))
    + Nat.b2n (iexited (ps_indexer s)) + Nat.b2n (uexited (ps_uploader s))).

Definition wants_upload (w : worker) : option oid :=
  match wk_out w with MsgUpload id :: _ => Some id | _ => None end.

(** The errors the main thread can meet: none; while reading what to back up; or
    also while opening the packs it found in the working directory. *)
Inductive merror := NoError | ErrorLater | ErrorAny.
Definition may_fail (e : merror) (ups : list oid) : Prop :=
  match e with NoError => False | ErrorLater => ups = [] | ErrorAny => True end.

Section pipeline.
Variable H : bytes -> oid.
(** The pack size configured, the mode, the number of CPUs. *)
Variable target : N.
Variable live : bool.
Variable cpus : nat.
Variable errors : merror.

(** Finishing a pack (src/pack.rs:265-300): the file appears, then the two messages are sent. *)
Definition close_pack (ty : blob_type) (closed : option (list blob)) (pk : packer) (ph : wphase) (s : pstate) : pstate :=
  match closed with
  | Some bs => set_files (<[pack_id H (manifest_of bs) := bs]> (ps_files s))
                 (set_worker ty (mkWorker pk (pack_msgs H bs) ph) s)
  | None => set_worker ty (mkWorker pk [] ph) s
  end.

(** Writing to the backend (src/backend.rs:236-267, up to removing the local file). *)
Definition upload_job (j : job) (s : pstate) : pstate :=
  let k := ps_back s in
  match j with
  | JPack id =>
      match ps_files s !! id with
      | Some bs => set_back (mkBackend (<[id := bs]> (k_packs k)) (k_indexes k) (k_snaps k)) s
      | None => s
      end
  | JIndex ix => set_back (mkBackend (k_packs k) (<[index_id H ix := ix]> (k_indexes k)) (k_snaps k)) s
  end.

Definition clear_job (j : job) (s : pstate) : pstate :=
  match j with
  | JPack id => set_files (delete id (ps_files s)) s
  | JIndex ix => s
  end.

Inductive pstep : pstate -> pstate -> Prop :=
(* src/concurrently.rs:48-60: the next thread is started once a permit is free. *)
| St_spawn s :
    ps_spawned s < 4 -> running s < cpus ->
    pstep s (set_spawned (S (ps_spawned s))
      (match ps_indexer s with
       | INew start => if bool_decide (ps_spawned s = tid_indexer)
           then let st := indexer_start live start (ps_wip s) in
                set_indexer (IRecv st) (set_wip (in_wip st) s)
           else s
       | _ => s
       end))
(* src/backup.rs:334-342 *)
| St_main_upload s id ups bs :
    ps_main s = MSend (id :: ups) bs -> is_Some (ps_files s !! id) ->
    tid_uploader < ps_spawned s -> ps_uploader s = UIdle ->
    pstep s (set_main (MSend ups bs) (set_uploader (UBusy (JPack id)) s))
(* a blob to its packer (src/pack.rs:90-187) *)
| St_main_blob s b bs sz pk closed :
    ps_main s = MSend [] (b :: bs) ->
    tid (b_type b) < ps_spawned s ->
    wk_phase (ps_workers s (b_type b)) = WRun -> wk_out (ps_workers s (b_type b)) = [] ->
    packer_step target (wk_packer (ps_workers s (b_type b))) b sz = Ok (pk, closed) ->
    pstep s (close_pack (b_type b) closed pk WRun (set_main (MSend [] bs) s))
(* src/backup.rs:94-98 *)
| St_main_drop s :
    ps_main s = MSend [] [] -> pstep s (set_main (MWait true) s)
(* an error in the main thread drops the channels *)
| St_main_fail s ups bs :
    ps_main s = MSend ups bs -> may_fail errors ups ->
    pstep s (set_main (MWait false) s)
(* src/pack.rs:188-197, the channel being closed *)
| St_finish s ty ok :
    ps_main s = MWait ok -> tid ty < ps_spawned s ->
    wk_phase (ps_workers s ty) = WRun -> wk_out (ps_workers s ty) = [] ->
    pstep s (close_pack ty (packer_finish (wk_packer (ps_workers s ty))) (packer_new target) WLast s)
(* src/pack.rs:175-177 *)
| St_pack_upload s ty id out :
    wk_out (ps_workers s ty) = MsgUpload id :: out ->
    tid_uploader < ps_spawned s -> ps_uploader s = UIdle ->
    pstep s (set_uploader (UBusy (JPack id))
      (set_worker ty (mkWorker (wk_packer (ps_workers s ty)) out (wk_phase (ps_workers s ty))) s))
(* src/pack.rs:178-180 *)
| St_pack_index s ty id m out st st' :
    wk_out (ps_workers s ty) = MsgIndex id m :: out ->
    ps_indexer s = IRecv st -> indexer_recv st (id, m) = Ok st' ->
    pstep s (set_indexer (IRecv st') (set_wip (in_wip st')
      (set_worker ty (mkWorker (wk_packer (ps_workers s ty)) out (wk_phase (ps_workers s ty))) s)))
| St_pack_exit s ty :
    wk_phase (ps_workers s ty) = WLast -> wk_out (ps_workers s ty) = [] ->
    pstep s (set_worker ty (mkWorker (wk_packer (ps_workers s ty)) [] WExit) s)
(* src/index.rs:112-151, both packers being gone *)
| St_index_end s st :
    ps_indexer s = IRecv st ->
    wk_phase (ps_workers s Chunk) = WExit -> wk_phase (ps_workers s Tree) = WExit ->
    pstep s (set_indexer (match (indexer_end st).2 with Some ix => ISend ix | None => IExit end)
      (set_wip (in_wip (indexer_end st).1) s))
| St_index_upload s ix :
    ps_indexer s = ISend ix -> tid_uploader < ps_spawned s -> ps_uploader s = UIdle ->
    pstep s (set_indexer IExit (set_uploader (UBusy (JIndex ix)) s))
(* src/upload.rs:22-32 *)
| St_up_write s j :
    ps_uploader s = UBusy j -> live = true ->
    pstep s (set_uploader (UWritten j) (upload_job j s))
| St_up_clear s j :
    ps_uploader s = UWritten j -> pstep s (set_uploader UIdle (clear_job j s))
| St_up_dry s j :
    ps_uploader s = UBusy j -> live = false -> pstep s (set_uploader UIdle (clear_job j s))
| St_up_exit s ok :
    ps_uploader s = UIdle -> tid_uploader < ps_spawned s -> ps_main s = MWait ok ->
    wk_phase (ps_workers s Chunk) = WExit -> wk_phase (ps_workers s Tree) = WExit ->
    ps_indexer s = IExit ->
    pstep s (set_uploader UExit s)
(* src/backup.rs:98-110; without success the WIP file stays *)
| St_join s ok :
    ps_main s = MWait ok ->
    wk_phase (ps_workers s Chunk) = WExit -> wk_phase (ps_workers s Tree) = WExit ->
    ps_indexer s = IExit -> ps_uploader s = UExit ->
    pstep s (set_main (MDone ok) (set_wip (if ok then None else ps_wip s) s)).

(** How a run starts: from the backend, the working directory, the index to
    start with, the packs to upload first and the blobs to send. *)
Definition pipeline_start (k : backend) (w : workdir) (start : index) (ups : list oid) (bs : list blob) : pstate :=
  mkPstate (MSend ups bs) (fun _ => mkWorker (packer_new target) [] WRun) (INew start) UIdle 0
    (w_packs w) (w_wip w) k.

(** The states a run can be in, and so every state a crash can leave. *)
Definition during (k : backend) (w : workdir) (start : index) (ups : list oid) (bs : list blob) (s : pstate) : Prop :=
  rtc pstep (pipeline_start k w start ups bs) s.

Definition crashed (s : pstate) : backend * workdir := (ps_back s, mkWorkdir (ps_files s) (ps_wip s)).

End pipeline.
