# Design

A Rocq (Coq 8.16) model of backpak and theorems about it.  The model files hold only
definitions, each with a comment citing the file and lines of /repo it models.  `*Facts.v`
and similar files hold lemmas.  `*Spec.v` files say in plain terms what the code should
achieve.  `Props*.v` files hold the theorems named after the properties in
properties.jsonl, each followed by `Print Assumptions` and by a concrete case that meets
its hypotheses.

1. [Plan per property](#plan-per-property)
2. [Modelling conventions](#modelling-conventions)
3. [Trusted base](#trusted-base)
4. [What is modelled and what is not](#what-is-modelled-and-what-is-not)
5. [What is false of the code](#what-is-false-of-the-code)
6. [Testing the theorems](#testing-the-theorems)

## Plan per property

The model file comes first, then how the property is proved.

- **C01** Hashing.v: bit-level encoder and decoder of the text form. Arithmetic on the bits.
- **C02** Hashing.v: incremental hasher as an absorbing fold, reader and writer with arbitrary splits. Induction over the splits.
- **C03** Chunker.v: cut list as an oracle that covers the file; the two threads and their bounded channels as a transition system. Invariant over all schedules, a measure for the end. False for mapped files that change meanwhile: refuted.
- **C04** Cbor.v, Formats.v: generic CBOR codec, typed layer. Structural induction; injectivity from the round trip.
- **C05**, **C06** Pack.v: writer and the four readers over a compressor oracle. Induction over the blob list, and over the manifest for arbitrary bytes.
- **C07**, **C08** Pack.v: the packing loop as a fold with arbitrary size measurements. Conservation by induction; invariant on the estimate.
- **C09**–**C12** Index.v: index files, combined index as a fold in any order, lookup maps, the indexer as a state machine that writes the WIP file. PropsWipFile.v: a leftover WIP file is read or reported, never passed over.
- **C13**, **C14**, **C31**, **C53** Pipeline.v: five threads with rendezvous channels and file effects. Inductive invariants over all reachable states; a termination measure. With fewer than four CPUs it deadlocks: refuted. PropsResume.v: the resume check from every state, also one no run of ours left. Leftovers.v: the search for an interrupted run by file names and bytes; it finds what Pipeline.v resumes.
- **C15**, **C19**–**C24**, **C38**, **C46** Repo.v, History.v: commands as the pipeline plus a list of effects; a crash is a stop after any prefix. Invariant of repositories (RepoSpec.v) by induction over histories.
- **C16**–**C18**, **C51**, **C52** FsTree.v: the backup walk over file trees. Structural induction; FsSpec.v says what reading back means. PropsWhole.v: the same for whole commands, on any repository in order, fresh or resumed, on any schedule. C16_backup_then_restore (PropsRoundTrip.v) goes from end to end: arguments (C69), the whole backup command, any later repository the snapshot can be read from, and the restore command (C36) into an empty directory.
- **C25**, **C26**, **C28**, **C47**, **C48** Forest.v, Meta.v, Formats.v: loading forests with a stack; fuel eliminated by a termination argument; case analysis of metadata. Times.v follows a file time from stat(2) to utimensat(2); which times come back is proved as an equivalence.
- **C27** Reader.v: chunk cache with clock stamps; simulation by direct reads. False when the clock stands still: refuted.
- **C29**, **C30** Semaphore.v: futex semaphore, any number of threads. Conservation invariant. Lost wake-up: refuted by a schedule.
- **C32**–**C34** Select.v: naming snapshots, sorting and removing repeats, forgetting repeats.
- **C35**, **C44**, **C45** Browse.v: walk, comparison and path lookup; the printed lines characterised by path (BrowseSpec.v). Dump through symbolic links: refuted.
- **C36** Restore.v: callbacks as file-system updates; RestoreSpec.v says place by place what comes out. Induction over the comparison.
- **C37** Check.v: check as a function of the bytes on the backend. Soundness and completeness.
- **C39**, **C40** DiskCache.v: cache and repository as maps; simulation; pruning by use. Limit exceeded, shared caches: refuted.
- **C41** FileMoves.v: the system calls of copying and moving files, with power loss. Invariants over prefixes. Rename before fsync: refuted.
- **C42**, **C54** CloudStore.v: requests with every failure; retries; pages. Retry with a consumed reader: refuted.
- **C43** Filtered.v: child processes, pipes and the copying thread as a transition system, over arbitrary programs. Assertion that races: refuted.
- **C49** Progress.v: string arithmetic, in checked and in release builds; the drawing thread.
- **C50** Locations.v: names, listings, histories of stores and removals.
- **C55**, **C56** Snapshots.v: the command as a function to a list of lines; both passes over a comparison visit the lines C35 characterises; sizes by induction over the walk. Snapshots with empty directories: refuted.
- **C57** Cat.v: what is printed, as a value; from C06's extraction and the decoders' inverses. Any file contents, for the negative half.
- **C58** Usage.v: the numbers as a record; the walk of C56 over all snapshots gives the blobs needed by any; what the index holds beyond is the unused. Snapshots with empty directories and a blank filter command: refuted.
- **C59** RepoSpec.v: `sound`, a repository whose indexes are true but whose snapshots may lack blobs. Fails.v: the walks of copy, filter and prune with the state kept when they fail, and how a failing run ends. A walk that gets through has read, or found packed, every chunk of every directory it writes, so what it adds is complete; a failing one adds no snapshot. For prune and backup the property is refuted.
- **C60** Concurrent.v: any number of runs, each with threads as in Pipeline.v, over one backend, and a rebuild of the index; every step of every thread of every run is one step of the whole (`together`). Proved by keeping, for each run, the state it would be in were it alone: the shared repository offers whatever that one does (ConcurrentFacts.v). That `rebuild-index` lists the indexes before the packs is what makes it safe beside a backup, as its comment hopes. If no two runs store the same blob, no blob is ever there twice. A run reads what it needs at its start in one instant; there is one rebuild at a time.
- **C61** Init.v: the files as a map from paths to what is there, init as a list of steps each done at once (make a directory, create a file, append a piece of text), opening as a function of the files. Proved by induction on the steps, for every point of interruption; TOML and `sh -c` are oracles of the theorems.
- **C62** Settings.v: loading both settings files over the same map of files, and what the commands make of the result. Proved by cases; TOML is an oracle.
- **C63** Changing.v: the files as a function of time; the walk looks at each place at moments of its own and so sees a file tree that may never have existed; FsTree.v's backup works on that. A history is any number of such backups, each on top of an earlier one of the same paths. Invariant over the history: as long as a file has the stamps recorded, it has the contents recorded. It holds because the metadata is read before the contents.
- **C64** Bytes.v: joins the byte formats and the file names to the commands. A repository of the command model is stored in a set of files when each object is in the file its id names, with bytes that decompress and decode to it, and nothing else is there but partial files. BytesFacts.v: every step of every history is a sequence of single-file changes (and keeps packs one-typed and objects named by their hashes). BytesRead.v, PropsBytes.v: reading such files through both caches is the command model's reading. Premises: lengths fit their 64-bit fields and texts are proper UTF-8 (`fits`), a decompressor that inverts whatever compressor was used. Files are changed atomically, as C50's rename model has it.
- **C65** Parallel.v: the calling thread and the spawned ones as a transition system at the semaphore's atomic steps; functions' outcomes are fixed beforehand and their effects on what they share are any function. Invariants (permits add up; a log of the effects so far, each function once; a sleeping caller has a waker or all permits are out) and a decreasing measure in which steps taken for no reason are counted apart. C65_loading_indexes applies it to src/index.rs.
- **C66** Children.v: the list of running filter programs, the process table and the threads that start, register, wait for and forget their programs as a transition system; one thread may enter `fatal`. Invariants over all runs. Proved: every filter program in the list when the error is met is asked to end before the exit, and no stranger is as long as ids of ended filter programs are not reused. The rest is refuted: the code registers after starting and unregisters after waiting. Not in the model: signals' effects (a process may ignore SIGTERM), the pipes.
- **C67** Rcu.v: one published place as a transition system over the calls of `update` and `borrow` of any threads, the boxes not freed, and those handed to crossbeam_epoch with the guards they wait for. An invariant over ownership of boxes and an induction over what happens after a borrow.
- **C68** Interrupt.v: the changes `restore` makes to the file system as a list, proved to be what Restore.v does when made in order; an interruption is any prefix of it and, of the next change, part of a write or part of the removal of a directory. An invariant over the changes (InterruptFacts.v, InterruptRun.v); InterruptSpec.v says place by place what may be there. C36 applied to what was left gives the second run. Power loss (what was written but not synced) is not modelled.
- **C69** BackupPaths.v: the arguments made canonical (an oracle), collected into a set ordered by components, and checked for equal names. By induction over the arguments; the set is determined by its members. Links it to the parent search (FsTree.v), the targets of a restore (RestoreSpec.v) and the check in the command's model (Repo.v).
- **C70** DiffFiles.v: the diff command, against the files or a second snapshot. The forest made of the files (RestoreForest.v, shared with C36) shows what is there; C35 gives the lines node by node; PropsDiffFiles.v turns nodes into things and adds which chunks a file that looks changed gets. C70_diff_after_backup_partial goes from the backup's arguments to the report. Partial: files of Unix; files with the old size and time have the old contents (without that it is refuted); a file rewritten with the same contents must have been cut by the same chunker.
- **C71** PruneReport.v: the line prune prints, from what it read. PropsPruneReport.v: the three lists divide the packs named by the live indexes (reachable = needed, from PruneFacts.v), the sums are those of the blobs in them; with C20's facts about a finished prune, what is announced is what happens. The rounding of sizes for display is not modelled.
- **C72** DumpTo.v: dump with its output, a state of two byte strings, where each read may fail and each write may take part of what it is given or fail, with the buffered writer in between (its size is a parameter). PropsDumpTo.v: induction over the path, then over the pieces written: what was written and what is buffered are together a beginning of the text. Paths through a link are left out (see C45_refuted).
- **C73** BackupStats.v: the backup walk with its counters. PropsBackupStats.v: a simulation shows that counting changes nothing; induction over the file tree shows that each step moves the sum of what was sent and what was reused by exactly the bytes it saw. That every file's recorded size is the length of its contents is a premise: a file may change between the two. Counters are unbounded.
- **C74** Json.v: serde_json's compact writer and the derived serializers, with ids and times pretty. JsonSpec.v: a reader of JSON after RFC 8259, written without regard to the writer, and what is to be seen of each object. PropsJson.v: induction over the value shows that the reader returns what was written; then each field. jiff's texts for times are parameters; that they differ for different times is a premise of C74_cat_tells_apart only.
- **C75** LoadSnapshots.v: the function each thread runs (name to id, read, decode either version, check the hash), what is shared, and the sort, on top of the threads of Parallel.v at their atomic steps. PropsLoadSnapshots.v: what is shared in the end is a permutation of the files' snapshots (from C65); sorting permutations by time gives one list if the times differ; from the files of a repository (C64's `stored_in`) it is what the theorems about commands start from (`chronological`). Reading a time from text (jiff) is a parameter. If times are the same the claim is refuted.
- **C76** RepackStats.v: the walk of copy and prune with its counter, and both commands with the number they end with. PropsRepackStats.v: a simulation shows that counting changes nothing (both ways); the counted walk moves the sum of sent and reused by the bytes of everything in the plan (`rplan`, RepoSpec.v); the plan's chunk bytes are the bytes of the files that restoring the snapshot gives, without what is skipped (induction with `reads_root`); the length taken from the index for a reused chunk is that of the chunk (`in_order`). The directories' metadata is that of the rewritten trees. Counters are unbounded.
- **C77** Transfer.v: the counting reader and writer around any reader and writer, `io::copy` and `write_all` over them, and the uploads, downloads (on DiskCache.v's operations) and attempts to put a file in a bucket (CloudStore.v's) with their counters. PropsTransfer.v: with and without counters the same can happen (both ways); by induction over the calls, what was counted and what is still to come of a file are together its size. Refuted: with a filter the number is not what is stored.
- **C78** B2Session.v: the conversation with Backblaze as a tree of requests, each answered by any JSON value or failing: logging in, the pages of a listing, fetching, putting and removing. PropsB2Session.v: logging in succeeds if and only if the answers, read by paths into the JSON, let the account in; the rest of the log-in is the same for any other key; pages that say what CloudStore.v's server has give the listings of C54; every request a session makes carries the token that belongs to its address; at most one version is deleted, and only if it is the only one. With a server that lists the versions there are, a removal is one of the attempts of C42. HTTP, the text of the JSON and base64 are not modelled.
- **C79** on the texts of Snapshots.v. PropsSnapshotText.v: what is printed is a sequence of lines, which can be told apart if none has a line break in it; by induction over the lists, each snapshot's lines can be told from those of the next, and its id, tags, author, date and paths be read from them. False with spaces in tags or line breaks in paths: refuted.

## Modelling conventions

- Bytes are `Init.Byte.byte`; byte strings are lists.
- `result` is `Ok | Err | Panic`: `Err` is a reported error, `Panic` a failed assert, unwrap or overflow.
- SHA-224, zstd, FastCDC and the gear of the clock are parameters of the sections that use them. What is assumed of them is a visible premise of each theorem.
- Collision freedom is only ever assumed on the byte strings a theorem talks about (`no_collision` of a predicate or of a finite list), never for all byte strings: that would be contradictory.
- Threads are transition systems; theorems range over every schedule.
- A crash is a stop after any prefix of externally visible effects. Power loss (C41) additionally loses what was not synced.
- `BTreeMap`s are strictly sorted association lists (OMap.v); `HashMap`s are `gmap`s, and where their order shows it is left open.
- Recursion over stored trees takes fuel and returns `None` when it runs out. Theorems say either "for enough fuel" with existence proved, or "if it returns".
- Properties that are false of the code get a `_refuted` theorem with a concrete witness. The part that does hold is proved separately, with the suffix `_partial` if it is less than the property.
- Examples use Toy.v: a hash of the right length that tells the example's inputs apart, and a trivial compressor. No theorem depends on it except the refutations, which say "there is a hash such that".

## Trusted base

- Coq 8.16.1's kernel (including its virtual machine for `vm_compute` in examples and refutations; `coqchk` re-checks all of it without the virtual machine).
- `Print Assumptions` prints "Closed under the global context" for every theorem of MANIFEST.json: no axiom is used, neither of the standard library nor of our own.
- Loading std++ loads Coq's ssreflect plugin, whose file ssrunder.v declares seven opaque constants (`Under_rel` and so on) as parameters of a module. They are in the environment; no theorem uses them.
- Libraries used: Coq's standard library and std++ (maps, sets, lists). No mathcomp, Iris, Equations or Hammer.
- That the model says what the Rust code does. Nothing was extracted or run against the code; each definition cites the lines it was read from. One independent check exists: Golden.v writes SHA-224 out and shows that the model's encoders and id printer give byte for byte the four reference files in tests/references and the id texts the code's own tests assert.
- That a premise about an external function is true of it: zstd decodes what it encoded, FastCDC covers its input, ciborium writes and reads RFC 8949 as Cbor.v describes, `data_encoding`'s base32 is as Hashing.v describes, SHA-224 gives 28 bytes and the strings in question do not collide.

## What is modelled and what is not

| /repo | model | left out |
|---|---|---|
| src/hashing.rs | Hashing.v | SHA-224 itself (a parameter; written out only in Golden.v) |
| src/blob.rs, src/chunk.rs | Pack.v, Chunker.v | FastCDC |
| src/file_util.rs | Chunker.v, FileMoves.v, Hashing.v | SIGBUS when a mapped file is cut short |
| src/pack.rs | Pack.v, BackupStats.v | zstd; the counter of compressed bytes |
| src/index.rs | Index.v | threads that load indexes (order left open) |
| src/tree.rs | Formats.v, Meta.v, Forest.v | reading of metadata from the OS, Windows metadata beyond its encoding |
| src/snapshot.rs | Formats.v, Select.v, Check.v | local time zone lookup |
| src/fs_tree.rs | FsTree.v, Changing.v | permission errors; files that vanish during the walk (the run fails) |
| src/backup.rs, src/upload.rs, src/concurrently.rs | Pipeline.v, Leftovers.v | panics of worker threads end the run there |
| src/semaphored.rs, src/backend/semaphored.rs | Semaphore.v | memory ordering weaker than sequential consistency |
| src/read.rs | Reader.v, Repo.v | |
| src/repack.rs, src/ui/{copy,prune,filter_snapshot,rebuild_index,backup,forget}.rs | Repo.v, FsTree.v, Fails.v, Concurrent.v, BackupStats.v, RepackStats.v | argument parsing, messages |
| src/ui/{ls,dump,diff}.rs, src/ls.rs, src/diff.rs | Browse.v | |
| src/ui/restore.rs | Restore.v, Interrupt.v | Windows; I/O errors; other programs changing the files |
| src/ui/check.rs | Check.v | messages |
| src/backend.rs, src/backend/{fs,memory}.rs | Locations.v, FileMoves.v, DiskCache.v, Transfer.v | |
| src/backend/cache.rs | DiskCache.v | SQLite itself (each statement is one step) |
| src/backend/filter.rs, src/backend.rs (read_config, write_config) | Filtered.v | TOML; a temp-file copy that fails while the child still writes (the program hangs then) |
| src/backend/backblaze.rs, b2/src/lib.rs | CloudStore.v, B2Session.v | HTTP, the text of JSON, base64 |
| src/progress.rs | Progress.v, Transfer.v | terminal control sequences |
| src/ui/snapshots.rs | Snapshots.v | the look of sizes and dates; counting graphemes (a parameter) |
| src/ui/cat.rs | Cat.v, Json.v | jiff's texts for times |
| src/ui/usage.rs | Usage.v | the numbers and warnings; printing of sizes and dates is not |
| src/ui/init.rs, src/backend/fs.rs and backblaze.rs (initialize), src/backend.rs (open) | Init.v | the TOML text; links and permissions; whether the bucket can be reached |
| src/config.rs, src/main.rs (run) | Settings.v | the TOML text; resolving relative paths |
| src/tree.rs (get_metadata: times), src/ui/restore.rs (to_timespec) | Times.v | jiff's ranges and rounding and utimensat's rule are stated from their documentation |
| src/lib.rs (ChildGuard, fatal) | Children.v, Parallel.v | logging |
| src/rcu.rs | Rcu.v | memory orderings; the inside of crossbeam_epoch |
| src/prettify.rs | Formats.v, Json.v | the global flag: each model takes the form its commands use |
| src/counters.rs, src/ui.rs | not modelled | counters and messages only |

Repo.v represents files by what they decode to: that this loses nothing is C04, C05 and
C09, and Check.v and Reader.v work on the bytes themselves.  Repo.v's effects on the
backend happen at once or not at all: that is C41 for directories and C42 for buckets.

## What is false of the code

Each of these is a theorem with a concrete witness.

| theorem | what happens |
|---|---|
| `C03_refuted_file_written_to_meanwhile` | A big file is mapped. Written to while it is backed up, it can get a chunk stored under an id that is not its hash. |
| `C07_empty_blobs_refuted` | A packer would drop an empty blob (none is ever sent). |
| `C13_unopened_packs_refuted` | An error while opening a leftover pack still publishes an index that names it. |
| `C15_refuted` | Back up A, back up B, forget A, prune, back up A again: its new index has the id of a superseded one and is ignored. The snapshot is visible but unreadable. |
| `C16_chunk_shadowing_a_tree_refuted` | A file whose chunk has exactly the bytes of an encoded directory makes the backup unreadable. |
| `C19_refuted_when_reading_fails` | Prune meets a read error on the way and still publishes its index; the packs it has not repacked are then listed nowhere. |
| `C21_refuted` | Prune interrupted, a snapshot forgotten, prune run again: a blob still needed is lost. |
| `C22_refuted_after_prune`, `C22_refuted_after_another_backup` | A backup goes on from whatever WIP index is in the directory. |
| `C26_sizes_available_refuted` | The empty directory's tree is never stored, so sizes of snapshots that contain one cannot be told. |
| `C27_refuted_coarse_clock`, `_mixed_pack`, `_tree_id` | Two reads within one clock tick panic; so do mixed packs and ids of trees. |
| `C30_refuted` | Two permits, four threads: a wake-up is lost and a thread sleeps although a permit is free. |
| `C31_below_four_cpus_refuted` | With three CPUs or fewer the backup pipeline deadlocks. |
| `C32_huge_number_refuted` | `LAST~18446744073709551616` panics. |
| `C33_refuted` | Snapshots with equal timestamps can be listed twice. |
| `C36_refuted_special_files_stay`, `_stale_contents_stay`, `_directory_times` | What restore leaves different from the snapshot. |
| `C37_refuted_tree_for_a_chunk` | A repository that checks clean although reading it panics. |
| `C38_refuted` | Packs left over from an interrupted run make the rebuilt index unusable. |
| `C39_refuted_removed_while_read`, `C39_refuted_two_repositories` | The cache returns files the repository does not have. |
| `C40_refuted_total_within_the_limit`, `C40_no_room_at_all` | The cache exceeds its limit by the last file kept; with a limit of zero everything fails. |
| `C41_refuted_copies_are_whole_after_power_loss` | Files are renamed into place before they are synced. |
| `C42_refuted_*` | Failures are never reported; a retried upload is not rewound; reading a missing file goes on for ever. |
| `C43_refuted_reading_may_panic`, `_reading_on` | Assertions that race with the copying thread. |
| `C45_refuted` | Dump prints the link and goes on in the same directory. |
| `C46_refuted` | A dry run deletes or leaves a WIP index in the working directory. |
| `C48_timestamps_refuted` | Times after the year 2262 wrap. |
| `C48_far_times_refuted` | A file time after the year 9999 ends the backup with a panic. |
| `C36_refuted_nested_paths` | A snapshot of a directory and of one within it (`backpak backup /a /a/b`). Restored to its original paths, both trees are compared with what was there before the command, so a directory or link missing from `/a/b` is made twice, and the second time fails with "exists". Restored with `--output`, all is well. |
| `C48_early_times_refuted`, `C36_refuted_early_times` | A file time before 1970 that is not a whole second: `restore --times` hands utimensat(2) negative nanoseconds, which it refuses. The command fails there; files after that one are not restored. |
| `C49_refuted_checked_arithmetic`, `_no_file_name` | Long names crash the progress display. |
| `C50_refuted_stray_file` | A stray file with an id for its stem is taken for the object. |
| `C52_refuted` | With leftovers in the directory an unchanged backup panics. |
| `C56_refuted` | Listing with sizes fails if any snapshot, shown or not, has an empty directory. |
| `C58_refuted` | `usage` fails if any snapshot has an empty directory. |
| `C58_refuted_blank_filter` | `usage` crashes if the configured filter command is blank ("empty filter"). |
| `C59_refuted_prune` | One blob is missing from one snapshot: `prune` fails at it, but its index, which supersedes all others, is published with what was copied by then. Snapshots that lacked nothing cannot be read any more (until `rebuild-index`). |
| `C59_refuted_backup` | `backup` takes over the chunks of an unchanged file from the parent snapshot without looking whether they are in the repository: the new snapshot is as broken as its parent. |
| `C60_refuted_same_data` | Two backups at the same time of files with a new chunk in common: both store it and both finish, and from then on a blob is in two packs and every command gives up. |
| `C60_refuted_prune_meanwhile` | A backup starts and counts on a chunk that is in the repository but in no snapshot; a prune removes it meanwhile; the backup finishes, and its snapshot cannot be read. |
| `C61_refuted_interrupted_init` | An init stopped after it made the first subdirectory: what is there does not open, and init refuses to run again because the directory is not empty. Someone has to clear it by hand. |
| `C62_refuted_without_global_file` | Without a global settings file, `.backpak` is not read at all. |
| `C62_refuted_working_directory` | `-C dir` ("before doing anything else") is obeyed only after the settings are loaded: the `.backpak` read is the one where the program was started. |
| `C62_refuted_local_file` | A `.backpak` that says nothing about skips still makes the global skips void; what it says about `dereference` has no effect. |
| `C66_programs_may_outlive_the_error_refuted`, `C66_late_programs_may_outlive_the_error_refuted` | A filter program started but not registered yet when another thread meets an error, or registered after the list was gone through, is not asked to end and outlives the program. |
| `C66_failed_writes_leave_their_program_refuted` | A filtered write that fails (say the temporary file cannot be made) unregisters its filter program without killing it. |
| `C66_strangers_may_be_ended_refuted`, `C66_recycled_programs_may_outlive_the_error_refuted` | A filter program's id stays registered after it was waited for (in `write`, for the whole upload): if the id is given out again, SIGTERM goes to a stranger; if another thread's new filter program gets it, that one is unregistered with the first. |
| `C67_borrows_may_outlive_the_value_refuted` | `Rcu::borrow` returns a `Borrow` whose type has no lifetime, so safe code can drop the `Rcu` while a `Borrow` is there; dropping frees the value at once, and reading the borrow is then a use of freed memory. Nothing in the program does so today. |
| `C68_refuted_a_removed_target_must_exist` | A saved path that has become something else (say a directory where a file was saved, with `--delete`) is removed before the saved one is put there. Stopped in between, the target is missing; restoring in place again then fails because the path does not exist, and nothing is restored. |
| `C69_the_root_refuted` | `backpak backup /` panics with "empty path": the root has no last name. |
| `C70_refuted_contents_with_the_old_time` | `diff` against the files does not mention a file whose contents were changed but whose size and modification time are as in the snapshot. |
| `C72_refuted_the_file_survives` | A dump that fails because a chunk cannot be read has already emptied the output file. |
| `C75_refuted_same_time` | Two snapshots with the same time, as filter-snapshot --keep-metadata leaves: which of them LAST names depends on which thread ends first. |
| `C77_refuted_filtered_sizes` | With a filter, what is shown as uploaded is the size before the filter program, not what the repository gets. |
| `C78_refuted_malformed_entries_are_reported` | A file in a listing for which the server gives no name or length is left out silently. |
| `C79_refuted_tags` | A tag with a space in it looks like two tags. |
| `C79_refuted_paths` | A path with line breaks in it can look like a snapshot that is not there. |

Seen in the code but not part of a theorem: `verify` does not compare the manifest's hash
with the pack's id; `--allow-repeat` has no effect; the local configuration file is read
and ignored; a prune that stops after publishing its index never removes the old packs
(a later prune does not know them); `write` of the filtered backend hangs if copying to the
temporary file fails; files cached without a row after a crash are never pruned.

## Testing the theorems

/verif/seeded/LOG.jsonl has one line per wrong program tried: the definition, the edit,
the claim it breaks, the theorems that failed and those tightened because of it.  Each
was tried in a scratch copy.  When a lemma failed to compile there it was admitted so
that the build could go on, and a theorem counts as failed if it does not compile or its
`Print Assumptions` then lists an admitted lemma.
