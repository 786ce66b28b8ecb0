{"id": "C01", "title": "Object ids survive being printed and parsed", "statement": "Printing any object id and parsing the text gives the same id back; parsing accepts a text only if printing the parsed id gives exactly that text (no aliases, no upper case, no stray trailing bits); the text is always 45 characters; distinct ids print differently and sort the same way as their texts.", "quantifier": "every 28-byte id, every input text", "why_tests_cant": "There are 2^224 ids and unboundedly many malformed texts; a unit test tries a couple.", "anchors": ["src/hashing.rs: ObjectId Display, FromStr, BASE32"]}
{"id": "C02", "title": "Hash-while-copying equals hash of the bytes", "statement": "However an input is cut into reads or writes, including short writes, the id reported by the hashing reader / writer is the id of exactly the bytes that passed through, and those bytes are unchanged.", "quantifier": "every byte sequence and every way the OS splits it into reads/writes", "why_tests_cant": "Splits are chosen by the OS and by callers; the number of split patterns is exponential.", "anchors": ["src/hashing.rs: HashingReader, HashingWriter"]}
{"id": "C03", "title": "Chunking a file loses nothing", "statement": "The chunks of a file, in the order they are recorded, concatenate to the file's bytes; each chunk's id is the hash of its bytes; the threaded chunker used for big files yields exactly the same chunk sequence as the simple one under every scheduling of its two threads.", "quantifier": "every file, every valid cut sequence, every thread interleaving", "why_tests_cant": "Schedules and file contents are unbounded.", "anchors": ["src/chunk.rs: chunk_file, ThreadedChunker, SmallFileChunker, chunk_to_blob"]}
{"id": "C04", "title": "On-disk metadata encodings round-trip and are unambiguous", "statement": "Encoding a pack manifest, index, tree or snapshot and decoding it gives the same value and leaves following bytes untouched; two different values never encode to the same bytes.", "quantifier": "every manifest, index, tree, snapshot value within the formats' integer ranges", "why_tests_cant": "The stability tests pin four byte strings; the claim is for all values, including huge lists, nested maps and every integer width boundary.", "anchors": ["src/pack.rs: PackManifestEntry", "src/index.rs: Index", "src/tree.rs: Tree, Node", "src/snapshot.rs: Snapshot, diskfmt"]}
{"id": "C05", "title": "A pack file gives back every blob put into it", "statement": "For any sequence of blobs put into a pack, reading the finished pack file back yields: its manifest, in order, with an id equal to the pack's id; a successful verification; for each blob id the exact bytes that were put in; and for each tree blob the exact tree.", "quantifier": "every blob sequence, every compressor that decompresses what it compressed", "why_tests_cant": "Unbounded blob sequences, sizes and positions.", "anchors": ["src/pack.rs: finalize, verify, extract_blob, append_to_forest, load_manifest, manifest_from_reader"]}
{"id": "C06", "title": "A pack that verifies holds the bytes its ids promise", "statement": "If verifying arbitrary file bytes against the manifest the index records succeeds, then for every blob in that manifest the file holds bytes of the recorded length that hash to the recorded id; so any corruption of a blob is detected unless it is a SHA-224 collision.", "quantifier": "every (corrupted) file content and every manifest", "why_tests_cant": "Corruptions are arbitrary; tests flip a byte or two.", "anchors": ["src/pack.rs: verify"]}
{"id": "C07", "title": "The packer neither drops, duplicates nor reorders blobs", "statement": "For every stream of non-empty blobs and whatever the compressor does to their size, the packs produced contain, taken in order, exactly the blobs sent, each exactly once; every pack is announced to the uploader before it is announced to the indexer; no empty pack is produced.", "quantifier": "every blob stream, every target size, every compression behaviour", "why_tests_cant": "Depends on the run-time ratio estimates; unbounded streams.", "anchors": ["src/pack.rs: pack, PackfileWriter"]}
{"id": "C08", "title": "Packs are closed at the target size and not before", "statement": "The packer closes a pack only when the bytes written to disk so far reached the target size (except the last), and it measures the real size whenever the uncompressed bytes since the last measurement reach its current estimate (initially the target), so that no more than that estimate plus one blob is ever taken between measurements.", "quantifier": "every blob stream, every target size, every compression behaviour", "why_tests_cant": "Numeric policy over unbounded streams.", "anchors": ["src/pack.rs: pack"]}
{"id": "C09", "title": "An index file loads back to the index that was stored, and only under its own id", "statement": "Storing an index and loading it under its id gives the same index; loading succeeds only if the id is the hash of the stored contents.", "quantifier": "every index; every stored byte string", "why_tests_cant": "All values, all corruptions.", "anchors": ["src/index.rs: to_temp_file, from_reader, load"]}
{"id": "C10", "title": "The combined index does not depend on listing order and drops superseded indexes", "statement": "Combining all stored indexes gives, whatever order the backend lists or loads them, exactly the packs mentioned by some index that no stored index supersedes.", "quantifier": "every set of index files and every listing/loading order", "why_tests_cant": "Loads run concurrently; orders are factorial.", "anchors": ["src/index.rs: build_master_index, build_master_index_with_sizes"]}
{"id": "C11", "title": "Blob lookup maps are exact, and duplicates are reported", "statement": "Building the blob-to-pack map from a combined index succeeds iff no blob occurs twice; then it maps a blob to a pack iff that pack's manifest lists it, and the blob set and size map agree with it.", "quantifier": "every combined index", "why_tests_cant": "All index shapes, including duplicate blobs within and across packs.", "anchors": ["src/index.rs: blob_to_pack_map, blob_id_set, blob_to_size_map"]}
{"id": "C12", "title": "The work-in-progress index always describes the packs received so far", "statement": "While indexing with resumability, the WIP file on disk after any number of received packs holds exactly the starting index plus those packs; the published index equals it; a pack id received twice is refused; with nothing to index nothing is written.", "quantifier": "every starting index, every sequence of packs, every point of interruption", "why_tests_cant": "Every prefix of every run.", "anchors": ["src/index.rs: index, to_temp_file, read_wip"]}
{"id": "C13", "title": "A published index never points at a missing pack", "statement": "At every instant of a backup, in every interleaving of the main thread, chunk packer, tree packer, indexer and uploader, and so after a crash at that instant: if an index file of this run is on the backend then every pack it names is on the backend. This includes runs that resume an interrupted one after other runs, or a prune, changed the backend or files went from the working directory.", "quantifier": "every schedule of the five threads and every crash point", "why_tests_cant": "The interleavings and crash points are unbounded; tests run one schedule.", "anchors": ["src/backup.rs: backup_master_thread, spawn_backup_threads", "src/pack.rs: pack", "src/index.rs: index", "src/upload.rs: upload"]}
{"id": "C14", "title": "An interrupted backup can always be resumed", "statement": "At every crash point of a backup, in every interleaving, each pack named by the WIP index is either still in the working directory or already on the backend, so the next run's resume check accepts it; and no pack is lost in between. The check trusts nothing: whatever the state, a run resumes only if each pack named is in the directory (and then it is uploaded) or on the backend; otherwise no backup, copy or prune goes on.", "quantifier": "every schedule and crash point; for the check, every state of the directory and the backend", "why_tests_cant": "The resume test kills one run at one point.", "anchors": ["src/backup.rs: find_resumable, find_cwd_packfiles, upload_cwd_packfiles", "src/index.rs: index"]}
{"id": "C15", "title": "A visible snapshot is always complete", "statement": "Starting from an empty repository, after any sequence of backup, forget, prune, copy-in, rebuild-index and crashes at any point of any of them (each run from a clean working directory), every snapshot listed by the repository has its root tree, all reachable trees and chunks in packs present on the backend and named by the combined index.", "quantifier": "every history of commands and crash points", "why_tests_cant": "Histories are unbounded and crashes can land between any two backend writes.", "anchors": ["src/ui/backup.rs: run", "src/ui/prune.rs: run", "src/ui/copy.rs: run", "src/ui/forget.rs: run", "src/ui/rebuild_index.rs: run", "src/snapshot.rs: upload"]}
{"id": "C16", "title": "Backup then restore reproduces the files", "statement": "Backing up any file tree and reading the snapshot back gives the same directory structure, names, symlink targets, metadata and file bytes.", "quantifier": "every finite file system tree of files, directories and symlinks; every previous repository content", "why_tests_cant": "Unbounded trees, any dedupe state.", "anchors": ["src/ui/backup.rs: backup_tree", "src/fs_tree.rs: walk_fs", "src/tree.rs: forest_from_root", "src/ui/restore.rs", "src/read.rs: read_blob"]}
{"id": "C17", "title": "Nothing already stored is stored again", "statement": "In one backup, a blob is handed to a packer at most once, and never if it is already in the combined index or the resumed WIP index; and every blob the new tree needs is either already known or handed to a packer.", "quantifier": "every file tree, every prior index, every WIP index", "why_tests_cant": "Unbounded duplication patterns.", "anchors": ["src/ui/backup.rs: backup_tree, run", "src/repack.rs: walk_tree"]}
{"id": "C18", "title": "Using the previous snapshot does not change the result", "statement": "If every file whose size and modification time match the previous snapshot also has unchanged contents, then a backup that reuses the previous snapshot yields the same root tree as a backup from scratch; and a file is re-read whenever its kind, size or modification time changed.", "quantifier": "every current tree, every previous tree", "why_tests_cant": "All pairs of trees.", "anchors": ["src/fs_tree.rs: file_changed, walk_fs", "src/ui/backup.rs: backup_tree, parent_snapshot"]}
{"id": "C19", "title": "Prune never loses data a snapshot needs, at any crash point", "statement": "Starting prune from a consistent repository with no leftover WIP index, at every point of its execution every snapshot stays fully readable through the combined index; after it ends too.", "quantifier": "every repository, every schedule of the repack pipeline, every crash point", "why_tests_cant": "Crash points and repository shapes are unbounded.", "anchors": ["src/ui/prune.rs: run", "src/repack.rs: walk_snapshots, walk_tree"]}
{"id": "C20", "title": "Prune leaves no garbage behind", "statement": "After an uninterrupted prune every pack named by the combined index contains only blobs reachable from some snapshot, and every pack that had an unreachable blob is gone from the backend; a repository with nothing to prune is not changed.", "quantifier": "every consistent repository", "why_tests_cant": "All shapes.", "anchors": ["src/ui/prune.rs: run, partition_reusable_packs"]}
{"id": "C21", "title": "Re-running an interrupted prune is safe", "statement": "If prune is interrupted and run again in the same directory it is as safe as a fresh prune, whatever happened to the repository in between.", "quantifier": "every crash point, every intermediate history", "why_tests_cant": "Needs a history of three commands with a crash inside.", "anchors": ["src/ui/prune.rs: run (WIP check)", "src/backup.rs: find_resumable"]}
{"id": "C22", "title": "Resuming a backup is safe whatever left the WIP index", "statement": "A backup that resumes from a WIP index found in its directory publishes a repository in which every old and new snapshot is complete.", "quantifier": "every WIP index some interrupted command can leave behind", "why_tests_cant": "Needs cross-command histories with a crash.", "anchors": ["src/ui/backup.rs: run", "src/backup.rs: find_resumable", "src/ui/prune.rs: run", "src/ui/rebuild_index.rs: run"]}
{"id": "C23", "title": "Copying a snapshot copies everything it needs", "statement": "Copying without skips keeps the tree id; after copying, the destination's index covers every blob reachable from the copied snapshot; blobs already at the destination are not sent again; the destination is consistent at every crash point.", "quantifier": "every pair of repositories, every crash point", "why_tests_cant": "All repository pairs.", "anchors": ["src/ui/copy.rs: run", "src/repack.rs"]}
{"id": "C24", "title": "Filtering a snapshot removes exactly the matching paths", "statement": "The rewritten tree contains precisely the paths for which no skip pattern matches the path or one of its ancestors, with contents and metadata unchanged; every blob it needs is available; the original snapshot is not touched.", "quantifier": "every tree and every path predicate", "why_tests_cant": "All trees and all predicates.", "anchors": ["src/ui/filter_snapshot.rs: run", "src/repack.rs: walk_tree", "src/filter.rs: skip_matching_paths"]}
{"id": "C25", "title": "Loading a snapshot's trees finds exactly the reachable ones or fails", "statement": "Loading the forest from a root returns exactly the trees reachable from it, fails if one is missing or corrupt, and always terminates: a cycle is reported rather than followed.", "quantifier": "every collection of trees, acyclic or not", "why_tests_cant": "All graphs, including adversarial.", "anchors": ["src/tree.rs: forest_from_root, append_tree, Cache"]}
{"id": "C26", "title": "Size accounting is exact", "statement": "Sizes can be reported for every list of loadable snapshots, and they attribute every reachable blob to the first snapshot that uses it: the introduced sizes add up to the total size of all distinct reachable blobs, and each blob is counted once.", "quantifier": "every list of snapshots and forests", "why_tests_cant": "All sharing patterns, including empty directories.", "anchors": ["src/tree.rs: forest_sizes, tree_size, node_size", "src/ui/usage.rs", "src/ui/snapshots.rs"]}
{"id": "C27", "title": "Reading chunks through the cache is transparent", "statement": "Reading any sequence of chunks through the pack-reading cache returns for each the bytes stored under its id; the cache never exceeds its size limit, and it never crashes.", "quantifier": "every access sequence, every repository, every cache state", "why_tests_cant": "Unbounded access patterns and clock behaviour.", "anchors": ["src/read.rs: ChunkCache, ChunkReader"]}
{"id": "C28", "title": "The tree cache is transparent", "statement": "Reading any sequence of trees through the tree cache returns the tree stored under that id, independent of what was read before.", "quantifier": "every sequence of reads", "why_tests_cant": "Unbounded sequences.", "anchors": ["src/tree.rs: Cache"]}
{"id": "C29", "title": "At most N concurrent operations", "statement": "With a concurrency limit of N, at no time do more than N threads hold a permit, and permits are conserved, in every interleaving including spurious wake-ups and CAS failures.", "quantifier": "every number of threads, every schedule", "why_tests_cant": "Schedules.", "anchors": ["src/semaphored.rs: dec, SemaphoreGuard::drop", "src/backend/semaphored.rs"]}
{"id": "C30", "title": "A waiting thread is eventually let in", "statement": "Whenever a permit is free and everybody else has finished, a thread waiting for a permit is not asleep for ever.", "quantifier": "every number of threads, every schedule", "why_tests_cant": "A lost wake-up needs a particular three-thread schedule.", "anchors": ["src/semaphored.rs: dec, SemaphoreGuard::drop"]}
{"id": "C31", "title": "The backup pipeline never hangs", "statement": "From every reachable state of the backup pipeline some thread can make progress until all have finished; whatever number of CPUs the machine has.", "quantifier": "every schedule, every blob stream, every CPU count", "why_tests_cant": "Deadlock depends on the machine's CPU count and schedule.", "anchors": ["src/backup.rs: backup_master_thread", "src/concurrently.rs: named_concurrently", "src/semaphored.rs"]}
{"id": "C32", "title": "Naming a snapshot finds that snapshot or fails", "statement": "LAST names the newest snapshot, LAST~n the n-th before it, an id prefix names the unique snapshot with that prefix; an ambiguous or unmatched name is an error; and no text makes the lookup crash.", "quantifier": "every snapshot list and every name text", "why_tests_cant": "All texts, including huge numbers.", "anchors": ["src/snapshot.rs: find"]}
{"id": "C33", "title": "Selecting several snapshots gives each once, oldest first", "statement": "Resolving a list of snapshot names gives exactly the named snapshots in chronological order, each once, whatever the order and repetitions of the arguments.", "quantifier": "every snapshot list, every argument list", "why_tests_cant": "Needs equal timestamps and interleaved repetitions.", "anchors": ["src/snapshot.rs: from_args_list, load_chronologically"]}
{"id": "C34", "title": "Forgetting duplicates keeps one snapshot per run of equal contents", "statement": "forget DUPLICATES removes a snapshot only if an older remaining snapshot has the same tree; every tree that had a snapshot still has one; no pack or index is touched; a dry run touches nothing.", "quantifier": "every snapshot history", "why_tests_cant": "Unbounded histories.", "anchors": ["src/ui/forget.rs: run"]}
{"id": "C35", "title": "Diff reports exactly the differences", "statement": "Comparing two trees reports nothing iff they are equal (as far as compared), reports each path present on one side only as added/removed together with its contents, and each path with differing contents or metadata exactly once.", "quantifier": "every pair of trees", "why_tests_cant": "All pairs.", "anchors": ["src/diff.rs: compare_trees, compare_nodes, Callbacks"]}
{"id": "C36", "title": "Restore makes the target look like the snapshot, and without --delete removes nothing else", "statement": "Restoring with --delete makes the target equal to the snapshot tree whatever was there; without --delete every path that is not in the snapshot is kept; a dry run changes nothing.", "quantifier": "every target tree, every snapshot tree", "why_tests_cant": "All pairs of trees.", "anchors": ["src/ui/restore.rs: callbacks", "src/diff.rs"]}
{"id": "C37", "title": "A clean check means every snapshot is restorable", "statement": "If check with --read-packs reports success on a repository then every snapshot in it can be read back completely; and on a consistent, uncorrupted repository check succeeds.", "quantifier": "every repository state, every corruption", "why_tests_cant": "All corruptions.", "anchors": ["src/ui/check.rs: run", "src/pack.rs: verify"]}
{"id": "C38", "title": "Rebuilding the index is safe and complete", "statement": "Rebuilding the index of a consistent repository leaves, at every crash point, every snapshot complete, and at the end one index naming exactly the packs on the backend; it never makes a working repository unusable.", "quantifier": "every repository, including ones with unindexed packs left by interrupted runs; every crash point", "why_tests_cant": "Needs interrupted histories.", "anchors": ["src/ui/rebuild_index.rs: run", "src/index.rs"]}
{"id": "C39", "title": "The local cache is transparent", "statement": "Through any sequence of reads, writes, removals and cache evictions a cached repository returns the same bytes as an uncached one, and files removed are gone from the cache.", "quantifier": "every operation sequence, every cache size", "why_tests_cant": "Unbounded sequences.", "anchors": ["src/backend.rs: CachedBackend", "src/backend/cache.rs"]}
{"id": "C40", "title": "The cache respects its size limit", "statement": "After pruning the cache, the files kept are the most recently used ones and their total size is at most the limit.", "quantifier": "every cache content and every limit", "why_tests_cant": "All contents and timestamps, including ties.", "anchors": ["src/backend/cache.rs: prune"]}
{"id": "C41", "title": "Files appear atomically", "statement": "At every crash point of copying or moving a file into place, the destination name either has its old content (or does not exist) or has the complete new content; the source of a move is not removed before the destination is complete; listings never show partial files.", "quantifier": "every crash point, same or different file systems", "why_tests_cant": "Crash points.", "anchors": ["src/file_util.rs: safe_copy_to_file, move_opened, move_by_copy", "src/backend/fs.rs"]}
{"id": "C42", "title": "A failed upload is retried without damage", "statement": "When the cloud backend retries a failed request, the object finally stored has the bytes of the source file; a request that cannot succeed is reported.", "quantifier": "every sequence of transient failures", "why_tests_cant": "Failure patterns.", "anchors": ["src/backend/backblaze.rs: retry, write, read", "b2/src/lib.rs: put"]}
{"id": "C43", "title": "Filtered repositories give back the original bytes", "statement": "With filter and unfilter commands that invert each other, reading returns what was written, and a filter program that fails never leaves a file in the repository; a configuration with only one of the two is rejected.", "quantifier": "every byte sequence, every filter pair, every exit status", "why_tests_cant": "All inputs.", "anchors": ["src/backend/filter.rs", "src/backend.rs: Configuration"]}
{"id": "C44", "title": "Listing visits each path exactly once", "statement": "ls -r prints exactly the paths of the snapshot, each once, parents before children.", "quantifier": "every tree", "why_tests_cant": "All trees.", "anchors": ["src/ls.rs: print_tree, walk_tree, walk_node"]}
{"id": "C45", "title": "Dump prints the file at the given path", "statement": "Dumping a path prints the bytes of the file at exactly that path or fails.", "quantifier": "every tree and path", "why_tests_cant": "All trees and paths, including paths through symlinks.", "anchors": ["src/ui/dump.rs: run"]}
{"id": "C46", "title": "A dry run changes nothing", "statement": "Running backup, prune, copy, filter-snapshot, forget, restore or rebuild-index as a dry run leaves the repository and the working directory's resumable state as they were.", "quantifier": "every repository and working directory state", "why_tests_cant": "All states, including a leftover WIP index.", "anchors": ["src/ui/backup.rs", "src/ui/prune.rs", "src/ui/rebuild_index.rs", "src/backup.rs: join", "src/index.rs: to_temp_file"]}
{"id": "C47", "title": "Metadata differences are shown iff they exist", "statement": "Two metadata records show no difference mark iff they agree in the compared fields; a node's displayed kind is its recorded kind.", "quantifier": "every pair of metadata records", "why_tests_cant": "All field combinations.", "anchors": ["src/tree.rs: meta_diff_char, kind"]}
{"id": "C48", "title": "Timestamps are stored faithfully", "statement": "A file's modification time survives storing and loading.", "quantifier": "every representable timestamp", "why_tests_cant": "All timestamps.", "anchors": ["src/prettify.rs: date_time", "src/tree.rs: PosixMetadata"]}
{"id": "C49", "title": "Progress paths fit the terminal", "statement": "The shortened path shown in progress output has at most the requested width and never crashes.", "quantifier": "every path and width", "why_tests_cant": "All lengths.", "anchors": ["src/progress.rs: truncate_path"]}
{"id": "C50", "title": "Object names and locations correspond one to one", "statement": "Each kind of object is stored at a location determined by its id, distinct objects have distinct locations, and the id can be recovered from any location the repository lists.", "quantifier": "every id and kind", "why_tests_cant": "All ids.", "anchors": ["src/backend.rs: destination, id_from_path, pack_path"]}
{"id": "C51", "title": "Skip patterns combine as a union", "statement": "A path is skipped iff some configured or command-line pattern matches; merging configured and command-line skips loses none and adds none.", "quantifier": "every list of patterns and paths", "why_tests_cant": "All lists.", "anchors": ["src/filter.rs", "src/config.rs: merge_skips"]}
{"id": "C52", "title": "An unchanged backup adds nothing", "statement": "Backing up an unchanged tree a second time uploads no pack and no index and creates no snapshot, and says so without crashing.", "quantifier": "every tree, every repository, every leftover WIP index", "why_tests_cant": "Depends on the resume state.", "anchors": ["src/ui/backup.rs: run"]}
{"id": "C53", "title": "A run that succeeds has published exactly what it was given", "statement": "When a backup run ends successfully, in whatever order its threads ran, either there was nothing to store and the backend's indexes are unchanged, or exactly one index was published; it lists what the run started from and every blob that was sent, once each and nothing else, every pack it names is on the backend with that content, and the WIP index is gone.", "quantifier": "every schedule of the five threads, every blob stream, every starting index", "why_tests_cant": "A lost or repeated pack only shows in particular interleavings.", "anchors": ["src/backup.rs: Backup::join", "src/pack.rs: pack", "src/index.rs: index", "src/upload.rs: upload"]}
{"id": "C54", "title": "Listings of a bucket are complete however many pages they take", "statement": "Listing the files of a cloud repository shows each file with the prefix once: all those that were there during the listing and none that never was, whatever the size of the pages and whatever others upload or remove meanwhile.", "quantifier": "every bucket, prefix, page size and sequence of changes by others", "why_tests_cant": "Buckets of more than a page of files and changes between pages.", "anchors": ["b2/src/lib.rs: list", "src/backend/backblaze.rs: list"]}
{"id": "C55", "title": "Listing snapshots with changes shows exactly what each one changed", "statement": "Listing with --stat shows every selected snapshot (all of them if none is named) exactly once, oldest first or newest first as asked. Below each are exactly the differences to the snapshot before it among all snapshots, whether that one is selected or not, and to nothing for the oldest. It never fails in an intact repository. Without --stat and without names every snapshot is listed once in order.", "quantifier": "every intact repository, selection and combination of --reverse and --metadata", "why_tests_cant": "Depends on all pairs of trees, on which neighbours are loaded for which selection, and on trees shared between snapshots.", "anchors": ["src/ui/snapshots.rs: run, tree_diff, PrintDiffs", "src/diff.rs: compare_trees, null_forest"]}
{"id": "C56", "title": "Sizes shown per snapshot and per file are exact", "statement": "Listing with --sizes or --file-sizes shows for every selected snapshot the bytes of all trees and chunks in it, counted each time they occur, split into reused bytes and new ones: the bytes of the blobs it needs and no older snapshot does. Each file is reported with the bytes of those of its chunks that neither an older snapshot nor a file before it has, and the bytes of the rest. Files are sorted by new bytes with files that add nothing left out, or shown beside the changes with --stat, padded to a common width. It never fails in an intact repository.", "quantifier": "every intact repository, selection and combination of flags", "why_tests_cant": "Sharing of chunks and trees between any number of files and snapshots, in any order.", "anchors": ["src/ui/snapshots.rs: run, measure_path_pad, PadMeasure, PrintDiffs", "src/tree.rs: forest_sizes, tree_size, node_size"]}
{"id": "C57", "title": "cat prints what was asked for", "statement": "Printing a blob, pack, index or snapshot by id shows an object that the repository really holds under that id: the bytes of a blob hash to the id, a pack's manifest is the one its id is computed from, an index or snapshot is the decoded file of that name. In an intact repository everything stored is printed. Whatever the files hold it fails with an error rather than crash, except for the id of the empty text, which the code asserts not to be asked for.", "quantifier": "every repository state, damaged or not, every object and id", "why_tests_cant": "Ranges over all file contents, including adversarially damaged ones, and all ids.", "anchors": ["src/ui/cat.rs: run", "src/pack.rs: extract_blob, load_manifest", "src/index.rs: load", "src/snapshot.rs: load, find"]}
{"id": "C58", "title": "usage's figures are exact", "statement": "usage reports the number of snapshots with the oldest and newest, the bytes of all blobs that some snapshot needs, the bytes they reuse, the number of indexes, the packs in use, and the sizes of all files. It reports unused bytes exactly if something stored is needed by no snapshot, and then their exact amount; it never reports anything missing in an intact repository; it warns of exactly the packs no index in use names. A prune after it removes something needed by nobody exactly if unused bytes were reported. It never fails in an intact repository.", "quantifier": "every intact repository with any number of snapshots, packs and indexes", "why_tests_cant": "Sharing between any number of snapshots, files and packs; every history of commands that leads to leftover blobs.", "anchors": ["src/ui/usage.rs: run", "src/tree.rs: forest_sizes, AddAssign", "src/index.rs: build_master_index_with_sizes", "src/ui/check.rs: warn_on_unreachable_packs"]}
{"id": "C59", "title": "Damage does not spread", "statement": "If blobs that some snapshots need are gone from a repository, running commands makes nothing worse: copy, filter-snapshot, backup and prune, whether they succeed, fail at the missing blob or are interrupted, leave every snapshot that could be read readable, and never add a snapshot that cannot be read. A snapshot from which the missing part is filtered out, or one that needs none of it, can still be copied and filtered.", "quantifier": "every repository with any set of blobs missing, every snapshot, filter and destination, every point of interruption and schedule of the threads", "why_tests_cant": "Any subset of the blobs may be missing, and the failure hits at a point of the walk and the pipeline that depends on the schedule.", "anchors": ["src/repack.rs: walk_snapshots, walk_tree, repack_chunk", "src/ui/copy.rs: run", "src/ui/filter_snapshot.rs: run, walk_tree", "src/ui/prune.rs: run", "src/ui/backup.rs: run, backup_tree", "src/index.rs: index"]}
{"id": "C60", "title": "Several runs at the same time lose nothing", "statement": "Run any number of backups, copies, filterings, forgets and rebuildings of the index against one repository at the same time, from different working directories: every snapshot that is visible at any moment is complete, what could be restored before can be restored afterwards with the same contents, only forget removes snapshots, and afterwards the commands still work.", "quantifier": "every number of concurrent runs, every interleaving of all their threads' steps on the shared backend, every point of interruption of each, every moment an index rebuild lists, reads, publishes and removes", "why_tests_cant": "Nothing locks the repository, so correctness depends on the order in which steps of different processes hit the backend; the interleavings of several four-thread pipelines cannot be enumerated.", "anchors": ["src/ui/rebuild_index.rs: run (comment on concurrent backups)", "src/ui/backup.rs: run", "src/ui/copy.rs: run", "src/ui/filter_snapshot.rs: run", "src/ui/forget.rs: run", "src/ui/prune.rs: run", "src/index.rs: index, build_master_index_with_sizes", "src/upload.rs: upload"]}
{"id": "C61", "title": "Init sets up a repository or touches nothing", "statement": "init in a place where nothing is yet, or in an empty directory, gives a repository that opens with the settings asked for and is empty; anywhere else it fails and changes nothing. It never changes anything that was there before, wherever it is interrupted, and refuses an encryption filter that does not give back what it was given. After an interruption the command can be run again, and what is there never opens with settings nobody asked for.", "quantifier": "every state of the files, every place for the repository, every kind, pack size and filter, every way the configuration's text is cut into writes and every point of interruption", "why_tests_cant": "The tests initialise one fresh directory; interruptions between the directory and file creations, and all the states a target may be in, cannot be enumerated.", "anchors": ["src/ui/init.rs: run, round_trip_filter_test", "src/backend/fs.rs: initialize, FilesystemBackend::open", "src/backend/backblaze.rs: initialize", "src/backend.rs: write_config, read_config, open"]}
{"id": "C62", "title": "Settings come from the most specific place", "statement": "Each setting of a command is taken from the most specific place that gives it: the command line, then .backpak in the directory the command works in (which -C changes before anything else), then the global settings file, then the default; skips on the command line add to those from the files. --config \"\" leaves all files out, and a settings file that exists but cannot be read stops the command.", "quantifier": "every content of the global and local settings files, present or not, every current and given working directory, every combination of flags", "why_tests_cant": "The combinations of files, flags and directories are many and each setting is merged by a rule of its own; no test covers the merging.", "anchors": ["src/config.rs: load, load_cwd, merge_skips", "src/main.rs: run", "src/ui/backup.rs: run", "src/ui/restore.rs: run", "src/ui/copy.rs: run", "src/ui/filter_snapshot.rs: run"]}
{"id": "C63", "title": "What changes while a backup runs is caught by the next one", "statement": "Files may be changed by other programs at any time, also between a backup's reading a file's metadata and its contents. As long as every change of a file's contents shows in its modification time or size, in every later backup each file that is left alone while that backup runs is recorded with its contents, whatever parent snapshots the backups build on and however earlier backups were confused by the changes.", "quantifier": "every evolution of the files over time, every number of backups, each with any earlier one of the same paths as parent, every moment at which each place is looked at, every skip list and link behaviour", "why_tests_cant": "Races between another program's writes and the walk's two looks at a file cannot be scheduled by a test, and the damage would show only in later backups that trust the recorded modification time.", "anchors": ["src/fs_tree.rs: walk_fs, file_changed", "src/ui/backup.rs: backup_tree, parent_snapshot", "src/tree.rs: get_metadata", "src/chunk.rs: chunk_file"]}
{"id": "C64", "title": "The files on the backend are the repository", "statement": "Every change a command makes to the repository is one change of one file on the backend, at the place named by the object's id, and at every moment between these changes the files, read back as bytes (magic numbers, compressed frames, CBOR, lengths, names), say exactly what the repository holds: the same merged index, the same snapshots, and for each snapshot the same directories, files and contents, whatever order the backend lists files in, however the compressor chose its bytes, and through the caches. So what a finished backup was given comes back from the bytes, and check finds nothing wrong with them.", "quantifier": "every history of commands run to their end or interrupted, every compressor whose output decompresses, every listing order, every sequence of chunk reads, every backed-up file tree", "why_tests_cant": "Tests read back a handful of repositories written by one version of the compressor on one file system; a mismatch between what one command writes and another expects shows only for some histories, orders or sizes.", "anchors": ["src/pack.rs: Packer, load_manifest, extract_blob", "src/index.rs: to_file, build_master_index_with_sizes, load", "src/snapshot.rs: upload, load, load_chronologically", "src/backend.rs: read_index, read_pack, read_snapshot, write, remove_pack", "src/read.rs: ChunkReader", "src/tree.rs: Cache, forest_from_root", "src/file_util.rs: safe_copy_to_file"]}
{"id": "C65", "title": "Work shared out to threads is done once and in full, or the program ends", "statement": "When the program shares work out to threads (loading indexes and snapshots, checking packs, reading manifests), the call returns only after every piece was done exactly once and went well, with the result doing them one after the other in some order would give; if a piece fails the program ends with an error, and it does so only if one failed; never are more threads at work than there are processors; and the call always ends.", "quantifier": "every number of pieces and processors, every schedule, every outcome of each piece, every spurious failure of the compare-and-exchange and every spurious wake-up", "why_tests_cant": "Lost wake-ups, a result pushed twice or a piece never started show only under particular interleavings of the semaphore's atomic steps.", "anchors": ["src/concurrently.rs: concurrently, map_concurrently, named_concurrently", "src/semaphored.rs: dec, SemaphoreGuard::drop", "src/lib.rs: fatal", "src/index.rs: build_master_index_with_sizes", "src/snapshot.rs: load_chronologically_with_total_size"]}
{"id": "C66", "title": "An error ends the filter programs too, and nothing else", "statement": "When an error ends the program while filter programs started for a filtered repository are running, each of them is asked to end before the program does, and no process that the program did not start is; once reads and writes are over no filter program is remembered or left running.", "quantifier": "every number of threads, every order of starting, registering, ending, waiting for and forgetting filter programs, every assignment of process ids by the system, every moment at which any thread meets an error", "why_tests_cant": "Whether a filter program survives, or a stranger is signalled, depends on the moment of the error between two steps of another thread and on which ids the system hands out again.", "anchors": ["src/lib.rs: CHILDREN, ChildGuard, fatal", "src/backend/filter.rs: UnfilterRead, read, write", "src/concurrently.rs: concurrently"]}
{"id": "C67", "title": "What is published for the progress display can be read, and is freed once", "statement": "A value borrowed from the place where a thread publishes what it is doing is the one that was the latest when it was borrowed, and it can be read for as long as it is borrowed, however many others are published meanwhile; no value is freed twice, and in the end every one is.", "quantifier": "every number of threads publishing and borrowing, every interleaving of their steps, every moment at which replaced values are destroyed or the place itself is dropped", "why_tests_cant": "Reading freed memory or freeing it twice depends on the order of steps of several threads and of the collector, and may go unnoticed when it happens.", "anchors": ["src/rcu.rs: Rcu::new, update, borrow, drop, Borrow", "src/ui/backup.rs: WalkStatistics, print_progress", "src/repack.rs: current_file"]}
{"id": "C68", "title": "An interrupted restore loses nothing else and can be run again", "statement": "Wherever a restore is stopped, between or within its changes to the file system, each place in and below the targets holds what was there before, what was saved (of a file perhaps only the beginning, with a size that tells) or, only where something of another kind is to be put or removed, nothing; without --delete everything the snapshot does not have is still there; nothing outside the targets has changed. Running the same restore again then gives what an uninterrupted one would have given.", "quantifier": "every snapshot, every contents of the target directories, every option, and every point between two changes or within a write or the removal of a directory", "why_tests_cant": "A test stops at a few points of a few restores; the second run reads files that are half written and directories half removed, and must tell them from finished ones.", "anchors": ["src/ui/restore.rs: run, add_node, remove_node, change_node_contents, set_metadata", "src/fs_tree.rs: walk_fs", "src/diff.rs: compare_trees"]}
{"id": "C69", "title": "A backup takes any paths whose names differ, however they are written", "statement": "A backup takes the paths it is given exactly if all exist and no two different ones end in the same name, and otherwise refuses with an error before anything is read or written. In what order, how often, by what relative names or through which links they are given makes no difference: the snapshot lists the same paths, a later backup of the same directories finds it as its parent, and restoring knows where each thing came from.", "quantifier": "every list of arguments, every file system and working directory", "why_tests_cant": "The paths and the ways to write them are unbounded; a clash or an order that differs shows only as a full backup where an incremental one was due, or a restore to the wrong place.", "anchors": ["src/ui/backup.rs: run, reject_matching_directories, parent_snapshot", "src/snapshot.rs: Snapshot"]}
{"id": "C70", "title": "Comparing a snapshot to the files says exactly how they differ", "statement": "diff with one snapshot compares it to what is at the paths it was made of. It succeeds if all of these exist and fails, printing nothing, if one does not. For every place at or below them it prints a + line if something is there now that was not (or is of another kind, or a link leading elsewhere), a - line if something is no longer so, a C line for a file whose contents differ and, with --metadata, a line naming the first of owner, permissions, times and the rest that differs; each line once, and no other line. Symbolic links are not followed and special files do not count. If nothing was changed nothing is printed. After a backup, the comparison is with what was backed up: what the backup skipped shows as added. Contents of a file with the size and modification time it had are not looked at.", "quantifier": "all repositories in order, snapshots in them, files at the snapshot's paths, backups and later changes of the files, and with or without --metadata", "why_tests_cant": "The report depends on the whole of two trees, one of them made by reusing the other for what looks unchanged; tests compare a handful of trees.", "anchors": ["src/ui/diff.rs: run, load_snapshot2_or_paths, PrintDiffs", "src/fs_tree.rs: forest_from_fs, walk_fs", "src/diff.rs: compare_trees", "src/snapshot.rs: find"]}
{"id": "C71", "title": "Prune says what it is going to do, and does it", "statement": "Before changing anything, and likewise in a dry run, prune prints how many packs it keeps, rewrites and drops, the bytes of what is in each kind, and how many indexes it replaces. Every pack that the indexes name is counted once: among the kept if snapshots need everything in it, among the dropped if they need nothing in it, among the rewritten otherwise. It says that all is in use, and does nothing, exactly if nothing unneeded is stored. When a prune has run to its end, the packs to keep are as they were, the others are gone, one index is left, everything stored is needed and comes from the packs kept or rewritten, and takes no more bytes than those had (but for the empty tree, which need not have been stored before).", "quantifier": "all repositories in order, all leftovers of own interrupted commands, and all schedules of a prune that runs to its end", "why_tests_cant": "The numbers depend on every pack and every snapshot; a test sees one repository.", "anchors": ["src/ui/prune.rs: run, partition_reusable_packs, partition_droppable_packs, packs_blob_size"]}
{"id": "C72", "title": "Where dump writes, and what a failing dump leaves", "statement": "What dump shows goes to the standard output if no output or - is given, and otherwise becomes the whole contents of the output file. If there is nothing at the path, dump fails and leaves the file as it was, not even creating it. If something cannot be read or written, or the file cannot be made, dump fails, and what was written is a beginning of what it would have shown, or nothing was changed. If everything can be read and written and the file can be made, it succeeds. A path that names nothing, as ., succeeds and makes no file. A path that is absolute or goes up fails.", "quantifier": "all repositories in order, all snapshots, all paths into them that go through no link, all outputs and their previous contents, and all ways reading and writing may fail, at any byte", "why_tests_cant": "It depends on what is in the repository, on the path and on which read fails when.", "anchors": ["src/ui/dump.rs: run, dump_dir, dump_symlink, dump_file, open_writer"]}
{"id": "C73", "title": "The numbers a backup shows add up", "statement": "The size a backup announces first is the size of the files it does not skip. When it is done, the new chunk bytes, new tree bytes and reused bytes it shows are together the sizes of those files and of the listings of their directories: nothing is counted twice or left out. A blob counted as new was not in the repository and is counted once. Counting changes nothing about what is stored. If the root is the empty directory, all the numbers are zero, so the assertions made about them cannot fail.", "quantifier": "all file trees, skipped paths, previous snapshots and sets of blobs already stored", "why_tests_cant": "It depends on which files look unchanged, which contents occur twice and which are stored already, in any combination and at any depth.", "anchors": ["src/ui/backup.rs: run, check_paths, backup_tree, visit, finalize", "src/pack.rs: Packer"]}
{"id": "C74", "title": "What cat prints can be read", "statement": "What cat prints for a tree, a pack, an index or a snapshot is one JSON text in which everything the object holds is found under its name: a directory's entries under their names whatever characters are in them, ids as texts that name the same objects on the command line, sizes and lengths as exact numbers. No name in it occurs twice. The text is valid UTF-8. Two objects of the same kind that print the same are the same, if jiff prints different times differently.", "quantifier": "all repositories, damaged or not, and all objects in them: names with any characters, any number of entries, numbers of any size", "why_tests_cant": "Names may contain quotes, backslashes, control characters and any Unicode text, and numbers any digits; only some of them are in a test.", "anchors": ["src/ui/cat.rs: run", "src/hashing.rs: ObjectId Serialize", "src/prettify.rs: instant, instant_option", "src/tree.rs: NodeContents, NodeMetadata, Node", "src/pack.rs: PackManifestEntry", "src/index.rs: Index", "src/snapshot.rs: Snapshot"]}
{"id": "C75", "title": "Which snapshots a command sees does not depend on timing", "statement": "Every command that works on snapshots first loads all of them, in threads. When that succeeds, the command has every snapshot in the repository, each once, oldest first, and the right total size, and every name the user may give (LAST, LAST~n, an id, the beginning of an id) means the same snapshot in every run, however the files are listed, however many processors there are and in whatever order the threads end. If a file is damaged, misnamed or missing, the command ends with an error and never works on some of the snapshots only. Snapshots stored by older versions are read as well.", "quantifier": "all repositories, listings, numbers of processors and schedules of the loading threads", "why_tests_cant": "A test sees one order of the threads; two snapshots that swap places do so rarely.", "anchors": ["src/snapshot.rs: load_chronologically, load_chronologically_with_total_size, load, from_reader, deserialize_zoned, undiskfmt, find", "src/concurrently.rs: map_concurrently"]}
{"id": "C76", "title": "The numbers copy and prune show add up", "statement": "While copy and prune run they show how many bytes of new files, new metadata and reused data there are. When the command ends, these three together are exactly the bytes of all the files in the snapshots it went through (less what the skip rules reject) and of the directories' metadata, each as often as it occurs. Nothing is counted as new twice; copy counts nothing as new that the destination had; there are never more new file bytes than there are bytes in the files. If nothing is skipped, the sum is also what the size column of usage and snapshots shows for these snapshots. Counting does not change what is done.", "quantifier": "all repositories, snapshots asked for, skip rules, contents of the destination and leftovers of interrupted runs", "why_tests_cant": "A test adds up one copy; what is reused depends on which blobs the destination has and on how often a chunk comes up in and across snapshots.", "anchors": ["src/repack.rs: WalkStatistics, walk_snapshots, walk_tree, repack_chunk", "src/read.rs: ChunkReader::blob_size", "src/ui/copy.rs: run", "src/ui/prune.rs: run", "src/pack.rs: pack (byte counters)"]}
{"id": "C77", "title": "The bytes shown as compressed, uploaded and downloaded are those of the files", "statement": "While it runs the program shows how many bytes it has compressed, uploaded and downloaded. Counting them does not change what is read, written or stored. After a successful upload the number has grown by exactly the size of the file, wherever the repository is and however often requests failed and were repeated; it is never more on the way or after a failure. A file fetched counts in full, one from the cache not at all; check, which always fetches, shows exactly what it read. What is shown as uploaded for packs is what is shown as compressed plus the manifests and 13 bytes for each pack.", "quantifier": "all files, pieces in which they are read and written, failures, repositories, cache contents and sequences of operations", "why_tests_cant": "The counters are moved by whoever reads, in pieces of any size, with failures in between; a test sees one way of cutting it up.", "anchors": ["src/progress.rs: AtomicCountRead, AtomicCountWrite", "src/backend.rs: CachedBackend::read, CachedBackend::write, bytes_uploaded, bytes_downloaded", "src/pack.rs: PackfileWriter::new, finalize", "src/upload.rs: upload"]}
{"id": "C78", "title": "Logging in to Backblaze, and what is sent where", "statement": "Logging in to Backblaze succeeds exactly if the server's answers let the account in with the rights to list, read, write and delete files and name the configured bucket; the session then has the addresses and tokens the server gave. The application key is sent in the first request only, to Backblaze's own address. Afterwards the session's token goes only to the address the log-in gave and the upload token only to the upload address. A listing asks for the session's bucket and prefix, follows every page, and, if the server answers with the pages asked for, reports exactly the files there. Removing a file deletes its version only if there is exactly one, and otherwise fails.", "quantifier": "all keys, buckets, answers of the server (any JSON values, failures at any point), files, prefixes and ways to cut a listing into pages", "why_tests_cant": "The server decides what is answered, in what pages and when it fails; no test server gives every answer.", "anchors": ["b2/src/lib.rs: Session::new, list, get, put, delete, Error", "src/backend/backblaze.rs: BackblazeBackend"]}
{"id": "C79", "title": "The list of snapshots can be read", "statement": "What the list of snapshots prints tells which snapshots there are: two lists that look the same have the same snapshots in the same order, with the same ids, tags, authors, dates and paths.", "quantifier": "all lists of snapshots, with any tags, authors, dates and paths", "why_tests_cant": "Tags, authors and paths are any texts; whether two of infinitely many lists print the same cannot be tried out.", "anchors": ["src/ui/snapshots.rs: print_snapshot, run"]}
