{
 "claims": [
  {
   "property": "C01",
   "status": "proved",
   "theorems": [
    "C01_ids_print_and_parse"
   ],
   "note": "All five clauses, for every 28-byte id and every text."
  },
  {
   "property": "C02",
   "status": "proved",
   "theorems": [
    "C02_hashing_reader",
    "C02_hashing_writer"
   ],
   "note": "Reader and writer, every split."
  },
  {
   "property": "C03",
   "status": "proved",
   "theorems": [
    "C03_chunks_make_up_the_file",
    "C03_small_files_may_change_meanwhile",
    "C03_backup_deals_with_these_chunks",
    "C03_threads_agree_with_the_simple_chunker",
    "C03_threads_never_get_stuck",
    "C03_threads_come_to_an_end",
    "C03_refuted_file_written_to_meanwhile"
   ],
   "note": "For a file that is not written to meanwhile, which is always so for small files, read into memory. C03_refuted_file_written_to_meanwhile shows what happens to big, mapped ones otherwise: a chunk stored under an id that is not its hash."
  },
  {
   "property": "C04",
   "status": "proved",
   "theorems": [
    "C04_encodings_round_trip",
    "C04_encodings_unambiguous"
   ],
   "note": "Round trip and prefix-unambiguity for manifest, index, tree, snapshot (v1 and v2 round trip)."
  },
  {
   "property": "C05",
   "status": "proved",
   "theorems": [
    "C05_pack_gives_back_blobs"
   ],
   "note": "Any good blobs, any compressor output that decodes to its input; manifest, verification, extraction and tree loading."
  },
  {
   "property": "C06",
   "status": "proved",
   "theorems": [
    "C06_verified_pack",
    "C06_verified_blobs_extract",
    "C06_extracted_blobs_are_genuine",
    "C06_corruption_detected"
   ],
   "note": "Any file bytes. A stretch may be shorter than recorded only where the decoder's stream ended; content theorem assumes no SHA-224 collision among stretches of that file. A single blob taken out of a pack has the id asked for, whatever the pack's file holds."
  },
  {
   "property": "C07",
   "status": "proved",
   "theorems": [
    "C07_packer_conserves",
    "C07_upload_announced_first",
    "C07_empty_blobs_refuted"
   ],
   "note": "Conservation, order, non-empty packs, upload announced before index. Empty blobs (never sent) would be dropped: C07_empty_blobs_refuted."
  },
  {
   "property": "C08",
   "status": "proved",
   "theorems": [
    "C08_closed_at_target",
    "C08_measured_in_time"
   ],
   "note": "Sizes measured and the float estimate are arbitrary inputs."
  },
  {
   "property": "C09",
   "status": "proved",
   "theorems": [
    "C09_index_stores_and_loads",
    "C09_loads_only_under_its_id",
    "C09_corruption_detected"
   ],
   "note": "Collision freedom assumed only on prefixes of the file's decoded bytes."
  },
  {
   "property": "C10",
   "status": "proved",
   "theorems": [
    "C10_combined_index",
    "C10_combined_index_exact",
    "C10_order_irrelevant"
   ],
   "note": "Any order; exactness when stored indexes agree on manifests."
  },
  {
   "property": "C11",
   "status": "proved",
   "theorems": [
    "C11_lookup_maps"
   ],
   "note": "All three maps."
  },
  {
   "property": "C12",
   "status": "proved",
   "theorems": [
    "C12_wip_describes_packs",
    "C12_duplicates_refused",
    "C12_leftovers_are_read_or_reported"
   ],
   "note": "Every interruption point; duplicates refused."
  },
  {
   "property": "C13",
   "status": "proved",
   "theorems": [
    "C13_published_indexes_have_their_packs",
    "C13_unopened_packs_refuted",
    "C13_resumed_indexes_have_their_packs"
   ],
   "note": "For every schedule, crash point and blob stream, with main-thread errors allowed once the leftover packs are handed over. C13_unopened_packs_refuted shows that an error while opening a leftover pack does publish an index that names a missing pack."
  },
  {
   "property": "C14",
   "status": "proved",
   "theorems": [
    "C14_what_was_left_is_found",
    "C14_runs_resume_what_was_left",
    "C14_interrupted_runs_are_resumable",
    "C14_what_is_resumed_is_ready",
    "C14_resuming_checks_the_packs",
    "C14_lost_packs_stop_the_run"
   ],
   "note": "For every schedule and crash point: C14_what_is_resumed_is_ready shows that what the resume check returns meets the premises of C14_interrupted_runs_are_resumable again. The theorems of PropsLeftovers.v are about file names and bytes."
  },
  {
   "property": "C15",
   "status": "partial",
   "theorems": [
    "C15_visible_snapshots_are_complete_partial",
    "C15_commands_keep_the_contents_partial",
    "C15_refuted"
   ],
   "note": "Proved for every history of commands interrupted anywhere, given that new indexes are not ones already superseded; C15_refuted shows a real history (backup, backup, forget, prune, backup again) that breaks this."
  },
  {
   "property": "C16",
   "status": "proved",
   "theorems": [
    "C16_backup_reads_back",
    "C16_old_snapshots_unharmed",
    "C16_chunk_shadowing_a_tree_refuted",
    "C16_backup_then_restore",
    "C16_finished_backup_gives_the_files_back"
   ],
   "note": "Backup then reading back the stored trees and chunks gives exactly the kept files, for every tree, filter, chunker and previous snapshot; premises: no hash collision among the blobs involved and no chunk with exactly the bytes of an encoded directory. The latter premise is needed: C16_chunk_shadowing_a_tree_refuted. Writing files to disk on restore is C36."
  },
  {
   "property": "C17",
   "status": "proved",
   "theorems": [
    "C17_only_new_blobs_are_packed"
   ],
   "note": ""
  },
  {
   "property": "C18",
   "status": "proved",
   "theorems": [
    "C18_parent_does_not_change_the_result",
    "C18_changed_files_are_read"
   ],
   "note": "Premise for reuse: a file with the same size and mtime as its previous node has the same contents, which is what the code relies on."
  },
  {
   "property": "C19",
   "status": "proved",
   "theorems": [
    "C19_prune_keeps_every_snapshot",
    "C19_refuted_when_reading_fails"
   ],
   "note": "For prune in a directory that is empty or where a backup or copy was interrupted; going on from an interrupted prune is C21. Premise: prune meets no read error; C19_refuted_when_reading_fails shows why."
  },
  {
   "property": "C20",
   "status": "proved",
   "theorems": [
    "C20_prune_removes_garbage",
    "C20_prune_acts_on_garbage_only"
   ],
   "note": "After a finished prune everything indexed is needed; and prune acts exactly if there is garbage."
  },
  {
   "property": "C21",
   "status": "partial",
   "theorems": [
    "C21_resumed_prune_is_safe_partial",
    "C21_prunes_again_and_again_partial",
    "C21_others_may_run_any_command",
    "C21_refuted"
   ],
   "note": "Proved: prune interrupted anywhere and run again in the same directory, any number of times, while others do anything that removes no snapshot (back up, copy, filter, prune elsewhere, rebuild), is as safe as a fresh prune and when finished leaves no garbage; whatever is left from a backup is not gone on from. Missing, because false of the code: a snapshot forgotten in between (C21_refuted loses a visible snapshot)."
  },
  {
   "property": "C22",
   "status": "partial",
   "theorems": [
    "C22_resumed_backup_is_safe_partial",
    "C22_resumed_backup_finishes_partial",
    "C22_refuted_after_prune",
    "C22_refuted_after_another_backup"
   ],
   "note": "Proved for leftovers of backups and copies; refuted for leftovers of a prune (C22_refuted_after_prune) and when another directory stored the same chunks (C22_refuted_after_another_backup)."
  },
  {
   "property": "C23",
   "status": "proved",
   "theorems": [
    "C23_copy_is_safe_at_every_point",
    "C23_copy_copies_everything"
   ],
   "note": "Safe at every point; at the end every chosen snapshot reads the same at the destination, less the skipped paths."
  },
  {
   "property": "C24",
   "status": "proved",
   "theorems": [
    "C24_filter_removes_exactly_what_matches",
    "C24_filter_is_safe_at_every_point"
   ],
   "note": "Exactly the paths that pass the filter stay; the original snapshot stays."
  },
  {
   "property": "C25",
   "status": "proved",
   "theorems": [
    "C25_loads_exactly_the_reachable_trees",
    "C25_any_repository"
   ],
   "note": "Two theorems: exactly the reachable trees or a failure with a reason on intact repositories, from any cache state; termination, closure, acyclicity and hash-genuineness for arbitrary index and pack bytes."
  },
  {
   "property": "C26",
   "status": "partial",
   "theorems": [
    "C26_sizes_exact",
    "C26_sizes_available_partial",
    "C26_sizes_available_refuted"
   ],
   "note": "Reported sizes are exact (C26_sizes_exact). They are available when every needed blob is listed; refuted in general: a snapshot with an empty directory has no reportable size because the empty tree is never stored."
  },
  {
   "property": "C27",
   "status": "partial",
   "theorems": [
    "C27_never_wrong_never_crashes_partial",
    "C27_reads_are_transparent_partial",
    "C27_refuted_coarse_clock",
    "C27_refuted_mixed_pack",
    "C27_refuted_tree_id"
   ],
   "note": "Proved: reads of chunks through the cache return exactly the stored bytes, never the wrong ones and never crash, whatever was read before, provided the clock advances between reads, packs are not mixed and the id asked for is a chunk's. The three premises are each shown necessary by a refutation (coarse clock, mixed pack, tree id). After a failed load the cache may exceed its limit until the next insertion; callers stop at the first failure."
  },
  {
   "property": "C28",
   "status": "proved",
   "theorems": [
    "C28_tree_cache_transparent",
    "C28_only_genuine_trees",
    "C28_corruption_detected"
   ],
   "note": "Intact repositories: any history of reads. Arbitrary bytes: only trees whose bytes hash to the id."
  },
  {
   "property": "C29",
   "status": "proved",
   "theorems": [
    "C29_permits_are_conserved",
    "C29_free_permit_can_be_taken"
   ],
   "note": "For every number of threads and permits, with spurious wake-ups and weak exchanges, guards moving between threads included."
  },
  {
   "property": "C30",
   "status": "partial",
   "theorems": [
    "C30_refuted",
    "C30_nobody_left_asleep_partial"
   ],
   "note": "Refuted in general (C30_refuted: two permits, four threads, a lost wake-up). Proved for one permit, for at most one more thread than permits, and when only one thread asks for permits (as when the program spawns worker threads)."
  },
  {
   "property": "C31",
   "status": "partial",
   "theorems": [
    "C31_four_cpus_never_hang_partial",
    "C31_below_four_cpus_refuted"
   ],
   "note": "Proved for four CPUs or more (with a termination measure and progress). The full statement is false of the code: C31_below_four_cpus_refuted shows that with at most three CPUs no run with a new chunk and a new directory ever ends."
  },
  {
   "property": "C32",
   "status": "partial",
   "theorems": [
    "C32_last_counts_from_the_newest",
    "C32_prefix_names_the_only_match",
    "C32_short_name",
    "C32_no_crash_partial",
    "C32_huge_number_refuted"
   ],
   "note": "Lookup by LAST~n, id and prefix is exact; the claim that no text crashes it is refuted: a number of 2^64 or more panics (C32_huge_number_refuted). C32_no_crash_partial shows that is the only text that does."
  },
  {
   "property": "C33",
   "status": "partial",
   "theorems": [
    "C33_named_once_oldest_first_partial",
    "C33_refuted"
   ],
   "note": "Exactly the named snapshots, oldest first; each once only if no two of them have the same timestamp. C33_refuted shows a repeated snapshot when two have."
  },
  {
   "property": "C34",
   "status": "proved",
   "theorems": [
    "C34_duplicates_keep_an_older_one",
    "C34_no_two_in_a_row_left",
    "C34_forget_removes_the_named"
   ],
   "note": "Also: naming snapshots removes exactly those found."
  },
  {
   "property": "C35",
   "status": "proved",
   "theorems": [
    "C35_diff_reports_exactly",
    "C35_diff_of_two_snapshots"
   ],
   "note": "Exact lines for any two loaded forests, and for two snapshots of a repository: nothing printed iff same tree id (with metadata), every differing path mentioned. Comparing with the files on disk uses forest_from_fs, see C36."
  },
  {
   "property": "C36",
   "status": "partial",
   "theorems": [
    "C36_refuted_nested_paths",
    "C36_restore_partial",
    "C36_delete_leaves_exactly_the_snapshot_partial",
    "C36_without_delete_nothing_else_goes_partial",
    "C36_dry_run_changes_nothing",
    "C36_refuted_special_files_stay",
    "C36_refuted_stale_contents_stay",
    "C36_refuted_directory_times",
    "C36_refuted_early_times"
   ],
   "note": "Proved for every snapshot, every --output mode (original paths, one path as another directory, several into a directory), any files there and any combination of --delete, --times and --permissions, without bound: place by place, restoring succeeds and leaves what comes_out (RestoreSpec.v) says, and everything outside the targets alone; a dry run changes nothing, unconditionally. Missing, because false of the code (refuted theorems): special files in the target are not noticed, a file whose size and modification time are the snapshot's keeps other contents, a directory's modification time is not set after its entries were restored, --times fails at a time before 1970 that is not a whole second, and a snapshot of a directory and of one within it may fail to restore to its original paths. Premises (can_restore): the target paths exist, none within another, metadata of Unix, no special file where the snapshot has something or under --delete, equal size and time mean equal contents; no hash collision among the blobs involved. I/O errors and concurrent changes of the files are not modelled."
  },
  {
   "property": "C37",
   "status": "partial",
   "theorems": [
    "C37_clean_check_means_sound_packs",
    "C37_clean_check_means_readable_partial",
    "C37_intact_repository_passes",
    "C37_refuted_tree_for_a_chunk"
   ],
   "note": "Proved: an intact repository passes the check in both modes; a clean check means the index loads, no blob is listed twice, every listed pack is there and (packs read) every blob comes out with the right hash; a clean check with packs read means every snapshot loads, with all its trees, and every sequence of reads of its chunks succeeds with the right hashes. Missing: the last needs packs not to mix chunks and trees and no file to name a tree as a chunk; C37_refuted_tree_for_a_chunk shows a repository where check is clean and reading panics."
  },
  {
   "property": "C38",
   "status": "partial",
   "theorems": [
    "C38_rebuild_is_safe_partial",
    "C38_rebuild_names_every_pack",
    "C38_refuted"
   ],
   "note": "Proved if every blob is in one pack; C38_refuted shows that packs left by an interrupted run can make the rebuilt index unusable."
  },
  {
   "property": "C39",
   "status": "partial",
   "theorems": [
    "C39_cache_is_transparent_partial",
    "C39_reads_return_what_was_stored",
    "C39_refuted_removed_while_read",
    "C39_refuted_two_repositories"
   ],
   "note": "Proved for one user: any sequence of reads, writes, removals and size changes, stopped anywhere, is one that a repository without cache could show, and the cache holds nothing that the repository does not. Proved for many threads, processes and repositories: reads only return what was stored under the name. Missing, and refuted: a limit of zero (C40_no_room_at_all), a removal during a fetch (C39_refuted_removed_while_read), and two repositories behind one cache (C39_refuted_two_repositories)."
  },
  {
   "property": "C40",
   "status": "partial",
   "theorems": [
    "C40_keeps_the_most_recently_used_partial",
    "C40_reading_and_inserting_count_as_use",
    "C40_the_file_just_used_stays",
    "C40_refuted_total_within_the_limit",
    "C40_no_room_at_all"
   ],
   "note": "Proved: files kept are the most recently used, unchanged; reading and inserting count as use, and the file just used stays; all but the least recently used of them fit below the limit; nothing goes while everything fits. Missing, and refuted: the total may exceed the limit by the last file kept (C40_refuted_total_within_the_limit). With a limit of zero everything is deleted and an error reported."
  },
  {
   "property": "C41",
   "status": "partial",
   "theorems": [
    "C41_copies_appear_whole",
    "C41_moves_lose_nothing",
    "C41_listings_show_whole_files",
    "C41_finished_copies_survive_power_loss",
    "C41_synced_moves_survive_power_loss",
    "C41_refuted_copies_are_whole_after_power_loss"
   ],
   "note": "Copies and moves, on one file system or across, are all or nothing at every stop point, with others working around them; the source goes only once the destination is whole; listings never show the temporary file; a successful copy and a move of a synced file survive power loss. Missing, and refuted: a copy is renamed before it is synced, so power loss in between can leave part of the content under the final name (C41_refuted_copies_are_whole_after_power_loss)."
  },
  {
   "property": "C42",
   "status": "partial",
   "theorems": [
    "C42_body_is_contents_and_hash",
    "C42_stored_whole",
    "C42_success_means_stored",
    "C42_refuted_failures_are_reported",
    "C42_refuted_failed_uploads_succeed_later",
    "C42_refuted_missing_files_are_reported",
    "C42_refuted_removals_end",
    "C42_reads_and_removals_are_right"
   ],
   "note": "Proved for every sequence of failures: what is stored under the name is the whole file, and once; a write that returns has stored it; reads and removals that return are right; the body is the contents and their hash however it is read. Missing, and refuted: no failure of a request is ever reported, since none of them gives the error that ends the retries (C42_refuted_failures_are_reported); an upload that fails after reading a byte can never succeed, for the source is not rewound (C42_refuted_failed_uploads_succeed_later); reading a missing file or removing one stored twice goes on for ever."
  },
  {
   "property": "C43",
   "status": "partial",
   "theorems": [
    "C43_reading_returns_what_was_written",
    "C43_failed_filters_leave_nothing",
    "C43_failing_filter",
    "C43_failing_unfilter",
    "C43_one_command_is_rejected",
    "C43_written_configurations_are_read",
    "C43_refuted_reading_may_panic",
    "C43_reading_may_succeed",
    "C43_refuted_reading_on"
   ],
   "note": "Proved for every pair of programs that invert each other, every schedule and every failure: what is read, if reading succeeds, is what was written; a write that fails leaves the repository as it was; failing programs are noticed; one command without the other is rejected. Missing, and refuted: reading may panic although all went well, since the assertion that the copying thread has ended races with that thread (C43_refuted_reading_may_panic); reading on after the end panics."
  },
  {
   "property": "C44",
   "status": "proved",
   "theorems": [
    "C44_ls_prints_every_path_once"
   ],
   "note": "One line per path, each once, parents first, for every snapshot of a repository in order with clean names."
  },
  {
   "property": "C45",
   "status": "partial",
   "theorems": [
    "C45_dump_prints_that_path_partial",
    "C45_refuted"
   ],
   "note": "Exact for paths with no symbolic link on the way; never panics. Through a link the claim is false of the code (C45_refuted)."
  },
  {
   "property": "C46",
   "status": "partial",
   "theorems": [
    "C46_dry_run_leaves_the_backend_partial",
    "C46_refuted"
   ],
   "note": "The backend is untouched; the working directory is not (C46_refuted)."
  },
  {
   "property": "C47",
   "status": "proved",
   "theorems": [
    "C47_metadata_differences",
    "C47_kind",
    "C47_posix_kind",
    "C47_windows_kind"
   ],
   "note": "Mark is absent iff the records are equal, and which mark; kinds by file type bits."
  },
  {
   "property": "C48",
   "status": "partial",
   "theorems": [
    "C48_timestamps_in_range",
    "C48_timestamps_refuted",
    "C48_times_come_back_partial",
    "C48_far_times_refuted",
    "C48_early_times_refuted"
   ],
   "note": "Exactly which times come back is proved (C48_times_come_back_partial): 1677 to 2262, and before 1970 only whole seconds. Refuted for the rest: times wrap from 2262 on, the backup panics after 9999, and restore --times fails for fractions of seconds before 1970."
  },
  {
   "property": "C49",
   "status": "partial",
   "theorems": [
    "C49_shown_paths_fit_partial",
    "C49_shown_paths_fit_checked_partial",
    "C49_refuted_checked_arithmetic",
    "C49_refuted_no_file_name",
    "C49_spinner_is_total",
    "C49_final_numbers_are_drawn",
    "C49_drawing_stops"
   ],
   "note": "Proved for release builds and paths with a file name (all that backup shows): no crash, at most the width in symbols, the end of the file name kept; exactly when checked builds crash instead; the spinner and the drawing thread. Missing, and refuted: names nearly as long as the line crash checked builds, long paths ending in .. crash all. Width is counted in grapheme clusters, as the code does, not in columns."
  },
  {
   "property": "C50",
   "status": "proved",
   "theorems": [
    "C50_locations_one_to_one",
    "C50_listings_name_the_objects",
    "C50_refuted_stray_file"
   ],
   "note": "For every id and kind; and for every history of stores, removals and cut-short copies from an empty repository the listings name exactly the objects. A stray file put into the repository by something else, with the stem of an id, is taken for the object (C50_refuted_stray_file)."
  },
  {
   "property": "C51",
   "status": "proved",
   "theorems": [
    "C51_skips_are_a_union",
    "C51_skipped_paths_are_left_out"
   ],
   "note": ""
  },
  {
   "property": "C52",
   "status": "partial",
   "theorems": [
    "C52_unchanged_tree_sends_nothing_partial",
    "C52_unchanged_backup_adds_nothing_partial",
    "C52_refuted"
   ],
   "note": "Proved for a directory without leftovers; with leftovers the program panics (C52_refuted)."
  },
  {
   "property": "C53",
   "status": "proved",
   "theorems": [
    "C53_success_publishes_everything"
   ],
   "note": "For every schedule of the five threads."
  },
  {
   "property": "C54",
   "status": "proved",
   "theorems": [
    "C54_listings_are_complete",
    "C54_undisturbed_listings_are_exact",
    "C54_listings_end"
   ],
   "note": "Pages of any sizes, with others changing the bucket between them."
  },
  {
   "property": "C55",
   "status": "proved",
   "theorems": [
    "C55_stat_shows_what_each_snapshot_changed",
    "C55_all_are_listed_once"
   ],
   "note": "The text of headings and lines is defined (item_text) but the theorems are about what it is made of. Names that repeat: C33."
  },
  {
   "property": "C56",
   "status": "partial",
   "theorems": [
    "C56_sizes_are_exact_partial",
    "C56_sizes_are_in_bytes",
    "C56_refuted"
   ],
   "note": "Missing: snapshots with an empty directory, for which the command fails (C56_refuted, as C26). A line for something removed shows the sizes of the new file of that name, if there is one. Sizes are unbounded numbers, 64 bits in the program."
  },
  {
   "property": "C57",
   "status": "proved",
   "theorems": [
    "C57_what_is_printed_is_what_was_asked_for",
    "C57_what_is_stored_is_printed",
    "C57_no_crash"
   ],
   "note": "The one crash is for the empty text's id, or from the snapshot lookup as in C32. The empty tree's id cannot be printed though snapshots refer to it, since it is never stored (C26). Printing as JSON is not modelled."
  },
  {
   "property": "C58",
   "status": "partial",
   "theorems": [
    "C58_usage_is_exact_partial",
    "C58_prune_is_suggested_when_useful",
    "C58_refuted",
    "C58_refuted_blank_filter"
   ],
   "note": "Missing: snapshots with an empty directory, for which it fails (C58_refuted, as C26 and C56), and a blank filter command, for which it crashes (C58_refuted_blank_filter). Sizes are unbounded numbers, 64 bits in the program."
  },
  {
   "property": "C59",
   "status": "partial",
   "theorems": [
    "C59_copies_are_complete",
    "C59_copies_what_can_be_read",
    "C59_filtered_snapshots_are_complete",
    "C59_failing_copies_do_no_harm",
    "C59_failing_filters_do_no_harm",
    "C59_prune_removes_only_if_nothing_is_missing_partial",
    "C59_backups_are_complete_partial",
    "C59_refuted_prune",
    "C59_refuted_backup"
   ],
   "note": "Copying and filtering proved for damaged repositories in full, for runs that succeed, fail at the missing blob or are interrupted anywhere; the copy's source may be in any state as long as the blobs in its packs have the bytes their ids stand for. Missing: prune (C59_refuted_prune: a failing prune hides what other snapshots need; proved only that it removes nothing unless all snapshots are complete) and backup from a broken parent (C59_refuted_backup). The destination's indexes must tell the truth (sound): an index naming packs that are gone is not covered. typed: no chunk has the id of a directory's bytes."
  },
  {
   "property": "C60",
   "status": "partial",
   "theorems": [
    "C60_nothing_is_lost_partial",
    "C60_only_forgetting_removes",
    "C60_disjoint_runs_keep_order",
    "C60_refuted_same_data",
    "C60_refuted_prune_meanwhile"
   ],
   "note": "Proved for any number of concurrent backups, copies, filterings, forgets and one index rebuild: every visible snapshot is complete, what can be restored stays so, only forget removes snapshots; if no two runs store the same blob and no index is rebuilt meanwhile, the repository is in order and usable throughout. Missing: usability in general (C60_refuted_same_data) and prune (C60_refuted_prune_meanwhile). A run reads what it needs at its start in one instant; file names must not clash, which excludes also that an index is stored again after a rebuild superseded it."
  },
  {
   "property": "C61",
   "status": "partial",
   "theorems": [
    "C61_init_changes_nothing",
    "C61_init_refuses",
    "C61_filters_are_tested",
    "C61_init_makes_a_repository",
    "C61_stopped_init_partial",
    "C61_refuted_interrupted_init"
   ],
   "note": "Proved for every state of the files and every stop: nothing that was there changes, init refuses where something is, filters are tested, and a finished init opens as asked for and is empty; what opens after a stop was read from a first part of the text. Missing: that no proper first part of the text reads as a configuration (TOML is an oracle). Refuted: running it again after a stop."
  },
  {
   "property": "C62",
   "status": "partial",
   "theorems": [
    "C62_settings_partial",
    "C62_flags_decide",
    "C62_no_file_has_a_say",
    "C62_commands_work_where_told",
    "C62_unreadable_settings_stop",
    "C62_refuted_without_global_file",
    "C62_refuted_working_directory",
    "C62_refuted_local_file"
   ],
   "note": "Proved with a global file: the order of precedence for each setting, that flags decide, that --config \"\" leaves files out, and that unreadable files stop the command. Refuted: without a global file, with -C, and for skips and dereference of .backpak."
  },
  {
   "property": "C63",
   "status": "proved",
   "theorems": [
    "C63_steady_files_are_recorded",
    "C63_changed_files_look_changed",
    "C63_stamps_are_needed"
   ],
   "note": "For every evolution of the files, every history of backups and every moment of looking, given that contents change only with modification time or size; C63_stamps_are_needed shows what happens otherwise. A backup runs wholly after the one it builds on."
  },
  {
   "property": "C64",
   "status": "proved",
   "theorems": [
    "C64_histories_change_one_file_at_a_time",
    "C64_files_carry_the_repository",
    "C64_check_finds_nothing_wrong",
    "C64_backed_up_files_come_back_from_the_bytes",
    "C64_every_repository_can_be_stored"
   ],
   "note": "Histories are sequences of single-file changes; stored bytes read back as the repository; check passes on them; finished backups come back from the bytes. Premises: numbers fit their fields, texts are UTF-8, no hash collision among the blobs written, no index-id clash (as in C15)."
  },
  {
   "property": "C65",
   "status": "proved",
   "theorems": [
    "C65_returning_means_all_done_once",
    "C65_failures_have_a_reason",
    "C65_calls_end",
    "C65_mapping_gives_all_results",
    "C65_loading_indexes"
   ],
   "note": "All schedules at the semaphore's atomic steps; termination with a bound on the steps; sequential consistency assumed; functions do not wait for one another (the backup threads, which do, are C31)."
  },
  {
   "property": "C66",
   "status": "partial",
   "theorems": [
    "C66_an_error_ends_the_programs_partial",
    "C66_nothing_else_is_ended_partial",
    "C66_finished_programs_are_forgotten",
    "C66_programs_may_outlive_the_error_refuted",
    "C66_late_programs_may_outlive_the_error_refuted",
    "C66_failed_writes_leave_their_program_refuted",
    "C66_strangers_may_be_ended_refuted",
    "C66_recycled_programs_may_outlive_the_error_refuted"
   ],
   "note": "Proved for filter programs registered when the error is met, and for ids not given out again. Five refutations show the rest false: programs not yet registered, registered late, let go by a failed write, and ids given out again."
  },
  {
   "property": "C67",
   "status": "partial",
   "theorems": [
    "C67_borrowed_values_can_be_read_partial",
    "C67_borrows_may_outlive_the_value_refuted",
    "C67_nothing_is_freed_twice",
    "C67_everything_is_freed",
    "C67_no_assertion_fails"
   ],
   "note": "Proved for every interleaving without bound: what a borrow reads is the value that was the latest when it was made, unless the Rcu is dropped before another value is published; nothing is freed twice, everything is freed in the end, no assertion fails. Missing, because false of the code: a borrow may outlive the Rcu (its type has no lifetime) and then reads freed memory. Memory is sequentially consistent here, and crossbeam_epoch is taken at its word."
  },
  {
   "property": "C68",
   "status": "partial",
   "theorems": [
    "C68_what_an_interrupted_restore_leaves_partial",
    "C68_it_can_be_run_again_partial",
    "C68_refuted_a_removed_target_must_exist"
   ],
   "note": "Proved for restores that C36's premises admit. Running again is proved when a target that must exist (in place, or a single output) was and becomes a directory, or was and becomes a file; otherwise it is refuted. Saved sizes must be right. Power loss is not modelled."
  },
  {
   "property": "C69",
   "status": "partial",
   "theorems": [
    "C69_what_paths_are_taken_partial",
    "C69_spelling_does_not_matter",
    "C69_the_parent_is_found",
    "C69_where_things_came_from",
    "C69_names_must_differ",
    "C69_the_root_refuted"
   ],
   "note": "Proved for every list of arguments and every canonicalize that returns names. Missing because false: the root can be made canonical, but a backup of it panics (refuted)."
  },
  {
   "property": "C70",
   "status": "partial",
   "theorems": [
    "C70_diff_against_the_files_partial",
    "C70_nothing_changed",
    "C70_a_path_is_gone",
    "C70_diff_after_backup_partial",
    "C70_diff_two_snapshots",
    "C70_refuted_contents_with_the_old_time"
   ],
   "note": "Files of Unix. Premises: what has the snapshot's size and modification time has its contents (refuted without); a file rewritten with the same contents was cut by the same chunker. Unreadable files and directories are not modelled."
  },
  {
   "property": "C71",
   "status": "proved",
   "theorems": [
    "C71_what_prune_says",
    "C71_prune_does_what_it_says",
    "C71_there_is_a_line"
   ],
   "note": "The numbers before they are rounded for display. Sums of bytes are unbounded (64 bits in the program)."
  },
  {
   "property": "C72",
   "status": "proved",
   "theorems": [
    "C72_where_dump_writes",
    "C72_naming_nothing",
    "C72_only_down",
    "C72_refuted_the_file_survives"
   ],
   "note": "For paths through no link (those: see C45_refuted). C72_refuted_the_file_survives: a failing dump may already have emptied the output file."
  },
  {
   "property": "C73",
   "status": "proved",
   "theorems": [
    "C73_counting_changes_nothing",
    "C73_new_and_reused_add_up",
    "C73_first_look",
    "C73_nothing_backed_up",
    "C73_each_kind"
   ],
   "note": "Counters are unbounded; compressed and uploaded bytes are not counted in the model. Files are as long as their metadata says."
  },
  {
   "property": "C74",
   "status": "proved",
   "theorems": [
    "C74_cat_prints_json",
    "C74_cat_prints_utf8",
    "C74_cat_tells_apart",
    "C74_whatever_cat_prints"
   ],
   "note": "serde_json and the derived serializers are modelled from their documentation. jiff's texts for times are parameters."
  },
  {
   "property": "C75",
   "status": "partial",
   "theorems": [
    "C75_all_of_them_or_an_error",
    "C75_threads_do_not_matter_partial",
    "C75_ids_mean_the_same_in_any_order",
    "C75_as_the_repository_has_them",
    "C75_refuted_same_time",
    "C75_whole_files_load"
   ],
   "note": "Proved: all snapshots or an error, the same snapshots and size in every run, ids and their beginnings mean the same in every run, and everything does if no two snapshots have the same time. Missing, because false of the code (C75_refuted_same_time): with equal times, which filter-snapshot --keep-metadata makes, LAST depends on the threads. Parsing of times (jiff) is a parameter."
  },
  {
   "property": "C76",
   "status": "proved",
   "theorems": [
    "C76_counting_changes_nothing",
    "C76_copy_adds_up",
    "C76_prune_adds_up",
    "C76_copy_total_is_the_size_shown",
    "C76_prune_total_is_the_size_shown"
   ],
   "note": "New + reused bytes of copy and of prune are the bytes of the files and trees gone through; counting changes nothing; new bytes of each kind are bounded and counted once."
  },
  {
   "property": "C77",
   "status": "proved",
   "theorems": [
    "C77_counting_changes_nothing",
    "C77_counting_changes_no_operation",
    "C77_uploaded_bytes_are_those_of_the_files",
    "C77_never_more_meanwhile",
    "C77_downloaded_bytes_are_those_of_the_file",
    "C77_check_is_shown_as_what_it_read",
    "C77_the_cache_saves_downloads",
    "C77_opening_counts_the_file",
    "C77_compressed_bytes_are_those_in_the_packs",
    "C77_uploaded_and_compressed",
    "C77_refuted_filtered_sizes"
   ],
   "note": "Proved for the numbers as the program defines them. Beyond the statement: with a filter program, what is shown as uploaded is not what the repository gets (C77_refuted_filtered_sizes). Counters are unbounded numbers, 64 bits in the program."
  },
  {
   "property": "C78",
   "status": "proved",
   "theorems": [
    "C78_when_login_succeeds",
    "C78_the_key_is_sent_once",
    "C78_listings_are_read_right",
    "C78_listings_ask_for_the_bucket",
    "C78_refuted_malformed_entries_are_reported",
    "C78_removes_one_version_or_none",
    "C78_removals_are_right",
    "C78_tokens_go_where_they_belong",
    "C78_files_go_by_their_names"
   ],
   "note": "Logging in, listing, fetching, putting and removing as conversations with a server that may answer anything. HTTP, the text of JSON and base64 are not modelled. The refuted theorem shows that a malformed entry of a listing is left out silently."
  },
  {
   "property": "C79",
   "status": "partial",
   "theorems": [
    "C79_the_list_can_be_read_partial",
    "C79_refuted_tags",
    "C79_refuted_paths"
   ],
   "note": "Proved if no line break is in a tag, author, date or path and no space in a tag. Missing, because false of the code: C79_refuted_tags and C79_refuted_paths."
  }
 ]
}