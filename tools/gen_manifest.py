#!/usr/bin/env python3
"""Writes /verif/MANIFEST.json from the table below; checks that every theorem exists."""
import json, re, glob, os
ROOT = os.path.dirname(os.path.dirname(os.path.abspath(__file__)))
T = [
 ("C01","proved",["C01_listed_never_purged"],"All histories of requests incl. crashes at any durable write of every request except the single-package removals (those crashes are C23)."),
 ("C02","partial",["C02_no_leak_partial","C02_no_leak_refuted"],"The full claim is false of the code: importing a version forgets listed deltas without releasing them (refuted). Proved with exact counts for histories without delta requests and crashes."),
 ("C03","proved",["C03_published_is_newest","C03_release_zero_refuted"],"For releases >= 1 (domain of packages); the second theorem shows that the bound is needed."),
 ("C04","proved",["C04_entries_well_formed"],""),
 ("C05","proved",["C05_listed_is_served"],"Packages; histories in which requests ran to completion (success or error)."),
 ("C06","proved",["C06_index_lists_published","C06_index_is_current_after_requests"],""),
 ("C07","proved",["C07_index_offers_deltas"],"Package files carrying their own delta records are excluded by no_builtin_deltas."),
 ("C08","proved",["C08_index_never_partial"],""),
 ("C09","partial",["C09_checksum_agrees_refuted","C09_checksum_agrees_partial"],"False between two renames (refuted); proved after every successful re-indexing request for all nine files."),
 ("C10","partial",["C10_next_run_succeeds_refuted","C10_index_recovers_partial"],"The next run can fail on leftovers (refuted); the third of three consecutive undisturbed runs always succeeds."),
 ("C11","proved",["C11_others_untouched_at_every_instant","C11_others_still_served"],""),
 ("C12","proved",["C12_delete","C12_purged_iff_last"],"Purged iff the reference count was 1; equivalently iff no other repository lists it where counts are exact (C02)."),
 ("C13","proved",["C13_create"],""),
 ("C14","proved",["C14_clone"],""),
 ("C15","proved",["C15_pull"],""),
 ("C16","proved",["C16_remove_source"],""),
 ("C17","proved",["C17_copy_source"],""),
 ("C18","partial",["C18_copy_source_reindexes_refuted","C18_flag_actual_partial"],"False: the flag is inverted. The actual behaviour is proved."),
 ("C19","proved",["C19_trim_packages"],"With equal releases one extra version may stay (the published one); exactly k when releases are distinct."),
 ("C20","partial",["C20_trim_obsolete_refuted","C20_trim_obsolete_partial","C20_spares_others_partial"],"False: only the first -dbginfo ID is removed. Exact characterisation proved; non-obsolete names are never touched."),
 ("C21","proved",["C21_strict_upload","C21_strict_batch","C21_never_backwards"],""),
 ("C22","proved",["C22_crash_while_adding","C22_crash_keeps_files"],""),
 ("C23","partial",["C23_crash_while_removing_refuted","C23_crash_in_delete_partial"],"False for single-package removal; proved for DeleteRepo."),
 ("C24","partial",["C24_retry_refuted","C24_harmless_without_leftovers_partial","C24_create_and_index_partial"],"False: the re-run truncates a hard-linked package. Proved: later requests are harmless whenever no crash left an unlisted package file; crashes of create and index requests never do."),
 ("C25","partial",["C25_deltas_kept_refuted","C25_other_names_kept_partial"],"False for the imported name; proved for all other names, and no version is lost."),
 ("C26","partial",["C26_placing_exact","C26_placing_refuted"],"False for a missing source (reported as success) and for hard links to one file (truncated); the exact outcome in every reachable state is proved."),
 ("C27","partial",["C27_independence_refuted","C27_separate_filesystems_partial","C27_replacing_is_harmless_partial"],"False when uploads share the pool's filesystem (hard links); proved for separate filesystems and for replacing or deleting the upload."),
 ("C28","proved",["C28_claims_are_first_in_first_out","C28_waiting_is_in_acceptance_order"],"Histories of fewer than 2^62 events."),
 ("C29","proved",["C29_no_job_in_two_hands","C29_executing_means_accepted_and_not_retired"],""),
 ("C30","proved",["C30_no_job_is_lost","C30_accepted_are_the_pushes","C30_only_finished_jobs_are_retired","C30_free_after_restart"],""),
 ("C31","proved",["C31_sequential_jobs_never_overlap","C31_sequential_jobs_run_in_order"],""),
 ("C32","partial",["C32_history_is_the_last_hundred_partial","C32_slots_partial","C32_at_most_hundred","C32_log_is_what_workers_report","C32_every_crash_point_refuted"],"False when a crash hits between the two writes of a record (refuted); exact for all other histories."),
 ("C33","partial",["C33_crash_loses_the_record_refuted","C33_finished_job_leaves_a_record_partial","C33_queued_or_finished"],"False for a crash between the deletion of the entry and the record; proved for completions the daemon survives."),
 ("C34","partial",["C34_parameters_survive_partial","C34_exact","C34_through_the_queue","C34_large_numbers_refuted"],"False for numbers beyond 32 bits and imports of nothing, which are refused (C34_exact); never altered."),
 ("C35","partial",["C35_queued_jobs_run_refuted","C35_delta_request_never_works","C35_exact_partial"],"False: delta jobs and empty imports are refused; exact for all others."),
 ("C36","partial",["C36_status_refuted","C36_status_exact","C36_status_partial"],"False while an undispatchable job is queued; exact condition proved."),
 ("C37","partial",["C37_buckets_independent_refuted","C37_exact_condition","C37_manager_buckets_partial","C37_job_buckets_partial","C37_typed_view_is_faithful"],"False for repository names containing -package; exact condition proved; the typed model is a faithful view for all other names."),
 ("C38","proved",["C38_all_or_nothing","C38_every_function_has_a_run"],"Relies on a LevelDB batch being atomic (trusted)."),
 ("C39","partial",["C39_reads_own_writes_refuted","C39_without_rereading_partial","C39_plain_handle_partial"],"False inside a transaction; proved for transactions that do not re-read (all of ferryd's) and for plain handles."),
 ("C40","proved",["C40_next_sequence_fresh","C40_wraps_refuted","C40_reserved_number_refuted"],"Below 2^64-1 as stated; the refutations show that the bound is needed."),
 ("C41","partial",["C41_names_differ_partial","C41_packages_partial","C41_names_differ_refuted"],"False when a package name or release string contains dashes placed just so; proved when the distribution releases and architectures contain no dash."),
 ("C42","proved",["C42_possible_iff","C42_strict_order","C42_direction","C42_only_possible"],""),
 ("C43","partial",["C43_contents","C43_nothing_lost","C43_directories","C43_rebuild","C43_hard_links","C43_refused_exactly_partial","C43_refused_exactly_refuted","C43_saves"],"Contents, completeness and reconstruction proved; the refusal clause is false as stated (exact condition proved)."),
 ("C44","partial",["C44_inside_partial","C44_outside_refuted"],"False for source names with a .. component; proved for all others."),
 ("C45","partial",["C45_reading_exact","C45_import_partial","C45_import_refuted"],"False: packages without Summary, Description, source name or history panic the daemon; proved that nothing else does (see also C59)."),
 ("C46","proved",["C46_output_is_valid","C46_ascii_unchanged","C46_lossless","C46_spelling_is_unique","C46_literal"],"Losslessness: a reader that resolves hexadecimal character references gets the same text from output as from input; literally the input when that has no references."),
 ("C47","partial",["C47_split_refuted","C47_aligned_split_partial"],"False when a character is split between writes; proved for pieces ending between characters."),
 ("C48","proved",["C48_rejected_without_effect","C48_accepted_is_import","C48_success","C48_upload_is_a_history"],"TOML decoding abstract; paths, trimming, checks, hashing and the import modelled."),
 ("C49","partial",["C49_all_or_nothing_refuted","C49_a_prefix_is_imported_partial"],"False: the packages before the refused one stay listed (and the index is not rewritten); exactly a prefix of the payload is imported."),
 ("C50","partial",["C50_escape_refuted","C50_stays_in_incoming_partial"],"False for payload paths with .. components (a package of another repository is taken); proved for all others."),
 ("C51","partial",["C51_one_owner_per_file","C51_one_owner_partial","C51_crash_only_partial","C51_one_owner_refuted","C51_one_server_refuted"],"False when one daemon removes the lock file while another has already opened it (two owners, two servers); at most one owner per file always, and per directory when no removal interferes with a pending start."),
 ("C52","partial",["C52_pid_readable_exact","C52_lock_names_owner_partial","C52_lock_names_owner_refuted"],"False: the file is not truncated before the PID is written, so a shorter PID leaves digits of the previous one; proved for PIDs of the same width."),
 ("C53","proved",["C53_worker_pool"],""),
 ("C56","proved",["C56_marked_stays_marked"],""),
 ("C57","proved",["C57_job_is_a_history","C57_only_deltas_to_the_tip","C57_all_deltas_attempted"],"Model of the delta job with an abstract reader and archive writer; every state and crash point is one the request theorems cover."),
 ("C59","proved",["C59_no_panic"],"For package files within the domain (C45 shows what happens outside it), complete asset files (C96) and a Cloudflare that gives reasons (C97_panic_exact)."),
 ("C60","proved",["C60_no_orphans"],""),
 ("C61","partial",["C61_index_after_delta_job_refuted","C61_index_after_delta_job_partial"],"False when every delta was already in the pool (only referenced): no index is written; proved when the job made at least one delta."),
 ("C62","partial",["C62_restart_refuted","C62_restart_exact"],"False when the recorded PID has been reused by another process; exact condition proved."),
 ("C63","partial",["C63_interrupted_upload_refuted","C63_second_run_refused_exact"],"False: the second run is refused because its own first package is already published."),
 ("C64","partial",["C64_uploaded_delta_refuted","C64_packages_only_partial"],"False: a .delta.eopkg in a manifest is listed and published as a package; proved for manifests without such names."),
 ("C54","proved",["C54_sends_exactly_the_packages","C54_needs_two_arguments","C54_never_a_delta","C54_each_file_once"],"Trees without symbolic links; the tree does not change during the walk."),
 ("C58","proved",["C58_only_empty_parents_disappear"],"Whatever removals the kernel refuses."),
 ("C55","partial",["C55_lost_reference_refuted","C55_serial_partial"],"False: two delta jobs referencing one delta from two repositories can lose a reference; serialisable when concurrent requests concern different packages or are references/additions to the same repository."),
 ("C65","partial",["C65_delta_lost_refuted","C65_removed_package_back_refuted","C65_other_packages_partial"],"False: UnrefPackage writes back the entry it read outside the mutex; proved when the requests concern other packages."),
 ("C66","partial",["C66_first_use_refuted","C66_used_repository_partial"],"False for the first use after a start (two Repository objects, two mutexes); proved once the repository's object is cached."),
 ("C67","proved",["C67_no_deadlock","C67_no_infinite_run","C67_all_jobs_end"],"Jobs as lock skeletons with arbitrary data accesses; source and target of a pull or clone differ; one object per repository."),
 ("C68","proved",["C68_requests_take_effect_in_order"],"Whole daemon: requests, queue, workers, dispatcher, manager, uploads. Histories of fewer than 2^62 events."),
 ("C69","partial",["C69_daemon_keeps_repositories_sound_partial","C69_daemon_exact_when_uninterrupted","C69_killed_while_removing_refuted"],"Missing: a daemon killed in the middle of a single-package removal, where the claim is false (C69_killed_while_removing_refuted)."),
 ("C70","partial",["C70_repeating_is_harmless_partial","C70_trim_obsolete_refuted"],"False for trimming obsolete packages (each run removes one more version); proved for create, delete, clone, pull, copy, remove, trim by number (distinct releases), non-strict import and index; not for delta requests, which the dispatcher refuses (C35), and strict uploads (C63)."),
 ("C71","partial",["C71_one_bad_file_stops_everything_refuted","C71_panicking_request_blocks_all"],"False: the daemon panics on the file at every start and reaches no later request; proved for every such file. With files that do not panic every request is reached (C72)."),
 ("C72","proved",["C72_waiting_requests_get_their_turn","C72_with_good_packages"],"Rounds of the sequential worker interleaved with anything that does not stop the daemon; m*(N+4) rounds suffice when no repository has more than N packages."),
 ("C73","proved",["C73_repositories_change_only_by_request"],""),
 ("C74","partial",["C74_calls_arrive_refuted","C74_calls_arrive_partial","C74_commands_do_what_they_say_partial","C74_never_another_request","C74_slashes_are_refused","C74_numbers_exact","C74_text_exact"],"False as stated: the repository name is put into the URL unescaped (number sign, percent sign, question mark, slashes, dots) and text that is not UTF-8 is altered by JSON. Proved for every name without those characters and all UTF-8 text; a name without slash and percent sign never becomes another request, and one made of plain parts with slashes between them is refused."),
 ("C75","proved",["C75_stop_waits_for_jobs","C75_clean_stops_repeat_nothing"],"For every history without a kill. Exactly-once is conditional on no job panicking (a panic is a crash of the process)."),
 ("C76","partial",["C76_acknowledged_is_queued_refuted","C76_lost_exact","C76_acknowledged_is_queued_partial","C76_refused_without_effect"],"False as stated: between the closing of the database and the end of the store's Close a request is acknowledged and dropped, because PushJob ignores the error. C76_lost_exact shows that this is the only such moment; outside it the claim is proved for all continuations."),
 ("C77","partial",["C77_starts_again_refuted","C77_unclean_stop_blocks_start","C77_failed_start_blocks_start","C77_start_exact","C77_clean_stop_then_start"],"False as stated: without systemd a killed (or panicked) process leaves its socket file, and no start succeeds until somebody removes it. The exact condition is proved; after a clean stop the start succeeds and the queue is unchanged."),
 ("C78","partial",["C78_uploads_are_queued_refuted","C78_missed_uploads","C78_uploads_are_queued_partial","C78_only_manifests_in_incoming"],"The first half is false as stated: a manifest that arrives while the daemon is down or stopping is not looked at after the next start. Proved: manifests that arrive while the daemon serves are queued. The second half (nothing else is queued) is proved in full."),
 ("C79","proved",["C79_restarts_leave_no_trace","C79_daemon_as_if_never_stopped"],"Relational proof (Sim.v): two states that differ only in cached handles of existing repositories give the same outcome, the same final state and the same crash points for every request."),
 ("C80","proved",["C80_usable_while_listed","C80_old_index_stays_usable","C80_records_never_change"],"For histories without crashes (with crashes a listed package may miss its file: C05, C23); that a record never changes is proved with crashes too. A package that left the pool and came back under the same name may differ."),
 ('C81', 'proved', ['C81_record_matches_outcome', 'C81_outcomes_are_real', 'C81_no_other_records'], 'Histories of fewer than 2^62 events. That a record can be lost when the daemon dies between two writes is C33.'),
 ('C82', 'proved', ['C82_repos_listed', 'C82_pool_listed', 'C82_counts_cover_listings', 'C82_counts_are_listings'], 'Counts below 2^63. Inside removals the lower bound is not claimed (C23).'),
 ('C83', 'proved', ['C83_running_iff_executing', 'C83_same_status'], 'For every queue and every line of the status.'),
 ('C84', 'proved', ['C84_times_are_real', 'C84_durations'], 'The clock is assumed not to go back (steady_clock) for the second half only.'),
 ('C85', 'partial', ['C85_order_refuted', 'C85_order_partial', 'C85_tables_exact'], 'False as stated: the time of a request is read before the lock is taken, so of two concurrent requests the one queued second can be listed first. Proved for requests made one after the other (strictly increasing times); which lines are printed is proved exactly.'),
 ('C86', 'partial', ['C86_rerun_before_commit_partial', 'C86_killed_after_commit', 'C86_others_still_served', 'C86_interrupted_deletion_refuted'], "Proved: killed before the transaction's commit, the re-run gives exactly the undisturbed disk; the other repositories go on serving at every instant. False as stated: killed between the commit and the removal of the directory, the re-run fails for ever, the directory stays with its old index, and the name can be neither created nor cloned into again (C86_killed_after_commit states this for every history, C86_interrupted_deletion_refuted is a witness)."),
 ('C87', 'partial', ['C87_rerun_before_record_partial', 'C87_counts_twice_refuted', 'C87_index_stays_refuted'], "Proved: killed while only files were removed, the re-run has the outcome and the disk of the undisturbed run, for every history. False as stated: killed between the pool's counter and the repository's record, the re-run counts down twice and throws a package out of the pool that another repository lists; killed after the record, the re-run fails and the old index stays."),
 ('C88', 'proved', ['C88_import_exact', 'C88_bytes_sent_are_served_refuted'], 'Exact for all histories of completed requests. A stronger reading, that the bytes served are always the bytes sent, is false: a second, different file of a name the pool knows is accepted and ignored (witness).'),
 ('C89', 'proved', ['C89_listing_determines_records', 'C89_import_order_is_irrelevant', 'C89_batches_are_irrelevant', 'C89_order_matters_between_equal_releases_refuted'], 'Proved where release numbers tell the versions of a package apart, and without delta production; with equal release numbers the version imported first is published (witness).'),
 ('C90', 'proved', ['C90_import_can_be_undone'], ''),
 ('C91', 'proved', ['C91_index_stays_current'], 'Crashes of package removals elsewhere are excluded (see C23).'),
 ('C92', 'proved', ['C92_clone_publishes_the_same_index', 'C92_clone_between_equal_releases_refuted'], 'Proved where release numbers tell the versions of a package apart; with equal release numbers the clone may publish the other version (witness).'),
 ('C93', 'proved', ['C93_removal_damages_at_most_one'], 'Complements C23: the damage C23_crash_while_removing_refuted exhibits is the most that can happen. Listed deltas of the package being removed are not covered.'),
 ('C94', 'partial', ['C94_pull_from_itself_exact', 'C94_empty_asset_blocks_indexing', 'C94_pull_from_itself_refuted'], 'False for the assets: each of distribution.xml, components.xml, groups.xml is truncated before it is copied onto itself, the pull then fails at the index, and no later request can re-index the repository until the file is replaced. Listings, counts and package files are proved unchanged.'),
 ('C95', 'proved', ['C95_index_carries_assets', 'C95_item_order_is_irrelevant'], 'The XML decoder and sort.Sort are parameters (the latter any sorting function).'),
 ('C96', 'partial', ['C96_incomplete_asset_always_kills', 'C96_bad_asset_fails_cleanly_refuted'], 'False: a component without a LocalName, Summary or Description, or a group without a LocalName, makes every index run of the repository panic, also after any number of restarts; nothing published is damaged. For all other malformed files the claim holds (C59, whose hypothesis good_asset is exactly the absence of such items).'),
 ('C97', 'proved', ['C97_request_exact', 'C97_success_exact', 'C97_panic_exact', 'C97_purge_does_not_change_what_is_published'], 'C97_panic_exact: a refusal without any message panics (result.Errors[0]).'),
 ('C98', 'partial', ['C98_delete_exact', 'C98_create_exact', 'C98_delete_leaves_others', 'C98_delete_stays_inside', 'C98_files_survive', 'C98_nested_repository_refuted', 'C98_upward_name_refuted'], "False for names with a slash, which a clone request may contain (the target is a JSON field): the clone's directories lie inside those of another repository and are removed with it, or, with `..`, anywhere on the disk. Proved for all names that are one path component; for names without `..` nothing outside the repository trees is touched."),
 ('C99', 'partial', ['C99_workers_never_fall_asleep', 'C99_next_poll', 'C99_close_waits_for_all', 'C99_stop_is_never_blocked', 'C99_exit_values_sent', 'C99_waiting_is_no_deadlock', 'C99_at_most_one_more_job', 'C99_stop_ends', 'C99_unlimited_jobs_refuted'], 'Proved for every schedule, except that "at most one more job" (and so a bounded stop) needs that a goroutine reaches its select before its timer of two seconds expires again: Go\'s select picks at random, and without that assumption the worker may start any number of jobs (refuted).'),
 ('C100', 'partial', ['C100_error_is_like_a_crash', 'C100_sound_after_errors', 'C100_files_survive_the_error', 'C100_removal_refuted', 'C100_repeat_after_error_refuted'], 'Proved for all requests but those that remove single packages, where it is false (C100_removal_refuted). Repeating a failed pull is not harmless: it can empty a package that another repository serves (C100_repeat_after_error_refuted). Not modelled: failing os.Remove, which the code only logs, and failing database reads.'),
 ('C101', 'proved', ['C101_record_reads_back', 'C101_database_reads_back', 'C101_manager_database', 'C101_job_reads_back', 'C101_only_size_can_fail', 'C101_other_release_reads_it', 'C101_stale_destination_refuted', 'C101_reused_encoder_refuted', 'C101_returned_bytes_stay_refuted', 'C101_reused_decoder_refuted'], "Up to nil and empty slices, which gob does not tell apart; exact for the model's records. Go's encoding/gob is modelled from its documentation (omission of zero fields, flattened pointers, one definition per encoder, matching by name). The four _refuted theorems are facts of the exported helper API that ferryd's own calls avoid: every PutObject/Decode uses a fresh encoder/decoder and every destination in ferryd is a fresh variable."),
 ('C102', 'partial', ['C102_no_interference_partial', 'C102_order_irrelevant_partial', 'C102_one_name_two_files_refuted', 'C102_delta_request_refuted'], 'Proved for every pair of requests except the two delta requests, in histories that never added a delta, when the files sent are the same for both orders (no hypothesis for requests that send none) and are the pooled files where the pool has their names. Refuted without either condition: of two different files sent under one name the first is what both repositories serve; a delta can be taken over from the pool only as long as some other repository keeps it.'),
 ('C103', 'partial', ['C103_refused_or_unindexed_partial', 'C103_pull_partial', 'C103_failed_import_partial', 'C103_tools_touch_only_the_index', 'C103_failed_create_stays_refuted', 'C103_failed_import_stays_refuted'], 'That an error means nothing changed is refuted: a create whose index fails leaves the repository in place (and cannot be repeated), an import that meets a missing file leaves the files before it imported but not indexed. Proved instead, for every request but the two delta requests: refused with nothing changed (a pull may have copied assets), or complete but for the index; an import may also have stopped at its first bad file, with exactly the earlier files imported.'),
 ('C104', 'partial', ['C104_names', 'C104_done_is_complete', 'C104_never_torn_partial', 'C104_failure_leaves_nothing_partial', 'C104_outcome', 'C104_second_attempt_succeeds', 'C104_repeat_fails_once_refuted', 'C104_torn_for_good_refuted', 'C104_work_directory_inside_partial', 'C104_work_directory_escapes_refuted'], "Proved when hard links from the build to the staging area work. Refuted without (a torn copy stays staged and is reported as success by every later attempt), for the first attempt after a kill (xz and unxz refuse to overwrite a leftover), and for package names, versions or architectures with slashes (the work directory, which is removed with all its contents, can be another repository's)."),
 ('C105', 'partial', ['C105_index_readable_partial', 'C105_small_elements_exact_partial', 'C105_small_elements_exact_iff_no_symbols', 'C105_symbol_refuted', 'C105_carriage_return_refuted', 'C105_distribution_language_refuted', 'C105_split_character_refuted'], "Proved for every index: well-formed, every element, attribute and number, ASCII texts exact, others up to the stated alterations; elements of up to 4096 bytes exact if and only if no text in a CDATA section has a symbol. Refuted: a symbol in a CDATA section is read as the text of a reference; a character in two pieces of the buffer becomes two replacement characters; a carriage return in CDATA becomes a line feed; the language of a distribution's description is in an attribute lang, not xml:lang."),
 ('C106', 'proved', ['C106_reader_finds_published', 'C106_reader_can_download'], 'Composition of C05, C06, C07 with C105. Hypotheses: package metadata is ASCII without control characters (C105 says what happens to other texts), package files carry no delta records of their own (C07); xml_env says that the document is written as Xml.v writes it.'),
 ('C107', 'proved', ['C107_metadata_is_read', 'C107_assets_are_read', 'C107_words'], "Names are compared without their prefixes, as encoding/xml does for tags without a name space; the outer Source element is decoded and ignored. C107_words: what trimming, numbers and prefixes mean there (blanks of Unicode around, decimal notation with a sign within 64 bits, the part after the colon). Sorting of components and groups: C95, C96. The path from bytes to a tree of elements (the decoder's tokenizer) is not modelled: the theorem is about every tree."),
 ('C108', 'proved', ['C108_index_relays_metadata', 'C108_index_relays_assets', 'C108_numbers'], "Composition of C107 with C105_index_readable_partial for ASCII texts (C105 says what happens to others). Not relayed, because addPackage and emitIndex set them: package size, hash, URI and deltas (C07). C108_index_relays_assets: likewise distribution.xml, components.xml and groups.xml, whose entries appear in an order of their own (C95, C96)."),
 ('C109', 'proved', ['C109_files_are_read', 'C109_reads_iff'], 'A File element without a Mode makes reading fail, although the tag says omitempty: recorded as behaviour, not as an error. int is 64 bits wide (amd64). The path from bytes to elements is not modelled (as in C107).'),
 ('C110', 'proved', ['C110_index_package_decodes'], "The texts and sizes for which reading is exact are C105's; C105 has the refutations for the others. int is 64 bits wide (amd64). Packages only, not components and groups (C108_index_relays_assets says what their elements state)."),
]
EXTRA = []
def main():
    names = set()
    for f in glob.glob(ROOT + "/rocq/theories/*.v"):
        names |= set(re.findall(r"^(?:Theorem|Lemma|Corollary|Example)\s+(\w+)", open(f).read(), re.M))
    for i, st, th, _ in T:
        for t in th:
            assert t in names, t
    ids = [json.loads(l)["id"] for l in open(ROOT + "/properties.jsonl")]
    have = {t[0] for t in T}
    missing = [i for i in ids if i not in have]
    if missing: print("not in manifest:", missing)
    json.dump({"claims": [dict(property=a, status=b, theorems=c, note=d) for a, b, c, d in T]},
              open(ROOT + "/MANIFEST.json", "w"), indent=1)
main()
