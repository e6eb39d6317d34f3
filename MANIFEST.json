{
 "claims": [
  {
   "property": "C01",
   "status": "proved",
   "theorems": [
    "C01_canonical_roundtrip",
    "C01_canonical_pack_total",
    "C01_canonical_pack_errors"
   ],
   "note": "Round trip for every pad byte, declared blocksize and item list; the pack errors are characterised exactly."
  },
  {
   "property": "C02",
   "status": "proved",
   "theorems": [
    "C02_canonical_pack_injective"
   ],
   "note": ""
  },
  {
   "property": "C03",
   "status": "proved",
   "theorems": [
    "C03_canonical_pack_layout"
   ],
   "note": ""
  },
  {
   "property": "C04",
   "status": "partial",
   "theorems": [
    "C04_canonical_unpack_sound_partial",
    "C04_canonical_unpack_complete",
    "C04_canonical_unpack_exact_refuted",
    "C04_inflated_count_rejected"
   ],
   "note": "Unpack is sound up to one defect: a truncated encoding whose missing tail is a zero-length field is accepted, so exactness is refuted by a witness (C04_canonical_unpack_exact_refuted)."
  },
  {
   "property": "C05",
   "status": "partial",
   "theorems": [
    "C05_canonical_unpack_errors_partial",
    "C05_zero_blocksize_refuted",
    "C05_huge_item_refuted"
   ],
   "note": "Every error is a documented one except two refuted cases: a declared blocksize of zero raises ZeroDivisionError and a declared length of 2^63 or more raises OverflowError."
  },
  {
   "property": "C06",
   "status": "proved",
   "theorems": [
    "C06_encode_key_layout",
    "C06_encode_key_injective",
    "C06_encode_key_total",
    "C06_encode_key_empty"
   ],
   "note": ""
  },
  {
   "property": "C07",
   "status": "proved",
   "theorems": [
    "C07_hash_inputs_separated",
    "C07_hash_inputs_separated_by_blocks",
    "C07_keys_of_all_lengths_separated",
    "C07_digest_of_what_was_absorbed",
    "C07_keyed_unkeyed_separation_refuted"
   ],
   "note": "The absorbed byte strings are separated; the additional claim that keyed and unkeyed calls never absorb the same bytes is refuted."
  },
  {
   "property": "C08",
   "status": "proved",
   "theorems": [
    "C08_int_as_base_roundtrip",
    "C08_base_as_int_roundtrip"
   ],
   "note": ""
  },
  {
   "property": "C09",
   "status": "partial",
   "theorems": [
    "C09_filename_roundtrip_partial",
    "C09_filename_loses_leading_zeros",
    "C09_filename_roundtrip_refuted",
    "C09_filename_injective"
   ],
   "note": "File names round trip exactly when the bytes do not start with a zero byte; the unrestricted claim is refuted."
  },
  {
   "property": "C10",
   "status": "proved",
   "theorems": [
    "C10_urlsafe_roundtrip",
    "C10_urlsafe_alphabet",
    "C10_urlsafe_injective",
    "C10_urlsafe_decode_injective_refuted"
   ],
   "note": "Encoding round trips; uniqueness of the text for given bytes is refuted."
  },
  {
   "property": "C11",
   "status": "proved",
   "theorems": [
    "C11_affine_bijection",
    "C11_affine_injective",
    "C11_affine_exists",
    "C11_sizes_refused",
    "C11_affine_out_of_domain_refuted"
   ],
   "note": "For every registered size, every coprime multiplier and every key; values outside the domain are not refused and can collide or loop forever (C11_affine_out_of_domain_refuted)."
  },
  {
   "property": "C12",
   "status": "proved",
   "theorems": [
    "C12_chain_bijection",
    "C12_lock_step"
   ],
   "note": "Both chain kinds, capped and uncapped, after any history of steps and updates."
  },
  {
   "property": "C13",
   "status": "proved",
   "theorems": [
    "C13_latin_square",
    "C13_full_period",
    "C13_increment_odd"
   ],
   "note": ""
  },
  {
   "property": "C14",
   "status": "proved",
   "theorems": [
    "C14_affine_key_length",
    "C14_chain_key_length",
    "C14_increment_validated"
   ],
   "note": ""
  },
  {
   "property": "C15",
   "status": "proved",
   "theorems": [
    "C15_sequence_id_bijection",
    "C15_sequence_id_unique",
    "C15_sequence_id_exists",
    "C15_window_uniqueness_refuted"
   ],
   "note": "Proved for numbers in [0, 256**size). The wider documented claim (any window of 256**size indexes) is refuted by C15_window_uniqueness_refuted."
  },
  {
   "property": "C16",
   "status": "proved",
   "theorems": [
    "C16_raw_guid_layout",
    "C16_raw_guid_window",
    "C16_raw_guid_unique",
    "C16_raw_guid_nodes",
    "C16_distinct_nanoseconds_refuted",
    "C16_shared_by_threads_refuted"
   ],
   "note": "Within an instance and between nodes. The documented claim that calls on different nanoseconds never collide is refuted (the clock divides in floating point), and so is sharing an instance between threads."
  },
  {
   "property": "C17",
   "status": "proved",
   "theorems": [
    "C17_guid_roundtrip",
    "C17_guid_wrong_length",
    "C17_guid_sizes",
    "C17_guid_read_total",
    "C17_guid_collision",
    "C17_guid_unique"
   ],
   "note": ""
  },
  {
   "property": "C18",
   "status": "proved",
   "theorems": [
    "C18_sort_order",
    "C18_later_sorts_after"
   ],
   "note": ""
  },
  {
   "property": "C19",
   "status": "partial",
   "theorems": [
    "C19_padding_roundtrip",
    "C19_padding_any_frame_partial",
    "C19_wide_frame_refuted"
   ],
   "note": "Proved for frames of up to 256 bytes, which includes all shipped configurations. Refuted for larger frames, which the configuration constructor accepts: a plaintext whose padding is shorter than the sentinel does not come back."
  },
  {
   "property": "C20",
   "status": "partial",
   "theorems": [
    "C20_timestamp_roundtrip",
    "C20_timestamp_total",
    "C20_ttl_exact",
    "C20_clock_monotone",
    "C20_clock_accuracy",
    "C20_clock_exact",
    "C20_ttl_real_time",
    "C20_nanosecond_clock_refuted",
    "C20_nanosecond_clock_early",
    "C20_units"
   ],
   "note": "All units, months and years (whose lengths are floats) included. Timestamps and TTL checks are exact in terms of the clock reading. The reading itself is a floating point quotient: it is off by at most one unit, and the nanosecond clock is refuted to show the time."
  },
  {
   "property": "C21",
   "status": "proved",
   "theorems": [
    "C21_slick256_roundtrip",
    "C21_slick256_keys"
   ],
   "note": "For every XOF with the rate of SHAKE128, every metadata and permutation multiplier accepted, every key of 64 bytes or more, every salt, IV, time and associated data shorter than 2^32 bytes."
  },
  {
   "property": "C22",
   "status": "proved",
   "theorems": [
    "C22_chunky2048_roundtrip",
    "C22_chunky2048_keys",
    "C22_ratchet_keys_enter_the_keystream",
    "C22_any_configuration_roundtrip"
   ],
   "note": "As C21, and for every valid configuration of either family."
  },
  {
   "property": "C23",
   "status": "proved",
   "theorems": [
    "C23_ciphertext_layout",
    "C23_slick256_size",
    "C23_chunky2048_size",
    "C23_bad_size_refused",
    "C23_good_size_not_refused"
   ],
   "note": ""
  },
  {
   "property": "C24",
   "status": "proved",
   "theorems": [
    "C24_accepted_is_authentic",
    "C24_wrong_tag_refused",
    "C24_altered_tag_refused",
    "C24_decrypt_outcomes"
   ],
   "note": "Stated as: nothing is returned unless the tag equals the one squeezed from the absorbed bytes, and what is returned is what the encrypting procedure sealed. Unforgeability itself is a property of the XOF and is not provable."
  },
  {
   "property": "C25",
   "status": "partial",
   "theorems": [
    "C25_absorbed_determines_session_partial",
    "C25_two_openings_collide",
    "C25_key_lengths_refuted"
   ],
   "note": "Proved: for keys of equal length, or for keys of any lengths with associated data, IVs and bodies of equal lengths, the absorbed bytes determine key, salt, associated data, IV and body. Refuted for keys and associated data of different lengths at once with Slick256: the key encoding puts the length after the key, so a longer key can contain a shorter key and the start of its session, whatever the XOF is."
  },
  {
   "property": "C26",
   "status": "proved",
   "theorems": [
    "C26_json_roundtrip",
    "C26_token_roundtrip"
   ],
   "note": "JSON serialisation itself is a parameter that is assumed to round trip on the value."
  },
  {
   "property": "C27",
   "status": "proved",
   "theorems": [
    "C27_stream_equals_one_shot",
    "C27_chunking_is_irrelevant",
    "C27_stream_works"
   ],
   "note": "For any history of feeding and iterating followed by finalize. Feeding while a finalize generator of the same thread is suspended waits forever (modelled as Hangs)."
  },
  {
   "property": "C28",
   "status": "proved",
   "theorems": [
    "C28_receiver_gets_the_data",
    "C28_released_is_a_prefix",
    "C28_genuine_packets_are_accepted",
    "C28_receiver_completes"
   ],
   "note": "Any history of the receiver: text and tag after completion, prefix before, acceptance of genuine packets, completion."
  },
  {
   "property": "C29",
   "status": "proved",
   "theorems": [
    "C29_refused_packet_changes_nothing",
    "C29_forgeries_leave_no_trace",
    "C29_accepted_iff_id_matches"
   ],
   "note": ""
  },
  {
   "property": "C30",
   "status": "partial",
   "theorems": [
    "C30_expired_stream_releases_nothing_partial",
    "C30_expired_from_the_start_partial",
    "C30_iterating_first_disables_the_check_refuted"
   ],
   "note": "Refuted as stated: asking for output before the first packet was fed raises IndexError once and switches the age check off. Proved: nothing is ever released when all clock readings are too late, if packets are only fed until a genuine one is accepted, and also for any history in which no IndexError was raised."
  },
  {
   "property": "C31",
   "status": "partial",
   "theorems": [
    "C31_one_mode",
    "C31_first_mode",
    "C31_one_finalization",
    "C31_result_is_the_final_tag",
    "C31_no_data_after_finalization",
    "C31_refused_calls_change_nothing_partial",
    "C31_refused_start_is_final_refuted"
   ],
   "note": "Everything but the last clause: a refused call changes nothing unless it starts or feeds a generator. That clause is refuted for starting one: a start with the wrong mode raises ValueError but has already registered the authenticator, so the correct start is refused afterwards."
  },
  {
   "property": "C32",
   "status": "proved",
   "theorems": [
    "C32_started_iff",
    "C32_refused_starts",
    "C32_one_registration",
    "C32_data_needs_the_right_iv",
    "C32_by_hand_encryption",
    "C32_by_hand_decryption"
   ],
   "note": "Any history of calls on one bundle, any number of authenticators and generators. The library has no testing-mode switch in this package: the rule holds for every bundle."
  },
  {
   "property": "C33",
   "status": "proved",
   "theorems": [
    "C33_id_is_a_hash",
    "C33_any_change_changes_the_id",
    "C33_sizes"
   ],
   "note": "Stated as: equal IDs in different situations exhibit two different hashed inputs with equal output. Situations with keys of different lengths are covered when associated data and earlier blocks have one length (otherwise C25 applies)."
  },
  {
   "property": "C34",
   "status": "proved",
   "theorems": [
    "C34_mutual_exclusion"
   ],
   "note": "Any number of guards, all four policies, every interleaving of the single deque operations, with misuse of guard objects and cancellations."
  },
  {
   "property": "C35",
   "status": "proved",
   "theorems": [
    "C35_in_order",
    "C35_queue_is_the_latest_joined",
    "C35_shared_guards_enter_in_order_refuted"
   ],
   "note": "For every two guards of which at least one is exclusive: the later one does not even enter before the earlier one has left. Two shared guards may overtake each other after leaving the queue (refuted example, documented by the library)."
  },
  {
   "property": "C36",
   "status": "proved",
   "theorems": [
    "C36_errors_only_for_reused_guards",
    "C36_everyone_gets_through",
    "C36_misuse_blocks_nobody"
   ],
   "note": "No internal error ever; from every history without harmful cancellation, 30 rounds per guard bring every guard through. Reused guard objects are refused without blocking the others."
  },
  {
   "property": "C37",
   "status": "partial",
   "theorems": [
    "C37_cancelled_waiter_blocks_all_refuted",
    "C37_cancelled_leaver_blocks_all_refuted",
    "C37_cancel_before_joining_partial"
   ],
   "note": "Refuted: a task cancelled in the sleep between two probes, or in the sleep at the start of __aexit__, stays in the deques and blocks every later guard for ever. Only cancellation before joining the queue (or after the block was left) is harmless."
  },
  {
   "property": "C38",
   "status": "proved",
   "theorems": [
    "C38_in_order_once",
    "C38_refusal_is_final",
    "C38_in_order_once_for_threads",
    "C38_refusal_is_final_for_threads_refuted",
    "C38_second_use_spoils_the_guard"
   ],
   "note": "Sequences of transitions; concurrent transitions with pop and append as separate operations. With threads a refusal that comes while another transition is under way does not fault the guard (refuted example)."
  },
  {
   "property": "C39",
   "status": "proved",
   "theorems": [
    "C39_same_target_same_deques",
    "C39_different_targets_different_deques",
    "C39_exclusion_per_target",
    "C39_first_use_never_fails",
    "C39_known_exactly_while_in_use",
    "C39_everyone_gets_through_and_is_forgotten",
    "C39_cancelled_target_is_forgotten_refuted",
    "C39_reentered_target_is_forgotten_refuted"
   ],
   "note": "Any schedule over any guards and targets, with the manager lock as atomic sections. Sharing, separation, exclusion per target and absence of failures hold even with cancellations and re-entries; exact forgetting and progress hold in correct use. Forgetting is refuted after a cancellation on the way in and after a second entry of one guard."
  },
  {
   "property": "C40",
   "status": "partial",
   "theorems": [
    "C40_opening_succeeds",
    "C40_session_is_the_map",
    "C40_last_value_set",
    "C40_removed_tag",
    "C40_other_tags",
    "C40_listing_agrees",
    "C40_listed_tags_have_values_partial",
    "C40_listed_tags_have_values_refuted"
   ],
   "note": "Every reply of every session equals that of an abstract two-layer map; last value, removal, other tags, length, membership and listing agree. That every listed tag has a value holds as long as the cache is not cleared and is refuted otherwise: clear_cache leaves never-saved tags listed."
  },
  {
   "property": "C41",
   "status": "proved",
   "theorems": [
    "C41_life_is_the_abstract_life",
    "C41_saved_values_survive"
   ],
   "note": "Any life over any number of processes once the database was saved; and a readable form for the value of one tag. One database object at a time; values as json gives them back."
  },
  {
   "property": "C42",
   "status": "proved",
   "theorems": [
    "C42_rollback",
    "C42_clear",
    "C42_stored_is_on_disk"
   ],
   "note": "Rollback and clearing change no file; the values afterwards are the stored ones, which are what the files hold."
  },
  {
   "property": "C43",
   "status": "proved",
   "theorems": [
    "C43_crash_between_file_operations",
    "C43_crash_within_the_manifest_write_refuted",
    "C43_crash_within_a_tag_write_refuted"
   ],
   "note": "Crashes between file operations, in any order of the tag writes (as the asynchronous class may do). Two more theorems show that a crash within a write is not covered: a torn manifest makes the database unreadable, a torn tag file reads as missing without an error."
  },
  {
   "property": "C44",
   "status": "partial",
   "theorems": [
    "C44_reload_discards_unsaved_refuted",
    "C44_reload_partial",
    "C44_clear_then_reload"
   ],
   "note": "The claim is refuted: reloading keeps cached values. Proved instead: tags not cached read as stored and the listing is the saved one; clearing the cache before reloading gives the documented effect."
  },
  {
   "property": "C45",
   "status": "partial",
   "theorems": [
    "C45_saved_tag_is_found_refuted",
    "C45_reload_of_a_never_saved_database_refuted",
    "C45_saved_tag_is_found_partial"
   ],
   "note": "The claim is refuted for a database never saved as a whole: another process finds an empty database, and reloading loses the tags in the same process. Proved once the database has been saved."
  },
  {
   "property": "C46",
   "status": "proved",
   "theorems": [
    "C46_other_objects",
    "C46_other_files",
    "C46_sessions_elsewhere",
    "C46_replies_elsewhere",
    "C46_parent_and_child",
    "C46_delete_removes",
    "C46_delete_unlisted",
    "C46_metatag_adds",
    "C46_listing_matches",
    "C46_delete_removes_every_file_refuted",
    "C46_delete_removes_files_named_0_and_1"
   ],
   "note": "For every tree of databases, every world and every session of operations elsewhere; disjointness of file names is a hypothesis on the names concerned. Two more theorems record what deletion does beyond and short of the claim: files named 0 and 1 go with it, and files of tags written after the last full save stay."
  },
  {
   "property": "C47",
   "status": "partial",
   "theorems": [
    "C47_hash_input_determines_the_history_partial",
    "C47_separable",
    "C47_derived_bytes",
    "C47_payload_determines_the_history_partial",
    "C47_domains_of_any_length_separated_refuted",
    "C47_every_object_has_a_history",
    "C47_copies_are_independent",
    "C47_update",
    "C47_database_keys"
   ],
   "note": "Separation is proved for keys of any lengths with domains and data items of one length, and for any data when keys and domains fill the same number of blocks (all domain constants of the package have one length); for domains of different lengths it is refuted with an explicit pair of objects under one key, whatever the hash function computes. Hash collisions appear as explicit pairs of inputs."
  },
  {
   "property": "C48",
   "status": "proved",
   "theorems": [
    "C48_export_then_import",
    "C48_accepted_strings",
    "C48_other_strings",
    "C48_outside_limits_refused",
    "C48_short_strings_refused",
    "C48_format_injective"
   ],
   "note": "For every configuration whose fields hold its limits (the shipped one is shown to be such)."
  },
  {
   "property": "C49",
   "status": "partial",
   "theorems": [
    "C49_checks_before_work",
    "C49_out_of_range_refused",
    "C49_expired_refused",
    "C49_lifetime",
    "C49_default_limits",
    "C49_memory_partial",
    "C49_memory_within_mb_refuted"
   ],
   "note": "The checks come before any work, for every string, range and time. The memory follows from the settings up to one mebibyte and one row per core; that the allowed range for the memory bounds the memory used is refuted (mb=1 on 8 cores fills 8 MiB). Lifetimes above 104 days are rounded by float arithmetic."
  },
  {
   "property": "C50",
   "status": "partial",
   "theorems": [
    "C50_hash_is_made",
    "C50_same_inputs_verify",
    "C50_success_means_same_tag",
    "C50_other_tag_refused",
    "C50_other_inputs_collide_partial",
    "C50_tags_bind_all_inputs_partial",
    "C50_other_lengths_refuted",
    "C50_custom_salt_sizes_refuted",
    "C50_custom_memory_refuted"
   ],
   "note": "Completeness and exactness are proved. That other inputs verify only by a hash collision is proved, with the colliding queries given, for passphrases of any lengths when peppers and associated data have one length together, and otherwise for inputs whose session keys take up as many 168-byte blocks. For other lengths it is refuted, whatever the hash function: on one core, for every passphrase, salt and time there are associated data and another passphrase that make one hash (C50_other_lengths_refuted). Two theorems record custom configurations that cannot verify or hash."
  },
  {
   "property": "C51",
   "status": "proved",
   "theorems": [
    "C51_sessions_are_valid",
    "C51_memory_size",
    "C51_worker_stays_inside",
    "C51_schedule",
    "C51_each_row_is_hashed_refuted",
    "C51_the_final_memory_is_hashed",
    "C51_what_is_read_is_hashed"
   ],
   "note": "For every setting within the limits and every extendable output function. One more theorem records that the mirrored row is not hashed when the index is in the first row, contrary to the diagram."
  },
  {
   "property": "C52",
   "status": "proved",
   "theorems": [
    "C52_2dh_run",
    "C52_3dh_run",
    "C52_same_session_same_kdf",
    "C52_same_kdf_same_session",
    "C52_session_is_what_was_exchanged"
   ],
   "note": "The curve operations are parameters: commutativity, 32-byte shared keys and the round trip of public keys through bytes are premises. Separation of sessions is up to a collision of the hash function on the two stated inputs."
  },
  {
   "property": "C53",
   "status": "proved",
   "theorems": [
    "C53_keys_match",
    "C53_set_once",
    "C53_first_key",
    "C53_other_objects_are_refused",
    "C53_set_once_in_threads_refuted"
   ],
   "note": "For all sequences of calls, including coroutines. One more theorem refutes it for operating system threads, which can be interleaved inside the method."
  },
  {
   "property": "C54",
   "status": "proved",
   "theorems": [
    "C54_word_list",
    "C54_choices",
    "C54_no_choices",
    "C54_words_of_the_list",
    "C54_deterministic",
    "C54_random",
    "C54_settings_need_a_passphrase",
    "C54_random_succeeds",
    "C54_passphrase_succeeds",
    "C54_passphrase_limits",
    "C54_separation",
    "C54_salts"
   ],
   "note": "Hash functions are parameters. Passcrypt is the model of C48-C51. The theorems also show that salts longer than the limit of passcrypt less 50 bytes and the constant are refused."
  },
  {
   "property": "C55",
   "status": "proved",
   "theorems": [
    "C55_summaries_verify",
    "C55_signed_packages_have_a_summary",
    "C55_stored_keys_are_used",
    "C55_verification_is_sound",
    "C55_verified_summaries_were_signed",
    "C55_json_texts_are_injective",
    "C55_surrogate_pairs_are_ambiguous_refuted",
    "C55_files_are_read_before_the_signature_is_checked",
    "C55_other_keys_are_refused",
    "C55_verifiers",
    "C55_some_file_names_are_refused",
    "C55_other_packages_are_refused",
    "C55_stale_signatures_are_refused",
    "C55_other_texts_are_refused",
    "C55_hexadecimal_fields",
    "C55_malformed_fields_are_refused"
   ],
   "note": "SHA-384, the curve and the database tokens are parameters with the laws stated; json.dumps is modelled and proved injective on strings without surrogate pairs, and refuted with them. Also proved: files named in an unsigned summary are read before its signature is checked, and files named keys, values, items, update or clear cannot be added. json.loads is a parameter; dictionaries with keys that are not strings are not modelled."
  },
  {
   "property": "C56",
   "status": "partial",
   "theorems": [
    "C56_one_at_a_time",
    "C56_any_schedule",
    "C56_readers_never_fail_refuted",
    "C56_crash_while_reading",
    "C56_crash_while_making_refuted",
    "C56_crash_while_updating_refuted",
    "C56_async_delete_waits_refuted"
   ],
   "note": "Proved for every sequence of calls and, as a history that the calls could have had one after the other, for every schedule of threads of one process; the contents survive a crash while reading. Refuted: two readers can make one another fail (unless superuser), a crash while the file is made leaves a file that can never be opened, a torn update can leave a third salt, and the asynchronous delete can stop its event loop. Guards are used as C39 describes them; one operating system call is one step."
  },
  {
   "property": "C57",
   "status": "partial",
   "theorems": [
    "C57_one_salt_partial",
    "C57_superuser_refuted",
    "C57_everyone_obtains_it_refuted",
    "C57_processes_refuted",
    "C57_directories_refuted"
   ],
   "note": "Proved for threads of one process, directories present, no superuser: all that obtain a salt obtain the same. Refuted for the superuser (two salts), for two processes (two salts), and for the claim that every thread obtains it (PermissionError, FileExistsError)."
  },
  {
   "property": "C58",
   "status": "partial",
   "theorems": [
    "C58_frozen_slots_never_change",
    "C58_frozen_namespace_never_changes_partial",
    "C58_clear_empties_a_frozen_namespace_refuted",
    "C58_hiding_the_names_thaws_the_slots_refuted",
    "C58_refused_operations_change_nothing",
    "C58_frozen_instances_never_change"
   ],
   "note": "Proved for all operation sequences on FrozenSlots, frozen typed slots and FrozenInstance. For FrozenNamespace it is proved for sequences without clear() and without assignments to _slots_set; both exceptions are real and proved: clear() empties the dict before it raises, and an item named _slots_set lets slots be reassigned."
  },
  {
   "property": "C59",
   "status": "partial",
   "theorems": [
    "C59_registered_configs_are_never_replaced_partial",
    "C59_registered_configs_are_of_the_class",
    "C59_ids_are_set_once",
    "C59_registering_binds",
    "C59_clear_lets_ids_be_rebound_refuted",
    "C59_refused_configs_keep_the_id",
    "C59_an_id_can_hide_update"
   ],
   "note": "Never rebound in sequences without clear(); refuted with it (clear() empties the registry, then raises). Class and ID of registered configs are proved for all sequences. Also proved: refused configs keep the ID they were refused under, and the ID \"update\" hides the method."
  },
  {
   "property": "C60",
   "status": "proved",
   "theorems": [
    "C60_batch_chunks",
    "C60_batch_zero_size",
    "C60_resize_chunks",
    "C60_resize_total",
    "C60_chunks_unique",
    "C60_cycle_repeats",
    "C60_bytes_count"
   ],
   "note": "batch with a positive size, resize, cycle and bytes_count; batch with size 0 silently drops its input (proved)."
  },
  {
   "property": "C61",
   "status": "proved",
   "theorems": [
    "C61_token_layout",
    "C61_token_length",
    "C61_tokens_differ",
    "C61_long_times_refuted"
   ],
   "note": "For all values that fit their fields (times of more than 64 bits, after the year 2554, would spill over)."
  },
  {
   "property": "C62",
   "status": "proved",
   "theorems": [
    "C62_accesses_independent_of_secrets"
   ],
   "note": ""
  },
  {
   "property": "C63",
   "status": "proved",
   "theorems": [
    "C63_every_cell_overwritten_once"
   ],
   "note": ""
  },
  {
   "property": "C64",
   "status": "proved",
   "theorems": [
    "C64_at_most_one_kdf",
    "C64_secrets_meet_one_peer",
    "C64_session_never_changes",
    "C64_synchronous_calls",
    "C64_server_spent_by_any_receive",
    "C64_client_survives_malformed_keys"
   ],
   "note": "For asyncio schedules; operating system threads are not modelled here."
  },
  {
   "property": "C65",
   "status": "proved",
   "theorems": [
    "C65_signatures_verify",
    "C65_verify_accepts_only_valid",
    "C65_keys_needed"
   ],
   "note": "The signature scheme is a parameter; its correctness is a premise."
  },
  {
   "property": "C66",
   "status": "proved",
   "theorems": [
    "C66_bias",
    "C66_words_are_equally_likely"
   ],
   "note": "Counts blocks; that blocks of derived bytes are uniform is an assumption about the hash function that the theorem does not make."
  },
  {
   "property": "C67",
   "status": "partial",
   "theorems": [
    "C67_round_trip_partial",
    "C67_unambiguous",
    "C67_shape",
    "C67_injective",
    "C67_empty_value_refuted"
   ],
   "note": "Proved for all non-empty values; refuted for the empty value, whose phrase raises KeyError (C67_empty_value_refuted)."
  },
  {
   "property": "C68",
   "status": "proved",
   "theorems": [
    "C68_slots_hold_their_type",
    "C68_slots_hold_their_type_with_dict",
    "C68_wrong_type_is_refused"
   ],
   "note": "For classes with an instance dict: as long as nobody assigns to _validate_type, which would hide the method."
  },
  {
   "property": "C69",
   "status": "proved",
   "theorems": [
    "C69_iteration_lists_the_contents",
    "C69_assignments_and_deletions",
    "C69_missing_names",
    "C69_reserved_names"
   ],
   "note": "For instances that do not hide the class attribute _slots_set."
  },
  {
   "property": "C70",
   "status": "proved",
   "theorems": [
    "C70_inputs_differ",
    "C70_calls_at_different_moments",
    "C70_same_token_refuted",
    "C70_calls_end"
   ],
   "note": "For every interleaving of the atomic operations of any number of threads. Needs only that no two calls are made by one thread at one nanosecond, plus, where csprng and the pool hash are mixed, that the 256 random bits of a csprng call are not the 25-byte header of a canonical encoding; the general form needs only that no token is a prefix of another. Shown to fail when two threads draw the same token."
  },
  {
   "property": "C71",
   "status": "proved",
   "theorems": [
    "C71_results_fit",
    "C71_synchronous_results_fit",
    "C71_offset_not_zero"
   ],
   "note": "For every history of calls by tasks and threads, every list of numbers and whatever the offset is found to be at each step. The counter, the salt file and the random bits are arbitrary."
  },
  {
   "property": "C72",
   "status": "proved",
   "theorems": [
    "C72_delay_positive",
    "C72_temporary_delay_ends",
    "C72_deadline_not_slept_over",
    "C72_refused",
    "C72_delay_stays"
   ],
   "note": "For every sequence of settings and clock readings. Real numbers are integers of an arbitrary unit; the sleeping thread itself is not modelled."
  },
  {
   "property": "C73",
   "status": "proved",
   "theorems": [
    "C73_newest_values",
    "C73_whole_pool_renewed",
    "C73_less_fresh"
   ],
   "note": "For every sequence of pushes. That the random number generator pushes eleven times per unit of freshness is read off the code; the tasks are not modelled one by one."
  },
  {
   "property": "C74",
   "status": "proved",
   "theorems": [
    "C74_condensed_is_xor",
    "C74_short_last_piece",
    "C74_accepted",
    "C74_deniable",
    "C74_one_block",
    "C74_same_name",
    "C74_condensed_size"
   ],
   "note": "For every key and size. The hash is a parameter. Deniable: for every other key a block can be chosen that gives the same name, and exactly one."
  },
  {
   "property": "C75",
   "status": "proved",
   "theorems": [
    "C75_names_safe",
    "C75_names_short",
    "C75_hashed_names_short",
    "C75_guards_of_files"
   ],
   "note": "Names are of the code that makes them from bytes; paths given by callers are not checked by the code and are not covered."
  },
  {
   "property": "C76",
   "status": "proved",
   "theorems": [
    "C76_inputs_differ",
    "C76_equal_constants",
    "C76_package_made",
    "C76_package_apart",
    "C76_users_apart"
   ],
   "note": "The list of constants is transcribed from the source read as text. Apart means: different inputs of the hash function; equal digests are an explicit collision."
  },
  {
   "property": "C77",
   "status": "partial",
   "theorems": [
    "C77_fingerprint_binds_partial",
    "C77_kdfs_apart",
    "C77_slick256_made",
    "C77_chunky2048_made",
    "C77_shipped_apart",
    "C77_accepted_roundtrip",
    "C77_time_unit_refuted",
    "C77_checks_raise_value_errors",
    "C77_accepted_measures",
    "C77_ratchet_keys_are_dealt_out"
   ],
   "note": "Refuted for the time unit (C77_time_unit_refuted): it is not part of the fingerprint, so two configurations that differ in it accept each other's ciphertexts and misjudge their age. Everything else that the fingerprint is made from is bound, up to explicit collisions."
  },
  {
   "property": "C78",
   "status": "proved",
   "theorems": [
    "C78_switches",
    "C78_first_suitable",
    "C78_stops",
    "C78_suitable_exists",
    "C78_suitable_reachable",
    "C78_candidates_apart",
    "C78_modulus_prime",
    "C78_config_made",
    "C78_permutation_made"
   ],
   "note": "Primality of the moduli is proved for the sizes of 1 to 32 bytes; for 48, 64, 128, 192 and 256 bytes it is a hypothesis of C78_config_made. That some candidate is suitable depends on the hash function and is a hypothesis of C78_stops."
  },
  {
   "property": "C79",
   "status": "proved",
   "theorems": [
    "C79_only_ciphertexts",
    "C79_fresh_random_values",
    "C79_other_files_untouched"
   ],
   "note": "For one database object without its metatags; the random source is a counter of calls, so fresh means: no two writes use the same call. The cipher is a parameter."
  },
  {
   "property": "C80",
   "status": "proved",
   "theorems": [
    "C80_written_is_read",
    "C80_read_is_stable",
    "C80_text_determines_value",
    "C80_other_bytes_are_refused",
    "C80_json_messages",
    "C80_never_taken_for_bytes",
    "C80_surrogate_pairs_refuted"
   ],
   "note": "json.loads and json.dumps of the standard library are modelled, not code of the repository; floats are kept as their texts, non-ASCII input of json.loads is refused in the model, and the limits on digits and nesting are left out."
  },
  {
   "property": "C81",
   "status": "proved",
   "theorems": [
    "C81_storage_laws",
    "C81_file_names",
    "C81_databases_are_maps",
    "C81_values_kept",
    "C81_importable",
    "C81_methods_roundtrip",
    "C81_ciphertexts_are_bound",
    "C81_manifests_are_bound",
    "C81_metatag_keys",
    "C81_shared_directories"
   ],
   "note": "With the concrete key derivation, file names, ciphers, manifest text and JSON: they satisfy every law C40-C46 and C79 assume, so databases are maps; round trips of the six methods; acceptance under another key of any length, root salt, name or associated data exhibits explicit collisions. That the names of the tags in use do not collide is a hypothesis about explicit hash inputs."
  },
  {
   "property": "C82",
   "status": "proved",
   "theorems": [
    "C82_generated",
    "C82_same_again",
    "C82_login_keys_bind_inputs",
    "C82_shared_salt_file",
    "C82_deleted",
    "C82_refused_too_late",
    "C82_profile_is_a_map",
    "C82_profile_opened_again"
   ],
   "note": "Generations are sequential here; concurrent making of salt files is C57. Recorded: passphrases of one byte are accepted (the minimum of 12 bytes is applied to the 64-byte prekey); refused inputs leave salt files behind (C82_refused_too_late); two gists that condense to the same 8 bytes share a salt file (C82_shared_salt_file)."
  },
  {
   "property": "C83",
   "status": "partial",
   "theorems": [
    "C83_gives_the_value",
    "C83_ends_partial",
    "C83_exceptions_reach_the_caller_refuted",
    "C83_large_values_refuted",
    "C83_unpicklable_refuted"
   ],
   "note": "The value reaches the caller for every schedule, and in bounded many steps of the child if it fits into the pipe. Refuted: exceptions are replaced by queue.Empty; a value larger than the pipe makes the caller wait for ever; a value that cannot be pickled is lost."
  },
  {
   "property": "C84",
   "status": "proved",
   "theorems": [
    "C84_as_one_by_one",
    "C84_never_stuck",
    "C84_each_once",
    "C84_all_ran",
    "C84_nothing_later"
   ],
   "note": "Transition system of the pool with any schedule and any use by others. For process pools, handed to a worker means put into the call queue, from where a function may still start after the call ended. Functions that wait for other work of the same pool are not modelled."
  },
  {
   "property": "C85",
   "status": "partial",
   "theorems": [
    "C85_different_tags",
    "C85_operations_end",
    "C85_lookup_errors",
    "C85_sets_are_kept_partial",
    "C85_values_come_from_somewhere_partial",
    "C85_caching_queries_refuted",
    "C85_pops_refuted",
    "C85_two_pops_refuted",
    "C85_dropping_refuted",
    "C85_saves_refuted",
    "C85_queries_refuted"
   ],
   "note": "Proved: tasks on different tags behave as if each were alone; sets, uncached queries and saves on one tag keep the value set last; values never come from nowhere if ciphertexts have one length. Refuted by schedules: caching queries, pops, dropping saves, overlapping saves, and queries during a save have outcomes that no order of the operations has."
  },
  {
   "property": "C86",
   "status": "partial",
   "theorems": [
    "C86_one_message",
    "C86_as_one_task",
    "C86_answers",
    "C86_can_end",
    "C86_guards_are_left",
    "C86_one_pull_at_a_time",
    "C86_cancelled_call_refuted",
    "C86_cancelled_wait_refuted",
    "C86_two_consumers_refuted"
   ],
   "note": "Proved for any number of feeding tasks, one consumer and any schedule without cancellations: the packets and tag are the one-shot ciphertext of what was fed in the order of the calls, calls are answered, and everything can end. Refuted by schedules: a task cancelled in the call, a task cancelled while it waits, and two consumers."
  },
  {
   "property": "C87",
   "status": "partial",
   "theorems": [
    "C87_linearizable",
    "C87_receives_the_message",
    "C87_released_is_a_prefix",
    "C87_expired_releases_nothing",
    "C87_decided_by_ids",
    "C87_outcomes",
    "C87_can_end",
    "C87_two_readers_skip_the_age_check_refuted",
    "C87_cancelled_test_skips_the_age_check_refuted",
    "C87_cancelled_receiver_ends_the_stream_refuted",
    "C87_guards_are_left"
   ],
   "note": "Proved for any number of feeding tasks, any data, one reading task and any schedule without cancellations: the answers are those of a sequence of calls made one after another, packets are decided by their IDs, the message arrives whole with the sender's tag, expired messages are not released (as in C30, if no IndexError was raised), and everything can end. Refuted by schedules: two readers or a reader cancelled in the age test release expired plaintext, and a task cancelled while its packet is deciphered ends the stream for the others."
  },
  {
   "property": "C88",
   "status": "partial",
   "theorems": [
    "C88_save_while_setting_partial",
    "C88_can_end",
    "C88_pop_stops_the_save_refuted",
    "C88_popped_tag_comes_back_refuted",
    "C88_two_saves_refuted"
   ],
   "note": "Proved for any schedule of one task that saves the database and any number of tasks that set tags and query them: the save ends well, and another process then finds every tag listed before, with a value it had during the save; a save can always end. Refuted by schedules: a pop during a save makes it raise AttributeError with other tags unsaved, a popped tag comes back on disk, and two overlapping saves mix their manifests."
  },
  {
   "property": "C89",
   "status": "partial",
   "theorems": [
    "C89_parent_is_consistent",
    "C89_every_task_ends",
    "C89_open_sub_database_stays_partial",
    "C89_opened_from_its_file_partial",
    "C89_deleted_alone_partial",
    "C89_one_object_for_a_name_refuted",
    "C89_deleted_for_good_refuted",
    "C89_opened_is_usable_refuted"
   ],
   "note": "Proved for any tasks and any schedule: the parent stays consistent, calls return objects of their name, and each task ends; an open sub-database that no task deletes stays one object whose saves end well and are found on disk; tasks that open one from its file get its salt; a deletion that no other task interferes with leaves no file and no name. Refuted by schedules: one object for a new name, a usable object during a deletion, and no file after a deletion that a save overlaps."
  },
  {
   "property": "C90",
   "status": "partial",
   "theorems": [
    "C90_unpack",
    "C90_azip_rows",
    "C90_azip_ends",
    "C90_some_iterator_is_shortest",
    "C90_azip_of_nothing_ends_refuted",
    "C90_collate",
    "C90_popleft_loses_nothing",
    "C90_popleft_ends",
    "C90_count",
    "C90_range",
    "C90_bytes_range"
   ],
   "note": "Proved for any iterators, items, exceptions and numbers of requests: unpacking, zipping, collating, emptying a queue, counting and ranges. Refuted: zipping no iterables does not end, it gives empty rows for ever."
  },
  {
   "property": "C91",
   "status": "partial",
   "theorems": [
    "C91_what_a_deletion_leaves",
    "C91_how_a_deletion_ends",
    "C91_nothing_is_left",
    "C91_can_end",
    "C91_answers",
    "C91_deleted_databases_refuse",
    "C91_no_file_appears_later",
    "C91_half_deleted_refuted",
    "C91_file_comes_back_refuted"
   ],
   "note": "Proved for one task that deletes a database without sub-databases and any number of tasks that set, query and save tags, in any schedule: a deletion that ends well leaves no manifest and no file except of tags that another task saves, it raises only RuntimeError and only if another task adds a tag, it can always end, and the other calls answer as they should. Refuted by schedules: a new tag makes it raise RuntimeError half-way, and a save brings a file back."
  },
  {
   "property": "C92",
   "status": "partial",
   "theorems": [
    "C92_with_is_a_try_statement",
    "C92_async_with_is_a_try_statement",
    "C92_which_handlers_run",
    "C92_which_handlers_are_awaited",
    "C92_foreign_exceptions_come_out",
    "C92_ignored_exceptions_are_handled",
    "C92_without_handlers",
    "C92_functions_are_not_awaited",
    "C92_cancellations_come_out",
    "C92_coroutine_handlers_refuted",
    "C92_error_is_reset_refuted"
   ],
   "note": "Proved for all bodies, handlers and worlds: with and async with over an Ignore object are try statements, foreign exceptions come out, ignored ones are handled, the finally code runs once and last. Refuted: a coroutine function as handler of a plain with is never run and swallows the exception, and a relay that is used again shows an old error."
  },
  {
   "property": "C93",
   "status": "proved",
   "theorems": [
    "C93_the_addressee_reads_the_report",
    "C93_reports_succeed",
    "C93_no_consent_no_report",
    "C93_other_databases",
    "C93_the_secret_key_is_saved",
    "C93_the_last_four_keys_are_kept",
    "C93_one_key_one_report",
    "C93_every_key_is_kept_refuted"
   ],
   "note": "Proved for every curve that obeys the Diffie-Hellman laws, every authenticated encryption that opens what it seals and every dialogue. Encryption of the database and of its tokens is a parameter (see C40, C41, C82). C93_every_key_is_kept_refuted shows that four is the limit."
  },
  {
   "property": "C94",
   "status": "partial",
   "theorems": [
    "C94_values_are_hidden",
    "C94_hidden_values",
    "C94_shown_values",
    "C94_defaults",
    "C94_empty_names_refuted",
    "C94_cycles_refuted",
    "C94_mode",
    "C94_switches",
    "C94_failed_calls_refuted"
   ],
   "note": "Hiding is proved for every memory and every way in which objects refer to each other. Refuted: displays always succeed (an empty name raises IndexError, an open object that contains itself RecursionError), and a call of enable_debugging that raises has no effect (it has: values are displayed afterwards)."
  },
  {
   "property": "C95",
   "status": "partial",
   "theorems": [
    "C95_reading_changes_nothing",
    "C95_write",
    "C95_append",
    "C95_whole_appends",
    "C95_read",
    "C95_quiet_read",
    "C95_calls_come_back",
    "C95_torn_reads_refuted",
    "C95_mixed_writes_refuted",
    "C95_failed_writes_refuted"
   ],
   "note": "Proved for every schedule of system calls, every division of data into pieces and every point where the program is killed. Refuted: a reader sees a file before or after a write, never in between; two writers leave the data of one of them; a write that fails leaves the file as it was."
  },
  {
   "property": "C96",
   "status": "partial",
   "theorems": [
    "C96_stays_sound",
    "C96_files_are_snapshots",
    "C96_cached_queries",
    "C96_missing_tags",
    "C96_save",
    "C96_save_all",
    "C96_saved_values_come_back",
    "C96_uncached_objects_are_private",
    "C96_listed_tags",
    "C96_copies_refuted",
    "C96_independent_tags_refuted",
    "C96_failed_saves_refuted",
    "C96_failed_sets_refuted",
    "C96_saves_go_on_refuted"
   ],
   "note": "Proved for all memories, with any sharing and cycles, and all histories. Refuted: the database keeps a copy of what is set; tags are independent of each other; a save that fails keeps the cached value; a set_tag that raises has no effect; save_database saves what it can when one value cannot be saved."
  },
  {
   "property": "C97",
   "status": "partial",
   "theorems": [
    "C97_messages_arrive_whole",
    "C97_messages_are_found",
    "C97_messages_are_framed",
    "C97_requests_are_made",
    "C97_requests_are_sent",
    "C97_requests_are_signed",
    "C97_only_authentic_requests_are_signed",
    "C97_others_are_turned_away",
    "C97_other_packages_are_turned_away",
    "C97_channels_are_closed",
    "C97_requests_are_independent",
    "C97_one_version_is_stored",
    "C97_responses_are_bound",
    "C97_requests_are_not_responses",
    "C97_nameless_requests_end_the_service",
    "C97_clients_that_leave_end_the_service",
    "C97_replays_are_signed_again",
    "C97_listings_are_unique",
    "C97_all_files_are_listed",
    "C97_unreadable_files_are_reported",
    "C97_inventories_hold"
   ],
   "note": "Proved for all cuts of the stream, all clients and all states of the signer. Refuted: the service survives every client (holders of the key end it with a request without a package, and by leaving before they are answered); a request is signed once (a request that is heard can be sent again for two seconds)."
  },
  {
   "property": "C98",
   "status": "partial",
   "theorems": [
    "C98_exactly_one_answer",
    "C98_never_back",
    "C98_faults_are_misuse",
    "C98_truth",
    "C98_running_inside",
    "C98_done_after_leaving",
    "C98_earlier_guards_are_done_partial",
    "C98_earlier_guards_are_done_for_tasks",
    "C98_earlier_guards_are_done_refuted",
    "C98_no_fault_is_seen_without_misuse_refuted"
   ],
   "note": "Proved for all guards, policies and schedules. Refuted, for threads: the documented assertion that earlier guards are done once an exclusive one is inside (proved up to the next operation of the earlier guard, and fully for asyncio tasks); and that a guard used once never says it has faulted."
  },
  {
   "property": "C99",
   "status": "partial",
   "theorems": [
    "C99_as_if_one_at_a_time",
    "C99_one_tag",
    "C99_refused_only_behind_another",
    "C99_busy_only_while_feeding",
    "C99_cancelled_finalization_is_for_ever",
    "C99_finalize_after_cancellation_refuted",
    "C99_block_id_of_the_call_refuted"
   ],
   "note": "Proved for Slick256 (the shake-permute family), every bundle and every schedule of tasks with cancellation. Refuted: a finalization can be made again after its task was cancelled; the asynchronous block id is the one of the moment of the call. Chunky2048 is in C100."
  },
  {
   "property": "C100",
   "status": "partial",
   "theorems": [
    "C100_as_if_one_at_a_time_partial",
    "C100_one_tag",
    "C100_busy_only_while_feeding",
    "C100_tag_in_the_first_block_refuted",
    "C100_cancelled_first_block_refuted",
    "C100_error_behind_the_tag_refuted"
   ],
   "note": "Proved for Chunky2048 (the dual-output family), every bundle and every schedule that leaves the first block in peace; the theorem on one tag holds for every schedule. Refuted without that condition: a tag made while the first block is half hashed, or after its task was cancelled there, is the tag of no calls made one at a time; a block that is too large and was overtaken by a tag fails with another exception."
  },
  {
   "property": "C101",
   "status": "partial",
   "theorems": [
    "C101_program_is_the_map",
    "C101_block_raises_what_its_body_raises",
    "C101_saved_on_the_way_out",
    "C101_raising_block_is_undone_refuted",
    "C101_exception_of_the_body_arrives_refuted",
    "C101_other_values_are_saved_refuted"
   ],
   "note": "Proved for every program of calls, exceptions, handlers and nested blocks whose values can be stored. Refuted: the exception of the body always arrives (a value that cannot be stored replaces it by the exception of the save, and values assigned after it are lost); a block that raises is undone (what it assigned is in the files). Databases without metatags; the tasks of an asynchronous save are taken one after another."
  },
  {
   "property": "C102",
   "status": "partial",
   "theorems": [
    "C102_answer_of_one_moment",
    "C102_synchronous_calls",
    "C102_tweaks_in_the_order_they_end",
    "C102_every_call_ends",
    "C102_recovered",
    "C102_begun_in_time_refuted",
    "C102_guids_of_one_history",
    "C102_guid_of_its_own_time",
    "C102_guids_unique",
    "C102_reads"
   ],
   "note": "Proved for every schedule and every cancellation of any number of tasks. Refuted: that an inversion begun while the permutation is as it was when a value was permuted recovers that value (a step that ends meanwhile changes the result: apermute takes the key at its beginning, ainvert at its end). An asynchronous call is split at each of its suspensions."
  },
  {
   "property": "C103",
   "status": "partial",
   "theorems": [
    "C103_never_runs",
    "C103_others_do_not_notice",
    "C103_mutual_exclusion",
    "C103_in_order",
    "C103_how_it_ends",
    "C103_queued_too_late_refuted",
    "C103_queued_in_time",
    "C103_left_out_never_runs",
    "C103_in_time_mutual_exclusion",
    "C103_in_time_in_order",
    "C103_in_time_everyone_gets_through"
   ],
   "note": "Proved for every schedule, with cancellations and misuse, of any number of guards. Refuted: that a guard can still be queued after it was entered (if it has failed by then, it blocks all that come later), and that the deques are empty in the end. A guard queued late but while it waits behaves like any other; an append between the two halves of one look (possible with threads only) is not covered."
  },
  {
   "property": "C104",
   "status": "partial",
   "theorems": [
    "C104_which_arguments",
    "C104_refusals",
    "C104_guards_are_exclusive_monitors_are_not",
    "C104_mixed_policies_refuted",
    "C104_guarded_blocks_run_alone",
    "C104_everyone_gets_through"
   ],
   "note": "Proved for every program that makes and enters any number of guards of a manager, with cancellations and second entries, for guards that queue themselves. Refuted: that guard() always makes exclusive guards and monitor() shared ones, for policies that inherit from both kinds. Guards of a manager that are to be queued by hand are left out."
  },
  {
   "property": "C105",
   "status": "partial",
   "theorems": [
    "C105_every_slot_is_typed",
    "C105_definition_succeeds_iff",
    "C105_plain_classes",
    "C105_what_is_defined",
    "C105_which_type",
    "C105_single_inheritance",
    "C105_instances",
    "C105_nearest_declaration_refuted",
    "C105_subclasses_keep_types_refuted"
   ],
   "note": "Proved for every sequence of class statements with any order of resolution. Refuted: that a slot has the type of the nearest declaration in the order of resolution when there are several bases, and that subclasses keep to the types of their bases."
  },
  {
   "property": "C106",
   "status": "partial",
   "theorems": [
    "C106_one_after_another",
    "C106_calls_end",
    "C106_within_a_loop",
    "C106_threads_refuted",
    "C106_refused_means_not_run_refuted",
    "C106_always_ends_refuted"
   ],
   "note": "Proved for calls made one after another by any threads. Refuted, for calls made at the same time: that each returns, that a refused one has no effect, and that each ends. The loop's methods are asyncio's and are modelled from CPython; a round of the loop is one step."
  },
  {
   "property": "C107",
   "status": "proved",
   "theorems": [
    "C107_saved_tree_is_found_again",
    "C107_trees_are_keyed",
    "C107_every_saved_database_is_found_refuted"
   ],
   "note": "Proved for trees of any shape, with or without preloading, under the laws of cipher and json for the databases of the tree, and when no two files of the tree have the same name. Any order of the sets. Refuted beside it: that a database is found if it was saved by itself while the one above it never was."
  },
  {
   "property": "C108",
   "status": "partial",
   "theorems": [
    "C108_life_is_passed_once",
    "C108_one_thread_gets_in",
    "C108_refused_is_final_partial",
    "C108_one_user",
    "C108_refused_is_final_refuted",
    "C108_has_faulted_is_final_refuted",
    "C108_fault_state_is_final_refuted",
    "C108_signals_of_failed_blocks_run",
    "C108_signals_run_at_most_once",
    "C108_all_signals_run_refuted"
   ],
   "note": "Proved: at most one thread gets in, for all threads and schedules. Finality of a refusal is proved only when no other thread is in the middle of a transition, and refuted otherwise, as are has_faulted() and enter_fault_state() as final. Fault signals: proved when they raise nothing; refuted that all run if one raises. The operations of collections.deque are taken as atomic."
  },
  {
   "property": "C109",
   "status": "partial",
   "theorems": [
    "C109_objects_keep_to_themselves",
    "C109_cached_value_is_not_refreshed",
    "C109_objects_are_the_abstract_objects",
    "C109_saved_value_is_given_by_all",
    "C109_last_save_decides_the_listing",
    "C109_saved_tag_stays_listed_refuted",
    "C109_removed_tag_stays_removed_refuted",
    "C109_two_beginnings_refuted"
   ],
   "note": "Proved for every sequence of calls, if nobody opens the database before its first save. Refuted: saved tags stay listed, removed tags stay removed, saved values stay reachable when two objects are opened before the first save. Each call is taken as one step, without metatags."
  },
  {
   "property": "C110",
   "status": "partial",
   "theorems": [
    "C110_one_value",
    "C110_numbers",
    "C110_two_values",
    "C110_long_messages",
    "C110_declared_variables",
    "C110_contents_are_not_shown",
    "C110_length_messages_partial",
    "C110_length_messages_refuted",
    "C110_two_values_refuted"
   ],
   "note": "Proved: messages with one value or numbers are exact; those with two values are when the first text does not have the second's placeholder in it, and refuted otherwise. Refuted: that every message about a length is true. The texts of repr and str are arguments, except for numbers."
  },
  {
   "property": "C111",
   "status": "proved",
   "theorems": [
    "C111_what_is_importable",
    "C111_private_names_are_gone",
    "C111_other_modules_are_untouched",
    "C111_succeeds",
    "C111_names_refuted"
   ],
   "note": "For packages in which import names are distinct and parts of one package have distinct names; C111_names_refuted shows that both conditions are needed. The objects in the tree are taken to be different, and the import machinery itself is not modelled."
  },
  {
   "property": "C112",
   "status": "partial",
   "theorems": [
    "C112_accepted_iff",
    "C112_accepted_is_found",
    "C112_reasons",
    "C112_names_are_never_changed",
    "C112_what_is_new",
    "C112_derived_classes_do_not_reach_up",
    "C112_constants",
    "C112_inherited_names_refuted"
   ],
   "note": "Proved for the registry class itself and for what is in each class's own dictionary. Refuted: that a name which a class has cannot be given to another type; a class derived from the registry accepts names that it inherits. The Unicode predicates str.isidentifier and str.isupper are arguments of the theorems."
  },
  {
   "property": "C113",
   "status": "partial",
   "theorems": [
    "C113_runs_until_cancelled",
    "C113_every_thread_feeds",
    "C113_keeps_feeding",
    "C113_cancel_stops",
    "C113_restarted_feeds_once",
    "C113_restart_refuted"
   ],
   "note": "Proved for all schedules of any number of threads. Refuted: that a daemon which was cancelled can be started again; the flag is never reset. Exceptions in the loop are not modelled, and it is assumed that the thread starts."
  },
  {
   "property": "C114",
   "status": "partial",
   "theorems": [
    "C114_mode_is_what_was_asked_last",
    "C114_the_current_loop_follows",
    "C114_other_loops_are_untouched",
    "C114_a_change_is_applied",
    "C114_raises_iff_no_loop",
    "C114_refuted"
   ],
   "note": "Proved for an event loop that stays the current one, and what is left alone. Refuted: that the current event loop is in debug mode exactly when is_debugging() is true. The environment variable PYTHONASYNCIODEBUG is taken to be unset. That is_debugging() and the displays follow the calls is C94."
  },
  {
   "property": "C115",
   "status": "partial",
   "theorems": [
    "C115_new",
    "C115_operations",
    "C115_views_agree",
    "C115_what_raises",
    "C115_methods",
    "C115_methods_agree",
    "C115_any_name_refuted",
    "C115_precedence_refuted"
   ],
   "note": "Proved for all histories. Refuted: that any name can be stored without harm, and that keywords and mapping have one precedence. Stored values are not callable, and the names of Python's own attributes are left out."
  }
 ]
}