{
 "claims": [
  {
   "property": "C01",
   "status": "proved",
   "theorems": [
    "C01_sync_safe_encode_decode",
    "C01_sync_safe_refuses",
    "C01_sync_safe_decode_encode",
    "C01_sync_safe_positional",
    "C01_plain_positional",
    "C01_plain_encode_decode"
   ],
   "note": ""
  },
  {
   "property": "C02",
   "status": "proved",
   "theorems": [
    "C02_probe_exact",
    "C02_header_unique"
   ],
   "note": ""
  },
  {
   "property": "C03",
   "status": "proved",
   "theorems": [
    "C03_resynchronise_unsynchronise",
    "C03_resynchronise_exact",
    "C03_resynchronise_shrinks"
   ],
   "note": ""
  },
  {
   "property": "C04",
   "status": "proved",
   "theorems": [
    "C04_no_false_sync",
    "C04_last_not_ff",
    "C04_growth"
   ],
   "note": ""
  },
  {
   "property": "C05",
   "status": "partial",
   "theorems": [
    "C05_test_agrees_refuted",
    "C05_test_agrees_partial",
    "C05_false_sync_disagreement"
   ],
   "note": "Refuted as stated (ff e0..ff e9 are missed); proved for data without those pairs."
  },
  {
   "property": "C06",
   "status": "proved",
   "theorems": [
    "C06_write_read",
    "C06_track_zero_refuted"
   ],
   "note": "Proved for well-formed tags; a v1.1 tag with track number 0 (not well-formed) is shown to come back as v1.0."
  },
  {
   "property": "C07",
   "status": "partial",
   "theorems": [
    "C07_histories_writable_refuted",
    "C07_scratch_uninitialised_refuted",
    "C07_histories_writable_partial",
    "C07_last_set_wins"
   ],
   "note": "Refuted as stated: enhanced-only setters on a standard tag make write() read out of bounds, and scratch tags have uninitialised members. Proved for all other histories; last-write-wins proved for all histories."
  },
  {
   "property": "C08",
   "status": "proved",
   "theorems": [
    "C08_standard_block",
    "C08_enhanced_block",
    "C08_standard_accepted",
    "C08_enhanced_accepted"
   ],
   "note": ""
  },
  {
   "property": "C09",
   "status": "partial",
   "theorems": [
    "C09_probe_exact",
    "C09_remove",
    "C09_remove_total_partial",
    "C09_remove_total_refuted",
    "C09_replace_partial",
    "C09_replace_refuted",
    "C09_position_restored_refuted"
   ],
   "note": "Probe exactness and removal proved; removal throws when TAG+ is at -355 without an inner TAG (refuted); replacement proved except when a standard tag lands 227 bytes after an accidental TAG+ (refuted)."
  },
  {
   "property": "C10",
   "status": "partial",
   "theorems": [
    "C10_set_then_read",
    "C10_shortest_form",
    "C10_read_is_positional",
    "C10_long_refused",
    "C10_inc",
    "C10_inc_many",
    "C10_inc_refuted"
   ],
   "note": "Proved for 32-bit values; incrementing 2^32-1 produces an unreadable counter (refuted)."
  },
  {
   "property": "C11",
   "status": "proved",
   "theorems": [
    "C11_roundtrip",
    "C11_from_scratch"
   ],
   "note": ""
  },
  {
   "property": "C12",
   "status": "partial",
   "theorems": [
    "C12_ufid",
    "C12_priv",
    "C12_text",
    "C12_txxx",
    "C12_txxx_from_scratch_partial",
    "C12_txxx_from_scratch_refuted",
    "C12_comm",
    "C12_comm_from_scratch"
   ],
   "note": "Proved for well-formed frames of every kind and version; ID3v2.4 TXXX made from scratch with Unicode is refuted."
  },
  {
   "property": "C13",
   "status": "partial",
   "theorems": [
    "C13_roundtrip_refuted",
    "C13_size_off_by_one",
    "C13_email_lost",
    "C13_read",
    "C13_no_method_refuted"
   ],
   "note": "False: write() omits the NUL after the e-mail (C13_roundtrip_refuted). Proved: it is always one byte short and, for a non-zero method, never reads back with the same e-mail. C13_read: registrations in the standard form are read as they stand; C13_no_method_refuted: those cut off before the method cannot be written."
  },
  {
   "property": "C14",
   "status": "partial",
   "theorems": [
    "C14_tag_cloud",
    "C14_ufid",
    "C14_text",
    "C14_popm",
    "C14_priv",
    "C14_txxx",
    "C14_txxx_identical",
    "C14_comm_partial",
    "C14_comm_identical",
    "C14_comm_refuted",
    "C14_frame_boundary_refuted",
    "C14_popm_refuted",
    "C14_priv_refuted"
   ],
   "note": "Proved for UFID, text, TXXX, POPM, PRIV and COMM payloads of four bytes or more; shorter COMM payloads are refuted, as is independence of the byte following the frame."
  },
  {
   "property": "C15",
   "status": "partial",
   "theorems": [
    "C15_v23_partial",
    "C15_v23_status_refuted",
    "C15_v23_compressed_refuted",
    "C15_v23_group_refuted",
    "C15_v24_partial",
    "C15_v24_status_refuted",
    "C15_v24_compressed_refuted",
    "C15_v24_group_refuted",
    "C15_v23_stored_partial",
    "C15_v23_length_refuted",
    "C15_v24_stored_partial",
    "C15_v22_stored_partial"
   ],
   "note": "Identifiers, lengths and contents survive for ID3v2.3 and ID3v2.4; status flags come back one place off (characterised exactly and refuted), compressed frames are not read back (refuted for both), group ids are lost or make the reader run past the tag (refuted for both). The bytes written for every frame are characterised for all three versions, whatever its flags (C15_v2x_stored_partial); the length of a compressed frame's contents is written least significant byte first (C15_v23_length_refuted)."
  },
  {
   "property": "C16",
   "status": "partial",
   "theorems": [
    "C16_v24_lengths_refuted",
    "C16_v22",
    "C16_v23_partial",
    "C16_v23_ext_refuted",
    "C16_v24_partial",
    "C16_v24_padding_refuted",
    "C16_v24_ext_refuted"
   ],
   "note": "Proved for every ID3v2.2 tag; for ID3v2.3 tags without an extended header or with one that unsynchronisation leaves alone (refuted for one holding ff e0); for ID3v2.4 tags without padding and with at most a simple extended header. ID3v2.4 padding is counted twice, for every tag, and the length bytes of checksum and restrictions are counted but not written, for every tag (refuted)."
  },
  {
   "property": "C17",
   "status": "partial",
   "theorems": [
    "C17_v23_partial",
    "C17_v23_unsync_flag_refuted",
    "C17_v23_writable"
   ],
   "note": "Proved for well-formed tags; refuted for tags marked unsynchronised but written without unsynchronisation. ENCR frames excluded (C13)."
  },
  {
   "property": "C18",
   "status": "partial",
   "theorems": [
    "C18_v22_partial",
    "C18_v22_refuted",
    "C18_v22_writable"
   ],
   "note": "The two caches of an ID3v2.2 frame are swapped: refuted for tags with something to unsynchronise, for either choice. Proved where nothing needs unsynchronising and for tags marked as unsynchronised that are written without."
  },
  {
   "property": "C19",
   "status": "partial",
   "theorems": [
    "C19_v24_lengths_refuted",
    "C19_v24_partial",
    "C19_v24_padding_refuted",
    "C19_v24_footer_refuted",
    "C19_v24_unsync_refuted",
    "C19_v24_writable"
   ],
   "note": "Proved without footer, for padding 0 or at least 4 with as much after it (which is swallowed), for contents unsynchronisation leaves alone or unsync=false, and no or a simple extended header. Refuted: extended headers with checksum or restrictions (never read back, C19_v24_lengths_refuted), padding with less after it (always throws), footers (always throw), unsynchronised contents."
  },
  {
   "property": "C20",
   "status": "partial",
   "theorems": [
    "C20_tag_cloud_terminates",
    "C20_v22_terminates",
    "C20_v22_overread_refuted",
    "C20_v22_short_refuted",
    "C20_v22_error_restores",
    "C20_v23_terminates_partial",
    "C20_v23_loops_refuted",
    "C20_v23_overread_refuted",
    "C20_v23_error_restores",
    "C20_v23_truncated",
    "C20_v24_terminates_partial",
    "C20_v24_loops_refuted",
    "C20_v24_overread_refuted",
    "C20_v24_error_restores"
   ],
   "note": "Refuted for ID3v2.2, 2.3 and 2.4 (over-read), for 2.3 and 2.4 (endless loop on encrypted ENCR; stream state not restored on truncation). Proved: ID3v2.2 parsing always terminates, 2.3 and 2.4 parsing does without ENCR; stream restored on parse errors; tag-cloud parsing terminates."
  },
  {
   "property": "C21",
   "status": "partial",
   "theorems": [
    "C21_identifiers_partial",
    "C21_no_dead_pointer_partial",
    "C21_all_found_partial",
    "C21_insert_refuted",
    "C21_erase_refuted",
    "C21_erase_text_refuted",
    "C21_add_comment_refuted",
    "C21_add_refuted",
    "C21_dangling_refuted",
    "C21_play_count_refuted"
   ],
   "note": "Proved for every history of edits that leave remaining frames in place (append, replace, set text, remove from the end). Refuted in general form for insert and erase elsewhere, for erasing T-frames that are not text frames, for add_comment/add_user_defined_text, for ID3v2.4 play counts; a history leading to a dangling pointer is exhibited."
  },
  {
   "property": "C22",
   "status": "partial",
   "theorems": [
    "C22_frames",
    "C22_written_v22",
    "C22_written_v23_partial",
    "C22_written_v24_partial",
    "C22_queries_refuted",
    "C22_copy_v24_refuted",
    "C22_flag_v23_refuted",
    "C22_flag_v24_refuted",
    "C22_copied_partial",
    "C22_assigned_partial",
    "C22_copied_refuted"
   ],
   "note": "The copy has the same frames. Refuted for every non-empty tag: lookups, texts, comments, counts of the copy fail. ID3v2.4 copy without extended header dereferences null. Written bytes: equal for ID3v2.2; for 2.3/2.4 only when caches are fresh and the uninitialised flag happens to agree (refuted otherwise). C22_copied_partial, C22_assigned_partial, C22_copied_refuted: which tags can be copied and assigned at all."
  },
  {
   "property": "C23",
   "status": "partial",
   "theorems": [
    "C23_v22_partial",
    "C23_v23_partial",
    "C23_v24_partial",
    "C23_v22_refuted",
    "C23_v23_refuted",
    "C23_v24_refuted"
   ],
   "note": "Refuted: after any size request every edit is lost (all three versions, every tag, every edit). Proved when the frames were never serialized before the edit."
  },
  {
   "property": "C24",
   "status": "proved",
   "theorems": [
    "C24_roundtrip",
    "C24_encoding_well_formed",
    "C24_decoder_accepts",
    "C24_decoder_total",
    "C24_injective"
   ],
   "note": ""
  },
  {
   "property": "C25",
   "status": "partial",
   "theorems": [
    "C25_roundtrip",
    "C25_size",
    "C25_histories_are_maps",
    "C25_nul_refuted"
   ],
   "note": "Proved for NUL-free strings whose values fit a 32-bit count (every parsed cloud is such); refuted for strings with a NUL, which the text form lets in."
  },
  {
   "property": "C26",
   "status": "partial",
   "theorems": [
    "C26_text_roundtrip_partial",
    "C26_text_roundtrip_refuted",
    "C26_text_meaning",
    "C26_merge_items",
    "C26_merge_cloud",
    "C26_has_key",
    "C26_has_value",
    "C26_add_value",
    "C26_add_key",
    "C26_repeated",
    "C26_merge_repeated"
   ],
   "note": "Proved for non-empty clouds and for the meaning of any well-formed text; the empty cloud's text form is refuted. C26_repeated, C26_merge_repeated: a bare key mentioned again is refused."
  },
  {
   "property": "C27",
   "status": "partial",
   "theorems": [
    "C27_find_partial",
    "C27_short_refuted",
    "C27_between",
    "C27_total_partial",
    "C27_overlap_refuted",
    "C27_cut_refuted"
   ],
   "note": "Exact whenever the leading tags end no later than the trailing tag begins and a result is produced; overlapping tags wrap the size (refuted), short files with a lenient stream are undefined (refuted), files cut inside an Xing table throw (refuted)."
  },
  {
   "property": "C28",
   "status": "partial",
   "theorems": [
    "C28_read_all",
    "C28_absent_partial",
    "C28_offset_refuted",
    "C28_v22_refuted",
    "C28_v234_refuted"
   ],
   "note": "Reading all tags is characterised exactly; reading by index starts ten bytes early, so it disagrees for every 2.2 tag of ordinary size and every plain 2.3/2.4 tag (refuted); absence of the index agrees."
  },
  {
   "property": "C29",
   "status": "partial",
   "theorems": [
    "C29_every_file",
    "C29_audio",
    "C29_same_device",
    "C29_backup_partial",
    "C29_leftover_refuted",
    "C29_unwanted_backup_refuted"
   ],
   "note": "Proved for every file and environment: on success the file is new tags ++ old audio and only the temporary file and backups may differ; exact for same-device renames. Refuted across devices: the temporary file, or an unrequested backup, is left behind."
  },
  {
   "property": "C30",
   "status": "proved",
   "theorems": [
    "C30_crash_safe"
   ],
   "note": "Every intermediate state of the rewrite, for every way the copies and the rename can fail. Assumes the temporary name has no dot in its last component and differs from the file."
  },
  {
   "property": "C31",
   "status": "partial",
   "theorems": [
    "C31_fresh_partial",
    "C31_keeps_partial",
    "C31_relative_refuted",
    "C31_overwritten_refuted",
    "C31_overflow_refuted"
   ],
   "note": "Proved for absolute paths; refuted for relative paths (always .1, overwriting it) and after number 2147483647 (signed overflow)."
  },
  {
   "property": "C32",
   "status": "partial",
   "theorems": [
    "C32_emplace_partial",
    "C32_extended_refuted"
   ],
   "note": "Proved for tags without extended headers or with one without checksum that unsynchronisation leaves alone (ID3v2.4: without CRC/restrictions); an ID3v2.3 extended header containing a false sync overwrites the first audio byte (refuted)."
  },
  {
   "property": "C33",
   "status": "partial",
   "theorems": [
    "C33_exact_partial",
    "C33_size_partial",
    "C33_refuses",
    "C33_wraps_refuted",
    "C33_v24_refuted"
   ],
   "note": "Exactness, refusal condition and resulting size proved; refuted when the first tag's padding wraps, and for ID3v2.4, whose size counts padding twice."
  },
  {
   "property": "C34",
   "status": "partial",
   "theorems": [
    "C34_save_partial",
    "C34_zeroed_refuted",
    "C34_empty_refuted",
    "C34_audio_partial",
    "C34_room_refuted",
    "C34_swallowed_refuted"
   ],
   "note": "Proved for tags of all three versions without extended header or with a plain one (no checksum; ID3v2.3: nothing that unsynchronisation would touch; ID3v2.4: no restrictions), outside the wrapping case, up to a gap of stale bytes left of ID3v2.4 paddings (C34_audio_partial); without ID3v2.4 there is no gap (C34_save_partial). In the wrapping case the whole audio is zeroed, an empty tagset divides by zero, ID3v2.4 tags are refused whenever there is room for them, and when the file is rewritten for one its header claims some of the audio (all refuted)."
  },
  {
   "property": "C35",
   "status": "proved",
   "theorems": [
    "C35_accept",
    "C35_reject",
    "C35_advance"
   ],
   "note": "Every proper header, every other four bytes; one precondition: the checksum, if announced, is in the file."
  },
  {
   "property": "C36",
   "status": "partial",
   "theorems": [
    "C36_find_sync_partial",
    "C36_nothing_left_refuted",
    "C36_duration_partial",
    "C36_resync_partial",
    "C36_mixed_refuted",
    "C36_skipped_refuted",
    "C36_xing_partial",
    "C36_vbri_refuted"
   ],
   "note": "Sync search proved when two bytes are left (undefined at the end of file, refuted). Durations: first frame's duration times the number of frames, so wrong for mixed frames (refuted); syncs 1-3 bytes on are skipped (refuted); Xing tags proved; VBRI tags overrun a variable (refuted)."
  },
  {
   "property": "C37",
   "status": "partial",
   "theorems": [
    "C37_numbers",
    "C37_tables",
    "C37_itself",
    "C37_zero",
    "C37_closest_partial",
    "C37_closest_long",
    "C37_named_partial",
    "C37_answers",
    "C37_answers_long",
    "C37_uninitialised_refuted",
    "C37_empty_refuted",
    "C37_missed_refuted"
   ],
   "note": "Numbers and texts, matching up to case, distance zero, the answer being the first of the closest genres for texts over twenty characters, and an answer for every text of 1 to 21 characters are proved in full. For shorter texts minimality is proved over the genres that are no longer than the text or shorter than (length + 24) / 2; over the rest it is false (C37_missed_refuted, \"neue deutsch\"). Also false: the empty text reads out of bounds, and long texts that share no character with any genre get an uninitialised genre. UTF-8 decoding and tolower are a parameter."
  },
  {
   "property": "C38",
   "status": "partial",
   "theorems": [
    "C38_round_trip_partial",
    "C38_quotes_refuted",
    "C38_separator_refuted"
   ],
   "note": "False as stated: a field starting with a quote but without separator or line feed is printed unquoted (refuted), and the quote is accepted as separator (refuted). Proved: the exact set of rows that come back, for strict and lax readers."
  },
  {
   "property": "C39",
   "status": "partial",
   "theorems": [
    "C39_literal_partial",
    "C39_among_parts_partial",
    "C39_equals_refuted"
   ],
   "note": "Proved for every non-empty NUL-free text without an equals sign, alone or before other parts; refuted for every text with an equals sign."
  },
  {
   "property": "C40",
   "status": "partial",
   "theorems": [
    "C40_pieces_partial",
    "C40_accepts",
    "C40_input_kept",
    "C40_own_name_refuted"
   ],
   "note": "Proved for every file content and working directory, whenever the command succeeds and the input is not itself named like a piece; success is characterised exactly, the input and all other files are shown untouched at every crash point. C40_own_name_refuted: a file called like the track piece is emptied."
  },
  {
   "property": "C41",
   "status": "proved",
   "theorems": [
    "C41_nothing_lost",
    "C41_copies",
    "C41_dry_run",
    "C41_renamed",
    "C41_same_name",
    "C41_taken",
    "C41_only",
    "C41_place",
    "C41_missing"
   ],
   "note": "For every template function, visiting order, option set, broken copy and crash point. The file system model has no concurrent processes and no symbolic links."
  },
  {
   "property": "C42",
   "status": "partial",
   "theorems": [
    "C42_commands_partial",
    "C42_calls_partial",
    "C42_exhausted_refuted",
    "C42_unordered_refuted",
    "C42_dry_run",
    "C42_unwritten_partial",
    "C42_saved_backup_partial",
    "C42_crash_partial",
    "C42_saved_partial"
   ],
   "note": "For every tag list, policy and command: exactly the tags in scope are processed in order, creation follows the tables, nothing is written when clean or dry, and what is written is the new tags, the old rest and the new ID3v1 tag; crash points covered with backups. Index lists must ascend and reach the last tag: otherwise refuted (list read past its end; later entries ignored)."
  },
  {
   "property": "C43",
   "status": "partial",
   "theorems": [
    "C43_named_partial",
    "C43_create_refuted",
    "C43_dry_run",
    "C43_works",
    "C43_adding",
    "C43_large_refuted",
    "C43_rating_number",
    "C43_rating_stars",
    "C43_rating_other"
   ],
   "note": "Exactly the named frames are changed and frames are created only when asked for and absent, for every frame list and option set except frame creation combined with a restriction to play counters: there the popularimeters of the owner are changed as well (C43_create_refuted). Also dry runs, repeated runs, success on legible tags, ratings; counts of 2^32 and more can be set and then never increased (C43_large_refuted)."
  },
  {
   "property": "C44",
   "status": "partial",
   "theorems": [
    "C44_names_inverse",
    "C44_identifier_names_partial",
    "C44_identifiers_distinct",
    "C44_v23_v24_standard",
    "C44_v23_v24_complete",
    "C44_v22_standard_partial",
    "C44_v22_refuted",
    "C44_v22_bpm_refuted"
   ],
   "note": "Proved for names and for ID3v2.3/2.4 identifiers; ID3v2.2 identifiers refuted for several kinds and BPM."
  },
  {
   "property": "C45",
   "status": "partial",
   "theorems": [
    "C45_readable_partial",
    "C45_others_unchanged",
    "C45_new_frame_refuted",
    "C45_trailing_refuted",
    "C45_latin1_v24_refuted",
    "C45_encodings_partial",
    "C45_encoded_back_partial",
    "C45_marked_partial",
    "C45_utf16be_v24_refuted",
    "C45_wide_partial"
   ],
   "note": "Other frames unchanged and at most one added: proved for every text. Reading back: proved for texts the storage encoding can hold, without trailing space or BOM; refuted for a new frame with text outside ISO 8859-1, for trailing spaces, for ID3v2.4 ISO 8859-1. C45_wide_partial: text outside ISO 8859-1 set on a frame that is there is stored in UCS-2 and read back. C45_encodings_partial, C45_encoded_back_partial, C45_marked_partial: the encodings a program can ask of an ID3v2.4 text frame; C45_utf16be_v24_refuted: UTF-16BE without a mark is read in the library's own byte order."
  },
  {
   "property": "C46",
   "status": "partial",
   "theorems": [
    "C46_prefer_v2_partial",
    "C46_prefer_v1_partial",
    "C46_blank_refuted",
    "C46_automatic_refuted",
    "C46_default_template_refuted"
   ],
   "note": "Proved for named ID3v1 encodings; refuted for the automatic (default) encoding and for blank ID3v1 fields that are preferred."
  },
  {
   "property": "C47",
   "status": "proved",
   "theorems": [
    "C47_visits"
   ],
   "note": "For functions that do not create or remove files while the traversal runs; what a directory iterator notices of such changes is unspecified."
  },
  {
   "property": "C48",
   "status": "partial",
   "theorems": [
    "C48_there_and_back",
    "C48_back_and_there_partial",
    "C48_others",
    "C48_only_article_refuted",
    "C48_title"
   ],
   "note": "Proved for every title except the one that is only the trailing article, for which it is refuted."
  },
  {
   "property": "C49",
   "status": "partial",
   "theorems": [
    "C49_merge_failure_partial",
    "C49_update_failure_refuted"
   ],
   "note": "Holds for merge; refuted for update."
  },
  {
   "property": "C50",
   "status": "partial",
   "theorems": [
    "C50_v23_whole",
    "C50_v24_whole",
    "C50_v22_conforming",
    "C50_v23_conforming",
    "C50_v24_conforming",
    "C50_v24_unsync_refuted",
    "C50_v24_dli_refuted"
   ],
   "note": "Proved for whole tags of ID3v2.3 (extended header, groups, compression, unsynchronisation: C50_v23_whole) and ID3v2.4 (extended header, groups, compression: C50_v24_whole) and for ID3v2.2. Refuted for ID3v2.4 unsynchronised frames and for data length indicators on uncompressed frames. Encrypted frames are not readable."
  },
  {
   "property": "C51",
   "status": "proved",
   "theorems": [
    "C51_names_inverse",
    "C51_names_unique",
    "C51_iconv_agrees",
    "C51_listed",
    "C51_responses"
   ],
   "note": "Names, parsing and iconv names agree for all encodings."
  },
  {
   "property": "C52",
   "status": "partial",
   "theorems": [
    "C52_to_bytes_partial",
    "C52_long_refuted",
    "C52_bom32_refuted",
    "C52_terminates",
    "C52_to_string_partial",
    "C52_trailing_refuted",
    "C52_refused",
    "C52_nul_refuted"
   ],
   "note": "Proved for conversions that at most quadruple the text; longer ones are lost or overrun the buffer (refuted), UTF-32BE byte order mark wrong (refuted), trailing spaces lost (refuted). C52_refused: exactly which encodings are refused; C52_nul_refuted: text after a NUL is dropped."
  },
  {
   "property": "C53",
   "status": "partial",
   "theorems": [
    "C53_locale_refuted"
   ],
   "note": "Refuted: the locale encoding is never found; the exact behaviour is characterised for all locale names."
  },
  {
   "property": "C54",
   "status": "partial",
   "theorems": [
    "C54_columns_partial",
    "C54_count_partial",
    "C54_no_comments_refuted",
    "C54_names_refuted",
    "C54_files",
    "C54_size",
    "C54_year_refuted",
    "C54_read"
   ],
   "note": "Proved when at least one comment column is asked for and names have no quote or backslash; with no comment columns there is one field too many (refuted), and names with a backslash are altered (refuted). C54_files carries this over to the rows written for files; the year column of ID3v2.2 tags never holds the year (C54_year_refuted). C54_read: what the rows describe is the first tag, the bytes up to the ID3v1 tag and that tag, as they stand in the file."
  },
  {
   "property": "C55",
   "status": "partial",
   "theorems": [
    "C55_decimal_partial",
    "C55_plays_refuted"
   ],
   "note": "Proved for version, revision, sizes and ID3v1 genre; the play count is printed in base sixteen (refuted for every count from ten on)."
  },
  {
   "property": "C56",
   "status": "partial",
   "theorems": [
    "C56_after_compiled_partial",
    "C56_after_refused_refuted"
   ],
   "note": "Proved after any sequence of templates that compile; refuted after a template that is refused."
  },
  {
   "property": "C57",
   "status": "partial",
   "theorems": [
    "C57_compiles_partial",
    "C57_options_refuted",
    "C57_short_form_refuted",
    "C57_size_partial"
   ],
   "note": "Proved for every text of the grammar below; refuted for the documented options that no text can set, short forms that run into a longer word, and base sixteen."
  },
  {
   "property": "C58",
   "status": "partial",
   "theorems": [
    "C58_replaced",
    "C58_runs_partial",
    "C58_runs_refuted",
    "C58_manual_example_refuted"
   ],
   "note": "Proved for texts without adjacent blanks; refuted for every text with two adjacent blanks."
  },
  {
   "property": "C59",
   "status": "partial",
   "theorems": [
    "C59_tag23_partial",
    "C59_kinds_refuted",
    "C59_unsynchronised_refuted",
    "C59_tag22_refuted",
    "C59_tag24_refuted",
    "C59_v1_partial",
    "C59_dump_partial",
    "C59_cloud_entry_partial"
   ],
   "note": "exact for ID3v2.3 and ID3v1 tags: object or not JSON; false for UFID, PCNT and tag cloud frames, for other control characters, for the unsynchronisation flag and for all ID3v2.2 and ID3v2.4 tags (refuted) Keys of a tag cloud with at most one value are JSON by themselves (C59_cloud_entry_partial)."
  },
  {
   "property": "C60",
   "status": "proved",
   "theorems": [
    "C60_strings",
    "C60_numbers"
   ],
   "note": "exact characterisation for strings; all numbers"
  },
  {
   "property": "C61",
   "status": "proved",
   "theorems": [
    "C61_track"
   ],
   "note": "all digests"
  },
  {
   "property": "C62",
   "status": "partial",
   "theorems": [
    "C62_args",
    "C62_set_partial",
    "C62_missing_refuted",
    "C62_created_partial",
    "C62_foreign_refuted"
   ],
   "note": "What the arguments choose is exact (C62_args). The tags in scope get the genre wherever each has a content type that can be read, with all policies but creation from another version; creation from nothing is covered. A tag in scope without content type makes the command fail on that file (C62_missing_refuted); a long free text foreign to all genres uses an uninitialised variable even if the number is given (C62_foreign_refuted)."
  },
  {
   "property": "C63",
   "status": "partial",
   "theorems": [
    "C63_texts_partial",
    "C63_delete_one_partial",
    "C63_delete_order_refuted",
    "C63_v1_kept_refuted",
    "C63_v1_only_refuted"
   ],
   "note": "Texts set and frames deleted in every tag in scope, where frames are deleted from the last to the first and occur once; one deletion alone always removes one frame. In another order a stale index is used (C63_delete_order_refuted); the ID3v1 tag is not updated unless tags are named by number, and never when there is no ID3v2 tag (C63_v1_kept_refuted, C63_v1_only_refuted)."
  },
  {
   "property": "C64",
   "status": "partial",
   "theorems": [
    "C64_from_v1_partial",
    "C64_latin1_refuted",
    "C64_others_refuted",
    "C64_from_v2_partial",
    "C64_lacks_refuted"
   ],
   "note": "From ID3v1: the exact frames, for ASCII fields; a field that is not ASCII to iconv stops the copy (C64_latin1_refuted), the track number is dropped (C64_others_refuted). From ID3v2: the exact bytes, where every tag has the five frames; a missing frame stops the copy (C64_lacks_refuted)."
  },
  {
   "property": "C65",
   "status": "proved",
   "theorems": [
    "C65_calls",
    "C65_untouched"
   ],
   "note": "For every command, file and policy; index lists as in C42 for the exact result."
  },
  {
   "property": "C66",
   "status": "proved",
   "theorems": [
    "C66_set",
    "C66_malformed"
   ],
   "note": "For every file that can be read, every well-formed list of tags (percent-encoded, the same bare key not given twice) and every scope that names existing tags; for texts that cannot be read the file is untouched."
  },
  {
   "property": "C67",
   "status": "partial",
   "theorems": [
    "C67_printed",
    "C67_get_partial",
    "C67_get_refuted"
   ],
   "note": "What is printed is proved for all files. That no file is changed is false: C67_get_refuted shows that every file with a cloud asked for is written anew, without a backup, whatever options are given. Files without one are proved untouched."
  },
  {
   "property": "C68",
   "status": "partial",
   "theorems": [
    "C68_created_partial",
    "C68_created_refuted"
   ],
   "note": "Proved with --create-frame. Without it the statement is false (C68_created_refuted): the tag made has no cloud."
  },
  {
   "property": "C69",
   "status": "partial",
   "theorems": [
    "C69_playlist_partial",
    "C69_crash",
    "C69_newline_refuted",
    "C69_comment_refuted",
    "C69_append_refuted",
    "C69_itself_refuted",
    "C69_locale_refuted",
    "C69_source_refuted"
   ],
   "note": "Proved for titles and paths a playlist can hold (one line, path not starting with #), readable files, and a playlist that is not itself among the files (C69_playlist_partial); what is left behind wherever it stops (C69_crash, no such restriction). Refuted in general: titles with line ends inject entries, paths starting with # are lost, appending to an unterminated line spoils the last entry, the playlist lists itself, nothing is done under locales naming an encoding, -s is ignored."
  },
  {
   "property": "C70",
   "status": "partial",
   "theorems": [
    "C70_entry",
    "C70_total",
    "C70_nearest",
    "C70_encoding_refuted",
    "C70_fallback_refuted"
   ],
   "note": "What is told is as specified (C70_entry) for every file that can be read, whatever the tags (C70_total), given the locale's encoding is found. Refuted: a text in an unknown encoding ends the run; a text that cannot be converted leads to the file's name although the ID3v1 tag has both."
  },
  {
   "property": "C71",
   "status": "partial",
   "theorems": [
    "C71_row_partial",
    "C71_shifted_refuted",
    "C71_columns_partial",
    "C71_header",
    "C71_count_refuted"
   ],
   "note": "The row of a reported file reads back as its description if and only if no text in it holds the delimiter or a line feed (C71_row_partial); with delimiters in the texts, the line has that many columns more (C71_shifted_refuted): the printer does not escape. The columns stand under their headings (C71_columns_partial), except that with no comment columns asked for a row with a tag has one field too many (C71_count_refuted)."
  },
  {
   "property": "C72",
   "status": "partial",
   "theorems": [
    "C72_counts",
    "C72_csv",
    "C72_tdf_partial",
    "C72_reported_partial",
    "C72_v24_refuted",
    "C72_failed",
    "C72_joined_refuted",
    "C72_missing"
   ],
   "note": "Counts, exit status, order and contents of reports without failures are proved for every list of arguments (C72_counts, C72_csv, C72_tdf_partial, C72_missing), and that whatever can be told is reported (C72_reported_partial). False in general: a file whose first tag is an ID3v2.4 tag with one play count is never reported (C72_v24_refuted); a file that fails while its row is written leaves a piece of it (C72_failed), to which the next row is joined (C72_joined_refuted)."
  },
  {
   "property": "C73",
   "status": "partial",
   "theorems": [
    "C73_write_read",
    "C73_read_exact",
    "C73_read_total",
    "C73_code_in_comment",
    "C73_standard_codes_refuted",
    "C73_locale_known_partial",
    "C73_locale_unknown_refuted",
    "C73_locale_unset",
    "C73_locale_prefix_refuted"
   ],
   "note": "Printing and reading are inverse and exactly the standard's codes are read (C73_write_read, C73_read_exact, C73_read_total, C73_code_in_comment), except that five codes are only read in capitals (C73_standard_codes_refuted). The language of the locale is the one of its first two letters when these are a code (C73_locale_known_partial); otherwise every comment fails (C73_locale_unknown_refuted, C73_locale_unset), and three-letter locales get another language (C73_locale_prefix_refuted)."
  },
  {
   "property": "C74",
   "status": "partial",
   "theorems": [
    "C74_written_partial",
    "C74_rewrite_partial",
    "C74_save_partial",
    "C74_unmixed"
   ],
   "note": "Proved for all lists of storable tags (C74_written_partial), through rewriting by copy (C74_rewrite_partial) and saving with any strategy (C74_save_partial; ID3v2.4 tags must not have been given padding, which C74_unmixed shows for sets of one kind). Storable excludes what C15, C17, C18, C19 refute per tag: frame flags, extended headers of ID3v2.3 that have a checksum or that unsynchronisation would touch, padding and footers of ID3v2.4, marks of unsynchronisation that do not fit what is done."
  },
  {
   "property": "C75",
   "status": "proved",
   "theorems": [
    "C75_has_frame",
    "C75_get_frames",
    "C75_agree",
    "C75_not_frames"
   ],
   "note": "C75_has_frame, C75_get_frames, C75_agree, C75_not_frames for all tag objects."
  },
  {
   "property": "C76",
   "status": "partial",
   "theorems": [
    "C76_generator",
    "C76_flat_partial",
    "C76_flat_refuted"
   ],
   "note": "The generator: proved for all trees and any number of calls (C76_generator). flat-file-system-tree lists what has no children (C76_flat_partial), so empty directories too (C76_flat_refuted)."
  },
  {
   "property": "C77",
   "status": "partial",
   "theorems": [
    "C77_no_exception",
    "C77_untouched",
    "C77_untouched_v1",
    "C77_bad_unsync",
    "C77_bad_tag",
    "C77_copy_fails",
    "C77_save_fails_partial"
   ],
   "note": "Proved for reading and writing both kinds of tags. What an error during a save (without #:copy) leaves is proved for tags without ID3v2.3 extended headers or with plain ones and with sizes below 28 bits (C77_save_fails_partial), as in C34."
  },
  {
   "property": "C78",
   "status": "partial",
   "theorems": [
    "C78_calls",
    "C78_stops",
    "C78_hidden_refuted",
    "C78_name_refuted"
   ],
   "note": "Calls and stops proved for any procedure. Refuted: an ID3v1 tag is not shown if the ID3v2 tags cannot be read (C78_hidden_refuted); a path that is not UTF-8 ends the walk (C78_name_refuted)."
  },
  {
   "property": "C79",
   "status": "partial",
   "theorems": [
    "C79_object_partial",
    "C79_identifier",
    "C79_copied_partial",
    "C79_saved_partial",
    "C79_text_refuted",
    "C79_class_refuted",
    "C79_language_refuted",
    "C79_cloud_refuted",
    "C79_old_refuted",
    "C79_udt_refuted",
    "C79_count_refuted",
    "C79_unsync_refuted",
    "C79_private_refuted"
   ],
   "note": "Proved for whole files, with #:copy #t (C79_copied_partial) and without (C79_saved_partial), for ID3v2.3 tags with or without unsynchronisation and for ID3v2.4 tags without padding (not mixed with ID3v2.3 tags, unless copied): text frames, comments, user-defined texts (2.3), counts, popularimeters, tag clouds (2.3), unknown frames (not unsynchronised), all without frame marks (C15). Identifiers: C79_identifier. False elsewhere, each for all inputs: texts outside Latin-1 in 2.2/2.3 and mismatched classes read past the object (C79_text_refuted, C79_class_refuted), unknown languages (C79_language_refuted), clouds in 2.2/2.4 dereference null (C79_cloud_refuted), any ID3v2.2 tag (C79_old_refuted), user-defined texts in 2.4 and counts from 2^32 come back as unknown frames (C79_udt_refuted, C79_count_refuted), the unsync mark of unknown frames (C79_unsync_refuted); private frame objects are written under the first letters of their owner, without the first bytes of their data (C79_private_refuted)."
  },
  {
   "property": "C80",
   "status": "partial",
   "theorems": [
    "C80_written_partial",
    "C80_ascii",
    "C80_latin_refuted",
    "C80_enhanced_refuted"
   ],
   "note": "C80_written_partial: for all standard tags; excluded is the file that has TAG+ 355 bytes before its end (C09_replace_refuted). C80_ascii: with ASCII texts that fit the object is the same. False: every other text is stored as UTF-8 and read as ISO-8859-1 (C80_latin_refuted); objects read from enhanced tags cannot be written, their slots being one early (C80_enhanced_refuted)."
  },
  {
   "property": "C81",
   "status": "partial",
   "theorems": [
    "C81_needs22_partial",
    "C81_needs23_partial",
    "C81_needs24_partial",
    "C81_asked",
    "C81_always_partial",
    "C81_never_partial",
    "C81_needed_partial",
    "C81_missed_refuted",
    "C81_needed24_refuted",
    "C81_always22_refuted",
    "C81_never22_refuted",
    "C81_ext_refuted",
    "C81_mark_partial",
    "C81_mark24_refuted"
   ],
   "note": "C81_always_partial: no false sync in ID3v2.3 tags without extended header and ID3v2.4 tags. C81_never_partial: frames verbatim. C81_needed_partial: ID3v2.3, no ff followed by more than e9. C81_mark_partial: the flag of ID3v2.3. False: 'as needed' misses ff e0 to ff e9 (C81_missed_refuted) and, in ID3v2.4, everything as soon as one frame does not need it (C81_needed24_refuted); ID3v2.2 does the opposite of what it is asked (C81_always22_refuted, C81_never22_refuted); the extended header of ID3v2.3 is left out (C81_ext_refuted); ID3v2.4 does not set the flag (C81_mark24_refuted). C81_needs22_partial, C81_needs23_partial, C81_needs24_partial: what needs_unsynchronisation() answers, frame by frame; C81_asked: saving as needed asks exactly that."
  },
  {
   "property": "C82",
   "status": "partial",
   "theorems": [
    "C82_file_partial",
    "C82_frame_partial",
    "C82_several_refuted",
    "C82_utf16be_refuted",
    "C82_cloud_refuted",
    "C82_bytes22_refuted",
    "C82_private_refuted"
   ],
   "note": "C82_file_partial, C82_frame_partial: exactly the objects of the specification, for frames whose counters and texts are complete, and padding below 2^32. False: of a text of several values only the first is shown (C82_several_refuted); UTF-16BE text is converted as UTF-16 (C82_utf16be_refuted); one tag cloud whose owner is not UTF-8 makes the whole file unreadable (C82_cloud_refuted); unknown frames of ID3v2.2 are shown unsynchronised exactly if they are not in the tag (C82_bytes22_refuted); private frames are never given as <priv-frame> objects (C82_private_refuted)."
  },
  {
   "property": "C83",
   "status": "partial",
   "theorems": [
    "C83_template_partial",
    "C83_byte_order_refuted",
    "C83_year_refuted",
    "C83_year_v1_refuted",
    "C83_extension_refuted",
    "C83_encoder_refuted",
    "C83_md5_refuted"
   ],
   "note": "C83_template_partial: exactly so, for parts that are regular. False: texts marked as UTF-16LE are taken for UTF-16BE (C83_byte_order_refuted); years are whatever the frame has (C83_year_refuted); the year of ID3v1 tags throws, also in optional parts (C83_year_v1_refuted); so do capitalizing a missing extension and an empty 'encoded by' (C83_extension_refuted, C83_encoder_refuted); the digest is written as raw bytes (C83_md5_refuted). See also C46, C57, C58."
  },
  {
   "property": "C84",
   "status": "partial",
   "theorems": [
    "C84_dump",
    "C84_parts",
    "C84_lines",
    "C84_dumped",
    "C84_stops_refuted",
    "C84_private_refuted",
    "C84_newline_refuted",
    "C84_run",
    "C84_missing"
   ],
   "note": "C84_dump, C84_lines, C84_dumped: exactly those lines, for every file dumped without an error, and every file of which all can be told is. C84_run, C84_missing: several files. False: ID3v2.4 private frames and tag clouds, long counters end the dump of the file, and empty counters and private frames are undefined behaviour (C84_stops_refuted, C84_private_refuted); a text with a line end passes for two frames (C84_newline_refuted). The command succeeds whatever fails (C84_run). C84_parts: what is asked for by --id3v1-tags, --id3v2-tags and the option for track data."
  },
  {
   "property": "C85",
   "status": "partial",
   "theorems": [
    "C85_removed_partial",
    "C85_answers_partial",
    "C85_tail",
    "C85_places_refuted",
    "C85_comments_refuted",
    "C85_odd_refuted",
    "C85_move_partial"
   ],
   "note": "C85_removed_partial, C85_answers_partial: the frames left are the right ones in the right order, the number of frames of each name and all text lookups are right; C85_tail: everything is, when nothing that stays comes after anything that goes. False: each frame that stays is still looked up under the place it had (C85_places_refuted); a comment removed from before another leaves a dangling pointer (C85_comments_refuted); frames named like text frames that are none cannot be removed (C85_odd_refuted)."
  },
  {
   "property": "C86",
   "status": "partial",
   "theorems": [
    "C86_settings_partial",
    "C86_copied_refuted",
    "C86_freed",
    "C86_deletes_partial",
    "C86_deletes_refuted",
    "C86_reused_refuted"
   ],
   "note": "C86_settings_partial: settings right and no use of freed memory in every history that puts each manipulator into a stream at most once, but for encodings that came by copyfmt; C86_freed: everything is freed in the end; C86_deletes_partial: by the right means, when no encoding is set. False: an encoding copied by copyfmt reads past its memory (C86_copied_refuted); closing a stream with an encoding frees it as another type (C86_deletes_refuted); a manipulator used twice resets the second stream to the standard printer and leads to a double delete (C86_reused_refuted)."
  },
  {
   "property": "C87",
   "status": "partial",
   "theorems": [
    "C87_rows_partial",
    "C87_tdf_partial",
    "C87_tdf_refuted",
    "C87_counts_refuted",
    "C87_binary_refuted",
    "C87_unescaped_refuted"
   ],
   "note": "C87_rows_partial: any frames, where binary data is empty, what is not escaped needs no escaping, counts fit 32 bits and no number from ten on follows a popularimeter; C87_tdf_partial: likewise for TDF, where no field has a separator or line feed. False otherwise: C87_counts_refuted (exactly when a play count reads as itself), C87_binary_refuted (non-empty file identifiers and encryption data never do), C87_unescaped_refuted, C87_tdf_refuted."
  },
  {
   "property": "C88",
   "status": "proved",
   "theorems": [
    "C88_covers",
    "C88_decided",
    "C88_total",
    "C88_command",
    "C88_guile",
    "C88_shown",
    "C88_misused_refuted",
    "C88_registered",
    "C88_registered_twice",
    "C88_help",
    "C88_no_help"
   ],
   "note": "C88_covers, C88_decided, C88_total: any arguments are leading options and an ending, and these say what is done; C88_command, C88_guile, C88_registered, C88_registered_twice, C88_help. Beside it C88_misused_refuted: on misuse the names of the sub-commands go to standard output, not to standard error with the rest."
  },
  {
   "property": "C89",
   "status": "partial",
   "theorems": [
    "C89_popm_usage",
    "C89_xtag_usage",
    "C89_genre_usage",
    "C89_text_usage_partial",
    "C89_usage_untouched",
    "C89_popm_dry_run",
    "C89_genre_dry_run",
    "C89_xtag_dry_run_partial",
    "C89_popm_tag_refuted",
    "C89_popm_default",
    "C89_text_options",
    "C89_genre_v1_refuted",
    "C89_stops_refuted"
   ],
   "note": "Status 2 exactly for wrong usage for popm, genre and xtag (C89_popm_usage, C89_genre_usage, C89_xtag_usage); C89_text_usage_partial: for text but for unknown frame names, which give status 1. C89_usage_untouched, C89_popm_dry_run, C89_genre_dry_run; C89_xtag_dry_run_partial: without --get, text has no --dry-run. C89_popm_default, C89_text_options. False: C89_popm_tag_refuted (popm ignores --tag), C89_genre_v1_refuted (no numeral given to --v1 stands for its value), C89_stops_refuted (the first failure ends the run). From the words of the command line and the environment: C95."
  },
  {
   "property": "C90",
   "status": "partial",
   "theorems": [
    "C90_command_partial",
    "C90_plays_partial",
    "C90_play_partial",
    "C90_texts_partial",
    "C90_genres_partial",
    "C90_audio_partial",
    "C90_clouds_partial",
    "C90_merges_partial"
   ],
   "note": "C90_command_partial: for every processor, one run; C90_audio_partial: any commands in any order, the audio; C90_plays_partial: popm, any number of runs with backups; C90_play_partial: one run, also in place; C90_texts_partial, C90_genres_partial, C90_clouds_partial: text, genre and xtag, one run; C90_merges_partial: xtag --merge, any number of runs with other items each time, with backups. Missing: audio of less than 355 bytes, extended headers in ID3v2.3 with a checksum or a false synchronisation, ID3v2.2 for the commands, --adjust-unsync, what cannot be written (C32, C34, C74), and the tags after histories of text and genre."
  },
  {
   "property": "C91",
   "status": "partial",
   "theorems": [
    "C91_report_partial",
    "C91_usage",
    "C91_overwritten_refuted",
    "C91_unwritten_refuted",
    "C91_ascii_refuted"
   ],
   "note": "C91_report_partial: an output that can be opened and is not among the inputs; C91_usage. False: C91_overwritten_refuted (an output that is also an input is emptied first), C91_unwritten_refuted (an output that cannot be opened goes unnoticed), C91_ascii_refuted (--ascii-delimited without --tsv is not refused). Missing: disks that fill up, and what printing tags to an unopened stream may throw."
  },
  {
   "property": "C92",
   "status": "partial",
   "theorems": [
    "C92_known",
    "C92_renamed_partial",
    "C92_several_partial",
    "C92_default_partial",
    "C92_lacking",
    "C92_usage",
    "C92_v1_refuted",
    "C92_slash_refuted",
    "C92_outside_refuted",
    "C92_stops_refuted"
   ],
   "note": "C92_known, C92_renamed_partial (any template with regular parts, one file), C92_several_partial (any number of files whose new names are free and different), C92_default_partial (from the tags), C92_lacking, C92_usage. False: C92_v1_refuted (files that only have an ID3v1 tag make the run fail), C92_slash_refuted and C92_outside_refuted (slashes in texts), C92_stops_refuted (a name that is taken ends the run). Missing: the parts of templates that are not regular (see C83), directories as arguments (see C41 for what holds of them)."
  },
  {
   "property": "C93",
   "status": "partial",
   "theorems": [
    "C93_dump_partial",
    "C93_run_partial",
    "C93_spoiled_refuted",
    "C93_other_refuted",
    "C93_unsynchronised_refuted"
   ],
   "note": "C93_dump_partial and C93_run_partial (files of which everything can be said: ID3v2.3 tags of unknown, text, user text, comment, popularimeter, encryption and private frames). False: C93_spoiled_refuted (one frame that cannot be told makes the output of the whole run unreadable, with status 0), C93_other_refuted (ID3v2.2 and ID3v2.4 tags with a frame are never dumped), C93_unsynchronised_refuted (every ID3v2.3 tag is said to be unsynchronised). Missing: the kinds that C59 shows to be misprinted, and texts with control characters."
  },
  {
   "property": "C94",
   "status": "partial",
   "theorems": [
    "C94_row_partial",
    "C94_alone_partial",
    "C94_columns_refuted",
    "C94_heading_refuted"
   ],
   "note": "C94_row_partial (exactly what is printed, and what a reader gets from it), C94_alone_partial (one part: its fields). False: C94_columns_refuted (between parts nothing is printed: the last field of one and the first of the next are one), C94_heading_refuted (the lines with the path and time make the output unreadable as CSV). Missing: texts with quotes (C38), a last comment that is printed in quotes, and when the printing fails (C72 for the same printer)."
  },
  {
   "property": "C95",
   "status": "partial",
   "theorems": [
    "C95_spelling",
    "C95_names",
    "C95_genre_v_refuted",
    "C95_values",
    "C95_precedence",
    "C95_outcome",
    "C95_misuse_partial",
    "C95_encoding_refuted",
    "C95_untouched",
    "C95_popm_dry_run",
    "C95_genre_dry_run",
    "C95_xtag_dry_run_partial",
    "C95_create_refuted",
    "C95_blank_path_refuted",
    "C95_negative_refuted",
    "C95_help_refuted",
    "C95_required",
    "C95_words"
   ],
   "note": "C95_spelling (round trip), C95_names (each option by its own name and letter), C95_values and C95_precedence (the value of every option), C95_words (what is no encoding or format is not taken), C95_outcome, C95_untouched, C95_popm_dry_run, C95_genre_dry_run; C95_misuse_partial: for the five commands without encodings or formats all wrong options are told as wrong usage; C95_xtag_dry_run_partial: without --get. False: C95_genre_v_refuted (-v is two options), C95_encoding_refuted (an unknown encoding gives status 1), C95_create_refuted (SCRIBBU_CREATE stops popm and xtag), C95_blank_path_refuted (output paths with blanks), C95_negative_refuted, C95_help_refuted. Missing: boost::program_options is modelled from its documentation and sources as known to us, and is not part of the repository."
  },
  {
   "property": "C96",
   "status": "partial",
   "theorems": [
    "C96_runs",
    "C96_status",
    "C96_reading",
    "C96_stdout",
    "C96_dry_run",
    "C96_one_file",
    "C96_required",
    "C96_split_one",
    "C96_split",
    "C96_m3u_misuse",
    "C96_m3u_arguments_refuted",
    "C96_source_refuted",
    "C96_source_never_refuted",
    "C96_encodings_refuted"
   ],
   "note": "C96_runs, C96_status, C96_reading, C96_stdout, C96_dry_run (popm, genre, rename), C96_one_file, C96_required, C96_split_one, C96_split, C96_m3u_misuse hold in full. Refuted: m3u without arguments fails with 1 instead of telling wrong usage (C96_m3u_arguments_refuted), the encoding of --source-encoding is never used (C96_source_refuted, C96_source_never_refuted), arguments of encodings are passed over (C96_encodings_refuted). Guile itself, and the pages shown by other programs, are parameters."
  },
  {
   "property": "C97",
   "status": "partial",
   "theorems": [
    "C97_json_partial",
    "C97_lines_partial",
    "C97_csv_partial",
    "C97_report_partial",
    "C97_playlist_partial",
    "C97_rename_partial",
    "C97_plays_partial",
    "C97_texts_partial",
    "C97_genres_partial",
    "C97_xtag_partial",
    "C97_clouds_partial"
   ],
   "note": "Each theorem composes C96 (the program runs the sub-command), C95 (the value of each option) and the effect theorem of the command, under the latter's hypotheses: C97_json_partial (C93), C97_lines_partial (C84), C97_csv_partial (C94; that the files can be dumped is assumed), C97_report_partial (C91), C97_playlist_partial (C69), C97_rename_partial (C92), C97_plays_partial, C97_texts_partial, C97_genres_partial, C97_clouds_partial (C90, one file, ID3v2.3/2.4 tags). C97_xtag_partial: which values xtag runs with, whatever they are."
  },
  {
   "property": "C98",
   "status": "partial",
   "theorems": [
    "C98_history_partial",
    "C98_rest_partial",
    "C98_plays_partial",
    "C98_last_text_partial",
    "C98_last_genre_partial",
    "C98_backups"
   ],
   "note": "C98_history_partial (the chain of effects), C98_rest_partial (frames no request is about), C98_plays_partial (plays add up), C98_last_text_partial and C98_last_genre_partial. One file with 2.3/2.4 tags whose frames can be written and read back (in_order), runs without --adjust-unsync, with --create-backups (C98_backups) or in place where C34 allows it, each fitting the tags as they are then (counters with room, frames to delete in the order C63 needs, content types present for genre: the restrictions of C43, C62, C63, C68); without these C62_missing_refuted, C63_delete_order_refuted and C34 say what goes wrong."
  },
  {
   "property": "C99",
   "status": "partial",
   "theorems": [
    "C99_same_partial",
    "C99_v23_partial",
    "C99_v22_partial",
    "C99_v24_partial",
    "C99_size_refuted",
    "C99_absent_refuted",
    "C99_short_partial",
    "C99_misread_refuted",
    "C99_version_refuted"
   ],
   "note": "C99_same_partial: with a header of a size above 0 the constructors do what probing and reading do (all contents, masks, versions), so written tags come back (C99_v22_partial, C99_v23_partial, C99_v24_partial, within C18, C17, C19). C99_short_partial: cut-off headers, exactly. The rest is false: C99_size_refuted (a header without a size gives an empty tag, the stream left inside the header), C99_absent_refuted and C99_misread_refuted (no tag there: an empty tag, bytes outside a buffer or whatever the bytes spell, never a complaint that there is no tag), C99_version_refuted (versions are not compared)."
  },
  {
   "property": "C100",
   "status": "partial",
   "theorems": [
    "C100_play_count_partial",
    "C100_ufid_partial",
    "C100_private_partial",
    "C100_popularimeter_partial",
    "C100_user_text_partial",
    "C100_size_refuted",
    "C100_encryption_partial",
    "C100_comment_partial",
    "C100_comment_refuted",
    "C100_cloud_partial",
    "C100_cloud_size_partial",
    "C100_cloud_size_refuted",
    "C100_cloud_refuted",
    "C100_cloud_empty_refuted",
    "C100_plain_partial"
   ],
   "note": "For every class the two numbers are characterised exactly, for all payloads, by an equation with the count of false syncs in the written bytes and the length of their unsynchronised form. They are right but for: pairs ff e0..e9 (as in C05); an ff before a terminator, which the announced size forgets (C100_size_refuted); the byte too many of an encryption method, and ff 00 between its method and data; in comments, a pair counted across the terminator, and undefined behaviour with a description but no text (C100_comment_refuted); in tag clouds, keys without values, undefined (C100_cloud_empty_refuted), and the count of values, looked at in the wrong byte order (C100_cloud_size_refuted, C100_cloud_refuted). Clouds are covered where the values of each key take fewer than ea00 bytes; for their size, where there is no ff and no key whose values take ff bytes modulo 256. Without unsynchronisation the size announced is that of what is written for every class, but one more for an encryption method (C100_plain_partial). Missing from the full claim: it is false as stated."
  },
  {
   "property": "C101",
   "status": "partial",
   "theorems": [
    "C101_written_partial",
    "C101_read_partial",
    "C101_constructed_partial",
    "C101_stuffed_refuted",
    "C101_padding_refuted",
    "C101_unchecked_refuted",
    "C101_v24_unchecked_refuted",
    "C101_v24_stale_refuted",
    "C101_v24_unwritable_refuted"
   ],
   "note": "For ID3v2.3: C101_written_partial (whatever is written has, behind the ten bytes of the tag's header, the unsynchronised form of the standard's fourteen bytes with the CRC-32 of the frames; if nothing in the fourteen bytes needs protection, those themselves), C101_constructed_partial for tags constructed, C101_read_partial for what is read back. zlib's crc32 is a parameter assumed to be RFC 1952's (uses_crc32), shown to be met. False, and refuted: the padding told of is the one read or constructed with (C101_padding_refuted); a header with ff 00 or ff e0.. in it is stuffed though no unsynchronisation is asked for (C101_stuffed_refuted); no checksum is ever checked when read (C101_unchecked_refuted, C101_v24_unchecked_refuted); an ID3v2.4 tag's checksum is never computed again (C101_v24_stale_refuted), and with a checksum of 2^28 or more the tag cannot be written (C101_v24_unwritable_refuted). Missing from the full claim: it is false as stated."
  },
  {
   "property": "C102",
   "status": "partial",
   "theorems": [
    "C102_session_partial",
    "C102_rest_partial",
    "C102_plays_partial",
    "C102_last_text_partial",
    "C102_last_genre_partial",
    "C102_only_looked"
   ],
   "note": "C102_session_partial (the tags in the end are those the requests ask for, one after the other, and the audio is the same), C102_rest_partial, C102_plays_partial, C102_last_text_partial, C102_last_genre_partial and C102_only_looked, for sessions of any length. Each composes C96 (the program runs the sub-command), C95 (what each option is worth) and C98. Missing: as in C98, lines for requests must succeed on tags that can take what is asked for; ID3v2.2 tags, and lines for Guile. The lines may be for several files at once, and for other files (C104)."
  },
  {
   "property": "C103",
   "status": "partial",
   "theorems": [
    "C103_found",
    "C103_known_partial",
    "C103_mask_refuted",
    "C103_unmarked_refuted",
    "C103_length_refuted",
    "C103_short_refuted"
   ],
   "note": "C103_found: the first sentence, for the constructor that finds out the kind, for all blocks, streams and masks. C103_known_partial: for the other constructor, but for the mask, which is lost always (C103_mask_refuted). The second sentence is false: a block that is not a tag leaves the stream behind it and its mask lost, for both constructors (C103_unmarked_refuted); another number of bytes leaves the mask lost (C103_length_refuted); too few bytes leave the stream at its end with its failbit set, and invalid_tag is what is thrown only if the mask does not have the failbit (C103_short_refuted). All are exact, for all streams in a good state."
  },
  {
   "property": "C104",
   "status": "partial",
   "theorems": [
    "C104_only_these",
    "C104_among_partial",
    "C104_rounds_partial",
    "C104_clash_refuted"
   ],
   "note": "C104_only_these: the second sentence, in full, for paths that end in a file name. C104_among_partial: the first, for ID3v2.3 and ID3v2.4 tags as in C90, and files that do not get in each other's way (apart): none is a backup's name of another. That is needed: with relative paths and backups the backup of f replaces f.1, and f.1 is lost (C104_clash_refuted). C104_rounds_partial: any number of such runs, some of them for other files."
  },
  {
   "property": "C105",
   "status": "proved",
   "theorems": [
    "C105_data",
    "C105_told_apart",
    "C105_frame",
    "C105_tag",
    "C105_whatever_is_read",
    "C105_v1",
    "C105_user_text_refuted"
   ],
   "note": "The format procedure is taken to be that of (ice-9 format), as the expected output in test/test-display has it. What is printed of a user-defined text does not include the text (C105_user_text_refuted)."
  },
  {
   "property": "C106",
   "status": "proved",
   "theorems": [
    "C106_path",
    "C106_again",
    "C106_kept",
    "C106_empty_refuted",
    "C106_version_refuted"
   ],
   "note": "For directories that can be converted to the encoding of the locale and back. Two cases in which the directory is not added: an empty list (C106_empty_refuted) and a version that is no string (C106_version_refuted)."
  },
  {
   "property": "C107",
   "status": "proved",
   "theorems": [
    "C107_read",
    "C107_one",
    "C107_answer",
    "C107_elsewhere",
    "C107_default",
    "C107_replaced_refuted",
    "C107_accepted_refuted",
    "C107_tag_refuted",
    "C107_reserved_refuted"
   ],
   "note": "For ID3v2.2, over all interleavings; for ID3v2.3 and ID3v2.4 registering defaults is declared but not defined, and C107_default says the parser is then always the library's. Refuted: that a second registration replaces the first (documented in id3v22.hh), that every parser accepted is used, that registering with a tag has an effect, that PCT need be refused."
  },
  {
   "property": "C108",
   "status": "partial",
   "theorems": [
    "C108_strings",
    "C108_frame",
    "C108_context",
    "C108_objects_partial",
    "C108_raise_refuted",
    "C108_read_refuted",
    "C108_walk_refuted",
    "C108_directory_refuted"
   ],
   "note": "Proved for every path: in each of the five procedures every C string is freed exactly once, after it was got, whichever way the procedure ends (C108_strings), and for any code built from the same pieces a string is freed at most once and the ones not freed are exactly those the enclosing context is left to free (C108_context). Objects -- files, directories, memory -- are destroyed exactly once as long as no interpreter error is raised, and never twice nor before they were made (C108_objects_partial). The full statement is refuted: whatever is open when an interpreter error is raised stays open (C108_raise_refuted), read-tagset on a bad tag leaves its file open (C108_read_refuted), a walk with with-track-in can return with any number of files left open (C108_walk_refuted), and a procedure that raises leaves the directory open (C108_directory_refuted). The procedures are modelled by the order in which they acquire, call and may fail; what the calls compute is left open. C108_frame: what one frame took is freed with it."
  },
  {
   "property": "C109",
   "status": "partial",
   "theorems": [
    "C109_frames",
    "C109_one_partial",
    "C109_again_refuted",
    "C109_after_refuted",
    "C109_two_refuted",
    "C109_back_partial"
   ],
   "note": "Whenever the loop from the front ends normally the frames left are those not chosen (C109_frames); it does when at most one frame goes (C109_one_partial), and from the back for any choice (C109_back_partial), both as long as no chosen frame is named like a text frame without being one. The full statement is refuted, for every tag: after an erase the iterator it answers cannot be erased through (C109_again_refuted), nor one further on unless by chance two frames have the same name (C109_after_refuted), so the loop from the front does not end normally when two frames are to go and the frame before the second goes too or has another name (C109_two_refuted)."
  },
  {
   "property": "C110",
   "status": "proved",
   "theorems": [
    "C110_xing",
    "C110_xing_short",
    "C110_lame",
    "C110_lame_short",
    "C110_durations",
    "C110_vbri_refuted"
   ],
   "note": "C110_xing, C110_xing_short, C110_lame, C110_lame_short, C110_durations. For the third kind of tag, VBRI, there is nothing of the sort: no stream holding its first eighteen bytes is read without a write past a variable (C110_vbri_refuted)."
  },
  {
   "property": "C111",
   "status": "proved",
   "theorems": [
    "C111_told",
    "C111_named",
    "C111_numbered",
    "C111_zero_refuted"
   ],
   "note": "C111_told, C111_named, C111_numbered. Where an identifier begins with a zero byte the message ends there, and all such errors look alike (C111_zero_refuted). The two errors about extended headers, of 2.3 and of 2.4 tags, share one text and count as one kind. Not modelled: unknown_text_frame, bad_code_unit, openssl_error."
  }
 ]
}