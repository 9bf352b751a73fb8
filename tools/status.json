{
 "C05": {
  "status": "partial",
  "note": "Refuted as stated (ff e0..ff e9 are missed); proved for data without those pairs."
 },
 "C06": {
  "status": "proved",
  "note": "Proved for well-formed tags; a v1.1 tag with track number 0 (not well-formed) is shown to come back as v1.0."
 },
 "C07": {
  "status": "partial",
  "note": "Refuted as stated: enhanced-only setters on a standard tag make write() read out of bounds, and scratch tags have uninitialised members. Proved for all other histories; last-write-wins proved for all histories."
 },
 "C09": {
  "status": "partial",
  "note": "Probe exactness and removal proved; removal throws when TAG+ is at -355 without an inner TAG (refuted); replacement proved except when a standard tag lands 227 bytes after an accidental TAG+ (refuted)."
 },
 "C10": {
  "status": "partial",
  "note": "Proved for 32-bit values; incrementing 2^32-1 produces an unreadable counter (refuted)."
 },
 "C12": {
  "status": "partial",
  "note": "Proved for well-formed frames of every kind and version; ID3v2.4 TXXX made from scratch with Unicode is refuted."
 },
 "C13": {
  "status": "partial",
  "note": "False: write() omits the NUL after the e-mail (C13_roundtrip_refuted). Proved: it is always one byte short and, for a non-zero method, never reads back with the same e-mail. C13_read: registrations in the standard form are read as they stand; C13_no_method_refuted: those cut off before the method cannot be written."
 },
 "C14": {
  "status": "partial",
  "note": "Proved for UFID, text, TXXX, POPM, PRIV and COMM payloads of four bytes or more; shorter COMM payloads are refuted, as is independence of the byte following the frame."
 },
 "C25": {
  "status": "partial",
  "note": "Proved for NUL-free strings whose values fit a 32-bit count (every parsed cloud is such); refuted for strings with a NUL, which the text form lets in."
 },
 "C26": {
  "status": "partial",
  "note": "Proved for non-empty clouds and for the meaning of any well-formed text; the empty cloud's text form is refuted. C26_repeated, C26_merge_repeated: a bare key mentioned again is refused."
 },
 "C49": {
  "status": "partial",
  "note": "Holds for merge; refuted for update."
 },
 "C15": {
  "status": "partial",
  "note": "Identifiers, lengths and contents survive for ID3v2.3 and ID3v2.4; status flags come back one place off (characterised exactly and refuted), compressed frames are not read back (refuted for both), group ids are lost or make the reader run past the tag (refuted for both). The bytes written for every frame are characterised for all three versions, whatever its flags (C15_v2x_stored_partial); the length of a compressed frame's contents is written least significant byte first (C15_v23_length_refuted)."
 },
 "C16": {
  "status": "partial",
  "note": "Proved for every ID3v2.2 tag; for ID3v2.3 tags without an extended header or with one that unsynchronisation leaves alone (refuted for one holding ff e0); for ID3v2.4 tags without padding and with at most a simple extended header. ID3v2.4 padding is counted twice, for every tag, and the length bytes of checksum and restrictions are counted but not written, for every tag (refuted)."
 },
 "C17": {
  "status": "partial",
  "note": "Proved for well-formed tags; refuted for tags marked unsynchronised but written without unsynchronisation. ENCR frames excluded (C13)."
 },
 "C20": {
  "status": "partial",
  "note": "Refuted for ID3v2.2, 2.3 and 2.4 (over-read), for 2.3 and 2.4 (endless loop on encrypted ENCR; stream state not restored on truncation). Proved: ID3v2.2 parsing always terminates, 2.3 and 2.4 parsing does without ENCR; stream restored on parse errors; tag-cloud parsing terminates."
 },
 "C18": {
  "status": "partial",
  "note": "The two caches of an ID3v2.2 frame are swapped: refuted for tags with something to unsynchronise, for either choice. Proved where nothing needs unsynchronising and for tags marked as unsynchronised that are written without."
 },
 "C19": {
  "status": "partial",
  "note": "Proved without footer, for padding 0 or at least 4 with as much after it (which is swallowed), for contents unsynchronisation leaves alone or unsync=false, and no or a simple extended header. Refuted: extended headers with checksum or restrictions (never read back, C19_v24_lengths_refuted), padding with less after it (always throws), footers (always throw), unsynchronised contents."
 },
 "C50": {
  "status": "partial",
  "note": "Proved for whole tags of ID3v2.3 (extended header, groups, compression, unsynchronisation: C50_v23_whole) and ID3v2.4 (extended header, groups, compression: C50_v24_whole) and for ID3v2.2. Refuted for ID3v2.4 unsynchronised frames and for data length indicators on uncompressed frames. Encrypted frames are not readable."
 },
 "C21": {
  "status": "partial",
  "note": "Proved for every history of edits that leave remaining frames in place (append, replace, set text, remove from the end). Refuted in general form for insert and erase elsewhere, for erasing T-frames that are not text frames, for add_comment/add_user_defined_text, for ID3v2.4 play counts; a history leading to a dangling pointer is exhibited."
 },
 "C22": {
  "status": "partial",
  "note": "The copy has the same frames. Refuted for every non-empty tag: lookups, texts, comments, counts of the copy fail. ID3v2.4 copy without extended header dereferences null. Written bytes: equal for ID3v2.2; for 2.3/2.4 only when caches are fresh and the uninitialised flag happens to agree (refuted otherwise). C22_copied_partial, C22_assigned_partial, C22_copied_refuted: which tags can be copied and assigned at all."
 },
 "C23": {
  "status": "partial",
  "note": "Refuted: after any size request every edit is lost (all three versions, every tag, every edit). Proved when the frames were never serialized before the edit."
 },
 "C44": {
  "status": "partial",
  "note": "Proved for names and for ID3v2.3/2.4 identifiers; ID3v2.2 identifiers refuted for several kinds and BPM."
 },
 "C45": {
  "status": "partial",
  "note": "Other frames unchanged and at most one added: proved for every text. Reading back: proved for texts the storage encoding can hold, without trailing space or BOM; refuted for a new frame with text outside ISO 8859-1, for trailing spaces, for ID3v2.4 ISO 8859-1. C45_wide_partial: text outside ISO 8859-1 set on a frame that is there is stored in UCS-2 and read back. C45_encodings_partial, C45_encoded_back_partial, C45_marked_partial: the encodings a program can ask of an ID3v2.4 text frame; C45_utf16be_v24_refuted: UTF-16BE without a mark is read in the library's own byte order."
 },
 "C51": {
  "status": "proved",
  "note": "Names, parsing and iconv names agree for all encodings."
 },
 "C52": {
  "status": "partial",
  "note": "Proved for conversions that at most quadruple the text; longer ones are lost or overrun the buffer (refuted), UTF-32BE byte order mark wrong (refuted), trailing spaces lost (refuted). C52_refused: exactly which encodings are refused; C52_nul_refuted: text after a NUL is dropped."
 },
 "C53": {
  "status": "partial",
  "note": "Refuted: the locale encoding is never found; the exact behaviour is characterised for all locale names."
 },
 "C35": {
  "status": "proved",
  "note": "Every proper header, every other four bytes; one precondition: the checksum, if announced, is in the file."
 },
 "C36": {
  "status": "partial",
  "note": "Sync search proved when two bytes are left (undefined at the end of file, refuted). Durations: first frame's duration times the number of frames, so wrong for mixed frames (refuted); syncs 1-3 bytes on are skipped (refuted); Xing tags proved; VBRI tags overrun a variable (refuted)."
 },
 "C27": {
  "status": "partial",
  "note": "Exact whenever the leading tags end no later than the trailing tag begins and a result is produced; overlapping tags wrap the size (refuted), short files with a lenient stream are undefined (refuted), files cut inside an Xing table throw (refuted)."
 },
 "C28": {
  "status": "partial",
  "note": "Reading all tags is characterised exactly; reading by index starts ten bytes early, so it disagrees for every 2.2 tag of ordinary size and every plain 2.3/2.4 tag (refuted); absence of the index agrees."
 },
 "C29": {
  "status": "partial",
  "note": "Proved for every file and environment: on success the file is new tags ++ old audio and only the temporary file and backups may differ; exact for same-device renames. Refuted across devices: the temporary file, or an unrequested backup, is left behind."
 },
 "C30": {
  "status": "proved",
  "note": "Every intermediate state of the rewrite, for every way the copies and the rename can fail. Assumes the temporary name has no dot in its last component and differs from the file."
 },
 "C31": {
  "status": "partial",
  "note": "Proved for absolute paths; refuted for relative paths (always .1, overwriting it) and after number 2147483647 (signed overflow)."
 },
 "C32": {
  "status": "partial",
  "note": "Proved for tags without extended headers or with one without checksum that unsynchronisation leaves alone (ID3v2.4: without CRC/restrictions); an ID3v2.3 extended header containing a false sync overwrites the first audio byte (refuted)."
 },
 "C33": {
  "status": "partial",
  "note": "Exactness, refusal condition and resulting size proved; refuted when the first tag's padding wraps, and for ID3v2.4, whose size counts padding twice."
 },
 "C34": {
  "status": "partial",
  "note": "Proved for tags of all three versions without extended header or with a plain one (no checksum; ID3v2.3: nothing that unsynchronisation would touch; ID3v2.4: no restrictions), outside the wrapping case, up to a gap of stale bytes left of ID3v2.4 paddings (C34_audio_partial); without ID3v2.4 there is no gap (C34_save_partial). In the wrapping case the whole audio is zeroed, an empty tagset divides by zero, ID3v2.4 tags are refused whenever there is room for them, and when the file is rewritten for one its header claims some of the audio (all refuted)."
 },
 "C38": {
  "status": "partial",
  "note": "False as stated: a field starting with a quote but without separator or line feed is printed unquoted (refuted), and the quote is accepted as separator (refuted). Proved: the exact set of rows that come back, for strict and lax readers."
 },
 "C54": {
  "status": "partial",
  "note": "Proved when at least one comment column is asked for and names have no quote or backslash; with no comment columns there is one field too many (refuted), and names with a backslash are altered (refuted). C54_files carries this over to the rows written for files; the year column of ID3v2.2 tags never holds the year (C54_year_refuted). C54_read: what the rows describe is the first tag, the bytes up to the ID3v1 tag and that tag, as they stand in the file."
 },
 "C55": {
  "status": "partial",
  "note": "Proved for version, revision, sizes and ID3v1 genre; the play count is printed in base sixteen (refuted for every count from ten on)."
 },
 "C39": {
  "status": "partial",
  "note": "Proved for every non-empty NUL-free text without an equals sign, alone or before other parts; refuted for every text with an equals sign."
 },
 "C46": {
  "status": "partial",
  "note": "Proved for named ID3v1 encodings; refuted for the automatic (default) encoding and for blank ID3v1 fields that are preferred."
 },
 "C48": {
  "status": "partial",
  "note": "Proved for every title except the one that is only the trailing article, for which it is refuted."
 },
 "C56": {
  "status": "partial",
  "note": "Proved after any sequence of templates that compile; refuted after a template that is refused."
 },
 "C57": {
  "status": "partial",
  "note": "Proved for every text of the grammar below; refuted for the documented options that no text can set, short forms that run into a longer word, and base sixteen."
 },
 "C58": {
  "status": "partial",
  "note": "Proved for texts without adjacent blanks; refuted for every text with two adjacent blanks."
 },
 "C40": {
  "status": "partial",
  "note": "Proved for every file content and working directory, whenever the command succeeds and the input is not itself named like a piece; success is characterised exactly, the input and all other files are shown untouched at every crash point. C40_own_name_refuted: a file called like the track piece is emptied."
 },
 "C41": {
  "status": "proved",
  "note": "For every template function, visiting order, option set, broken copy and crash point. The file system model has no concurrent processes and no symbolic links."
 },
 "C42": {
  "status": "partial",
  "note": "For every tag list, policy and command: exactly the tags in scope are processed in order, creation follows the tables, nothing is written when clean or dry, and what is written is the new tags, the old rest and the new ID3v1 tag; crash points covered with backups. Index lists must ascend and reach the last tag: otherwise refuted (list read past its end; later entries ignored)."
 },
 "C47": {
  "status": "proved",
  "note": "For functions that do not create or remove files while the traversal runs; what a directory iterator notices of such changes is unspecified."
 },
 "C43": {
  "status": "partial",
  "note": "Exactly the named frames are changed and frames are created only when asked for and absent, for every frame list and option set except frame creation combined with a restriction to play counters: there the popularimeters of the owner are changed as well (C43_create_refuted). Also dry runs, repeated runs, success on legible tags, ratings; counts of 2^32 and more can be set and then never increased (C43_large_refuted)."
 },
 "C37": {
  "status": "partial",
  "note": "Numbers and texts, matching up to case, distance zero, the answer being the first of the closest genres for texts over twenty characters, and an answer for every text of 1 to 21 characters are proved in full. For shorter texts minimality is proved over the genres that are no longer than the text or shorter than (length + 24) / 2; over the rest it is false (C37_missed_refuted, \"neue deutsch\"). Also false: the empty text reads out of bounds, and long texts that share no character with any genre get an uninitialised genre. UTF-8 decoding and tolower are a parameter."
 },
 "C59": {
  "status": "partial",
  "note": "exact for ID3v2.3 and ID3v1 tags: object or not JSON; false for UFID, PCNT and tag cloud frames, for other control characters, for the unsynchronisation flag and for all ID3v2.2 and ID3v2.4 tags (refuted) Keys of a tag cloud with at most one value are JSON by themselves (C59_cloud_entry_partial)."
 },
 "C60": {
  "status": "proved",
  "note": "exact characterisation for strings; all numbers"
 },
 "C61": {
  "status": "proved",
  "note": "all digests"
 },
 "C62": {
  "status": "partial",
  "note": "What the arguments choose is exact (C62_args). The tags in scope get the genre wherever each has a content type that can be read, with all policies but creation from another version; creation from nothing is covered. A tag in scope without content type makes the command fail on that file (C62_missing_refuted); a long free text foreign to all genres uses an uninitialised variable even if the number is given (C62_foreign_refuted)."
 },
 "C63": {
  "status": "partial",
  "note": "Texts set and frames deleted in every tag in scope, where frames are deleted from the last to the first and occur once; one deletion alone always removes one frame. In another order a stale index is used (C63_delete_order_refuted); the ID3v1 tag is not updated unless tags are named by number, and never when there is no ID3v2 tag (C63_v1_kept_refuted, C63_v1_only_refuted)."
 },
 "C64": {
  "status": "partial",
  "note": "From ID3v1: the exact frames, for ASCII fields; a field that is not ASCII to iconv stops the copy (C64_latin1_refuted), the track number is dropped (C64_others_refuted). From ID3v2: the exact bytes, where every tag has the five frames; a missing frame stops the copy (C64_lacks_refuted)."
 },
 "C65": {
  "status": "proved",
  "note": "For every command, file and policy; index lists as in C42 for the exact result."
 },
 "C66": {
  "status": "proved",
  "note": "For every file that can be read, every well-formed list of tags (percent-encoded, the same bare key not given twice) and every scope that names existing tags; for texts that cannot be read the file is untouched."
 },
 "C67": {
  "status": "partial",
  "note": "What is printed is proved for all files. That no file is changed is false: C67_get_refuted shows that every file with a cloud asked for is written anew, without a backup, whatever options are given. Files without one are proved untouched."
 },
 "C68": {
  "status": "partial",
  "note": "Proved with --create-frame. Without it the statement is false (C68_created_refuted): the tag made has no cloud."
 },
 "C69": {
  "status": "partial",
  "note": "Proved for titles and paths a playlist can hold (one line, path not starting with #), readable files, and a playlist that is not itself among the files (C69_playlist_partial); what is left behind wherever it stops (C69_crash, no such restriction). Refuted in general: titles with line ends inject entries, paths starting with # are lost, appending to an unterminated line spoils the last entry, the playlist lists itself, nothing is done under locales naming an encoding, -s is ignored."
 },
 "C70": {
  "status": "partial",
  "note": "What is told is as specified (C70_entry) for every file that can be read, whatever the tags (C70_total), given the locale's encoding is found. Refuted: a text in an unknown encoding ends the run; a text that cannot be converted leads to the file's name although the ID3v1 tag has both."
 },
 "C71": {
  "status": "partial",
  "note": "The row of a reported file reads back as its description if and only if no text in it holds the delimiter or a line feed (C71_row_partial); with delimiters in the texts, the line has that many columns more (C71_shifted_refuted): the printer does not escape. The columns stand under their headings (C71_columns_partial), except that with no comment columns asked for a row with a tag has one field too many (C71_count_refuted)."
 },
 "C72": {
  "status": "partial",
  "note": "Counts, exit status, order and contents of reports without failures are proved for every list of arguments (C72_counts, C72_csv, C72_tdf_partial, C72_missing), and that whatever can be told is reported (C72_reported_partial). False in general: a file whose first tag is an ID3v2.4 tag with one play count is never reported (C72_v24_refuted); a file that fails while its row is written leaves a piece of it (C72_failed), to which the next row is joined (C72_joined_refuted)."
 },
 "C73": {
  "status": "partial",
  "note": "Printing and reading are inverse and exactly the standard's codes are read (C73_write_read, C73_read_exact, C73_read_total, C73_code_in_comment), except that five codes are only read in capitals (C73_standard_codes_refuted). The language of the locale is the one of its first two letters when these are a code (C73_locale_known_partial); otherwise every comment fails (C73_locale_unknown_refuted, C73_locale_unset), and three-letter locales get another language (C73_locale_prefix_refuted)."
 },
 "C74": {
  "status": "partial",
  "note": "Proved for all lists of storable tags (C74_written_partial), through rewriting by copy (C74_rewrite_partial) and saving with any strategy (C74_save_partial; ID3v2.4 tags must not have been given padding, which C74_unmixed shows for sets of one kind). Storable excludes what C15, C17, C18, C19 refute per tag: frame flags, extended headers of ID3v2.3 that have a checksum or that unsynchronisation would touch, padding and footers of ID3v2.4, marks of unsynchronisation that do not fit what is done."
 },
 "C75": {
  "status": "proved",
  "note": "C75_has_frame, C75_get_frames, C75_agree, C75_not_frames for all tag objects."
 },
 "C76": {
  "status": "partial",
  "note": "The generator: proved for all trees and any number of calls (C76_generator). flat-file-system-tree lists what has no children (C76_flat_partial), so empty directories too (C76_flat_refuted)."
 },
 "C77": {
  "status": "partial",
  "note": "Proved for reading and writing both kinds of tags. What an error during a save (without #:copy) leaves is proved for tags without ID3v2.3 extended headers or with plain ones and with sizes below 28 bits (C77_save_fails_partial), as in C34."
 },
 "C78": {
  "status": "partial",
  "note": "Calls and stops proved for any procedure. Refuted: an ID3v1 tag is not shown if the ID3v2 tags cannot be read (C78_hidden_refuted); a path that is not UTF-8 ends the walk (C78_name_refuted)."
 },
 "C79": {
  "status": "partial",
  "note": "Proved for whole files, with #:copy #t (C79_copied_partial) and without (C79_saved_partial), for ID3v2.3 tags with or without unsynchronisation and for ID3v2.4 tags without padding (not mixed with ID3v2.3 tags, unless copied): text frames, comments, user-defined texts (2.3), counts, popularimeters, tag clouds (2.3), unknown frames (not unsynchronised), all without frame marks (C15). Identifiers: C79_identifier. False elsewhere, each for all inputs: texts outside Latin-1 in 2.2/2.3 and mismatched classes read past the object (C79_text_refuted, C79_class_refuted), unknown languages (C79_language_refuted), clouds in 2.2/2.4 dereference null (C79_cloud_refuted), any ID3v2.2 tag (C79_old_refuted), user-defined texts in 2.4 and counts from 2^32 come back as unknown frames (C79_udt_refuted, C79_count_refuted), the unsync mark of unknown frames (C79_unsync_refuted); private frame objects are written under the first letters of their owner, without the first bytes of their data (C79_private_refuted)."
 },
 "C80": {
  "status": "partial",
  "note": "C80_written_partial: for all standard tags; excluded is the file that has TAG+ 355 bytes before its end (C09_replace_refuted). C80_ascii: with ASCII texts that fit the object is the same. False: every other text is stored as UTF-8 and read as ISO-8859-1 (C80_latin_refuted); objects read from enhanced tags cannot be written, their slots being one early (C80_enhanced_refuted)."
 },
 "C81": {
  "status": "partial",
  "note": "C81_always_partial: no false sync in ID3v2.3 tags without extended header and ID3v2.4 tags. C81_never_partial: frames verbatim. C81_needed_partial: ID3v2.3, no ff followed by more than e9. C81_mark_partial: the flag of ID3v2.3. False: 'as needed' misses ff e0 to ff e9 (C81_missed_refuted) and, in ID3v2.4, everything as soon as one frame does not need it (C81_needed24_refuted); ID3v2.2 does the opposite of what it is asked (C81_always22_refuted, C81_never22_refuted); the extended header of ID3v2.3 is left out (C81_ext_refuted); ID3v2.4 does not set the flag (C81_mark24_refuted). C81_needs22_partial, C81_needs23_partial, C81_needs24_partial: what needs_unsynchronisation() answers, frame by frame; C81_asked: saving as needed asks exactly that."
 },
 "C82": {
  "status": "partial",
  "note": "C82_file_partial, C82_frame_partial: exactly the objects of the specification, for frames whose counters and texts are complete, and padding below 2^32. False: of a text of several values only the first is shown (C82_several_refuted); UTF-16BE text is converted as UTF-16 (C82_utf16be_refuted); one tag cloud whose owner is not UTF-8 makes the whole file unreadable (C82_cloud_refuted); unknown frames of ID3v2.2 are shown unsynchronised exactly if they are not in the tag (C82_bytes22_refuted); private frames are never given as <priv-frame> objects (C82_private_refuted)."
 },
 "C83": {
  "status": "partial",
  "note": "C83_template_partial: exactly so, for parts that are regular. False: texts marked as UTF-16LE are taken for UTF-16BE (C83_byte_order_refuted); years are whatever the frame has (C83_year_refuted); the year of ID3v1 tags throws, also in optional parts (C83_year_v1_refuted); so do capitalizing a missing extension and an empty 'encoded by' (C83_extension_refuted, C83_encoder_refuted); the digest is written as raw bytes (C83_md5_refuted). See also C46, C57, C58."
 },
 "C84": {
  "status": "partial",
  "note": "C84_dump, C84_lines, C84_dumped: exactly those lines, for every file dumped without an error, and every file of which all can be told is. C84_run, C84_missing: several files. False: ID3v2.4 private frames and tag clouds, long counters end the dump of the file, and empty counters and private frames are undefined behaviour (C84_stops_refuted, C84_private_refuted); a text with a line end passes for two frames (C84_newline_refuted). The command succeeds whatever fails (C84_run). C84_parts: what is asked for by --id3v1-tags, --id3v2-tags and the option for track data."
 },
 "C85": {
  "status": "partial",
  "note": "C85_removed_partial, C85_answers_partial: the frames left are the right ones in the right order, the number of frames of each name and all text lookups are right; C85_tail: everything is, when nothing that stays comes after anything that goes. False: each frame that stays is still looked up under the place it had (C85_places_refuted); a comment removed from before another leaves a dangling pointer (C85_comments_refuted); frames named like text frames that are none cannot be removed (C85_odd_refuted)."
 },
 "C86": {
  "status": "partial",
  "note": "C86_settings_partial: settings right and no use of freed memory in every history that puts each manipulator into a stream at most once, but for encodings that came by copyfmt; C86_freed: everything is freed in the end; C86_deletes_partial: by the right means, when no encoding is set. False: an encoding copied by copyfmt reads past its memory (C86_copied_refuted); closing a stream with an encoding frees it as another type (C86_deletes_refuted); a manipulator used twice resets the second stream to the standard printer and leads to a double delete (C86_reused_refuted)."
 },
 "C87": {
  "status": "partial",
  "note": "C87_rows_partial: any frames, where binary data is empty, what is not escaped needs no escaping, counts fit 32 bits and no number from ten on follows a popularimeter; C87_tdf_partial: likewise for TDF, where no field has a separator or line feed. False otherwise: C87_counts_refuted (exactly when a play count reads as itself), C87_binary_refuted (non-empty file identifiers and encryption data never do), C87_unescaped_refuted, C87_tdf_refuted."
 },
 "C88": {
  "status": "proved",
  "note": "C88_covers, C88_decided, C88_total: any arguments are leading options and an ending, and these say what is done; C88_command, C88_guile, C88_registered, C88_registered_twice, C88_help. Beside it C88_misused_refuted: on misuse the names of the sub-commands go to standard output, not to standard error with the rest."
 },
 "C89": {
  "status": "partial",
  "note": "Status 2 exactly for wrong usage for popm, genre and xtag (C89_popm_usage, C89_genre_usage, C89_xtag_usage); C89_text_usage_partial: for text but for unknown frame names, which give status 1. C89_usage_untouched, C89_popm_dry_run, C89_genre_dry_run; C89_xtag_dry_run_partial: without --get, text has no --dry-run. C89_popm_default, C89_text_options. False: C89_popm_tag_refuted (popm ignores --tag), C89_genre_v1_refuted (no numeral given to --v1 stands for its value), C89_stops_refuted (the first failure ends the run). From the words of the command line and the environment: C95."
 },
 "C90": {
  "status": "partial",
  "note": "C90_command_partial: for every processor, one run; C90_audio_partial: any commands in any order, the audio; C90_plays_partial: popm, any number of runs with backups; C90_play_partial: one run, also in place; C90_texts_partial, C90_genres_partial, C90_clouds_partial: text, genre and xtag, one run; C90_merges_partial: xtag --merge, any number of runs with other items each time, with backups. Missing: audio of less than 355 bytes, extended headers in ID3v2.3 with a checksum or a false synchronisation, ID3v2.2 for the commands, --adjust-unsync, what cannot be written (C32, C34, C74), and the tags after histories of text and genre."
 },
 "C91": {
  "status": "partial",
  "note": "C91_report_partial: an output that can be opened and is not among the inputs; C91_usage. False: C91_overwritten_refuted (an output that is also an input is emptied first), C91_unwritten_refuted (an output that cannot be opened goes unnoticed), C91_ascii_refuted (--ascii-delimited without --tsv is not refused). Missing: disks that fill up, and what printing tags to an unopened stream may throw."
 },
 "C92": {
  "status": "partial",
  "note": "C92_known, C92_renamed_partial (any template with regular parts, one file), C92_several_partial (any number of files whose new names are free and different), C92_default_partial (from the tags), C92_lacking, C92_usage. False: C92_v1_refuted (files that only have an ID3v1 tag make the run fail), C92_slash_refuted and C92_outside_refuted (slashes in texts), C92_stops_refuted (a name that is taken ends the run). Missing: the parts of templates that are not regular (see C83), directories as arguments (see C41 for what holds of them)."
 },
 "C93": {
  "status": "partial",
  "note": "C93_dump_partial and C93_run_partial (files of which everything can be said: ID3v2.3 tags of unknown, text, user text, comment, popularimeter, encryption and private frames). False: C93_spoiled_refuted (one frame that cannot be told makes the output of the whole run unreadable, with status 0), C93_other_refuted (ID3v2.2 and ID3v2.4 tags with a frame are never dumped), C93_unsynchronised_refuted (every ID3v2.3 tag is said to be unsynchronised). Missing: the kinds that C59 shows to be misprinted, and texts with control characters."
 },
 "C94": {
  "status": "partial",
  "note": "C94_row_partial (exactly what is printed, and what a reader gets from it), C94_alone_partial (one part: its fields). False: C94_columns_refuted (between parts nothing is printed: the last field of one and the first of the next are one), C94_heading_refuted (the lines with the path and time make the output unreadable as CSV). Missing: texts with quotes (C38), a last comment that is printed in quotes, and when the printing fails (C72 for the same printer)."
 },
 "C95": {
  "status": "partial",
  "note": "C95_spelling (round trip), C95_names (each option by its own name and letter), C95_values and C95_precedence (the value of every option), C95_words (what is no encoding or format is not taken), C95_outcome, C95_untouched, C95_popm_dry_run, C95_genre_dry_run; C95_misuse_partial: for the five commands without encodings or formats all wrong options are told as wrong usage; C95_xtag_dry_run_partial: without --get. False: C95_genre_v_refuted (-v is two options), C95_encoding_refuted (an unknown encoding gives status 1), C95_create_refuted (SCRIBBU_CREATE stops popm and xtag), C95_blank_path_refuted (output paths with blanks), C95_negative_refuted, C95_help_refuted. Missing: boost::program_options is modelled from its documentation and sources as known to us, and is not part of the repository."
 },
 "C96": {
  "status": "partial",
  "note": "C96_runs, C96_status, C96_reading, C96_stdout, C96_dry_run (popm, genre, rename), C96_one_file, C96_required, C96_split_one, C96_split, C96_m3u_misuse hold in full. Refuted: m3u without arguments fails with 1 instead of telling wrong usage (C96_m3u_arguments_refuted), the encoding of --source-encoding is never used (C96_source_refuted, C96_source_never_refuted), arguments of encodings are passed over (C96_encodings_refuted). Guile itself, and the pages shown by other programs, are parameters."
 },
 "C97": {
  "status": "partial",
  "note": "Each theorem composes C96 (the program runs the sub-command), C95 (the value of each option) and the effect theorem of the command, under the latter's hypotheses: C97_json_partial (C93), C97_lines_partial (C84), C97_csv_partial (C94; that the files can be dumped is assumed), C97_report_partial (C91), C97_playlist_partial (C69), C97_rename_partial (C92), C97_plays_partial, C97_texts_partial, C97_genres_partial, C97_clouds_partial (C90, one file, ID3v2.3/2.4 tags). C97_xtag_partial: which values xtag runs with, whatever they are."
 },
 "C98": {
  "status": "partial",
  "note": "C98_history_partial (the chain of effects), C98_rest_partial (frames no request is about), C98_plays_partial (plays add up), C98_last_text_partial and C98_last_genre_partial. One file with 2.3/2.4 tags whose frames can be written and read back (in_order), runs without --adjust-unsync, with --create-backups (C98_backups) or in place where C34 allows it, each fitting the tags as they are then (counters with room, frames to delete in the order C63 needs, content types present for genre: the restrictions of C43, C62, C63, C68); without these C62_missing_refuted, C63_delete_order_refuted and C34 say what goes wrong."
 },
 "C99": {
  "status": "partial",
  "note": "C99_same_partial: with a header of a size above 0 the constructors do what probing and reading do (all contents, masks, versions), so written tags come back (C99_v22_partial, C99_v23_partial, C99_v24_partial, within C18, C17, C19). C99_short_partial: cut-off headers, exactly. The rest is false: C99_size_refuted (a header without a size gives an empty tag, the stream left inside the header), C99_absent_refuted and C99_misread_refuted (no tag there: an empty tag, bytes outside a buffer or whatever the bytes spell, never a complaint that there is no tag), C99_version_refuted (versions are not compared)."
 },
 "C100": {
  "status": "partial",
  "note": "For every class the two numbers are characterised exactly, for all payloads, by an equation with the count of false syncs in the written bytes and the length of their unsynchronised form. They are right but for: pairs ff e0..e9 (as in C05); an ff before a terminator, which the announced size forgets (C100_size_refuted); the byte too many of an encryption method, and ff 00 between its method and data; in comments, a pair counted across the terminator, and undefined behaviour with a description but no text (C100_comment_refuted); in tag clouds, keys without values, undefined (C100_cloud_empty_refuted), and the count of values, looked at in the wrong byte order (C100_cloud_size_refuted, C100_cloud_refuted). Clouds are covered where the values of each key take fewer than ea00 bytes; for their size, where there is no ff and no key whose values take ff bytes modulo 256. Without unsynchronisation the size announced is that of what is written for every class, but one more for an encryption method (C100_plain_partial). Missing from the full claim: it is false as stated."
 },
 "C101": {
  "status": "partial",
  "note": "For ID3v2.3: C101_written_partial (whatever is written has, behind the ten bytes of the tag's header, the unsynchronised form of the standard's fourteen bytes with the CRC-32 of the frames; if nothing in the fourteen bytes needs protection, those themselves), C101_constructed_partial for tags constructed, C101_read_partial for what is read back. zlib's crc32 is a parameter assumed to be RFC 1952's (uses_crc32), shown to be met. False, and refuted: the padding told of is the one read or constructed with (C101_padding_refuted); a header with ff 00 or ff e0.. in it is stuffed though no unsynchronisation is asked for (C101_stuffed_refuted); no checksum is ever checked when read (C101_unchecked_refuted, C101_v24_unchecked_refuted); an ID3v2.4 tag's checksum is never computed again (C101_v24_stale_refuted), and with a checksum of 2^28 or more the tag cannot be written (C101_v24_unwritable_refuted). Missing from the full claim: it is false as stated."
 },
 "C102": {
  "status": "partial",
  "note": "C102_session_partial (the tags in the end are those the requests ask for, one after the other, and the audio is the same), C102_rest_partial, C102_plays_partial, C102_last_text_partial, C102_last_genre_partial and C102_only_looked, for sessions of any length. Each composes C96 (the program runs the sub-command), C95 (what each option is worth) and C98. Missing: as in C98, lines for requests must succeed on tags that can take what is asked for; ID3v2.2 tags, and lines for Guile. The lines may be for several files at once, and for other files (C104)."
 },
 "C103": {
  "status": "partial",
  "note": "C103_found: the first sentence, for the constructor that finds out the kind, for all blocks, streams and masks. C103_known_partial: for the other constructor, but for the mask, which is lost always (C103_mask_refuted). The second sentence is false: a block that is not a tag leaves the stream behind it and its mask lost, for both constructors (C103_unmarked_refuted); another number of bytes leaves the mask lost (C103_length_refuted); too few bytes leave the stream at its end with its failbit set, and invalid_tag is what is thrown only if the mask does not have the failbit (C103_short_refuted). All are exact, for all streams in a good state."
 },
 "C104": {
  "status": "partial",
  "note": "C104_only_these: the second sentence, in full, for paths that end in a file name. C104_among_partial: the first, for ID3v2.3 and ID3v2.4 tags as in C90, and files that do not get in each other's way (apart): none is a backup's name of another. That is needed: with relative paths and backups the backup of f replaces f.1, and f.1 is lost (C104_clash_refuted). C104_rounds_partial: any number of such runs, some of them for other files."
 },
 "C105": {
  "status": "proved",
  "note": "The format procedure is taken to be that of (ice-9 format), as the expected output in test/test-display has it. What is printed of a user-defined text does not include the text (C105_user_text_refuted)."
 },
 "C106": {
  "status": "proved",
  "note": "For directories that can be converted to the encoding of the locale and back. Two cases in which the directory is not added: an empty list (C106_empty_refuted) and a version that is no string (C106_version_refuted)."
 },
 "C107": {
  "status": "proved",
  "note": "For ID3v2.2, over all interleavings; for ID3v2.3 and ID3v2.4 registering defaults is declared but not defined, and C107_default says the parser is then always the library's. Refuted: that a second registration replaces the first (documented in id3v22.hh), that every parser accepted is used, that registering with a tag has an effect, that PCT need be refused."
 },
 "C108": {
  "status": "partial",
  "note": "Proved for every path: in each of the five procedures every C string is freed exactly once, after it was got, whichever way the procedure ends (C108_strings), and for any code built from the same pieces a string is freed at most once and the ones not freed are exactly those the enclosing context is left to free (C108_context). Objects -- files, directories, memory -- are destroyed exactly once as long as no interpreter error is raised, and never twice nor before they were made (C108_objects_partial). The full statement is refuted: whatever is open when an interpreter error is raised stays open (C108_raise_refuted), read-tagset on a bad tag leaves its file open (C108_read_refuted), a walk with with-track-in can return with any number of files left open (C108_walk_refuted), and a procedure that raises leaves the directory open (C108_directory_refuted). The procedures are modelled by the order in which they acquire, call and may fail; what the calls compute is left open. C108_frame: what one frame took is freed with it."
 },
 "C109": {
  "status": "partial",
  "note": "Whenever the loop from the front ends normally the frames left are those not chosen (C109_frames); it does when at most one frame goes (C109_one_partial), and from the back for any choice (C109_back_partial), both as long as no chosen frame is named like a text frame without being one. The full statement is refuted, for every tag: after an erase the iterator it answers cannot be erased through (C109_again_refuted), nor one further on unless by chance two frames have the same name (C109_after_refuted), so the loop from the front does not end normally when two frames are to go and the frame before the second goes too or has another name (C109_two_refuted)."
 },
 "C110": {
  "status": "proved",
  "note": "C110_xing, C110_xing_short, C110_lame, C110_lame_short, C110_durations. For the third kind of tag, VBRI, there is nothing of the sort: no stream holding its first eighteen bytes is read without a write past a variable (C110_vbri_refuted)."
 },
 "C111": {
  "status": "proved",
  "note": "C111_told, C111_named, C111_numbered. Where an identifier begins with a zero byte the message ends there, and all such errors look alike (C111_zero_refuted). The two errors about extended headers, of 2.3 and of 2.4 tags, share one text and count as one kind. Not modelled: unknown_text_frame, bad_code_unit, openssl_error."
 }
}