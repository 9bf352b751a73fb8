{"id": "C01", "title": "Sync-safe and big-endian size fields are exact", "statement": "Encoding a tag size as a sync-safe integer and decoding it gives the same number back, every emitted byte is below 0x80, every number of 28 bits or fewer is accepted and every larger one is refused with an error; conversely re-encoding a decoded four byte sync-safe field reproduces the four bytes. Decoding is positional: base 128 for sync-safe fields, base 256 for plain ones.", "quantifier": "all unsigned numbers; all 3-, 4- and 5-byte fields", "why_tests_cant": "There are 2^28 legal sizes and 2^32 fields; tests sample a handful.", "anchors": ["scribbu/id3v2.cc: unsigned_from_sync_safe, unsigned_from_non_sync_safe, sync_safe_from_unsigned"]}
{"id": "C02", "title": "Probing for an ID3v2 header is exact and side-effect free", "statement": "looking_at_id3v2 reports a tag exactly when at least ten bytes remain at the read position and they form an ID3v2 header ('ID3', neither version byte 0xff, four size bytes below 0x80); it then reports that header's version, flags and size; and it leaves the read position where it was, or just past the header when asked to consume it and a tag is present.", "quantifier": "every file content, every read position, either setting of the restore flag", "why_tests_cant": "The claim is an iff over all byte strings, including truncated ones.", "anchors": ["scribbu/id3v2.cc: looking_at_id3v2"]}
{"id": "C03", "title": "Unsynchronisation is reversible", "statement": "For every payload, applying the unsynchronisation scheme and then reversing it returns the payload unchanged; reversing removes exactly the zero bytes that follow an 0xff and never lengthens the data.", "quantifier": "every byte string", "why_tests_cant": "Overlapping runs of ff/00 of any length have to be right; tests only try a few.", "anchors": ["scribbu/framesv2.hh: unsynchronise", "scribbu/id3v2.cc: resynchronise"]}
{"id": "C04", "title": "Unsynchronised data never contains a false MPEG sync", "statement": "After unsynchronisation no byte 0xff is followed by a byte whose top three bits are set, nor (with the end-of-tag option) is the last byte 0xff; and the number of bytes added equals the number of positions that needed protection.", "quantifier": "every byte string", "why_tests_cant": "Universal statement over all payloads.", "anchors": ["scribbu/framesv2.hh: unsynchronise"]}
{"id": "C05", "title": "The 'needs unsynchronisation' test agrees with the scheme", "statement": "The byte-pair test used to decide whether a tag needs unsynchronising answers yes exactly when the unsynchronisation scheme would change the data.", "quantifier": "every byte string", "why_tests_cant": "The test and the scheme are separate code; only a proof over all pairs shows they agree (they do not: 0xff 0xe0 to 0xff 0xe9).", "anchors": ["scribbu/framesv2.cc: is_false_sync, needs_unsynchronisation", "scribbu/framesv2.hh: detail::count_syncs, unsynchronise"]}
{"id": "C06", "title": "ID3v1 tags survive a write and re-read", "statement": "Writing a well-formed ID3v1 tag (standard or enhanced, v1.0 or v1.1) and reading the bytes back yields a tag with the same fields.", "quantifier": "every well-formed ID3v1 tag value", "why_tests_cant": "All field contents and all four variants must round trip.", "anchors": ["scribbu/id3v1.cc: id3v1_tag::write, init_standard, init_extended", "scribbu/id3v1.hh: id3v1_tag"]}
{"id": "C07", "title": "ID3v1 edits keep a tag writable at its declared size", "statement": "After any sequence of setter calls on an ID3v1 tag, writing it succeeds, touches no memory outside its fields and emits exactly size() bytes.", "quantifier": "every initial tag, every finite sequence of setter calls with any arguments", "why_tests_cant": "A history property; the failing histories mix ordinary and enhanced setters.", "anchors": ["scribbu/id3v1.hh: set_album, set_artist, set_title, set_comment, set_enh_genre, set_speed, set_start_time, set_end_time, set_track_number, set_year", "scribbu/id3v1.cc: id3v1_tag::write"]}
{"id": "C08", "title": "Reading and rewriting an ID3v1 tag reproduces it byte for byte", "statement": "For any 128-byte (or 355-byte enhanced) block that carries the right markers, reading it as an ID3v1 tag and writing it out again reproduces the block exactly.", "quantifier": "every 128- or 355-byte block with the markers", "why_tests_cant": "256^125 blocks.", "anchors": ["scribbu/id3v1.cc: id3v1_tag::id3v1_tag, init_standard, init_extended, write"]}
{"id": "C09", "title": "ID3v1 location, removal and replacement touch only the trailing tag", "statement": "The trailing-tag probe finds a tag exactly when the last 128 bytes start with TAG (enhanced: the last 355 with TAG+); removing a tag truncates exactly the tag it reports and leaves all preceding bytes; replacing a tag leaves a file made of the preceding bytes followed by the new tag, and reading that file's ID3v1 tag gives the new tag.", "quantifier": "every file content, every replacement tag", "why_tests_cant": "Ranges over all files, including files shorter than a tag and files whose audio happens to look like a tag.", "anchors": ["scribbu/id3v1.cc: ends_in_id3v1, process_id3v1, maybe_remove_id3v1, replace_id3v1"]}
{"id": "C10", "title": "Play counters store the number they are given", "statement": "Setting a play counter to n and reading it back returns n; the stored form is the shortest big-endian representation; incrementing adds one; counters longer than four bytes are refused on reading.", "quantifier": "every n that fits 32 bits; every counter field", "why_tests_cant": "All 2^32 counts; off-by-one errors live at powers of 256.", "anchors": ["scribbu/framesv2.cc: play_count::count, reset_counter, inc"]}
{"id": "C11", "title": "Popularimeter data survive a write and re-read", "statement": "For every e-mail without a NUL, rating and counter bytes, the serialized POPM payload parses back to the same owner, rating and counter, and its length is what size() says.", "quantifier": "every owner, rating, counter", "why_tests_cant": "Universal over payload contents.", "anchors": ["scribbu/framesv2.hh: popularimeter", "scribbu/framesv2.cc: popularimeter::write, size"]}
{"id": "C12", "title": "Unique-file-id, private, comment, user-text and text payloads survive a write and re-read", "statement": "For each of these frame kinds, serializing a frame and parsing the bytes with the parser of the same ID3v2 version gives back equal fields, and the number of bytes emitted is the size the frame declares.", "quantifier": "every frame value a parser can produce", "why_tests_cant": "Universal over contents, including empty fields and UTF-16 text.", "anchors": ["scribbu/framesv2.hh: unique_file_id, user_defined_text, comments", "scribbu/framesv23.hh: private_frame, id3v2_3_text_frame"]}
{"id": "C13", "title": "Encryption-method registrations survive a write and re-read", "statement": "Serializing an ENCR frame and parsing it back yields the same owner, method symbol and data, and emits as many bytes as size() declares.", "quantifier": "every owner, symbol and data", "why_tests_cant": "Universal; in fact false, because the separator is dropped.", "anchors": ["scribbu/framesv2.cc: encryption_method::write, size"]}
{"id": "C14", "title": "Re-parsing what was parsed is stable for any payload bytes", "statement": "For any payload bytes at all that the parser of a frame kind accepts, writing the parsed frame and parsing again gives the same frame; where the format stores all bytes the rewritten payload is identical to the original.", "quantifier": "every payload byte string", "why_tests_cant": "Adversarial payloads: missing terminators, empty fields, odd UTF-16 lengths.", "anchors": ["scribbu/framesv2.hh", "scribbu/framesv23.hh", "scribbu/framesv24.hh"]}
{"id": "C15", "title": "Frame headers preserve size and flags across a write and re-read", "statement": "A frame's identifier, payload length and status/format flags written in its header are the ones the tag parser of that version reads back.", "quantifier": "every frame identifier, payload length and flag combination, for ID3v2.2, 2.3 and 2.4", "why_tests_cant": "Universal over all flag combinations; the writer and the parser use separate bit masks.", "anchors": ["scribbu/framesv22.cc: write_header", "scribbu/framesv23.cc: id3v2_3_frame::write_header", "scribbu/framesv24.cc: write_header", "scribbu/id3v23.cc: parse", "scribbu/id3v24.cc: parse"]}
{"id": "C16", "title": "A tag's reported size is the number of bytes it writes", "statement": "For every tag and either unsynchronisation choice, the number of bytes written equals ten plus size() (the size field in the header), so the following audio is found where the header says.", "quantifier": "every tag of each ID3v2 version, either choice of unsynchronisation", "why_tests_cant": "Universal over frame lists, paddings and payloads.", "anchors": ["scribbu/id3v22.cc: size, write", "scribbu/id3v23.cc: size, write", "scribbu/id3v24.cc: size, write"]}
{"id": "C17", "title": "ID3v2.3 tags survive a write and re-read", "statement": "Writing an ID3v2.3 tag without unsynchronisation and parsing the bytes gives a tag with the same frames in the same order and the same padding; with unsynchronisation the frames are the same and the padding differs by at most one byte; the audio that follows is left at the read position.", "quantifier": "every ID3v2.3 tag with unflagged frames, any padding, any following bytes", "why_tests_cant": "Universal over frame lists.", "anchors": ["scribbu/id3v23.cc: write, parse, parse_frame", "scribbu/framesv23.cc"]}
{"id": "C18", "title": "ID3v2.2 tags survive a write and re-read", "statement": "Writing an ID3v2.2 tag, with or without unsynchronisation, and parsing the bytes gives a tag with the same frames in the same order.", "quantifier": "every ID3v2.2 tag, either choice of unsynchronisation", "why_tests_cant": "Universal over frame contents; fails only when a payload contains an ff/00 or ff/e0+ pair.", "anchors": ["scribbu/id3v22.cc: write, parse, parse_frame", "scribbu/framesv22.cc: serialized_size, write"]}
{"id": "C19", "title": "ID3v2.4 tags survive a write and re-read", "statement": "Writing an ID3v2.4 tag, with or without unsynchronisation and with any padding, and parsing the bytes gives a tag with the same frames.", "quantifier": "every ID3v2.4 tag", "why_tests_cant": "Universal over frame contents and paddings.", "anchors": ["scribbu/id3v24.cc: write, size, parse", "scribbu/framesv24.cc"]}
{"id": "C20", "title": "Parsing never reads outside the tag and always terminates", "statement": "For every byte string presented as the body of an ID3v2 tag, parsing terminates with a tag or with an error and reads only bytes of that tag.", "quantifier": "every byte string, every version", "why_tests_cant": "Adversarial inputs of any length; no finite test set covers them.", "anchors": ["scribbu/id3v22.cc: parse", "scribbu/id3v23.cc: parse", "scribbu/id3v24.cc: parse"]}
{"id": "C21", "title": "Frame lookups agree with the frame list after any edit history", "statement": "After any sequence of frame additions, insertions, deletions and text changes, looking up a frame by identifier returns a frame carrying that identifier which is in the tag, and the reported number of such frames is the number in the tag.", "quantifier": "every initial tag and every finite edit sequence", "why_tests_cant": "A history property; each single operation looks right in isolation.", "anchors": ["scribbu/id3v22.cc", "scribbu/id3v23.cc: insert, push_back, erase, delete_frame, add_frame_to_lookups, remove_frame_from_lookups", "scribbu/id3v24.cc"]}
{"id": "C22", "title": "A copied tag is interchangeable with the original", "statement": "After copy-construction every query (frame lookup by identifier, text frame, counts) and the written bytes agree with the original.", "quantifier": "every tag", "why_tests_cant": "Universal over tags; copying is only exercised on few examples.", "anchors": ["scribbu/id3v22.cc: copy constructor", "scribbu/id3v23.cc: copy constructor, operator=", "scribbu/id3v24.cc: copy constructor, operator="]}
{"id": "C23", "title": "An edit made to a frame is what gets written", "statement": "After changing a text frame, counter, popularimeter, comment or tag-cloud frame, the next write emits the new contents, whatever sizes or writes were requested before the edit.", "quantifier": "every frame, every interleaving of size/write requests and edits", "why_tests_cant": "A history property (stale serialization cache).", "anchors": ["scribbu/framesv22.cc: id3v2_2_text_frame::set, ensure_cached_data_is_fresh", "scribbu/framesv23.cc: id3v2_3_text_frame::set, ensure_cached_data_is_fresh", "scribbu/framesv24.cc"]}
{"id": "C24", "title": "URL-encoding is reversible", "statement": "Decoding the URL-encoding of any string returns the string, and the encoding uses only unreserved characters and well-formed %xx escapes.", "quantifier": "every byte string", "why_tests_cant": "Universal over strings.", "anchors": ["scribbu/scribbu.cc: urlencode, urldecode, detail::strtochar"]}
{"id": "C25", "title": "Tag clouds survive a write and re-read", "statement": "Serializing a tag-cloud frame and parsing the bytes returns the same owner and the same map from keys to value sets; size() is the number of bytes written.", "quantifier": "every owner and every finite map from NUL-free keys to sets of NUL-free values", "why_tests_cant": "Universal over maps.", "anchors": ["scribbu/framesv2.cc: tag_cloud::write, size", "scribbu/framesv2.hh: tag_cloud"]}
{"id": "C26", "title": "Tag-cloud text form is reversible and merging is union", "statement": "Parsing the URL-encoded text form of a tag cloud gives back the cloud; merging adds exactly the given key/value pairs and loses nothing.", "quantifier": "every cloud, every merged text", "why_tests_cant": "Universal over maps and texts.", "anchors": ["scribbu/framesv2.cc: tag_cloud::urlencoded, parse_to_map, merge"]}
{"id": "C27", "title": "Track data is exactly what lies between the tags", "statement": "The audio portion reported for a file starts right after the leading ID3v2 tags and ends where the trailing ID3v1 tag (if any) begins.", "quantifier": "every file content", "why_tests_cant": "Universal over files, including ones shorter than an ID3v1 tag.", "anchors": ["scribbu/scribbu.cc: find_id3v1_tag, track_data"]}
{"id": "C28", "title": "Reading the i-th ID3v2 tag agrees with reading all of them", "statement": "Reading the tag at index i of a file gives the same tag as the i-th of the list obtained by reading all tags.", "quantifier": "every file, every index", "why_tests_cant": "Universal over files and indices.", "anchors": ["scribbu/id3v2-utils.cc: read_id3v2, maybe_read_id3v2", "scribbu/id3v2-utils.hh: read_all_id3v2"]}
{"id": "C29", "title": "Rewriting a tagset by copy preserves the audio", "statement": "After replacing the tagset of a file by copy, the file consists of the new tags followed by exactly the bytes that came after the old leading tags; nothing else in the file system changes except, when asked for, a backup holding the old content.", "quantifier": "every file content, every list of new tags, every other file present", "why_tests_cant": "Universal over files.", "anchors": ["scribbu/tagset.hh: replace_tagset_copy"]}
{"id": "C30", "title": "A crash while rewriting a tagset never loses the file", "statement": "At every point at which the copying rewrite can be interrupted, the old content or the complete new content exists under the original name or under the backup name.", "quantifier": "every crash point, both rename outcomes (same device, cross-device), backup on or off", "why_tests_cant": "All crash points of a multi-step file system protocol.", "anchors": ["scribbu/tagset.hh: replace_tagset_copy"]}
{"id": "C31", "title": "Backups never overwrite earlier backups", "statement": "The backup name chosen for a file is not the name of any existing file, so successive rewrites keep every earlier backup.", "quantifier": "every directory content, every spelling (absolute or relative) of the path", "why_tests_cant": "Universal over directory contents.", "anchors": ["scribbu/tagset.hh: get_backup_name, replace_tagset_copy"]}
{"id": "C32", "title": "Emplacing a tagset changes only the tag bytes", "statement": "Emplacing either refuses without touching the file, or keeps the file's length and every byte after the old leading tags, and puts the new tags at the front.", "quantifier": "every file, every list of new tags", "why_tests_cant": "Universal over files and tags.", "anchors": ["scribbu/tagset.hh: replace_tagset_emplace, tagset_size, tagset_sizes"]}
{"id": "C33", "title": "Padding adjustment hits the target exactly or refuses", "statement": "Adjusting a tagset to a target size changes only paddings and makes the total exactly the target, or refuses with an error; no padding becomes negative (wraps).", "quantifier": "every list of tags, every current and target size", "why_tests_cant": "Universal over padding distributions; fails only for special remainders.", "anchors": ["scribbu/tagset.hh: detail::adjust_padding_to"]}
{"id": "C34", "title": "Saving a tagset never alters the audio, whichever strategy is chosen", "statement": "Whatever emplace strategy is requested, after a successful save the file is the new tags followed by the same audio as before.", "quantifier": "every file, tagset and strategy", "why_tests_cant": "Universal over files and sizes.", "anchors": ["scribbu/tagset.hh: maybe_emplace_tagset"]}
{"id": "C35", "title": "MPEG frame headers are decoded to the standard's values and scanning always advances", "statement": "For every four byte header accepted, the reported bit rate, sampling rate, padding and frame length follow the MPEG tables and length formula; the length is never smaller than what has already been read, so a frame walk always moves forward.", "quantifier": "every four byte header", "why_tests_cant": "All 2^21 headers with a sync.", "anchors": ["scribbu/mp3.cc: mp3_audio_frame::parse_header", "scribbu/mp3.hh: is_sync"]}
{"id": "C36", "title": "Sync search finds the first sync and durations count every frame", "statement": "Searching for a sync returns the first position at or after the start where 0xff is followed by a byte of at least 0xe0, or fails if there is none; for a stream of n consecutive frames the reported duration is n frame durations.", "quantifier": "every byte string, every number and mixture of frames", "why_tests_cant": "Universal over streams of any length.", "anchors": ["scribbu/mp3.cc: find_sync, get_mp3_duration"]}
{"id": "C37", "title": "Genre matching returns a closest genre", "statement": "A genre number maps to its table text and only numbers below 192 do; matching a text that equals a genre up to case returns that genre at distance zero; for any text the returned genre has minimal edit distance (insertions, deletions, substitutions, adjacent transpositions) over the table.", "quantifier": "every text", "why_tests_cant": "Universal over texts; the distance algorithm is an optimised diagonal method.", "anchors": ["scribbu/winamp-genres.cc: text_for_genre, match_winamp_genre, detail::damerau_levenshtein, detail::f"]}
{"id": "C38", "title": "CSV output is readable by a CSV reader", "statement": "A row of fields printed through the CSV escaping and split again by the usual CSV rules gives back the same fields.", "quantifier": "every list of field texts", "why_tests_cant": "Universal over field contents; fails for fields with quotes but no separator.", "anchors": ["scribbu/csv-pprinter.cc: escape"]}
{"id": "C39", "title": "Template text escapes are reversible", "statement": "Literal text in a template, with the template's special characters escaped by a backslash, is reproduced verbatim.", "quantifier": "every literal text", "why_tests_cant": "Universal over texts; fails for one of the special characters.", "anchors": ["scribbu/tbt-lexer.ll: unescape_and_copy"]}
{"id": "C40", "title": "Splitting a file loses nothing", "statement": "The pieces written by the split command (ID3v2 tags in order, track, ID3v1 tag), concatenated, are the original file.", "quantifier": "every file content", "why_tests_cant": "Universal over files.", "anchors": ["src/split.cc: split_file"]}
{"id": "C41", "title": "Renaming never destroys a file's content", "statement": "For any batch of files and any names the template produces, at every point of the run the content of every input file is still present under its old or its new name, and no pre-existing file is overwritten.", "quantifier": "every batch, every template result, every crash point", "why_tests_cant": "Interleavings and name collisions over arbitrary batches.", "anchors": ["src/rename.cc: renamer::process_file"]}
{"id": "C42", "title": "Batch tag processing touches exactly the selected tags and honours dry-run and creation policies", "statement": "For a file with tags t0..tn-1, exactly the tags selected by the scope policy are processed, once each and in order; new tags are created exactly per the policy table; nothing is written if nothing changed or in a dry run.", "quantifier": "every tag list, policy, selected index list and processing function", "why_tests_cant": "Universal over index lists, including unsorted and out of range.", "anchors": ["src/command-utilities.cc: tagset_processor::process_file", "src/command-utilities.hh: write_tagset"]}
{"id": "C43", "title": "Play-count command updates only the frames its options name", "statement": "The popm command changes PCNT frames and/or POPM frames exactly as selected by its frame policy and owner filter, and creates a frame only if none exists and creation was requested.", "quantifier": "every frame list, every option combination", "why_tests_cant": "Universal over frame lists.", "anchors": ["src/popm.cc: process_tag"]}
{"id": "C44", "title": "Text-frame names, identifiers and parsers agree", "statement": "Each text frame kind maps to one identifier per version, distinct kinds map to distinct identifiers, and the tag parser of that version treats that identifier as a text frame; naming and parsing of kind names are inverse.", "quantifier": "every text frame kind, every version", "why_tests_cant": "Finite but spread over five hand-written tables that tests sample.", "anchors": ["scribbu/framesv2.cc: frame_id3_from_text_frame, frame_id4_from_text_frame, operator>>, operator<<", "scribbu/id3v22.cc: static_initializer", "scribbu/id3v23.cc", "scribbu/id3v24.cc"]}
{"id": "C45", "title": "Setting a text frame makes it readable and leaves other frames alone", "statement": "After setting text frame k to s, reading k gives s, every other frame is unchanged and at most one frame is added.", "quantifier": "every tag, kind and text", "why_tests_cant": "Universal over tags.", "anchors": ["scribbu/id3v22.cc: set_text_frame", "scribbu/id3v23.cc: set_text_frame", "scribbu/id3v24.cc: set_text_frame"]}
{"id": "C46", "title": "Template source preference falls back as documented", "statement": "A template term that prefers one tag kind and falls back to the other yields the preferred text if there is any, else the other's text if there is any, and fails only if neither has any.", "quantifier": "every pair of tag contents and every preference", "why_tests_cant": "Universal over contents.", "anchors": ["scribbu/tbt-support.hh: source_text"]}
{"id": "C47", "title": "Batch traversal visits every regular file once", "statement": "Processing a list of files and directories visits every regular file below them once per mention and nothing else.", "quantifier": "every finite directory tree and argument list", "why_tests_cant": "Universal over trees.", "anchors": ["src/command-utilities.hh: process_dirent_args"]}
{"id": "C48", "title": "Article-moving transforms are inverse", "statement": "Moving a leading 'The ' to a trailing ', The' and back returns the original title up to the capitalisation of the article, and other titles are left alone.", "quantifier": "every title", "why_tests_cant": "Universal over strings, including short ones.", "anchors": ["scribbu/tbt-support.cc: do_the_xform, do_cap_xform, do_ws_xform"]}
{"id": "C49", "title": "A failed tag-cloud edit leaves the cloud unchanged", "statement": "If merging or updating a tag cloud from text fails because the text is malformed, the cloud still holds exactly the keys and values it held before.", "quantifier": "all tag clouds and all texts the parser rejects", "why_tests_cant": "The place in the text where parsing fails, and what was applied before, ranges over all strings.", "anchors": ["scribbu/framesv2.cc: tag_cloud::merge, tag_cloud::update, tag_cloud::parse_to_map"]}
{"id": "C50", "title": "A tag laid out as the ID3v2 standard says is read as such", "statement": "For every byte sequence that lays out frames (identifier, length, flags, payload) and padding as the standard for that version prescribes, reading it as the body of a tag yields exactly those frames, in order, with those flags and contents, and that padding, and leaves the stream just after the tag.", "quantifier": "every list of well-formed frames, every padding, every surrounding file content and exception mask", "why_tests_cant": "The claim ranges over all frame lists, payload lengths, flag bytes and paddings; tests sample a few files.", "anchors": ["scribbu/id3v22.cc: id3v2_2_tag::parse", "scribbu/id3v23.cc: id3v2_3_tag::parse", "scribbu/id3v24.cc: id3v2_4_tag::parse"]}
{"id": "C51", "title": "Encoding names are unambiguous", "statement": "The name printed for a character encoding is read back as that encoding, every accepted name is the printed one, and the conversion library is asked for exactly the encoding that was named.", "quantifier": "every encoding and every word", "why_tests_cant": "Three tables of 99 entries must agree entry by entry; a test samples a few names and never the words that must be rejected.", "anchors": ["scribbu/charsets.cc: operator>>, operator<<, string_for_encoding"]}
{"id": "C52", "title": "Character conversion returns the whole text", "statement": "Converting a text to an encoding yields the requested byte order mark followed by everything the conversion library produced, and converting stored text back yields the whole text.", "quantifier": "every text, pair of encodings and library conversion result", "why_tests_cant": "The result depends on how much the conversion grows the text relative to a buffer estimate; only specific encodings and lengths reach the retry loop.", "anchors": ["scribbu/charsets.cc: convert_encoding"]}
{"id": "C53", "title": "The encoding named in the locale is used", "statement": "Asking for the system encoding returns the encoding named after the dot in the locale's name.", "quantifier": "every pair of global and system locale names", "why_tests_cant": "A test runs in one locale; the claim is about every locale name.", "anchors": ["scribbu/charsets.cc: encoding_from_system_locale, encoding_from_locale_name"]}
{"id": "C54", "title": "CSV report rows line up with the headings", "statement": "Every row of a CSV report, read by the usual CSV rules, has one field under each heading, and the field under each heading is the file name or the tag text of that name.", "quantifier": "every file name, directory, pair of tags (present or not), and number of comments asked for", "why_tests_cant": "Universal over names, texts and options; fails for particular characters and for one value of an option.", "anchors": ["src/report.cc: csv_reporter", "scribbu/csv-pprinter.cc: pprint_v2_3_tag, pprint_v1_tag, pprint_track_data"]}
{"id": "C55", "title": "Numbers in the report are decimal", "statement": "The numbers in a CSV report (version, sizes, play count, genre) read as the decimal numbers they stand for.", "quantifier": "every value", "why_tests_cant": "Small values look right in either base.", "anchors": ["scribbu/csv-pprinter.cc: pprint_v2_2_tag, pprint_v2_3_tag, pprint_v2_4_tag"]}
{"id": "C56", "title": "Compiling a template does not depend on templates compiled before", "statement": "Whether a template is accepted, and what it means, depends only on its text, not on which templates were compiled earlier in the same process.", "quantifier": "every sequence of template texts", "why_tests_cant": "The scanner keeps state between compilations; the claim is about every history.", "anchors": ["scribbu/tbt-lexer.ll: start conditions", "scribbu/id3v2-utils.cc: template_processor::template_processor"]}
{"id": "C57", "title": "A template means what the manual says", "statement": "Every text made of escaped literal text, replacement parameters in long form with documented options, short forms and optional parts is accepted and denotes exactly those parts with those settings; every documented option can be given.", "quantifier": "every template text", "why_tests_cant": "Universal over texts of an unbounded grammar, nested optional parts included.", "anchors": ["scribbu/tbt-lexer.ll", "scribbu/tbt-parser.yy", "scribbu/id3v2-utils.cc: template_processor", "doc/scribbu.texi: Tag-Based Replacements"]}
{"id": "C58", "title": "White-space options merge runs of blanks", "statement": "The template option ws=TEXT replaces each run of spaces and tabs by TEXT, and compress replaces each run by one space.", "quantifier": "every text and replacement", "why_tests_cant": "Universal over texts.", "anchors": ["scribbu/tbt-support.cc: do_ws_xform", "doc/scribbu.texi: Tag-Based Replacements"]}
{"id": "C59", "title": "JSON output holds the data of the tags", "statement": "With the JSON format, dumping a file prints one JSON object per tag and one for the track data, in order; a conforming JSON reader recovers from them the version, flags, sizes and padding of each tag and the identifier, size and contents of each of its frames, and the fields of the ID3v1 tag.", "quantifier": "every file, tag, list of frames and text", "why_tests_cant": "Universal over frames of every kind, their number and the texts in them, including quotes, backslashes, control characters and NULs.", "anchors": ["scribbu/json-pprinter.cc: json_pprinter", "scribbu/pprinter.cc: print_frame", "src/dump.cc: dumper", "doc/scribbu.texi: scribbu dump"]}
{"id": "C60", "title": "JSON strings and numbers are faithful", "statement": "A text printed as a JSON string is read back as the same text by a JSON reader if its only control characters are backspace, tab, line feed, form feed and carriage return (and only then); a number printed is a JSON number denoting the same number.", "quantifier": "every text and every number", "why_tests_cant": "Universal over texts and numbers of any size.", "anchors": ["scribbu/json-pprinter.cc: escape"]}
{"id": "C61", "title": "The track digest in JSON", "statement": "The track data are printed as a JSON object whose md5 member consists of two hexadecimal digits per byte that denote the digest.", "quantifier": "every digest", "why_tests_cant": "Universal over digests, including bytes below 16.", "anchors": ["scribbu/json-pprinter.cc: pprint_track_data"]}
{"id": "C62", "title": "The genre command sets the genre", "statement": "After `genre', every ID3v2 tag in scope tells the chosen genre and is otherwise unchanged, every other tag is as it was, and the ID3v1 tag holds the genre's number (and its name, when extended). A number names its genre, a text to be matched the closest one, and a free text is kept as given.", "quantifier": "every file, every scope, every genre argument, every iconv", "why_tests_cant": "Universal over tag contents, scopes and genre texts.", "anchors": ["src/genre.cc: set_genre", "src/command-utilities.cc: tagset_processor::process_file", "scribbu/id3v1.hh: set_genre, set_enh_genre"]}
{"id": "C63", "title": "The text command sets and deletes text frames", "statement": "After `text', every ID3v2 tag in scope has each text asked for, none of the frames asked to be deleted, and is otherwise unchanged; the ID3v1 tag, if there is one, is updated too.", "quantifier": "every file, every list of deletions and texts, every scope, every iconv", "why_tests_cant": "Universal over tags, frame orders and argument lists; the order of deletions matters.", "anchors": ["src/text.cc: set_text", "scribbu/id3v22.cc: delete_frame", "scribbu/id3v23.cc: delete_frame", "scribbu/id3v24.cc: delete_frame"]}
{"id": "C64", "title": "Copies between tag versions keep what they can", "statement": "An ID3v2 tag made from an ID3v1 tag has the artist, title, album, comment, genre and year of the latter; an ID3v1 tag made from ID3v2 tags has the first title, artist, album and year they tell, and the genre closest to one they tell.", "quantifier": "every tag and tagset, every iconv", "why_tests_cant": "Universal over tag contents and presence of frames.", "anchors": ["src/command-utilities.cc: copy_id3_v1", "src/command-utilities.hh: copy_id3_v2, find_frame, find_year, find_content_type"]}
{"id": "C65", "title": "A command that fails on a tag leaves the file alone", "statement": "A command comes through with the tags of a file exactly if each of the steps it takes on them (processing those in scope, creating those wanted) succeeds, and then with the results of these steps; otherwise nothing on the disk is changed at any time.", "quantifier": "every command, every file, every policy, every failing step", "why_tests_cant": "Universal over commands, tagsets and the step that fails.", "anchors": ["src/command-utilities.cc: tagset_processor::process_file"]}
{"id": "C66", "title": "xtag sets and merges tag clouds exactly", "statement": "xtag --xtags changes, in the ID3v2 tags in scope, the XTAG frames of the owner given (all, if none is given) and nothing else: the cloud then has the tags given, in place of those it had or, with --merge, besides them, and the same owner; if a tag has no such frame, one with the owner and the tags is added with --create-frame and else nothing is done. Tags that cannot be read from the command line make the command fail, with the file untouched.", "quantifier": "every file, every tag text, owner and combination of options", "why_tests_cant": "Universal over files, clouds, escapes in the text and option combinations.", "anchors": ["src/xtag.cc: xtag_processor::process_tag, handle_xtag", "scribbu/framesv2.cc: tag_cloud"]}
{"id": "C67", "title": "xtag --get prints and does not write", "statement": "xtag --get prints one line per tag cloud of the owner given in the tags in scope, in order, that reads back as the cloud's tags, and changes no file.", "quantifier": "every file, every owner, every combination of options", "why_tests_cant": "Universal over files; that nothing is written must hold for every one.", "anchors": ["src/xtag.cc: xtag_processor", "src/command-utilities.hh: tagset_processor::write_tagset"]}
{"id": "C68", "title": "Tags made by xtag have the cloud", "statement": "With --create-v2 or --always-create-v2, xtag gives a file without an ID3v2 tag a tag with the cloud given, and with what its ID3v1 tag tells if it has one.", "quantifier": "every file without ID3v2 tag, every cloud and owner", "why_tests_cant": "Universal over ID3v1 tags, clouds and encodings.", "anchors": ["src/xtag.cc: xtag_processor::create_v2"]}
{"id": "C69", "title": "A playlist lists every file once, with its duration and title, and nothing else changes", "statement": "Running `scribbu m3u -o FILE` over files and directories leaves a playlist that, read line by line as an extended M3U file, lists what it listed before (if appending) followed by one entry for every regular file at or below the arguments, in order, each with its title, its duration rounded to the nearest second and its path. No other file is changed, and wherever the run breaks off the playlist holds the header and complete entries of the files before that point (or a beginning of them).", "quantifier": "every directory tree, order of directory entries, list of arguments, previous contents of the playlist, new/overwrite/append, contents of the files, iconv, and every point at which the run is broken off", "why_tests_cant": "tests look at a handful of well-named files with harmless titles; titles and paths come from the tags and the file system, and the run can break off anywhere", "anchors": ["src/m3u.cc:process_file", "src/m3u.cc:m3u_to_file", "src/m3u.cc:handle_m3u", "src/command-utilities.hh:process_dirent_args"]}
{"id": "C70", "title": "The display title is the artist and title of the best tag", "statement": "The title shown for a file in a playlist is \"artist - title\" taken from its first ID3v2 tag that has both (if neither is empty), else from its ID3v1 tag, else the file's name without extension. Every file gets an entry; the duration is that of the audio after the tags, to the nearest second.", "quantifier": "every file, list of tags of any version, frames in any order and number, encodings, iconv and lookup tables of any layout", "why_tests_cant": "which tag is used depends on every combination of tags, empty frames, encodings and conversion errors", "anchors": ["src/m3u.cc:guess_display_title", "src/m3u.cc:process_file", "scribbu/mp3.cc:get_mp3_duration"]}
{"id": "C71", "title": "Delimited reports read back column by column", "statement": "Each row of a tab-delimited or ASCII-delimited report, split at the delimiter, gives back the name and size of the file, the texts, comments and counts of its first ID3v2 tag, the size and digest of the track and the fields of its ID3v1 tag, each under its heading, whatever the tags say.", "quantifier": "for every file content, every conversion and digest function, both delimiters, with and without the directory column, every number of comment columns", "why_tests_cant": "The texts come from the files: any byte may occur in any of them, and the columns asked for vary.", "anchors": ["src/report.cc:tdf_reporter", "scribbu/tdf-pprinter.cc:tdf_pprinter", "scribbu/tdf-pprinter.hh"]}
{"id": "C72", "title": "A report accounts for every file", "statement": "A report has a heading row and then, for each file named or found below a directory named, in order, one row; every file is counted as processed or as failed; the exit status is 0 exactly when no file failed; a file that fails leaves no trace in the report.", "quantifier": "for every list of arguments, every tree and content of the files, every format and option", "why_tests_cant": "Failures may occur at any point of any file, before or after part of a row has been written.", "anchors": ["src/report.cc:sequential_strategy", "src/report.cc:handle_report", "src/report.cc:make_entry", "scribbu/csv-pprinter.cc", "scribbu/tdf-pprinter.cc"]}
{"id": "C73", "title": "Languages are spelled and read as the standard says", "statement": "A language given to a script or command as a code of ISO 639-2 is recognised, any other text is refused, and a language printed is read back; the code put in a comment is the language's own three-letter code. A language left to the locale is the one the environment names.", "quantifier": "for every text, every language and every setting of LANGUAGE, LC_ALL and LANG", "why_tests_cant": "There are nearly five hundred codes, any text may be offered, and the environment is arbitrary.", "anchors": ["scribbu/charsets.hh:language", "scribbu/charsets.cc:scribbu::operator>>(std::istream &is, language &x)", "scribbu/charsets.cc:language_from_locale", "scribbu/charsets.cc:language_to_iso_639_2"]}
{"id": "C74", "title": "Tags saved are the tags read afterwards", "statement": "After a successful save or rewrite of the ID3v2 tags of a file, reading all tags of that file gives as many tags as were saved, in order, of the same versions, with the same frames in the same order, the same marks and, up to one byte in unsynchronised tags, the same padding; the audio is not taken for a tag and no tag is lost.", "quantifier": "for every list of tags of any versions, every file and audio, every treatment of unsynchronisation, strategy, backup setting and outcome of the rename", "why_tests_cant": "The tags, their number, the audio behind them and the surroundings are arbitrary, and each tag is read at an offset that depends on all those before.", "anchors": ["scribbu/tagset.hh:replace_tagset_copy", "scribbu/tagset.hh:maybe_emplace_tagset", "scribbu/id3v2-utils.hh:read_all_id3v2", "scribbu/id3v2-utils.cc:maybe_read_id3v2"]}
{"id": "C75", "title": "has-frame? and get-frames agree on the frames of a tag", "statement": "For a tag object whose frames are frame objects, has-frame? says true exactly if some frame has the given name; get-frames gives exactly the frames with that name, all of them, in the order of the tag; the two agree. With anything that is not a frame object among the frames get-frames raises an error.", "quantifier": "for every tag object, every list of frames and every name", "why_tests_cant": "The lists of frames are of any length and the names and positions of the matching frames arbitrary.", "anchors": ["scheme/scribbu.scm:has-frame?", "scheme/scribbu.scm:get-frames"]}
{"id": "C76", "title": "The file-system generator visits every file once", "statement": "Calling the generator for a directory again and again gives the path of every regular file below it, each exactly once, and then end-of-file for ever; flat-file-system-tree lists the regular files of a tree.", "quantifier": "for every tree of directories, every way it is listed and any number of calls", "why_tests_cant": "Trees are of any depth and width, and the generator keeps a stack between calls.", "anchors": ["scheme/scribbu.scm:fs-tree-generator", "scheme/scribbu.scm:flat-file-system-tree"]}
{"id": "C77", "title": "Errors reach Scheme, and leave the file readable", "statement": "No C++ exception escapes from a Scheme procedure: it returns or raises a Scheme error. Errors about the arguments are raised before anything is written, whatever their position among the tags; after an error while writing, the old content or the complete new content is found under the file's name or a backup's, and other files are as they were.", "quantifier": "for all arguments of any type, all files, environments and outcomes of the rename", "why_tests_cant": "All values of a dynamically typed language and all file contents and failures are in question.", "anchors": ["scribbu/scheme.cc:read_tagset", "scribbu/scheme.cc:write_tagset", "scribbu/scheme.cc:read_id3v1_tag", "scribbu/scheme.cc:write_id3v1_tag"]}
{"id": "C78", "title": "with-track-in calls the procedure once per file with what the file holds then", "statement": "When with-track-in returns, the procedure has been called exactly once for each entry below the directory that was not a directory when reached, in order, each time with the path and with the tags read from the file at that moment, even if earlier calls changed files; an error ends the walk and nothing after it is visited.", "quantifier": "for every tree, every procedure (with any effect on the file system) and all file contents", "why_tests_cant": "The procedure is arbitrary code that may change the files still to be visited.", "anchors": ["scribbu/scheme.cc:with_track_in"]}
{"id": "C79", "title": "Tags that a script writes are those that it reads again", "statement": "When write-tagset has returned, read-tagset of the same file gives the tags that were passed, in order: the version, the experimental mark, the padding (if the file was copied), the unsynchronisation asked for, and the frames in order, each with the class, symbol and slots it was made with (a language given as \"\" is \"eng\", tag clouds are in the order of their keys, unknown frames have the header that was written). Each symbol stands for the frame identifier the manual gives.", "quantifier": "for every list of tags, every list of frame objects in them and all texts, numbers and clouds in these, all previous contents of the file, all Guile string conversions and both ways of writing", "why_tests_cant": "The objects hold arbitrary texts in all languages, numbers and association lists, and pass through six kinds of conversion each way; a test tries a few.", "anchors": ["scribbu/scheme.cc:write_tagset", "scribbu/scheme.cc:read_tagset", "scribbu/scheme-serde.cc:ser_2_3", "scribbu/scheme-serde.cc:de_2_3", "doc/scribbu.texi:Frame Identifiers"]}
{"id": "C80", "title": "An ID3v1 tag that a script writes is the one that it reads again", "statement": "When write-id3v1-tag has returned, the file holds what it held before without the ID3v1 tag it may have had at its end, followed by the new tag; and read-id3v1-tag of that file gives an object with the slots the written one had: each text as far as its field (30 bytes, 28 for a comment beside a track number, 4 for the year) can hold it and without trailing spaces, the genre, and the track number if there was one. What read-id3v1-tag gives can be written again.", "quantifier": "for every ID3v1 object, all texts in it, every genre and track number, all previous contents of the file (or none) and all Guile string conversions", "why_tests_cant": "Texts of every length and in every script pass through two conversions, cuts and fills; a test tries a few ASCII ones.", "anchors": ["scribbu/scheme.cc:write_id3v1_tag", "scribbu/scheme.cc:read_id3v1_tag", "scribbu/id3v1.cc:replace_id3v1"]}
{"id": "C81", "title": "Saved tags hide false MPEG syncs when asked to, and say so", "statement": "When tags are saved with unsynchronisation 'always' or 'as needed', none of the bytes of the tag (header, extended header, frames, padding, footer) can be taken for the start of an MPEG frame; with 'never' the frames are written as they are; and the header's unsynchronisation flag is set exactly if the frames were changed.", "quantifier": "for every tag of ID3v2.2, 2.3 and 2.4, all frames and frame contents, serialized before or not, every compression function", "why_tests_cant": "False syncs arise at every position, across the borders of frames, in sizes and in checksums, and depend on the order of frames; a test tries a few byte strings.", "anchors": ["scribbu/tagset.hh:replace_tagset_copy", "scribbu/id3v22.cc:id3v2_2_tag::write", "scribbu/id3v23.cc:id3v2_3_tag::write", "scribbu/id3v23.cc:id3v2_3_tag::needs_unsynchronisation", "scribbu/id3v24.cc:id3v2_4_tag::write", "scribbu/id3v24.cc:id3v2_4_tag::needs_unsynchronisation", "scribbu/framesv2.hh:unsynchronise"]}
{"id": "C82", "title": "What a script reads of a file is what the tags hold", "statement": "(read-tagset file) gives a list with one entry for each ID3v2 tag of the file, in order, with its version and unsynchronisation flag; the tag object has the experimental flag, the padding and one object per frame, in order; a frame whose identifier is in the manual's table is an object of the class and with the symbol given there, holding its flags and its text, language, description, counter, rating or cloud converted to UTF-8; any other frame is an 'unknown-frame with its identifier and its bytes as they are in the tag.", "quantifier": "for every file, every content of its tags, every frame of ID3v2.2, 2.3 and 2.4, every character conversion that yields UTF-8, every locale", "why_tests_cant": "Frames hold arbitrary bytes in several encodings, with padding, NULs, counters of any length and texts that cannot be converted; a test tries a few well-formed files.", "anchors": ["scribbu/scheme.cc:read_tagset", "scribbu/scheme-serde.cc:scheme_serde_dispatcher", "scribbu/scheme-serde.cc:de_text_frame_2_4", "scribbu/scheme-serde.cc:de_xtag_2_3", "scribbu/scheme-serde.hh:de_unknown_frame_2_2", "doc/scribbu.texi:read-tagset"]}
{"id": "C83", "title": "What a template gives for a file", "statement": "Applied to a file, a template gives its literal texts and the texts of its replacement parameters, joined in order: album, artist, genre and title of the tag asked for, decoded as asked, with article, case and white space adapted as asked; the year in two or four digits; who encoded it; base name and extension of the file; its size; the digest of its audio. Where a text is lacking there is an error, except in an optional part, which then gives nothing.", "quantifier": "for every template, every nesting of optional parts, every combination of options, every content of the tags, every file name and size, every conversion library and locale", "why_tests_cant": "Tags, names and options combine without bound, and what is lacking may stand at any place in any depth of optional parts.", "anchors": ["scribbu/tbt-support.cc:evaluate", "scribbu/tbt-support.cc:v1_text_to_utf8", "scribbu/tbt-support.hh:source_text", "scribbu/tbt-support.hh:process_and_concatenate", "scribbu/id3v2-utils.cc:template_processor", "doc/scribbu.texi:Tag-Based Replacements"]}
{"id": "C84", "title": "What a dump says of a file", "statement": "The dump command says of every file asked for, line by line and in this order: its path and time; for each ID3v2 tag at its beginning a summary (version, size, flags, artist, title, album, track, year), every frame in order with its contents, and the padding; the number of bytes of the track and their digest; the ID3v1 tag. It says nothing else, leaves out only parts not asked for, and a file that cannot be dumped is reported without keeping the others from being dumped.", "quantifier": "for every file contents, every number of tags of any version and frames of any kind, every setting of the printer and choice of parts, every conversion library, and every list of arguments", "why_tests_cant": "The frames of a tag combine without bound; which of them keep the rest from being shown depends on version, kind and contents together.", "anchors": ["src/dump.cc:dumper::operator()", "src/dump.cc:handler", "scribbu/pprinter.cc:standard_pprinter", "scribbu/pprinter.cc:print_id3v2_tag", "scribbu/pprinter.cc:pprint_binary", "scribbu/pprinter.cc:comment_lang"]}
{"id": "C85", "title": "Removing frames with the standard algorithms", "statement": "tag.erase(remove_if(tag.begin(), tag.end(), p), tag.end()) takes out of a tag exactly the frames for which p holds, keeps the others in their order, and leaves a tag that answers every lookup (by name, texts, comments, counters, popularimeters) as its frames have it.", "quantifier": "for every tag of any version that was parsed and edited, with any number of frames of any kind, and every predicate", "why_tests_cant": "Which table entries go stale depends on the order in which frames that go and frames that stay alternate, and on their kinds; the library's own test removes text frames and only counts what is left.", "anchors": ["scribbu/id3v22.cc:mutable_frame_proxy::operator=(mutable_frame_proxy&&)", "scribbu/id3v23.cc:mutable_frame_proxy::operator=(mutable_frame_proxy&&)", "scribbu/id3v24.cc:mutable_frame_proxy::operator=(mutable_frame_proxy&&)", "scribbu/id3v22.cc:id3v2_2_tag::erase", "test/id3v2-edit.cc"]}
{"id": "C86", "title": "What a stream remembers about printing", "statement": "The printer and the encoding put into a stream by a manipulator stay with that stream until replaced, copied over, or the stream is closed; copyfmt gives one stream the settings of another; other streams are not affected; nothing is used after it is freed, freed twice, freed by other means than it was allocated with, or lost.", "quantifier": "for every history of making and closing streams, making and dropping printer manipulators, putting them and encodings into streams, and copying formatting between streams", "why_tests_cant": "Whether a printer is freed exactly once depends on the whole history of registrations and copies; the library's tests put one manipulator into one stream and never copy formatting.", "anchors": ["scribbu/pprinter.cc:pprint_manipulator::do_manip", "scribbu/pprinter.cc:pprint_manipulator::callback", "scribbu/pprinter.cc:get_pretty_printer", "scribbu/ostream.cc:ienc::insert", "scribbu/ostream.cc:ienc::retrieve", "scribbu/ostream.cc:ienc::callback", "test/ostream.cc"]}
{"id": "C87", "title": "Frames printed one to a line read back", "statement": "Frames printed one to a line on a stream imbued with the CSV or TDF printer read back, with a reader of that format, as one row for each frame, holding what is in the frame: texts in the stream's encoding, numbers in decimal, binary data in hexadecimal, whatever has been printed on the stream before.", "quantifier": "for every sequence of frames of any version and any contents, every separator, encoding and previous output", "why_tests_cant": "What a frame prints depends on the number base that earlier output left the stream in, and whether it reads back on every byte of its contents; the tests print whole tags with chosen contents.", "anchors": ["scribbu/csv-pprinter.cc:csv_pprinter::pprint_UFI", "scribbu/csv-pprinter.cc:csv_pprinter::pprint_CNT", "scribbu/csv-pprinter.cc:csv_pprinter::pprint_POP", "scribbu/csv-pprinter.cc:csv_pprinter::pprint_COMM", "scribbu/csv-pprinter.cc:csv_pprinter::pprint_PRIV", "scribbu/tdf-pprinter.cc:tdf_pprinter::pprint_CNT"]}
{"id": "C88", "title": "Every command line is dealt with in one way", "statement": "Whatever the arguments of the main program, it either shows its version, usage, manual or Info node, runs a sub-command with exactly the arguments that follow its name, hands all of the arguments unchanged to Guile, or reports misuse with status 2: which one is determined by the leading options and the first other word. Sub-commands are found by name whatever the order in which they register.", "quantifier": "for every list of arguments, every set of sub-commands and every order of registration", "why_tests_cant": "The options before the first word interact (values that look like options, requests for help among Guile's options), and registration order depends on the linker; no test runs the main program.", "anchors": ["src/scribbu.cc:main", "src/command-utilities.cc:register_command::register_command", "src/command-utilities.cc:maybe_handle_help", "src/command-utilities.cc:print_usage"]}
{"id": "C89", "title": "Options of the commands that change files", "statement": "The text, genre, popm and xtag commands end with status 2 exactly for wrong usage, and then no file has been touched; with --dry-run no file is touched whatever the arguments; --tag restricts them to the tags named; options have the meaning documented; a file that cannot be processed does not keep the others from being processed.", "quantifier": "for every combination of options, all arguments, every state of the file system and every environment", "why_tests_cant": "There are too many combinations of options to test, and that nothing is touched is a statement about all files and directories; the tests call the processors directly, without the handlers.", "anchors": ["src/popm.cc:handle_popm", "src/text.cc:handle_text", "src/genre.cc:handle_genre", "src/genre.cc:genre", "src/xtag.cc:handle_xtag"]}
{"id": "C90", "title": "What a file holds after a command", "statement": "After a command that changes tags has reported success on a file, reading the file gives the tags as the command was asked to leave them, the ID3v1 tag and, byte for byte, the audio that were there; this goes on to hold however many times commands are run one after the other: after n runs of popm every play count that the options name has gone up n times, and all else is as before the first.", "quantifier": "for every file whose tags can be stored, every set of options, every number of runs, and every way in which the file system lets the temporary file be moved", "why_tests_cant": "It ties together options, reading, processing, writing and the file system, and is about histories of any length; the tests look at each of these alone and at single files.", "anchors": ["src/popm.cc: handle_popm", "src/text.cc: handle_text", "src/command-utilities.cc: tagset_processor::process_file", "src/command-utilities.hh: process_dirent_args", "scribbu/tagset.hh: maybe_emplace_tagset, replace_tagset_copy", "scribbu/id3v1.cc: replace_id3v1"]}
{"id": "C91", "title": "What the report command does to files", "statement": "Given an output and arguments, the report command writes to the output the report on the files as they were when it was started, and changes nothing else, also if it is cut short; without an output or without arguments nothing happens and the status is 2. The status is 0 exactly if every file could be reported on, and then the report is in the output file.", "quantifier": "for every set of options, every file system, every order in which directories are listed, every content of the files and every point at which the run is cut short", "why_tests_cant": "It is about all file systems, including those in which the output is one of the inputs or cannot be opened, and about every point at which a run may end; the tests compare single outputs.", "anchors": ["src/report.cc: handle_report", "src/report.cc: csv_reporter, tdf_reporter", "src/report.cc: reporting_strategy::operator()", "src/report.cc: sequential_strategy::process_file, sequential_strategy::process_directory"]}
{"id": "C92", "title": "Renaming by tags, end to end", "statement": "The rename command gives a file the name that the template makes of its first ID3v2 tag, its ID3v1 tag, its name, its size and the digest of its audio: afterwards the same bytes are under that name, in the file's directory or the one given, with --rename no longer under the old one, and nothing else has changed. By default the name is \"Artist - Title.mp3\", articles at the end and first letters in upper case. A file that lacks a text the template asks for, or whose new name is taken, is passed over; files do not leave the directory given.", "quantifier": "for every file content, template, set of options, file system and conversion library", "why_tests_cant": "It combines parsing of arbitrary files, conversion of arbitrary texts, template evaluation and the file system; names come from texts that may hold anything, slashes included. Tests rename a few known files.", "anchors": ["src/rename.cc: handle_rename", "src/rename.cc: renamer::process_file", "scribbu/id3v2-utils.cc: template_processor::operator()", "scribbu/tbt-support.cc: artist::evaluate, title::evaluate"]}
{"id": "C93", "title": "What dump prints as JSON, from the bytes of files", "statement": "With the JSON format, dump prints for each file a sequence of JSON objects that a JSON reader can take apart: one for each ID3v2 tag at the beginning, with its version, its flags, whether it is unsynchronised, its size, its padding and every frame in order with its identifier, its size and its contents as text, one with the digest of the track, and one for the ID3v1 tag. The output for several files is the objects of each, in order, and a file of which something cannot be printed does not spoil what is printed for the others.", "quantifier": "for every content of every file, every selection of parts, every conversion library and any number of files and directories", "why_tests_cant": "Texts come from files and from a conversion that may fail halfway through an object; tests look at the output of a few sample files, none of which fails.", "anchors": ["scribbu/json-pprinter.cc: pprint_v2_3_tag", "src/dump.cc: handle_dump", "src/dump.cc: dumper::dump_file"]}
{"id": "C94", "title": "What dump prints as CSV", "statement": "With the CSV format, dump prints for each file a record that a reader of CSV can take apart: the columns for each ID3v2 tag, as in a report, then those for the track and those for the ID3v1 tag, of those what was asked for, each in a field of its own.", "quantifier": "for every content of every file, every selection of parts, every number of comments and every conversion library, for strict and lax readers of CSV", "why_tests_cant": "Fields come from arbitrary texts in the file, and whether a record can be taken apart depends on what is next to what; tests look at the output of a few files.", "anchors": ["src/dump.cc: dumper::operator()", "scribbu/csv-pprinter.cc: pprint_v2_3_tag, pprint_track_data, pprint_v1_tag"]}
{"id": "C95", "title": "Options from the command line and the environment", "statement": "However options are written on the command line of a sub-command (long names, names cut short, letters, letters put together, values joined or apart, mixed with the arguments), they are understood as meant; what the command line has goes before what the environment has, and that before the default; what is not understood is told as wrong usage and nothing is done; and a dry run, by whichever way it is asked for, changes no file.", "quantifier": "for every list of words, every environment, all options of nine sub-commands, and every file system and file contents", "why_tests_cant": "The ways to write a command line and the environments it meets are unbounded, and each option of each command is another case; tests cover a few lines.", "anchors": ["src/popm.cc: handle_popm", "src/xtag.cc: handle_xtag", "src/text.cc: handle_text", "src/genre.cc: handle_genre", "src/rename.cc: handle_rename", "src/dump.cc: handle_dump", "src/report.cc: handle_report", "src/m3u.cc: handle_m3u", "src/split.cc: handle_split", "src/command-utilities.cc: maybe_handle_help"]}
{"id": "C96", "title": "The whole program: what a run may change and how it ends", "statement": "Given its arguments, the environment and the files, the program runs the sub-command named, ends with status 0, 1 or 2 (2 only if nothing was done), and changes only what that sub-command is for: dump, encodings and m3u without --output change nothing, nor does a dry run; report and m3u --output change no file but the one named; split changes only the pieces, which make up the file; and what is required must be given.", "quantifier": "for all arguments, environments, file systems and file contents, and at every point where a run may be cut off", "why_tests_cant": "Arguments, environment and files are unbounded and combine; what holds at each point of a run that may be cut off cannot be reached by tests.", "anchors": ["src/scribbu.cc: main", "src/dump.cc: handle_dump", "src/encodings.cc: handle_encodings", "src/m3u.cc: handle_m3u", "src/report.cc: handle_report", "src/split.cc: handle_split", "src/rename.cc: handle_rename"]}
{"id": "C97", "title": "From the command line and the environment to the documented effect", "statement": "When the words after a sub-command's name are well formed and what they, the environment and the defaults give for each option is known, running the program does to the files, and prints, what that sub-command documents for those option values: dump prints what is in the files in the format asked for, report and m3u write the file named with --output, rename names files after the template, popm adds so many plays each time it is run, text and genre leave the texts and genres asked for in the tags, and nothing else changes.", "quantifier": "for all command lines, environments, working directories, file systems and file contents (and for popm, any number of runs)", "why_tests_cant": "It joins the parsing of unbounded command lines and environments with unbounded files; a test fixes one line, one environment and one file.", "anchors": ["src/scribbu.cc: main", "src/command-utilities.cc", "src/dump.cc: handle_dump", "src/report.cc: handle_report", "src/m3u.cc: handle_m3u", "src/rename.cc: handle_rename", "src/popm.cc: handle_popm", "src/text.cc: handle_text", "src/genre.cc: handle_genre", "src/xtag.cc: handle_xtag"]}
{"id": "C98", "title": "A file after any history of commands", "statement": "Apply popm, text, genre and xtag, keeping backups or in place, to a file any number of times in any order, each run succeeding. Reading the file then gives what the requests ask for, one after the other: every play count has gone up by exactly the plays asked for in all runs together and ratings are the last ones asked for, whatever the other runs did; a text or genre set is what the tags tell unless a later run is about that frame; frames no run is about are the same, in the same order; the audio is untouched.", "quantifier": "for all files of the form described, all lists of requests, all options and all texts", "why_tests_cant": "Histories are unbounded lists of different commands; each run works on the bytes the one before has written, so that only an invariant of the files, kept by every command, covers them all.", "anchors": ["src/popm.cc: handle_popm", "src/text.cc: handle_text", "src/genre.cc: handle_genre", "src/xtag.cc: handle_xtag", "scribbu/tbt-support.cc: tag_processor, process_dirent_args", "scribbu/tagset.cc: maybe_rewrite_tags"]}
{"id": "C99", "title": "Constructing a tag straight from a stream", "statement": "id3v2_2_tag(is), id3v2_3_tag(is) and id3v2_4_tag(is) give the tag that stands at the stream's position and leave the stream after it, exactly as looking_at_id3v2 followed by the constructor from the header found would; a tag that was written is read back. If no tag, or a tag of another version, stands there an exception says so; after an exception the stream is where it was.", "quantifier": "for all stream contents, positions and exception masks, and for all tags written", "why_tests_cant": "The contents of the stream are arbitrary bytes, with and without a header, complete or cut off anywhere, and the outcome also depends on the exception mask of the caller's stream.", "anchors": ["scribbu/id3v2.cc: id3v2_tag(std::istream&), parse_flags_and_size", "scribbu/id3v22.cc: id3v2_2_tag(std::istream&)", "scribbu/id3v23.cc: id3v2_3_tag(std::istream&)", "scribbu/id3v24.cc: id3v2_4_tag(std::istream&)"]}
{"id": "C100", "title": "Payloads count the syncs in them", "statement": "For every frame payload (unique file id, encryption method, user-defined text, comment, play count, popularimeter, private data, tag cloud), needs_unsynchronisation() is the number of false MPEG syncs in the bytes that write() gives, and serialized_size(true) is the number of bytes that those take once unsynchronised; both can be asked of any payload.", "quantifier": "every payload of every class, whatever its strings, counters and values, including empty ones and those with ff bytes anywhere", "why_tests_cant": "the counts are added up from the parts of the payload, so each joint between two parts is a separate case for every pair of bytes and every empty part", "anchors": ["scribbu/framesv2.cc:unique_file_id::count_syncs", "scribbu/framesv2.cc:encryption_method::count_syncs", "scribbu/framesv2.cc:user_defined_text::count_syncs", "scribbu/framesv2.cc:comments::count_syncs", "scribbu/framesv2.cc:play_count::count_syncs", "scribbu/framesv2.cc:popularimeter::count_syncs", "scribbu/framesv2.cc:tag_cloud::count_syncs", "scribbu/framesv23.cc:private_frame::count_syncs"]}
{"id": "C101", "title": "The checksum of a tag", "statement": "When a tag has an extended header with a checksum, what write() gives has in that header the CRC-32 of the frames as they are written (before unsynchronisation, without the padding) and, for ID3v2.3, the size of the padding; the header takes the bytes the standard says. A tag constructed with a checksum and one read from a file both keep this up as frames are added, changed and removed. When a tag with a checksum that does not match its frames is read, that is found out.", "quantifier": "every ID3v2.3 and ID3v2.4 tag with an extended header with a checksum, whatever its frames, padding and history, and every checksum", "why_tests_cant": "the checksum is a function of all the bytes of all the frames and the claim is about every tag and every order of changes; a test has one checksum, fifteen of sixteen of which behave in another way", "anchors": ["scribbu/id3v23.cc:id3v2_3_tag::ext_header::crc", "scribbu/id3v23.cc:id3v2_3_tag::ext_header::write", "scribbu/id3v23.cc:id3v2_3_tag::id3v2_3_tag(std::size_t, bool, want_extended_header)", "scribbu/id3v24.cc:id3v2_4_tag::ext_header::write", "scribbu/id3v24.cc:id3v2_4_tag::ext_header::crc", "scribbu/id3v2.hh:basic_id3v2_frame::crc"]}
{"id": "C102", "title": "Sessions of command lines", "statement": "When command lines are typed one after the other, of which some add plays, set texts, set genres or add to tag clouds of a file, and the others show things, are dry runs, write to other files or are refused, then afterwards the file has the same audio data and just the tags that the former ask for, in their order: plays add up, the last text and genre set is what is told, frames that no line is about are as they were. A session without lines of the first kind leaves the file as it was.", "quantifier": "every sequence of command lines with every choice of options and settings from the environment, every number of lines, every file of ID3v2.3 and ID3v2.4 tags with or without an ID3v1 tag", "why_tests_cant": "the space is that of all sequences of command lines; each line is read by the option parser, goes through one of ten sub-commands and works on the file the lines before have left", "anchors": ["src/scribbu.cc:main", "src/popm.cc:handle_popm", "src/text.cc:handle_text", "src/genre.cc:handle_genre", "src/xtag.cc:handle_xtag", "src/dump.cc:handle_dump", "src/report.cc:handle_report", "src/m3u.cc:handle_m3u", "src/split.cc:handle_split", "src/rename.cc:handle_rename"]}
{"id": "C103", "title": "ID3v1 tags constructed from a stream", "statement": "Constructing an ID3v1 tag from a stream positioned at one gives the fields in the block (so that writing it gives the block again), tells enhanced from ordinary tags, and leaves the stream behind the block with the exception mask it had. If there is no tag, or not enough of one, invalid_tag is thrown and the stream is where it was, with the exception mask it had.", "quantifier": "every content of the stream before, in and after the block, every position, every exception mask, both constructors", "why_tests_cant": "ranges over all blocks and all masks; the behaviour on failure depends on which bits the caller's mask has", "anchors": ["scribbu/id3v1.cc:id3v1_tag::id3v1_tag(std::istream&)", "scribbu/id3v1.cc:id3v1_tag::id3v1_tag(std::istream&, bool)", "scribbu/id3v1.cc:init_standard", "scribbu/id3v1.cc:init_extended"]}
{"id": "C104", "title": "Several files at once", "statement": "popm, text, genre and xtag, applied to several files, do to each of them what is asked for, as if it were the only one. Whatever the options are, whatever comes of the run and wherever it is interrupted, no other file changes but the temporary file and the backups of the files among the arguments and in the directories among these.", "quantifier": "every file system, list of arguments, set of options, number of runs one after the other, and point of interruption", "why_tests_cant": "ranges over all sets of files and the order in which they are processed, and over all states a run passes through; what can go wrong is that the processing of one file gets in the way of another", "anchors": ["src/command-utilities.hh:process_dirent_args", "src/command-utilities.cc:tagset_processor::process_file", "scribbu/tagset.hh:get_backup_name", "scribbu/tagset.hh:maybe_emplace_tagset", "scribbu/tagset.hh:replace_tagset_copy"]}
{"id": "C105", "title": "Printing tags and frames in the interpreter", "statement": "Whatever read-tagset and read-id3v1-tag give can be printed: no tag and no frame read from a file makes display raise an error. A tag shows the texts of its first artist and its first title and its padding; a frame its fields; data its first eight bytes, in printable ASCII, so that data that differs there looks different.", "quantifier": "every file, every tag and frame object with its slots, every sequence of bytes, and whatever the interpreter prints for other values", "why_tests_cant": "ranges over all files that can be read and over all data; that printing does not fail depends on the classes and symbols every conversion can give", "anchors": ["scheme/scribbu.scm:pp-bytevector", "scheme/scribbu.scm:display", "scheme/scribbu.scm:get-frames", "scribbu/scheme.cc:read-tagset", "scribbu/scheme.cc:read-id3v1-tag"]}
{"id": "C106", "title": "Where the interpreter looks for modules", "statement": "When scribbu starts, the directory of its Scheme module is put before the directories the interpreter searches, unless it is among them; these all remain, in the same order. Doing so again changes nothing, and if an error is raised the list is as it was.", "quantifier": "every list of directories, data directory, locale and value of the variables concerned", "why_tests_cant": "ranges over all search paths a user's environment can give, and their encodings", "anchors": ["scribbu/scheme.cc:customize_load_path", "scribbu/scheme.cc:customize_welcome", "scribbu/scheme.cc:initialize_guile"]}
{"id": "C107", "title": "Parsers that an application registers for frames", "statement": "An ID3v2.2 frame is made by one parser that is determined by its identifier and by what was registered before the tag was constructed: the library's for comments, play counts, popularimeters and the text identifiers it knows; otherwise the first text parser registered for the identifier, then the library's, then the first generic parser, and failing these the frame is kept as an unknown one. What is registered later, or by another thread in the meantime, or for another identifier, or with a tag, changes no frame; a registering call answers whether the identifier was free.", "quantifier": "every history and interleaving of registrations, constructions and copies in any number of threads, every parser, identifier and tag", "why_tests_cant": "ranges over all interleavings of the threads that register parsers with the two steps in which a tag copies the tables, and over all parsers an application may bring", "anchors": ["scribbu/id3v22.cc:id3v2_2_tag::parse_frame", "scribbu/id3v22.cc:id3v2_2_tag::register_default_generic_frame_parser", "scribbu/id3v22.cc:id3v2_2_tag::register_default_text_frame_parser", "scribbu/id3v22.hh:id3v2_2_tag::get_default_generic_frame_parsers", "scribbu/id3v22.hh:id3v2_2_tag::register_generic_frame_parser", "scribbu/id3v23.cc:id3v2_3_tag::parsing_is_reserved", "scribbu/id3v24.cc:id3v2_4_tag::parse_frame"]}
{"id": "C108", "title": "What the Scheme procedures acquire is released, however they end", "statement": "When a Scheme program calls read-id3v1-tag, read-tagset, with-track-in, write-id3v1-tag or write-tagset, whatever the procedure takes hold of on the way -- the C strings made of its arguments and slots, open files, an open directory, memory -- is released exactly once and after it was taken, whether the procedure returns, a C++ exception is thrown inside it, or an error of the interpreter's is raised.", "quantifier": "every procedure of the five, every path through it (which calls fail and how, how often each loop goes round, how many frames, tags and files there are), every way of ending", "why_tests_cant": "A leak shows in no result; which release is skipped depends on the exact call that fails, and the number left open grows with the length of the walk. It has to hold at every failure point of every path.", "anchors": ["scribbu/dynwind-context.hh: dynwind_context", "scribbu/dynwind-context.cc: free_locale_string, free_utf8_string", "scribbu/scheme.cc: read_id3v1_tag, read_tagset, with_track_in, with_track_in_thunk, write_id3v1_tag, write_tagset", "scribbu/scheme-serde.cc: scm_from_id3v2_tag, scm_to_id3v2_tag, ser_2_2, ser_2_3, ser_2_4"]}
{"id": "C109", "title": "Taking frames out of a tag one at a time", "statement": "A loop over a tag's frames that erases some of them through iterators -- p = tag.erase(p) where a frame is to go, ++p where it stays, from begin() to end(), or the same from end() back to begin() -- ends normally for every tag and every choice of frames, and leaves exactly the frames that were not chosen, in their order.", "quantifier": "every tag read and edited in any way that keeps frames in place, of each version; every choice of the frames to go; both directions", "why_tests_cant": "Whether the second erase is defined depends on the identifiers of the frames around the ones that go and on what earlier erasures left in the tag's tables; a test with one frame to go, or with two of the same name side by side, tells nothing about the others, and undefined behaviour may well look right.", "anchors": ["scribbu/id3v2.hh: frame_iterator, frame_iterator_base", "scribbu/id3v22.cc, id3v23.cc, id3v24.cc: erase, remove_frame_from_lookups"]}
{"id": "C110", "title": "What an encoder says about a stream is read as it was written", "statement": "A Xing (or Info) tag, with any of its four fields present or absent and any other flags, and a LAME tag are read back as the values laid out in the stream, and the stream then stands right behind them; a tag cut short anywhere is reported as a failed read on a stream that throws. The number of frames and of bytes that durations rest on are those of this reading.", "quantifier": "every combination of fields and every value of them; every LAME method number, bit rate and length; whatever comes before and after; every place where the stream may end", "why_tests_cant": "There are sixteen layouts, each with a different place for every later field, and every byte of them is a place where a stream may end; sample files have one layout, mostly with all fields, and are never cut.", "anchors": ["scribbu/mp3.cc: xing_mp3_tag, lame_mp3_tag, vbri_mp3_tag", "scribbu/mp3.hh: xing_mp3_tag, lame_mp3_tag, vbri_mp3_tag"]}
{"id": "C111", "title": "What went wrong can be told from the message", "statement": "The message of an exception determines the exception: two errors of the library or of the program with the same message are of the same kind and about the same frame, file, tag, number or cause. The frame, file, tag and system message concerned stand in the message as they are, and numbers in decimal. (Identifiers and names without zero bytes; the system's own messages being distinct and free of apostrophes.)", "quantifier": "every pair of exceptions of nineteen kinds, with every identifier, file name, tag name, number and cause they can hold", "why_tests_cant": "It is about all pairs of messages, over all names, including names that look like parts of a message (quotes, blanks, numbers); a test sees single messages.", "anchors": ["scribbu/id3v2.cc, id3v1.cc, id3v23.cc, id3v24.cc, mp3.cc, tagset.cc, framesv2.cc, csv-pprinter.cc, tbt-support.cc, scribbu.cc, charsets.cc: what()", "src/command-utilities.cc, src/genre.cc: what()"]}
