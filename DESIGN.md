# Formal model of sp1ff/scribbu in Rocq (Coq 8.16.1)

## 1. Approach

The model is a set of total, computable Gallina functions, one per C++ function
modelled, under `rocq/theories/`.  Bytes are `N` (with `Forall (fun b => b < 256)`
where it matters), byte strings and files are `list N`, sizes are `N`/`Z`.

* Every C++ exit is an explicit outcome: `Ok v`, `Throw e` (a C++ exception) or
  `UB w` (undefined behaviour: out-of-bounds access, uninitialised read, null
  dereference, ...).  UB is never assumed away.
* Loops are structural recursion, folds, or recursion on fuel; running out of
  fuel is a separate outcome (`NonTerm`) that the theorems exclude or exhibit.
* Streams are a file content plus a read position; files are byte lists, file
  systems are finite maps from paths to byte lists.
* A property that is false of the code is proved false: a theorem
  `..._refuted : exists x, ...` with a concrete witness, and the strongest true
  part is proved beside it (`..._partial` when it is only a part of the claim).

### File layout

| file | content |
|------|---------|
| `Base.v` | outcome monad, byte-string helpers |
| `M_*.v`  | the model; each definition cites file and lines in /repo |
| `S_*.v`  | specifications, independent of the model (small, readable) |
| `L_*.v`  | lemmas and proofs |
| `P_*.v`  | property theorems only: statement, `exact lemma`, `Print Assumptions`, satisfiability `Example`s |

## 2. Plan per property

| id | what is modelled | how it is proved |
|----|------------------|------------------|
| C01 | the four integer decoders and the sync-safe encoder with shifts/masks | bit operations to div/mod arithmetic, then `lia` |
| C02 | `looking_at_id3v2` over (file, position) | case analysis over the ten bytes |
| C03, C04 | `unsynchronise`, `resynchronise` (index based, in place) | induction on the byte string |
| C05 | `is_false_sync`, `needs_unsynchronisation`, `count_syncs` | refuted by ff e0; partial for data without ff e0..e9 |
| C06, C07, C08 | the ID3v1 class: constructors, setters, `write` | list slicing lemmas; invariant over setter histories; refutation for mixed setters |
| C09 | `ends_in_id3v1`, `process_id3v1`, `maybe_remove_id3v1`, `replace_id3v1` | slicing |
| C10 | `play_count` | base-256 digit induction |
| C11-C14 | payload parsers/writers | split-at-NUL lemmas |
| C15 | the three frame header writers and the parsers' header decoding | finite sweep over flags; refutations |
| C16 | `size`/`write` of the three tag classes | induction over frames; refutation for 2.4 |
| C17-C19 | whole tag write and parse loop | induction over frames |
| C20 | the three parse loops with explicit out-of-bounds outcome and fuel | refutations (over-read, endless loop) and termination/safety theorems on restricted inputs |
| C21, C22 | the tag classes as frame list + lookup tables with the code's index handling | invariant over append-only histories; refutation for deletion |
| C23 | frame with serialization cache and dirty flag | state machine; refutation + partial |
| C24 | `urlencode`, `urldecode` | induction |
| C25, C26, C49 | tag cloud as ordered map | induction over the map |
| C27, C28 | `find_id3v1_tag`, `track_data`, `read_id3v2` | slicing, walk induction |
| C29-C34 | tagset rewriting over a file system model with crash points | symbolic execution of the step list, arithmetic |
| C35, C36 | MPEG header decoding, `find_sync`, frame walk, Xing/VBRI tags | sweep over header fields, induction over stream |
| C37 | genre tables and the Berghel-Roach distance code with its shared array | cells = furthest reach of an alignment relation; invariant over comparisons; sweep over table |
| C38, C54, C55 | `escape`, the CSV printer and report rows against an RFC 4180 reader | induction; refutation |
| C39, C46, C48, C56-C58 | template lexer, parser, evaluation helpers | induction over texts and grammar; refutations |
| C40 | `split_file` over a file system | slicing; every crash point |
| C41 | `renamer::process_file` over a file system | invariant over steps |
| C42, C47 | `tagset_processor::process_file`, `process_dirent_args` | induction |
| C43 | popm `process_tag` | case analysis / fold induction |
| C44, C51 | the name tables | finite sweep |
| C45 | `set_text_frame` | list induction |
| C50 | the three parse loops against a layout specification | induction over the frames laid out |
| C52, C53 | `convert_encoding` around a parameter standing for iconv; locale parsing | fuel induction; refutations |

Properties from C59 on were added as the model grew; their rows are in
section 7.  Nothing in the list is inexpressible; what is left out of the model
is stated in section 5.

## 3. Trusted base

* Coq 8.16.1's kernel, including its virtual machine (`vm_compute` closes the
  sweeps over tables and the concrete examples; `coqchk`, which has none,
  re-checks them by ordinary reduction).
* `Print Assumptions` stands below every property theorem.  Every one of them
  prints "Closed under the global context": no theorem depends on an axiom.
* The compiled library as a whole loads seven constants that `coqchk` lists as
  axioms, all of them from the standard library's `Coq.ssr.ssrunder` (brought in
  by `Require`s of the library, used by no theorem here):
  `Coq.ssr.ssrunder.Under_rel.Under_rel`, `.Under_rel_from_rel`, `.Under_relE`,
  `.under_rel_done`, `.Over_rel`, `.over_rel`, `.over_rel_done`.
* The fidelity of the model to the C++ text, definition by definition (each
  definition cites its source lines and its simplifications), and of the
  specifications in `S_*.v` to the English statements.

## 4. What is modelled

| model | code |
|-------|------|
| `M_Ints`, `M_Unsync`, `M_Stream` | size fields, unsynchronisation, `looking_at_id3v2`; input streams as content, position, state bits and exception mask |
| `M_Count` | `needs_unsynchronisation` and `serialized_size` of the payload classes, added up part by part |
| `M_Open1` | `id3v1_tag(std::istream&, bool)` |
| `M_Crc` | `id3v2_3_tag(cbpad, fexp, want_extended_header)`: the tag constructed with an extended header |
| `M_Open` | the constructors of the three tag classes from a stream alone: the header read in two halves, what happens without one |
| `M_Id3v1` | scribbu/id3v1.{hh,cc} complete, except `operator<<` |
| `M_Payload`, `M_Cloud`, `M_Url` | payloads of UFID, text, TXXX, COMM, PCNT, POPM, PRIV, ENCR, XTAG frames of all three versions; URL encoding |
| `M_Frame`, `M_Tag22`, `M_Tag23`, `M_Tag24` | frame headers and caches, tag constructors from streams, `size`, `write`, extended headers, padding, unsynchronisation |
| `M_Lookup`, `M_Copy` | frame lists with their lookup tables, edits, copy construction |
| `M_TextId`, `M_Charset`, `M_Genres`, `M_Match` | text frame names and identifiers, character encodings and conversion, genre tables and matching |
| `M_Mp3`, `M_Read`, `M_Track` | MPEG frame headers, sync search, durations, reading all or one ID3v2 tag, track data |
| `M_Fs`, `M_Tagset` | paths and files; padding adjustment, copying and in-place rewriting, backups, strategies |
| `M_Csv`, `M_Json` | CSV pretty-printer and the report command's rows; JSON pretty-printer and the dump command in JSON |
| `M_Dump` | the dump command in its standard format: `standard_pprinter` (scribbu/pprinter.cc), reading, choice of parts, the walk over the arguments. Times are texts as printed; the encoding of ID3v2 frames is not forced |
| `M_Move` | move assignment of frame proxies, `remove_if` as libstdc++ has it, and the erase-remove idiom on top of `M_Lookup`. Frames are moved within one tag only |
| `M_Ios` | the printer and encoding a stream holds: manipulators, callbacks, `copyfmt` and destruction as libstdc++ calls them, allocated objects with how they were allocated. Allocation does not fail; wide streams and the stream state are not modelled |
| `M_Row` | single frames as the CSV and TDF printers print them: every kind of frame of every version, the stream's number base from one frame to the next. Stream failure is not modelled; other fields of the stream's format are as by default |
| `M_Main` | the arguments of the main program (src/main.cc), registration of the sub-commands, the help options common to sub-commands (src/command-utilities.cc); what `exec` and the Guile shell do is a parameter |
| `M_Outputs` | the report command's handler on the file system: options, opening the output (unchecked, as in the code), the walk over the arguments, summary and status. Text is in the file as soon as it is written to the stream; writing does not fail |
| `M_Naming` | the rename command's handler from options and file contents to new names: what is read of a file, which frames stand for artist, title and so on by version, default template, status. All six texts are converted before the template is evaluated, where the code converts them when asked for |
| `M_JsonDump` | scribbu/json-pprinter.cc and src/dump.cc:170-268: the texts that the JSON printer is given, what has been written when one cannot be had, files and arguments. Over M_Json, M_Dump |
| `M_CsvDump` | src/dump.cc:231-268 with the CSV printer of M_Report: one file; arguments and status as in M_Dump |
| `M_Po` | the tables of options and variables of nine sub-commands (src/popm.cc:731-822, src/xtag.cc:490-565, src/text.cc:365-443, src/genre.cc:814-906, src/rename.cc:205-264, src/dump.cc:362-425, src/report.cc:508-531, src/m3u.cc:331-354, src/split.cc:172-180), and what boost::program_options (of 1.65 and later; not in the repository) does with them: the default style of command lines, look-up of names that are cut short, the environment, casts, final values, defaults, required options; then popm, xtag, text and genre as commands (M_Options) |
| `M_Options` | the handlers of text, genre, popm and xtag from the option values on: checks, defaults, policies, the run over all arguments, the exit status. What is printed is left out |
| `M_Encodings` | the listing of encodings (src/encodings.cc) and the names of responses to unconvertible text |
| `M_Report` | the report command on files: reading, the rows of the CSV and delimited printers written piece by piece, directories, counts and exit status |
| `M_Lang` | languages: the enumerators and the three tables (codes to languages, languages to codes, two-letter codes), reading and printing, the language of the locale. An enumerator is its name |
| `M_Tbt` | template lexer, parser and evaluation |
| `M_Program` | from the values of the options to the handlers of rename, report, m3u, dump, split and encodings (src/rename.cc:264-300, src/report.cc:531-600, src/m3u.cc:354-420, src/dump.cc:425-520, src/split.cc:180-215, src/encodings.cc), the table of all ten sub-commands and main as a whole (src/scribbu.cc:383-481); what Guile does and the status of the programs that show pages are parameters |
| `M_Vbr` | the Xing and LAME tags in full (M_Mp3 keeps what durations need) |
| `M_What` | the messages of the exceptions |
| `M_Split`, `M_Rename`, `M_Process`, `M_Dirent`, `M_Popm` | the split and rename commands, batch processing of tags, directory traversal, the popm command |
| `M_Cmds` | the genre and text commands (src/genre.cc, src/text.cc without option parsing), copies between tag versions (src/command-utilities.{cc,hh}), `tagset_processor` with these virtuals |
| `M_Xtag` | the xtag command (src/xtag.cc): processing of a tag, the processor's virtuals, options and policies from parsed arguments |
| `M_Scheme` | Scheme values and objects of the Guile bindings (scribbu/scheme-serde.{hh,cc}): conversion of frames of all three versions to objects and back, symbols and their identifiers. What Guile does with strings is a parameter; objects are of the classes themselves, not of subclasses; lists are shorter than 2^31 |
| `M_Scheme2` | the procedures read-tagset, write-tagset, read-id3v1-tag, write-id3v1-tag, with-track-in (scribbu/scheme.cc) with the errors they raise; has-frame?, get-frames, fs-tree-generator, flat-file-system-tree (scheme/scribbu.scm). Keyword arguments are bound, directories cannot be opened as files, listing a directory does not fail, there are no cycles of links |
| `M_Display` | how tags, frames and data are printed (the display methods and pp-bytevector, scheme/scribbu.scm:141-145, 205-293). What Guile prints for strings in quotes and for lists is a parameter; `format` is that of (ice-9 format) |
| `M_Start` | setting up the interpreter: the welcome and the load path (scribbu/scheme.cc:785-892), with the two variables as the state |
| `M_Register` | registering parsers for frames (id3v22.cc:93-152, 188-212, 773-802, 951-1012; id3v22.hh:566-628; the tables and `parsing_is_reserved` of id3v23.cc and id3v24.cc); the mutex as atomic steps of any number of threads |
| `M_Unwind` | the order in which the five Scheme procedures acquire, call, may fail and release (dynwind-context.hh/.cc; scheme.cc:278-755; scheme-serde.cc as far as scheme.cc calls it): a relation between a skeleton, the way it ends and the events seen. What the calls compute, exception objects, and failures inside the handler of `scm_c_catch` are left out; Guile's `scm_dynwind_free` is taken to free on a normal end and on unwinding, and a raised error to run no C++ destructor |
| `M_Each` | loops over a tag's frames that erase through iterators, from the front and from the back (id3v2.hh:932-1060, `erase` of the three tag classes as in `M_Lookup`) |
| `M_M3u` | the m3u command (src/m3u.cc) writing to a file: display title, entry, opening and appending, the walk over the arguments; the text for standard output (`m3u_lines`). Durations are exact fractions; messages of --verbose and errors in writing are left out |

### Simplifications

* External libraries are parameters of the model, quantified over in the
  theorems: iconv, zlib, MD5, `<locale>` character classification, UTF-8 decoding
  with `tolower` in genre matching, the order in which directories are listed,
  the template function in the rename command.
* The file system has no symbolic links (unless a definition says otherwise), no
  permissions and no concurrent processes; a failing copy or rename is an
  environment choice the theorems quantify over.  Streams opened for writing are
  unbuffered; the bytes of one in-place rewrite are one change.
* The bison LALR tables are replaced by a predictive parser for the same grammar;
  flex rules are modelled as longest match in rule order.
* Durations are fractions, not `double`s.
* `std::size_t` and friends are 64 bit; where a difference can wrap, it does.
* Memory is not exhausted, the stack does not overflow.
* A directory's listing is fixed while it is traversed.
* The lookup tables of tags are left out of the command models (`M_Popm` and
  later ones); `M_Lookup` is where they are modelled.

## 5. Not modelled

Guile itself (values are those of `M_Scheme`), scribbu/dirent.hh as seen from
Scheme, scripts; boost program options in M_Po is our reading of that library (wide characters, response files, configuration files and grouped digits are left out), iostream formatting beyond
what the CSV and JSON printers use, memory exhaustion.

## 6. Findings

Behaviour of the code that refutes a property or surprised the modeller.  Those
with a theorem are marked with it.

**Frames and tags.**
* `ff e0`..`ff e9` pass the "needs unsynchronisation" test (C05_test_agrees_refuted).
* Enhanced-only setters on a standard ID3v1 tag make `write` read out of bounds; tags made from scratch have uninitialised members (C07).
* Removing an ID3v1 tag throws on a stray `TAG+` at -355 (C09_remove_total_refuted).
* Incrementing a play counter of 2^32-1 makes an unreadable one (C10_inc_refuted).
* ENCR frames are written without the NUL after the e-mail (C13).
* Status flags come back one place off, group identifiers are lost (C15).
* ID3v2.4 sizes count the padding twice (C16_v24_padding_refuted); saving in place then throws.
* The two caches of an ID3v2.2 frame are swapped (C18_v22_refuted), so that saved tags are unsynchronised exactly when that is not wanted (C81_always22_refuted, C81_never22_refuted).
* An ID3v2.4 tag is unsynchronised "as needed" only if every frame needs it (C81_needed24_refuted), and its header never says so (C81_mark24_refuted); extended headers of ID3v2.3 are written from the wrong cache (C81_ext_refuted).
* Parsing reads past the end of a tag, and loops for ever on encrypted ENCR frames (C20).
* Setters do not mark frames as changed, so cached bytes are written after an edit (C23).
* Lookup tables go stale on insertion and removal (C21), and are not copied (C22).
* `id3v2_tag(istream&)` leaves its version uninitialised if there is no tag; the ID3v2.2 constructor ignores its padding argument.
* `comments::count_syncs` calls `front()` on an empty text; `tag_cloud::count_syncs` dereferences `begin()` of an empty cloud; `play_count::counterb` lacks a return.

**Reading and writing files.**
* Reading a tag by index starts ten bytes early (C28).
* A relative path gets backup number 1 every time, overwriting it (C31).
* A wrapping first padding zeroes the whole audio (C34_zeroed_refuted); an empty tagset divides by zero (C34_empty_refuted).
* ID3v2.4 tags are saved in place only where their size, with the padding counted twice, is exactly that of the tags
  there: giving them the room that is left changes their size twice as much as needed, and the save is refused
  (C34_room_refuted). Where the file is rewritten, the header claims as many bytes of the audio as the tag has padding
  (C34_swallowed_refuted).
* An ID3v2.3 extended header with a false sync overwrites the first audio byte (C32_extended_refuted).
* Rewriting across devices leaves the temporary file behind (C29_leftover_refuted).
* Overlapping tags wrap the size of the audio (C27_overlap_refuted).

**MPEG.** `find_sync` reads an uninitialised buffer at the end of file, the search
after a frame skips three positions, only the first frame's duration counts, VBRI
fields are read into a 16 bit variable, whatever the stream (C36, C110_vbri_refuted).

**Texts.** Conversions that grow more than fourfold are lost or overrun the buffer,
the UTF-32BE byte order mark is wrong, trailing spaces are stripped (C52); the
encoding named in the locale is never found because the dot is kept (C53); a new
text frame is ISO 8859-1 whatever the text (C45).

**Reports.** Play counts are printed in base sixteen (C55); a field that begins with a
quote is printed unquoted (C38); without comment columns rows have a field too many (C54).

**Templates.** `\=` keeps its backslash (C39); many documented options never parse
(C57); the automatic ID3v1 encoding throws without a byte order mark (C46); a
refused template leaves the scanner in its state (C56); `ws` and `compress` never
merge runs (C58).

**Commands.** `split` empties an input named like its own track piece (C40_own_name_refuted);
one taken name ends a whole `rename` batch (C41_taken); a `--tag` list exhausted
early calls `front()` on an empty deque (C42_exhausted_refuted), an unordered one
skips tags (C42_unordered_refuted); `popm --create-frame` restricted to play counters
changes popularimeters too (C43_create_refuted), counts from 2^32 on can be set but
never incremented (C43_large_refuted); `popm` ignores `--tag` (C89_popm_tag_refuted).

**Genres.** The empty text reads out of bounds, a text of 22 or more characters that
shares none with any genre returns an uninitialised genre, and cells left by earlier
comparisons end later ones early, so that a closer genre is missed (C37).

**JSON.** UFID, PCNT and tag cloud frames are printed with a quote missing or too
many, the album of an ID3v1 tag without escapes, every tag as unsynchronised, and all
ID3v2.2 and 2.4 tags as something that is not JSON; making a string of their frames
reads an unterminated buffer, and the 2.4 functions for PRIV and XTAG are never found (C59).

**Genre, text, copies.** `genre` fails on a file, writing nothing, if one tag in scope
has no content type (C62_missing_refuted); a long free text that shares no letter with
any genre uses an uninitialised variable, even with `--v1` (C62_foreign_refuted);
`--v1` and `--verbose` share a letter, and `--v1` reads one character, not a number.
`text` deletes by stale indices unless frames are named last to first
(C63_delete_order_refuted); it never updates ID3v1 tags unless tags are named by
number, although its usage text says so, and never writes a file that has only an ID3v1 tag
(C63_v1_kept_refuted, C63_v1_only_refuted).  Making an ID3v2 tag from an ID3v1 tag fails on
any Latin-1 letter (C64_latin1_refuted) and drops the track number, speed and times
(C64_others_refuted); the other way fails unless the first tag has all of TALB, TPE1,
TIT2, TYER and every tag a TCON (C64_lacks_refuted), and stores UTF-8 in ID3v1 fields, which
the reader does not take.  Without a genre text, the genre is 0, "Blues".

**xtag --get writes (C67).** `scribbu xtag --get` reports every tag with a matching
XTAG frame as changed, and the processor for it is built with `dry_run` and
`create_backups` false: every file with a matching cloud is written anew, in place,
though nothing was to be changed; `--dry-run` and `--create-backups` are ignored.
An unsynchronised tag, for one, comes out different.  A cloud that is empty (or has
the empty key without values only) is not printed at all.

**xtag --create-v2 without a cloud (C68).** Without `--create-frame`, a file that is
given a new ID3v2 tag gets one without XTAG frame, contrary to the usage text.

**Playlists (C69).** A title with a line end is written as it is: what follows it is an
entry of its own, so a tag can add any path to the playlist (`C69_newline_refuted`). A
path that starts with `#` is a comment (`C69_comment_refuted`). Appending writes another
header, without checking that the file ends in a line end: the last entry then becomes
`last.mp3#EXTM3U` (`C69_append_refuted`). Every regular file is listed, the playlist too
if it lies in the directory (`C69_itself_refuted`), and files that are no audio with 0
seconds. Under a locale that names an encoding the command fails unless -8 is given
(`C69_locale_refuted`, from C53). The option looked up for `-s` is `encoding`, which does
not exist: it has no effect (`C69_source_refuted`).

**Display titles (C70).** Only `iconv_error` is caught: a frame with an unknown encoding
byte ends the run (`C70_encoding_refuted`), leaving the playlist unfinished
(`C69_crash`). A frame that cannot be converted leads to the file's name, without a look
at the ID3v1 tag (`C70_fallback_refuted`).

**Delimited reports (C71).** `scribbu report --tsv` writes titles and comments as they are.
A tabulator in one (or, with `--ascii-delimited`, a unit separator) moves the columns after
it; a line feed ends the row.

**Years in reports (C54).** The row of an ID3v2.2 tag asks for the frame TYR. The year is
TYE. The column is empty, or it holds the word "TYR".

**Files that are never reported (C72).** The play count of an ID3v2.4 tag is looked up as
CNT, which no such tag has. With exactly one PCNT frame the lookup throws in the middle of
the row, for whatever file.

**Pieces of rows (C72).** When a file fails after its row has been begun, what has been
written stays, without a line end, and the next file's row continues the line.

**Languages (C73).** Five codes of ISO 639-2 ("asm" and four others) are enumerators in
capitals and are only read and written so: the comment made with them has a language that no
other program knows. A locale whose first two letters are no code, like POSIX, makes
`language_from_locale` answer "from the locale" again, and making a comment throws. Only two
letters count: fil_PH is taken for Finnish.

**Empty directories (C76).** `flat-file-system-tree` takes whatever has no children for a
file, so an empty directory is in its list.

**with-track-in (C78).** If the ID3v2 tags of a file cannot be read, the procedure is not
given the ID3v1 tag either. One path that is not UTF-8 ends the walk with an error.

**Frame objects in Scheme (C79).** What `write-tagset` is given is often not what is read
again, or is not written at all:
- If the conversion of a known frame throws (a text that is not Latin-1 in ID3v2.2 or 2.3,
  a language that is not known, a symbol given to an object of another class), the object
  is converted again as that of an unknown frame, whatever its class: slots 5 and 6 are
  taken as identifier and bytevector without a check. A text frame has no slot 6; in a
  comment slot 6 is the description (C79_text_refuted, C79_class_refuted,
  C79_language_refuted). A Greek title in an ID3v2.3 tag is thus undefined behaviour.
- `ser_tag_cloud_2_2` and `_2_4` ask for `scm_list_ref(scm, 0)` with a C zero, which is a
  null pointer and not a Scheme number (C79_cloud_refuted).
- Every ID3v2.2 tag is made from objects that leave a member unset that is used when it is
  written (C79_old_refuted).
- User-defined texts in ID3v2.4 are stored with the encoding byte 4, which no reader
  accepts; they come back as unknown frames (C79_udt_refuted). So do play counts from 2^32
  (C79_count_refuted).
- `ser_unknown_frame_2_4` takes the unsynchronisation mark from the slot of the read-only
  mark (C79_unsync_refuted).
- A `<priv-frame>` object is never written as a private frame, in any version: `ser_priv_2_3`
  and `ser_priv_2_4` (scheme-serde.cc:1392-1460) are registered for no symbol, nor are the
  functions that would make the objects (734-782). The object is taken for an unknown frame: the
  first four letters of its owner are its identifier, and ten bytes of its data are lost
  (C79_private_refuted). The default object, with no owner and no data, is read out of
  bounds. Private frames that are read come as unknown frames (C82_private_refuted).
- The manual calls the popularimeter symbol 'pop-frame; the code has 'popm-frame.

**ID3v1 tags through Scheme (C80).**  `write-id3v1-tag` stores texts in UTF-8 and
`read-id3v1-tag` takes them to be ISO-8859-1: every text that is not ASCII comes back
with each of its characters in two or more (`C80_latin_refuted`).  Of an enhanced tag
`read-id3v1-tag` puts the genre, speed, start and end in slots 6 to 9, one early: the
track number is lost, the last slot is empty, and the object cannot be written, since
a number is expected in slot 6 (`C80_enhanced_refuted`).

**Tags as scripts see them (C82).**  `read-tagset` shows only the first of several texts
of a frame, though ID3v2.4 allows lists (`C82_several_refuted`), converts UTF-16BE text as
"UTF-16", which the library may take for little-endian (`C82_utf16be_refuted`), fails for
the whole file if the owner of one tag cloud is not UTF-8 (`C82_cloud_refuted`), and hands
out the bytes of unknown ID3v2.2 frames unsynchronised exactly if they are not so in the
tag (`C82_bytes22_refuted`).

**Templates on files (C83).**  The MD5 digest is written as its sixteen raw bytes, which
then become part of a file name (`C83_md5_refuted`).  ID3v1 texts marked as UTF-16LE are
decoded as UTF-16BE (`C83_byte_order_refuted`).  The two-digit year of "1985-08-05" is
"85-08-05" (`C83_year_refuted`); the year of an ID3v1 tag always throws an exception that
optional parts do not catch (`C83_year_v1_refuted`), as do capitalizing the extension of
a file that has none (`C83_extension_refuted`) and an empty "encoded by" frame
(`C83_encoder_refuted`).

- **ID3v2.4 extended headers (C16, C19).**  `ext_header::write` omits the byte that tells the length of the checksum
  and the one that tells the length of the restrictions, although `size()` counts them and the constructor wants them.
  So for every tag with either the size is wrong, and the tag cannot be read back (`P_Ext.v`).

**Dumps in the standard format (C84).**  The functions that print ID3v2.4 private frames and
tag clouds are registered with the ID3v2.3 frames, so a file with such a frame is not
dumped beyond it (`C84_private_refuted`, `C84_stops_refuted`).  A play counter of more than four
bytes ends the dump too; an empty one and an empty ID3v2.3 private frame are undefined
behaviour.  None of this changes the exit status (`C84_run`).  Comments and unknown
frames are printed without the indentation; the data of an ENCR frame comes out as raw
bytes, each after a digit 0 (`fl_encr` in S_Dump).  Language codes that are not known are printed
as numbers, those from 80 hexadecimal on as `0xffffff..`.  A text with a line end cannot be
told from two frames (`C84_newline_refuted`).

- **Moving frames leaves the lookups wrong (C85).** The move assignment of frame proxies, written for `remove_if`,
  registers the frame that is moved out of the way but not the one that is moved in. After the erase-remove idiom every
  frame that stays is registered under the place it had: `get_frame` returns another frame or throws. Comments,
  counters and popularimeters are found by place alone, so that removing a comment that stands before another takes the
  other's entry out and leaves a pointer to the destroyed one.
- **User-defined texts cannot be removed by `remove_if` (C85)**: the same entry that `erase` looks for in vain.
- **Stream settings (C86).** `ienc::callback` copies an encoding on `copyfmt` with `strdup`, as if the object were a C
  string: one or two of its eight bytes are copied, and reading the encoding of the other stream reads past them. It frees
  encodings as `char*`. `pprint_manipulator` hands its printer over on the first `<<` and null on the next: the second stream
  loses the printer it had, and, since a null word makes `do_manip` register its callback again, a printer set later on that
  stream is deleted twice when the stream goes.

- **Frames as CSV or TDF (C87).** Single frames print their numbers in whatever base the stream is in, and every
  popularimeter (and track data, and tag) leaves it in base sixteen: a play count of 256 printed next comes out as
  `100` (C87_counts_refuted, an equivalence). Counts are cut to 32 bits. File identifiers and encryption data are
  printed as `0` and the raw byte, for each byte, where hexadecimal is meant: no non-empty one ever reads back, and a
  separator or line feed in it breaks the row (C87_binary_refuted). The e-mail address of a private frame, the language
  of a comment and the identifier of an unknown frame are not escaped (C87_unescaped_refuted). The TDF printer escapes
  nothing (C87_tdf_refuted). The CSV printer takes the e-mail address of an ID3v2.2 popularimeter for UTF-8, and that of
  the other versions for ISO-8859-1.

- **Main program (C88).** On misuse the names of the sub-commands are printed on standard output
  (C88_misused_refuted; `usage` is given a stream, but lists them with an iterator on `cout`).  Guile options given before a
  sub-command are checked and dropped.  `--languageXYZ` and `--listenfoo` pass as options of Guile.  A last option without
  its value is misuse even if help or the version was asked for before.
- **Options (C89).** `popm --tag` is parsed into a variable of its own that nothing reads, so that every tag is changed
  (C89_popm_tag_refuted).  `genre --v1` is declared as `unsigned char`, which boost reads as a character: `--v1 7` sets
  genre 55, `--v1 17` is refused (C89_genre_v1_refuted).  One unreadable file ends the run for all those after
  it (C89_stops_refuted).  `text -d` with an unknown name gives status 1, not 2.  `genre -v` is ambiguous.
  `m3u --source-encoding` has no effect, as the handler looks for `encoding`.

- **Short audio (C90).** An ID3v1 tag is looked for in the last 128 (or 355) bytes of the file, whatever stands there.  Where the audio is shorter than that, bytes of an ID3v2 frame can be taken for an ID3v1 tag; C90 therefore asks for 355 bytes of audio.
- **Reports over their own input, and reports never written (C91).** The output of the report command is opened, and emptied, before anything is read: given as an argument as well, the file is lost, with status 0 (C91_overwritten_refuted). Whether it could be opened is not looked at: in a directory that is not there nothing is written, and the summary and status are those of success (C91_unwritten_refuted). --ascii-delimited, "may be used only with --tsv", is accepted and ignored without (C91_ascii_refuted).

- **Names made of texts (C92).** Texts go into file names as they are. A slash in an artist ("AC/DC") makes the destination lie in another directory: the run fails
  if there is none of that name (C92_slash_refuted); a text beginning with a slash makes the destination absolute, so that the file leaves the directory given with
  `--output` (C92_outside_refuted). A name that is taken, or a file with nothing but an ID3v1 tag, ends the run with status 1: the arguments after it are not looked
  at (C92_stops_refuted, C92_v1_refuted).

- **Dumps in JSON (C93).** An object is written to the standard output piece by
  piece; when a frame cannot be printed (a text that cannot be converted, a counter of
  more than four bytes) the file is given up with its object open and no line end, the
  run goes on with the next file, and ends with status 0: no reader of JSON gets
  anything from the output. Files with an ID3v2.2 or ID3v2.4 tag are never dumped in
  JSON (the text of a frame is not terminated), and every ID3v2.3 tag is said to be
  unsynchronised, because what is asked is whether the flag is known.

- **Dumps in CSV (C94).** Nothing is printed between the columns of a tag, of the track
  and of the ID3v1 tag, where the report command prints a separator: the size of the
  track stands in the column of the last comment, and the digest is followed by the
  digit that says whether the ID3v1 tag is ID3v1.1. Before each row there are two lines
  with the path in quotes and a colon, and the time; no reader of CSV gets past them.

- **genre's -v (C95).** `-v` is declared for both `--v1` and `--verbose`; the library finds it ambiguous, so each
  use of it is wrong usage.
- **SCRIBBU_CREATE (C95).** popm and xtag map the variable to an option `create` that they do not have: with it in the
  environment (whatever its value) they refuse to do anything, with status 2.
- **Output paths with blanks (C95).** `--output` of rename, report and m3u, and SCRIBBU_OUTPUT, are read by `operator>>` for
  paths, which stops at a blank; `report -o "my report.csv"` is refused.
- **Unknown encodings and formats (C95).** The exception of the extraction operator is not one of the library's: status 1
  with the text of `unordered_map::at` instead of status 2 with the usage.
- **Negative numbers (C95).** `popm --count=-5` is taken and means 2^64 - 5.
- **Help by words (C95).** Help is looked for in the words of the command line: `--hel` (a lawful abbreviation) or `-nh` run the
  command, and a file named `-h` after `--` shows help.
- **The encoding of m3u's --source-encoding is never used (C96).** It is stored as
  "source-encoding" but looked up as "encoding", which no option is called: two runs that
  differ only in it do the same (`C96_source_refuted`).
- **m3u without arguments fails instead of telling its usage (C96).** The arguments are
  looked up with `as<>` although they need not be there: the cast throws, and the status
  is 1, not 2 (`C96_m3u_arguments_refuted`).
- **encodings passes over its arguments (C96).** They do not narrow the list and are not
  told as wrong usage (`C96_encodings_refuted`).

- **Length of a compressed frame (C15).** The length of the contents of a compressed ID3v2.3
  frame is written in host order, least significant byte first, where the standard has it the other
  way round (`C15_v23_length_refuted`, for every frame with contents of fewer than 65536 bytes).

- **Constructors from a stream never say that there is no tag (C99).** If the bytes at the
  stream's position do not begin a header, the constructor goes back and takes the same five
  bytes for flags and size. In front of MPEG audio `id3v2_2_tag(is)` is an empty tag,
  `id3v2_3_tag(is)` reads outside a buffer of no bytes (the flags "announce" an extended
  header) and `id3v2_4_tag(is)` complains of an extended header. `version_` stays
  uninitialised.
- **Nor that it is of another version (C99).** `id3v2_3_tag(is)` on an ID3v2.4 tag can merge
  two frames into one, without an exception.
- **A header without a size leaves the stream inside it (C99).** Five bytes in, so whatever
  looks for the next tag starts in the middle of a header.
- **A cut-off header and the caller's exception mask (C99).** With eofbit or failbit in it
  the handlers' own `is.exceptions(exc_mask)` throws before the position is restored.
- **Registrations without a method (C13).** An ENCR frame that ends with its e-mail or the
  NUL after it is read without complaint; writing it uses a method that was never set.
- **Text after a NUL (C52).** Converting a string to bytes stops at the first NUL.
- **Payloads miscount their syncs (C100).** The payload classes add up syncs
  part by part and get the joints wrong. A comment counts a pair across the
  terminator that separates it, and reads the first byte of an empty text when
  there is a description. A tag cloud reads the first value of a key without
  values, and looks at the byte count of the values in the machine's byte order
  although it is written big-endian. `serialized_size(true)` forgets that a string
  ending with ff is followed by a NUL. The frames themselves count syncs over the
  bytes they have written (C81), so files are not affected; callers of these
  functions on the payloads are.

- **No checksum is ever checked (C101).** A tag read with any checksum in its extended header reads
  the same as with any other (`C101_unchecked_refuted`, `C101_v24_unchecked_refuted`), ID3v2.3 and 2.4 alike.
- **An ID3v2.4 tag keeps the checksum it was read with (C101).** Nothing marks it as out of date, so
  whatever frames the tag has by the time it is written the old one is written (`C101_v24_stale_refuted`); and
  as it is written sync-safe in four bytes rather than five, a tag with a checksum of 2^28 or more —
  fifteen of sixteen — cannot be written at all, an exception of `sync_safe_from_unsigned`
  (`C101_v24_unwritable_refuted`).
- **The ID3v2.3 extended header tells of an old padding (C101).** `write()` gives the padding that was there
  when the tag was read or constructed, not the tag's (`C101_padding_refuted`), and stuffs the header
  even when no unsynchronisation is asked for, so that it is longer than it says (`C101_stuffed_refuted`).

- **ID3v1 constructors do not leave streams as they promise (C103).** The one that is told the kind never
  puts the caller's exception mask back (`C103_mask_refuted`); where there is no tag neither does
  (`C103_unmarked_refuted`, `C103_length_refuted`); and where too little is there, `seekg` is called on a stream
  that has failed, which does nothing, and putting the mask back throws `ios_base::failure` instead of
  `invalid_tag` if the mask has the failbit (`C103_short_refuted`).

- **Files named with a backup's name are lost (C104).** `popm --create-backups f f.1` in the working directory
  writes the backup of `f` over `f.1` (C31) and then processes that instead (`C104_clash_refuted`).

- **Printing a user-defined text frame leaves out its text** (scheme/scribbu.scm:246-247; `C105_user_text_refuted`): two
  frames with the same description print the same. The module also uses directives (`~2,'0x`, `~c`, `~d`) that only
  (ice-9 format) knows, without importing it: printing depends on that module having been loaded elsewhere.
- **With an empty %load-path scribbu's directory is not added** (scribbu/scheme.cc:857; `C106_empty_refuted`), as the list
  is tested for being a pair; nor is it when `*version*` is not a string (`C106_version_refuted`).

- **Registered parsers** (C107). `register_default_frame_parser` of ID3v2.3 and the two of ID3v2.4 are declared and not
  defined, so no application can link against them. For ID3v2.2, the header says that `false` means another parser was
  replaced; the new one is dropped instead (`C107_replaced_refuted`). Text parsers are accepted for `COM`, `CNT` and `POP`
  and never used (`C107_accepted_refuted`), while `PCT`, which nothing uses, is refused in place of `CNT`
  (`C107_reserved_refuted`). A parser registered with a tag is never run, since tags read their frames only while they are
  constructed (`C107_tag_refuted`).
- **C108, descriptors are lost when an error is raised.** Guile's errors leave C++ frames without running destructors
  (the code knows: "Will *not* return or file dtors!", scheme.cc:633). `read_tagset` raises `invalid-tag` (scheme.cc:414-418)
  while its `ifstream` is open, so every file with a bad tag costs a descriptor; `with_track_in` catches the error and goes
  on, so one walk over a large collection can run out of them (`C108_walk_refuted`). A procedure that raises inside a walk
  leaves the directory open as well (`C108_directory_refuted`). The C strings, which are registered with a
  `dynwind_context`, are freed in every case (`C108_strings`).
- **C109, the iterator `erase` answers cannot be erased through.** `erase` takes the erased frame's entries out of the
  tag's tables but leaves the indices of the frames after it as they were; the next `erase` at that place looks for an entry
  that is not there and passes `end()` to the container's `erase`, which is undefined. So the usual loop
  `p = tag.erase(p)` breaks as soon as two neighbouring frames go, or two with others between
  (`C109_again_refuted`, `C109_two_refuted`). Going from the back works (`C109_back_partial`).
- An ID3v2.4 text frame set in UTF-16BE without a byte order mark is stored so, behind
  the right byte, but read as UTF-16, in whatever byte order the conversion library
  takes by itself (C45_utf16be_v24_refuted; framesv24.cc:38-80).

* The message about an unknown frame ends at a zero byte in its identifier, which nothing rules out (C111_zero_refuted).

## 7. Properties added as the model grew

| id | what is modelled | how it is proved |
|----|------------------|------------------|
| C59 | `json-pprinter.cc` for all frame kinds, tags, track and ID3v1 tags, `dump` in JSON (M_Json); a JSON reader per RFC 8259 (S_Json) | printed text = compact text of the object, reader inverts it (induction over values, fuel bound); rejection by a scanner every accepted text runs through |
| C60, C61 | string escapes, numerals, digests | induction over texts; digits of a byte by enumeration |
| C62, C63 | genre and text commands on tagsets (M_Cmds) | generic lemma on what a command does per tag in scope (`tagset_scope`), per-tag lemmas; refutations for all files of a shape |
| C64 | copies between ID3v1 and ID3v2 tags | case analysis per field with an iconv that agrees on ASCII |
| C65 | `process_file` for any command | the tagset's result as the list of calls it makes, induction over tags |
| C66, C67, C68 | the xtag command (M_Xtag) | frame by frame with the meaning of the tag text from C26, then `tagset_scope` for tags in scope; state simulation for the text printed |
| C69, C70 | the m3u command (M_M3u), with a separate reader for playlists (S_M3u) | induction over the files visited (via C47), states as prefixes; the title by case analysis with the lookup invariants of C20 |
| C71, C72 | the report command (M_Report), with a reader for delimited text and what a row has to say (S_Tdf) | row text as a function of what is said of the file, shared by both printers; induction over files; a column at a time for the pieces left |
| C73 | languages (M_Lang), with the table of the standard written out again (S_Lang) | tables compared by computation inside general lemmas on association lists; words by induction over the text |
| C74 | saving (M_Tagset) followed by reading (M_Read); which tags can come back is a predicate of its own (S_Saved) | the round trips of C17 to C19 at an arbitrary offset, composed by induction over the tags; coherence of caches as an invariant of taking sizes |
| C75, C76 | has-frame?, get-frames, the generator of paths, the flattened tree (M_Scheme2) | induction over the frames; the stack of the generator as a list of directories still to read, against an inductive relation for what is below a directory |
| C77, C78 | errors of the procedures and with-track-in (M_Scheme2) | what is raised before any effect, then C30 and C34; induction over the entries with the file system threaded through an arbitrary procedure |
| C79 | frame objects to frames and back (M_Scheme), tags and files (M_Scheme2), with the manual's table and what comes back of each object as a relation of its own (S_Scheme2) | object by object, each conversion inverted under a hypothesis on Guile's conversions; induction over frames and tags; C74 for the file in between |
| C80 | write-id3v1-tag and read-id3v1-tag (M_Scheme2) | the tag made of an object in closed form; what each field shows of its bytes; C09 for the file in between |
| C81 | saving one tag with a policy (M_Tagset `emit`) | the bytes in parts; neighbours across the borders of parts; what the caches hold |
| C82 | frames to objects (M_Scheme) and read-tagset (M_Scheme2), against the manual's table and a relation between frames and what is shown of them (S_Scheme4) | frame by frame through the dispatch table, both directions of the equivalence; then by Forall2 over frames and tags |
| C83 | evaluation of compiled templates (M_Tbt `process`), against relations for sources, articles, case, blanks, names and numerals (S_Tbt2) | each function equivalent to its relation; induction over terms nested in optional parts |
| C84 | the standard format of the dump command (M_Dump), against lines for each kind of frame, tag, track and file (S_Dump) | output of each function is the lines of its relation and conversely; Forall2 over frames and tags; inversion of the reading loop |
| C85 | move assignment, `remove_if`, `erase` of a range (M_Move), against the filter of the frames and the answers of S_Lookup | invariant of the loop: tables up to order, with the place each frame is registered under; a lost comment entry followed through the moves |
| C86 | printer and encoding manipulators, their stream callbacks, `copyfmt` and destructors (M_Ios), against a book of settings (S_Ios) | invariant over histories: every allocated block has exactly one owner, callbacks match the words that are set; then one history each for copies and reuse, for any prefix |
| C87 | the frame functions of the CSV and TDF printers (M_Row), against the fields of a frame and readers of both formats (S_Row, S_Csv) | field by field, then induction over the frames with the base as invariant; prefix argument on the reader for what does not read back |
| C88 | the main program's loop over its arguments, dispatch and registration (M_Main), against a grammar of command lines (S_Main) | every list has a decomposition (induction on length); the decision by induction over the leading options with the array for Guile as invariant |
| C89 | the handlers of four commands on option values (M_Options), over M_Process and M_Dirent | inversion of each handler's checks; dry runs by induction over arguments and directory trees |
| C90 | options, reading, processing, writing and the file system put together (M_Options, M_Process, M_Dirent, M_Tagset, M_Id3v1), against "a file in order" (S_Effect) | C32, C33, C34 and C74 on the tags, byte arithmetic for the audio and the ID3v1 tag, then "in order" as an invariant of each run: induction over the runs |
| C91 | the report command's handler on the file system (M_Outputs), over M_Report | one file is written to: "it appends this text, and passes through its beginnings" is kept by each step, induction over directory entries and arguments |
| C92 | the rename command from options and contents to the file system (M_Naming), over M_Rename, M_Tbt and M_Report; against what is to be known of a file (S_Naming) | C83 for the template, C37-style lookup for the texts, and the single copy; equal paths resolve to equal places |
| C93 | the dump command in JSON from file bytes to output (M_JsonDump) against the objects a file stands for (S_JsonDump) and a JSON reader of ours (S_Json) | C59 for single objects; texts and objects interleaved with line ends are read back by induction, and an open object followed by more objects is read by no one |
| C94 | the dump command in CSV (M_CsvDump) over the printers of M_Report; rows that are run together (S_CsvDump) | C54/C72 lemmas for the columns of a tag, then induction over the parts: a plain field followed by a number is a plain field |
| C95 | the library's parser, store and environment over the tables of the sub-commands (M_Po), against a grammar of command lines and a table of what options are worth (S_Po) | induction over the grammar with a step lemma for each way to write an option; stores by induction over what was parsed, with an invariant for each option; tables checked by computation |
| C96 | main, the registry of sub-commands and each command from its words to its effects put together (M_Program, over M_Main, M_Po and the command models); what a run may change and how it may end (S_Program) | C88 for the dispatch, C95 for the options, then the theorems of each command; what is spared is an invariant carried through every state of a run |
| C97 | the whole program again (M_Program); for each sub-command, what is asked for option by option, by the line, the environment or the defaults (S_Asked) | C96 for the program, C95 for each option (`popm_goes` … `dump_goes` in L_Asked), then the theorem on the command's effect (C69, C84, C90-C94), whose hypotheses are kept |
| C98 | histories of runs of popm, text, genre and xtag on one file (S_History); nothing new in the model | `in_order` is an invariant of the file that every command keeps (C90); induction over the history, with the effect of each command projected to what it is about (L_History) |
| C99 | the two halves of the header and the constructors over them (M_Open), streams and parsers as before | evaluation of the two halves for every stream in a good state, then C02 for the probe and C17-C19 for tags written |
| C100 | `count_syncs` of each payload class as written (M_Count); places counted over the written bytes (S_Count) | the count of pairs over a concatenation is the sum of those of the parts and of the joints (`pr_app` in L_Count); one equation per class |
| C101 | nothing new but the constructor with an extended header (M_Crc); CRC-32 of RFC 1952 bit by bit and the standard's header (S_Crc) | `prepared_sum`: the frames' checksums fold to that of their concatenation (`crc32_app`), then `write23_inv`; for reading, the parsers commute with a change of the four bytes (`unchecked_body23`, `unchecked_body24`) |
| C102 | nothing new; sessions (S_Session) are lists of command lines, each for a request of S_History to this file and others that do not get in the way, for other files only, only looking, or refused | a session is a history of its requests (`session_history`), by induction: C97 for the lines that are for a request, with C104, C96 for those that are not; then C98 |
| C103 | both constructors over streams with masks and states (M_Id3v1, M_Open1) | evaluation for every stream in a good state; blocks as in C08 |
| C104 | nothing new; requests of S_History with any arguments (S_Many) | every operation on the file system leaves alone what is not the file, the temporary file or a backup's name (`keeps_process`, composed as the program is), hence so does the walk through the arguments (`walk_args`); a run over files that are apart is, to each, a run for it alone (`among`), then C98 |
| C105 | the methods of display and pp-bytevector (M_Display), against a relation for hexadecimal dumps read digit by digit and one for the lines (S_Display) | the loops in closed form; what is printed determines the digits; every conversion of C82 gives an object with all its slots (`de_full`), and only text frames are named as artists and titles; C75 for the first of them |
| C106 | the welcome and the load path (M_Start) | induction over the directories; a second run finds what the first has put there |
| C107 | tables, dispatch and the two steps of a construction as atomic acts of threads (M_Register), against a choice of parser stated over what was offered (S_Register) | the tables after a history look up like the list of offers; induction over the frames laid out; simulations for registrations without effect |
| C108 | skeletons of the five procedures and a relation giving their ends and events (M_Unwind), against once-after on the events (S_Unwind) | induction over executions: names are fresh, counts of got and freed agree up to what is registered, every prefix has at most as many releases; explicit executions for the refutations |
| C109 | the two loops over M_Lookup's tag (M_Each), against `kept` of S_Move | the index table is a permutation of the frames' places: after one erasure no entry has its place, and one further on only if names coincide; from the back the entries below stay right (induction) |
| C110 | the constructors of the Xing and LAME tags (M_Vbr), against their layouts (S_Vbr) | case analysis over the fields present, each read taking the next part of the layout or failing for want of it |
| C111 | the texts that `what()` of nineteen kinds of exceptions puts together (M_What), up to the first zero | the kinds begin differently (case analysis); within a kind the parts are recovered: decimals and quoted paths are injective, the last apostrophe ends a file name |
