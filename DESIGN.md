# MshIO in Rocq: design

The subject is qnzhou/MshIO as found in `/repo` (read as text, never built).
`properties.jsonl` lists the claims; `rocq/theories` holds the model and proofs;
`MANIFEST.json` maps claims to theorem names; `seeded/LOG.jsonl` records the
mutation experiments.

## Trusted base

1. Coq 8.16.1's kernel (and `coqchk`).
2. Axioms: none intended.  Every file in `theories/Props` ends each theorem with
   `Print Assumptions`; all of them must print "Closed under the global context".
3. That the Gallina model says what the C++ says.  Each definition cites the
   lines it transcribes.  In particular:
   * **Platform**: x86-64, little endian, 8-bit bytes, `sizeof(int)=4`,
     `sizeof(size_t)=sizeof(double)=8`, IEEE binary64.
   * **Standard library** (libstdc++, "C" locale, default stream flags, no
     stream exceptions enabled): `operator>>` for strings, int, size_t, double,
     `std::quoted`, `read`, `get`, `peek`, `unget`, `eof`, `operator<<` for the
     same types (`%.6g` for doubles), `write`, `vector::resize`, `map`, `set`.
     They are transcribed from the libstdc++ algorithms (`Model/IStream.v`,
     `Model/Dbl.v`, the output helpers at the top of `Model/Save.v`) and are a
     specification we trust, not code from /repo.  They were compared once with the
     real library on 900 random inputs (a stand-alone program using only the
     standard library) without a difference; that is a test, not a proof.
   * **Python** (C62, C67 only): nanobind turns `std::bad_alloc` into `MemoryError`,
     `std::length_error` into `ValueError` and any other `std::exception` into
     `RuntimeError` with the UTF-8 text of `what()`; a `std::string` becomes a `str` by strict UTF-8
     decoding, which raises an exception on anything else; `list.__repr__` shows
     the `repr` of the items between brackets, separated by `, `.
   * Double printing and parsing are assumed correctly rounded (as glibc's are);
     both are computed exactly by integer arithmetic in `Model/Dbl.v`.

## What is modelled

| file | code |
|---|---|
| `Model/Bytes.v` | bytes, strings, little-endian encodings |
| `Model/Cxx.v` | outcomes: value, exception, undefined behaviour, failed assert, divergence; build configuration; machine-integer wrap; allocation |
| `Model/Dbl.v` | binary64 bit patterns, `%.6g` printing, correctly rounded parsing |
| `Model/IStream.v` | `std::istream` (remaining bytes, eofbit, failbit) and formatted/unformatted input |
| `Model/MshSpec.v` | `MshSpec.h`, `MshSpecExt.h` data structures |
| `Model/Elem.v` | `element_utils.cpp` |
| `Model/Load*.v` | all `load_msh*.cpp`, `io_utils.cpp` |
| `Model/Post.v` | `load_msh_post_process.cpp` |
| `Model/Validate.v` | `validate_spec.cpp` |
| `Model/Save.v` | all `save_msh*.cpp` |
| `Model/Fs.v` | the `const std::string& filename` overloads over a file-system map |
| `Model/Inspect.v` | `examples/msh_inspect.cpp`: standard output, exit status, the file written |
| `Model/Warn.v` | `load_msh` with the lines it writes to `std::cerr` |
| `Model/Precision.v` | saving to a stream with another precision |
| `Model/Streams.v` | the overloads that take streams, on streams in any state |
| `Model/TestCases.v` | `tests/test_io.cpp`: the test cases |
| `Model/TestIo.v` | `tests/test_io.cpp`: `ASSERT_SAME` and its parts, `save_and_load` |
| `Model/Readme.v` | `README.md`: the lookup of physical groups |
| `Model/PySet.v` | `python/pymshio.cpp`: new objects and assignments to attributes (`nb::init`, `def_rw`) |
| `Model/PyCalls.v` | `python/pymshio.cpp`: the functions of the module and the Python exceptions they raise |
| `Model/Python.v` | `python/pymshio.cpp`: the attributes and `__repr__` of the classes |

Undefined behaviour (out-of-bounds index, indeterminate value used, signed
overflow, division by zero) is a distinct outcome `Undef`.  A failing `assert` is
`Abort` when `NDEBUG` is not defined.  A loop that never ends is `Diverge`.
Allocation fails (`bad_alloc`) when one request exceeds `mem cfg` bytes, and
`length_error` is thrown above `max_size`; theorems quantify over `cfg`.

## What is not modelled

* what `std::length_error` and `std::bad_alloc` say, `LOAD`/timing; `std::cerr` is taken to accept everything
  that is written to it;
* of `python/pymshio.cpp`: arguments that are converted from another type, and items of
  lists, which are taken as values (changing an item of a list afterwards is not modelled);
* Catch2 (which sections of a test case run together is stated in `Model/TestCases.v`), and the build files; `std::cerr` and failures
  of `std::cout` in `msh_inspect`;
* fragmentation: cumulative memory exhaustion (only a per-request limit);
* locales other than "C", streams with exceptions enabled or custom flags (the precision is
  modelled, for values that fit in an int);
* `file_size`s above what a list can hold; concurrency (the library has none).

## Method

The input side is a state-and-error monad over the remaining byte list.  For
round trips each printer has a lemma "reading what was printed, followed by a
delimiter, returns the value and leaves the rest"; these compose by `mapM`
induction into section lemmas and then through the `$`-section dispatch loop.
The main loop and the 2.2 binary element loop are fuel-driven with fuel
computed from the stream length, and it is proved that additional fuel never
changes the result, so `Diverge` is genuine divergence, not an artefact.

The specification side (`theories/Spec`) is written independently of the
model's helper functions:

| file | content |
|---|---|
| `Spec/Ranges.v` | ranges of int, size_t, finite doubles, vectors that fit in memory |
| `Spec/Gmsh.v` | element families from geometry |
| `Spec/Consistent.v` | consistency of a 4.1 spec; what a reader must get back |
| `Spec/Consistent22.v` | the same for version 2.2 |
| `Spec/Mesh.v` | the nodes and elements of a spec, independent of blocks |
| `Spec/Records.v` | node and element records of 2.2 files |
| `Spec/Files22.v`, `Spec/Text22.v` | 2.2 files, written in any whitespace |
| `Spec/Words.v` | free text between sections |
| `Spec/DataText.v` | headers of data sections as text |
| `Spec/Rounding.v` | value of a double as a rational, closest six-digit decimal, closest double |
| `Spec/Steps.v` | the section loop as a transition system (what "runs forever" means) |
| `Spec/Loaded.v` | sizes and counts of what load_msh returns |
| `Spec/Valid.v` | the conditions validate_spec is documented to check |
| `Spec/Layout.v` | the sections of a written file |
| `Spec/Numerals.v` | decimal numerals and the numbers they denote |
| `Spec/Text41.v` | 4.1 files in any layout, and what they hold |
| `Spec/Any22.v` | 2.2 files in any layout, and what they hold |
| `Spec/Format.v` | the bytes of a file, from the format description |
| `Spec/Report.v` | the report msh_inspect is to print |
| `Spec/Builds.v` | one build and machine fails less than another |
| `Spec/Hazards.v` | which section can fail how under which header |
| `Spec/Spacing.v` | texts of the same words, DOS line ends |
| `Spec/Weight.v` | how much a mesh holds |
| `Spec/Prefix.v` | the loop on a file whose end is cut off; the first few sections of a mesh |
| `Spec/Told.v` | what a text or a binary section says |
| `Spec/Extract.v` | what >> does with a number in any text |
| `Spec/Told22.v` | what a 2.2 file says about nodes and elements, whole or cut off |
| `Spec/Memory22.v` | the outcomes of loading a 2.2 file by the distance of its tags |
| `Spec/Splines.v` | what a build without the extension knows of a spec |
| `Spec/Built.v` | meshes made of parts, numbered in order |
| `Spec/Joined.v` | one mesh read on top of another |
| `Spec/Rewrite.v` | what can be written in another format, and what survives |
| `Spec/Same22.v` | 2.2 files with the same contents |
| `Spec/Enough.v` | memory without limit and memory proportional to a file |
| `Spec/PySet.v` | types of members, what an assignment in Python changes, objects that Python code can make |
| `Spec/Resave.v` | loaded specs that can be saved: no negative or wrapped counts, vectors that fit in memory, finite doubles for text |
| `Spec/Order.v` | what is left of a file later; headers that say a version |
| `Spec/Absent.v` | byte sequences that occur in a file |
| `Spec/Readme.v` | the physical groups of an entity in a 2.2 file |
| `Spec/Distinct.v` | what two specs with the same file have in common |
| `Spec/Checked.v` | what validate_spec can find in a loaded mesh |
| `Spec/Alike.v` | what the round-trip tests compare; the specs that come back alike |
| `Spec/Blame.v` | the claims of validate_spec in order, the first false one |
| `Spec/Messages.v` | why load_msh refuses a file and what it says |
| `Spec/Warnings.v` | the unknown sections a run meets, the lines for them, where their names stand |
| `Spec/Python.v` | UTF-8, shortest numerals, six decimals, what `repr` is to show |
| `Spec/NonFinite.v` | specs holding NaN or infinities |
| `Spec/Cut.v` | 4.1 binary files cut off inside `$Nodes` |

`theories/Props` holds only the property theorems, each followed by
`Print Assumptions`, with an example meeting its hypotheses.
`theories/Tests` holds concrete specs and executable checks (tests, not proofs).

The proofs are layered as follows.

| files | content |
|---|---|
| `BytesP`, `DblP`, `DecP`, `ShowP`, `RoundP`, `TextP` | encodings, decimal digits, six-digit printing and parsing of doubles |
| `RtBase`, `RtStep`, `WriteP`, `Compose` | "this text is read as this value", writers' loops, sequencing of sections |
| `Rt41A`, `Rt41B`, `Rt41`, `Rt22`, `Final`, `Final22` | round trips |
| `Mono`, `Fuel`, `Reach`, `Trace` | the section loop: progress, fuel, reaching a section |
| `Hoare`, `TriP`, `PostP`, `Load22P`, `File22P`, `LoadedP`, `EntP`, `CountP`, `RegroupP`, `Text22P`, `DataTextP` | what any bytes can be loaded as |
| `HeaderP`, `HeaderAnyP`, `SkipP`, `ExtP` | header gate (also with numbers spelled in any way), skipped text, nanospline |
| `ValidateP`, `ValidRt`, `SaveP`, `LayoutP`, `ConvertP`, `StableP`, `AgreeP` | validation, saving, conversion, second saves |
| `GuardP`, `NonFiniteP`, `NonFiniteW`, `NonFinite22` | text with "nan" or "inf" in it |
| `NumeralsP` | the stream extractors read every numeral |
| `Text41P`, `Any22P` | the loader reads every file of `Spec/Text41.v` and `Spec/Any22.v` |
| `FormatP` | written files against `Spec/Format.v` |
| `CutP`, `CutFile` | files that end too early |
| `IntShowP`, `InspectP` | msh_inspect |
| `BuildsP` | two builds side by side |
| `HazardsP` | the failures of every reader and writer |
| `SpacingP`, `SavedTextP` | two texts of the same words read side by side; the words of saved files |
| `WeightP`, `BigP` | what each reader takes from the file for what it returns; short files of large meshes |
| `ExtendP`, `PrefixP`, `CutsP` | each reader on a file and on a beginning of it; the two runs side by side; cut files |
| `ToldNumP`, `SuffixP`, `ToldP`, `ToldSecP`, `ToldFileP`, `ToldOneP` | what the extractors accept; readers only move forward; what each section and each file says; a text says one thing |
| `ExtractP` | what the extractors do with any text |
| `Told22NodesP`, `Told22ElemsP`, `Told22FileP`, `Told22OneP` | what the 2.2 sections read and the whole 2.2 file say; how much text that takes |
| `KeepP`, `CutFailP`, `CutSavedP` | runs that have not met the end of the file continue the same way on longer files; failures that do not depend on the end; cuts of saved files |
| `BlameP`, `MessageP` | the check that fails; the reasons for which load_msh throws |
| `Memory22P` | allocation in the post-processing of 2.2 files |
| `SplinesP` | files of the build with the other setting of MSHIO_EXT_NANOSPLINE |
| `BuiltP`, `TestCasesP` | meshes made of parts are consistent, valid and regular; the test cases |
| `JoinedP`, `Joined22P` | files written one after the other |
| `RewriteP` | files loaded and saved in another format |
| `Same22P` | the contents of a 2.2 file determine its mesh |
| `EnoughP` | counts in a file are bounded by its length |
| `PySetP` | setters of the Python classes |
| `ResaveP` | ranges of all numbers that load_msh returns; loaded specs are consistent |
| `Resave22P` | the same after nodes and elements have been regrouped |
| `RoomP` | what was loaded as 4.1 fits in the memory it was loaded with |
| `OrderP` | every read leaves the end of what was there |
| `AbsentP` | each section changes its own part of the spec only |
| `ReadmeP` | the lookup of README.md in loaded meshes |
| `DistinctP` | specs with the same file |
| `CheckedP`, `Checked22P` | validate_spec on loaded meshes; the ranges a 2.2 file leaves |
| `TestIoP`, `TestRtP` | the verdict of the comparison; when a round trip is alike |
| `PyCallsP` | C strings and UTF-8 of the messages |
| `Suffix`, `WarnP` | what a reader leaves is the end of what it got; the warnings of a run |
| `PrecP`, `PrecRt` | printing with n digits and reading back; round trips with 17 digits |
| `EndP` | a stream at its end has no characters left; the stream after loading |
| `Utf8P`, `PyFloatP`, `PythonP`, `PyShownP` | UTF-8 decoding; `std::to_string(double)`; which objects Python can show; what is shown and what can be told from it |

## Modelling choices worth knowing

* A read that hits the end of the file leaves what the standard says in its
  target: `read` copies the bytes that arrived and keeps the others, a failed
  extraction of a number stores 0, an extraction on a stream that is already
  failed changes nothing.  Targets that the code leaves uninitialised are
  `option`s; using such a value is `Undef`.
* `vector::resize` and the `emplace_back` of 2.2 element blocks check `max_size`
  and the per-request limit `mem`; capacity is not modelled (a request asks for
  exactly the new size).  Appending one data section to a spec, and growing maps,
  sets and strings, is assumed to succeed.
* Binary data entries store their tag as a 4-byte int in both versions
  (`load_msh_data.cpp:41-80`, `save_msh_data.cpp`); the model keeps the C++
  conversions, so large tags change (`tag32` in `Spec/Consistent.v`, C33).

## Properties and theorems

`MANIFEST.json` is authoritative.  `_refuted` means the claim, read literally, is
false of the code; the other theorems of that row say exactly what holds.

| id | claim | theorems |
|---|---|---|
| C01 | 4.1 binary round trip is exact | `C01_binary41_roundtrip` |
| C02 | 4.1 ASCII round trip is exact up to six-digit rounding of doubles | `C02_ascii41_roundtrip` |
| C03 | 2.2 ASCII round trip keeps the mesh | `C03_ascii22_roundtrip` |
| C04 | 2.2 binary round trip keeps the mesh | `C04_binary22_roundtrip`, `C04_exact` |
| C05 | 2.2 node regrouping loses, duplicates and reorders nothing | `C05_nodes`, `C05_nodes_any` |
| C06 | 2.2 nodes are classified on the last referencing element | `C06_class`, `C06_class_any` |
| C07 | 2.2 element regrouping loses, duplicates and reorders nothing | `C07_elements`, `C07_elements_any` |
| C08 | 2.2 entities carry exactly the physical tags seen in the file | `C08_entities`, `C08_entities_any` |
| C09 | Round trips stabilise | `C09_binary41`, `C09_saved_again41`, `C09_saved_again22`, `C09_settled`, `C09_subnormal_refuted` |
| C10 | ASCII and binary encodings agree | `C10_agree41`, `C10_agree22` |
| C11 | Quoted names survive any content | `C11_quoted` |
| C12 | Decimal integers survive | `C12_int`, `C12_size` |
| C13 | Six-digit doubles survive ASCII exactly | `C13_six_digits` |
| C14 | ASCII files preserve coordinates exactly | `C14_refuted`, `C14_bound` |
| C15 | load_msh terminates on every input | `C15_refuted`, `C15_forever`, `C15_condition` |
| C16 | Saved files always load again (non-finite values) | `C16_saved41`, `C16_saved22`, `C16_binary41`, `C16_refuted` |
| C17 | Loaded 4.1 specs are structurally consistent | `C17_consistent`, `C17_data` |
| C18 | Loaded 2.2 specs are structurally consistent | `C18_consistent` |
| C19 | Binary 4.1 mesh sections are read memory-safely | `C19_nodes`, `C19_overflow`, `C19_elements` |
| C20 | load_msh is memory-safe on arbitrary input | `C20_refuted` |
| C21 | 2.2 post-processing is safe exactly when references are in range | `C21_safe` |
| C22 | Header gate on load | `C22_version`, `C22_data_size`, `C22_marker` |
| C23 | Header gate on save | `C23_entities`, `C23_nodes`, `C23_elements`, `C23_data`, `C23_none` |
| C24 | file_type other than 0 and 1 is not loadable | `C24_not_loadable` |
| C25 | Unknown sections are skipped without trace | `C25_unknown_section`, `C25_places` |
| C26 | Text between sections is ignored | `C26_between`, `C26_after` |
| C27 | validate_spec accepts exactly the documented specs | `C27_iff`, `C27_only` |
| C28 | validate_spec never crashes | `C28_refuted`, `C28_refuted_short`, `C28_exact` |
| C29 | Specs accepted by validate_spec can be saved | `C29_refuted`, `C29_refuted_width`, `C29_saved` |
| C30 | Validity survives the round trip | `C30_refuted`, `C30_refuted22`, `C30_kept41`, `C30_kept22` |
| C31 | Element tables are right for every int | `C31_tables` |
| C32 | Physical group assignment survives a 2.2 round trip | `C32_refuted`, `C32_not_written`, `C32_none_left` |
| C33 | Large tags survive binary files | `C33_refuted`, `C33_binary22`, `C33_binary41`, `C33_kept` |
| C34 | Data sections need three integer tags | `C34_throws`, `C34_loaded` |
| C35 | 2.2 binary element count mismatch is detected | `C35_over`, `C35_exact`, `C35_refuted` |
| C36 | Layout of the written file | `C36_layout`, `C36_format`, `C36_stopped` |
| C37 | Truncated files are detected | `C37_release`, `C37_release_any`, `C37_debug`, `C37_end_marker`, `C37_refuted` |
| C38 | File-name API | `C38_load`, `C38_only`, `C38_throws`, `C38_round_trip` |
| C39 | Several 2.2 $Nodes sections accumulate | `C39_nodes`, `C39_section_any`, `C39_bounds_any` |
| C40 | Several 2.2 $Elements sections accumulate | `C40_ascii`, `C40_binary`, `C40_refuted` |
| C41 | Nanospline sections | `C41_kept`, `C41_kept22`, `C41_not_loaded`, `C41_not_saved` |
| C42 | $Entities in a 2.2 file is rejected | `C42_rejected` |
| C43 | Converting 4.1 to 2.2 and back keeps the mesh | `C43_converted` |
| C44 | Saving never depends on or changes the outcome of a failing output device | `C44_refuted`, `C44_prefix` |
| C45 | Saved files follow the MSH format byte for byte | `C45_bytes41`, `C45_bytes22`, `C45_loads41`, `C45_loads22` |
| C46 | Text numerals are read as the numbers they denote | `C46_int`, `C46_size`, `C46_double`, `C46_int_range`, `C46_size_range`, `C46_size_negative` |
| C47 | 4.1 files load as what they say, in any layout | `C47_loaded`, `C47_encodings` |
| C48 | Section order does not matter, the last section of a kind counts | `C48_order`, `C48_last_counts` |
| C49 | 2.2 files load as what they say, in any layout | `C49_loaded` |
| C50 | msh_inspect stays inside its vectors | `C50_exactly`, `C50_22`, `C50_points`, `C50_refuted` |
| C51 | msh_inspect prints the mesh it loaded | `C51_report`, `C51_integers`, `C51_refuted` |
| C52 | msh_inspect as a whole | `C52_usage`, `C52_unloadable`, `C52_done`, `C52_only`, `C52_kept` |
| C53 | Builds and machines agree | `C53_load`, `C53_mesh`, `C53_one_mesh`, `C53_save`, `C53_refuted` |
| C54 | How loading and saving can fail | `C54_undefined`, `C54_exception`, `C54_load`, `C54_binary41`, `C54_hazards_occur`, `C54_all_occur`, `C54_save`, `C54_save_occur`, `C54_files` |
| C55 | Spacing and line ends do not matter in text files | `C55_respaced`, `C55_dos`, `C55_saved`, `C55_saved_dos`, `C55_newline_refuted`, `C55_binary_refuted`, `C55_dollar_refuted` |
| C56 | A mesh is no larger than the file it comes from in debug builds | `C56_common`, `C56_mesh`, `C56_counts`, `C56_release`, `C56_curves`, `C56_refuted` |
| C57 | The beginning of a 4.1 file gives complete sections or fails in debug builds | `C57_prefix`, `C57_layout`, `C57_saved`, `C57_saved_binary`, `C57_refuted_22`, `C57_refuted_release` |
| C58 | Nothing that is loaded is invented, in debug builds | `C58_int`, `C58_size`, `C58_double`, `C58_one_meaning`, `C58_common`, `C58_mesh`, `C58_refuted_release` |
| C59 | What >> does with a number in any text | `C59_int`, `C59_size`, `C59_double`, `C59_determined`, `C59_nothing`, `C59_failed` |
| C60 | Nothing loaded from a 2.2 file is invented | `C60_mesh`, `C60_nodes`, `C60_elements`, `C60_length`, `C60_refuted_cut`, `C60_refuted_release` |
| C61 | What can go wrong when the end of a file is missing | `C61_hang`, `C61_saved_hang`, `C61_marker`, `C61_saved_cut`, `C61_undefined`, `C61_exception`, `C61_binary`, `C61_saved`, `C61_refuted` |
| C62 | What Python shows of a mesh | `C62_shown`, `C62_utf8`, `C62_same`, `C62_blind`, `C62_refuted` |
| C63 | Streams in any state | `C63_good`, `C63_failed`, `C63_eof`, `C63_end`, `C63_again`, `C63_saved`, `C63_written` |
| C64 | With a stream precision of 17, text files lose nothing | `C64_exact41`, `C64_exact22`, `C64_number`, `C64_six`, `C64_needed`, `C64_unreadable` |
| C65 | One warning per skipped section, nothing else on std::cerr | `C65_same`, `C65_exactly`, `C65_finite`, `C65_words`, `C65_saved41`, `C65_saved22`, `C65_file41`, `C65_file22`, `C65_silent` |
| C66 | Every exception says what is wrong | `C66_validate`, `C66_validate_iff`, `C66_load`, `C66_known`, `C66_data_size`, `C66_endianness`, `C66_save`, `C66_what` |
| C67 | What the Python functions raise | `C67_load`, `C67_unicode`, `C67_save`, `C67_validate`, `C67_tables` |
| C68 | What the round-trip tests check and which specs pass them | `C68_compares`, `C68_blind`, `C68_renumbered`, `C68_run41`, `C68_run22`, `C68_line`, `C68_nan_refuted` |
| C69 | What validate_spec has left to find in a loaded mesh | `C69_41`, `C69_22`, `C69_22_exact`, `C69_crash_refuted`, `C69_flag_refuted` |
| C70 | A saved file tells what was saved | `C70_41`, `C70_41_iff`, `C70_exact41`, `C70_binary41`, `C70_22`, `C70_versions`, `C70_digits_refuted`, `C70_tags_refuted` |
| C71 | The README lookup of physical groups | `C71_22`, `C71_gmsh`, `C71_any`, `C71_kept41`, `C71_lost22`, `C71_sections_refuted`, `C71_valid_refuted` |
| C72 | How much memory a 2.2 file needs | `C72_span`, `C72_no_nodes`, `C72_petabytes`, `C72_never`, `C72_overflow` |
| C73 | Builds with and without splines read each other's files | `C73_longer`, `C73_read41`, `C73_read22`, `C73_back41`, `C73_back22`, `C73_dollar_refuted` |
| C74 | Meshes numbered one part after the other come back as they were, and the test cases pass | `C74_built`, `C74_six`, `C74_field`, `C74_tests`, `C74_load`, `C74_load_refuted`, `C74_conditions_refuted` |
| C75 | Files written one after the other are read on top of each other | `C75_saved`, `C75_two`, `C75_views`, `C75_files`, `C75_files22` |
| C76 | Any file can be rewritten in another format without losing anything but digits | `C76_rewritten`, `C76_lossless`, `C76_upgraded`, `C76_dropped` |
| C77 | The contents of a 2.2 file determine its mesh | `C77_same`, `C77_equal`, `C77_determined` |
| C78 | Forty bytes of memory per byte of a file are enough | `C78_enough`, `C78_enough22` |
| C79 | Assignments to attributes in Python | `C79_assign`, `C79_read`, `C79_nested`, `C79_new`, `C79_built`, `C79_empty` |
| C80 | Whatever loads as version 4.1 can be saved and comes back | `C80_binary`, `C80_lossless`, `C80_text`, `C80_negative_refuted` |
| C81 | Whatever loads, also as version 2.2, can be saved as version 4.1 | `C81_loaded`, `C81_binary`, `C81_lossless`, `C81_text` |
| C82 | Saving and loading again needs no more memory than loading did | `C82_room`, `C82_binary`, `C82_lossless`, `C82_text` |
| C83 | A file is read from front to back, and its version stands in it | `C83_order`, `C83_met`, `C83_sequence`, `C83_version`, `C83_plain`, `C83_again` |
| C84 | What is not in the file is not in the mesh | `C84_mesh`, `C84_rest` |
| C85 | Converting a file twice is converting it once | `C85_binary`, `C85_any`, `C85_upgrade` |
