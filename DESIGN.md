# ansak-string in Rocq: design

## What is modelled

| C++ | Gallina |
|---|---|
| pointers, out-of-bounds reads, integer widths | `theories/Machine.v` |
| `source/string_internal.hxx` | `theories/Model/Internal.v` |
| `source/string_decode_utf8.cxx` | `theories/Model/Decode.v` |
| `source/string.cxx` (all functions) | `theories/Model/Str.v` |
| `source/encoding_check_predicate.cxx`, class in `interface/string.hxx` | `theories/Model/Predicate.v` |
| `source/string_tolower.cxx` | `theories/Model/Lower.v` |
| `source/string_toutf8.cxx` | `theories/Model/CodePage.v` |
| `interface/string_splitjoin.hxx` | `theories/Model/SplitJoin.v` |
| `interface/string_trim.hxx` | `theories/Model/Trim.v` |
| default arguments and "syntactic sugar" overloads of `interface/string.hxx` | `theories/Model/Sugar.v` |
| wchar_t section of `interface/string.hxx`, 16- and 32-bit | `theories/Model/Wide.v` |
| WIN32 narrow and TCHAR overloads, `_MBCS` and `_UNICODE` | `theories/Model/Tchar.v` |
| `mkUnicodeTestData/mkUnicodeTestData.cxx` | `theories/Model/TestData.v` (`process`), `theories/Model/TestMain.v` (`main`); its text: `theories/Gen/TextTool.v`, parser and meaning in `theories/Cxx/Tool*.v` |
| `make.py` (install, uninstall, clean, the gathering of package, the order of targets), `project.py`, the versions and the compiler in `configure.py` and `CMakeLists.txt` 134-160 | `theories/Model/Make.v` |
| the time stamps `make.py` 110-128 and `Makefile` 60-75 compare, `configure` 226 | `theories/Model/Stamps.v` (what cmake, ctest and makensis make is a snapshot of the sources) |
| `done_` and `scrub` in `make.py` | `theories/Model/Targets.v` |
| `Makefile` 78-92, 142-149: install, uninstall, clean, scrub | `theories/Model/Unix.v` |
| `configure`: options, defaults, sudo, the `config.make` it writes and make reads | `theories/Model/Configure.v` |
| `NSIS/ansak-string.nsi` 134-219: the installer's and the uninstaller's section, `un.isEmptyDir` | `theories/Model/Nsis.v`; its text: `theories/Gen/TextScripts.v`, read and run by `theories/Model/NsisText.v` |
| `FindANSAK.cmake` | `theories/Model/Find.v`; its text: `theories/Gen/TextScripts.v`, read and run by `theories/Model/Cmake.v` with `theories/Model/FindText.v` |
| `CMakeLists.txt`, `packaging.cmake` | their text: `theories/Gen/TextLists.v`, read and run by `theories/Model/Lists.v` on the reader of `theories/Model/Cmake.v`; what they have to ask for, without the text: `theories/Model/ListsWanted.v` |
| `submods/CMakeLists.txt` | its text: `theories/Gen/TextSubmods.v`, read by `theories/Model/Lists.v` and run by `theories/Model/Submods.v` |
| `configure.cmd` | its text: `theories/Gen/TextCmd.v`, read and run by `theories/Model/Cmd.v`, which also has the status of `choosep3.py` and how `configure.py` takes its arguments |
| `Makefile` 49-75, 95-114: the programs that build, test and package | its text: `theories/Gen/TextMakefile.v`, read and run by `theories/Model/Makefile.v` |
| `cmake/modules/FindASan.cmake` | its text: `theories/Gen/TextAsan.v`, read by `theories/Model/Lists.v` and run by `theories/Model/Asan.v` |
| the text of the library itself: `source/*.cxx`, `source/string_internal.hxx`, `interface/*.hxx` | `theories/Gen/Text.v` (the lines themselves), `theories/Gen/Source.v` (abstract syntax), parser and meaning in `theories/Cxx/` |
| `source/bits{7..16}/char_is_unicode.cxx`, `char_to_lower.cxx` | `theories/Gen/Unicode{7..16}.v` (generated by `tools/cxx2v.py`), collected in `theories/Model/Tables.v`; their text: `theories/Gen/Text{7..16}.v` (the lines themselves), `theories/Gen/Bits{7..16}.v` (abstract syntax) |

Specifications (`theories/Spec/`) do not use the model's functions. `Utf.v` defines the encodings,
`Target.v` the target ranges, `Result.v`/`Bounded.v` what "exact", "settled by the text before the zero",
"cut after n" mean, `Ucd.v`/`Lowercase.v`/`Case.v` the Unicode data, `Chain.v` predicate chains, `Text.v`
splitting/joining/trimming, `CodePage.v` the two code pages, `Lex.v` string order, `Version.v` version numbers,
`TestData.v` the lines of UnicodeData.txt as text and the array made from them, `Prefix.v` cut texts and sizes,
`Laws.v` words used in the laws between calls, `Install.v` and `Unix.v` which file belongs where in an
installation, `Fresh.v` what a build is made from, `Configure.v` the options and defaults of `configure`,
`Nsis.v` what installer and uninstaller may change, `Find.v` where an installation is to be looked for,
`Lists.v` which files, tests and headers the build has, `ListsOrder.v` in which order, `ListsInputs.v` what it may depend on, `Submods.v` which flags ask for the static runtime, `Cmd.v` which python is the right one, `Makefile.v` what the recipes have to run, `Asan.v` what FindASan.cmake promises.
The names of the files of /repo are in `theories/Gen/Files.v` (by `tools/text2v.py`).
Specification data: `source/bits{7..16}/UnicodeData.txt` -> `theories/Gen/Ucd{7..16}.v` (by `tools/ucd2v.py`);
code pages from the mapping tables that come with Python (`tools/codepage2v.py`).

### Modelling decisions
* All character values are `Z`. A `char` is its bit pattern 0..255 (the code always casts to
  `unsigned char` before comparing, so signedness of `char` is irrelevant; C85 proves it).
  Conversions to a fixed-width type are explicit `wrap8/wrap16/wrap32`.
* A call has an `outcome`: `Done v`, `Undefined` (the execution reads outside the array or through
  null, overflows a signed int, builds a `basic_string` from null) or `OutOfFuel` (Gallina artefact, proved
  unreachable). A `const C*` is `Null` or `At rest`, `rest` being the elements from the pointee to the end
  of the allocated array.
* `std::basic_string<C>` is `list Z`; `c_str()` appends the terminating 0. Allocation never fails.
* `src - 1` (`pLast`) is formally an invalid pointer in C++; it is only subtracted, never read. The model
  computes the difference and does not flag its formation; C86 is about that.
* `int` and `unsigned int` are 32 bits wide.
* Overload resolution is done by hand. Each overload that forwards to another one cites both line ranges.

### Not modelled
The rest of the build scripts (what cmake, ctest, cpack and makensis do with what they are asked for, `cmake/modules/CodeCoverage.cmake`, `cmake-install`, the targets `arch`
and `cmake-uninstall` of the `Makefile`, the submodule and the messages in `configure`, the pages of the NSIS script), the order of static initialisation of
`supportedUnicodeVersion`, allocation failure, and exceptions other than `std::out_of_range` in `substr`
(folded into `Undefined` and proved unreachable).

## Trusted base
* Coq 8.16.1: the kernel (with its VM; `vcheck` re-checks with `coqchk`, which has none).
* `Print Assumptions` stands beneath every theorem of `theories/Props/` and answers
  "Closed under the global context" for each: no axiom is used, neither ours nor the library's.
* `coqchk` also lists the axioms of library modules that are loaded though unused. These are the seven
  constants of `Coq.ssr.ssrunder.Under_rel`: `Over_rel`, `Under_rel_from_rel`, `over_rel`, `over_rel_done`,
  `Under_rel`, `Under_relE`, `under_rel_done`. They come with `lia`'s libraries.
* Reading the C++: the hand-written models above, and the translators `tools/cxx2v.py` (character tables),
  `tools/codepage2v.py` (code pages). The theorems about the parsed source (C85-C106) replace this by trust in
  `tools/text2v.py` (which copies the files) and `theories/Cxx/`, see below.
* Reading the data: `tools/ucd2v.py` (UnicodeData.txt).
* `tools/gen_assigned.py`, `tools/gen_lower.py` and `tools/bitsproof.py` write proofs only; nothing depends on their
  being right.
* The C++ standard library as described by the comments beside `find`, `substr`, `basic_string`, ...

### Is the model the program?
There are two independent checks.

1. `theories/Gen/Source.v` is the source as parsed by `tools/cxx2ast.py`, nothing interpreted:
types, conversions, overloads and operators get their meaning in `theories/Cxx/Semantics.v`, where signed
overflow, bad shifts, reads outside arrays and uninitialised variables are `Undefined`, and where the signedness of
char and the tolerance for pointers outside arrays are parameters. `theories/Props/Source*.v` (C85 ff.) prove
that running that text gives the result of the model, for all arguments. `Proof/CxxTools.v` is the engine (symbolic
execution by rewriting), `Proof/CxxMono.v` shows that the bounds on rounds and nesting do not matter. C105 shows
that `Gen/Source.v` and `Gen/Bits{7..16}.v` are what a parser in Coq (`Cxx/Lexer.v`, `Cxx/Parser.v`, `Cxx/Compile.v`) makes of
the lines of the files, which `tools/text2v.py` copies into `Gen/Text*.v`; so `tools/cxx2ast.py` need not be trusted.
Trusted here: the copying, the parser in Coq as a description of C++ syntax (it evaluates `#if` and
`#ifdef`, skips other directives, takes the files in the order of their inclusion instead of expanding `#include`, refuses
what it does not know), `Cxx/Semantics.v` with the simplifications listed at its top, and that a pointer difference fits
`ptrdiff_t`. A function refined in this way is no longer trusted to be modelled by hand correctly. Refined are all
functions of `interface/*.hxx`, `source/*.cxx` and `source/bits{7..16}/*.cxx`, and by C106 those of `mkUnicodeTestData`. That program
has a syntax and semantics of its own (`Cxx/Tool.v`: streams, files, `main`; simplifications at its top) built on `Cxx/Semantics.v`, a
parser of its own (`Cxx/ToolParser.v`) behind the same lexer, and calls `split` of the library's text.

What the preprocessor sees is a parameter too (`configured`): 32-bit wchar_t, 16-bit wchar_t without and with `WIN32`,
`WIN32` with `_MBCS`, `WIN32` with `_UNICODE`. The parser runs once for each; `Gen/Source.v` holds the functions all five
have and one list for each configuration, joined in `Cxx/Configurations.v`. A theorem that does not mention the
configuration holds in all five. A call in an inline function sees only the overloads declared before it; where that
matters (`toTstring`), the parser gives the visible overloads a name of their own ("toTstring (seen by sChar)"),
and a user's call sees all. Overload resolution (`select`) takes the function with exactly these types; else a
template that fits; else the only function with as many parameters; else the only one of these that takes the arguments
with pointers made into strings; else there is no meaning.

`theories/Cxx/Linked.v` links the two parts of the library: a call of a function that `string_internal.hxx` only
declares runs its definition in the bits<N> directory, which sees only its own functions, as a separate translation unit
does. C98 and C99 are about that program; no function of the model takes part in it. `supportedUnicodeVersion` is
taken as initialised before the call (the order of static initialisation is not modelled).

2. `theories/Tests/` holds the library's own unit tests (`/repo/test/unit/*.cxx`) translated by
`tools/tests2v.py` and run on the model: every `EXPECT_` is one boolean, about 5000 in all, and every one
holds. Left out are only the checks inside loops of more than 300 rounds; the theorems cover those values.

## How each property is proved
* C01-C08: one core lemma classifies `decodeUtf8` on any NUL-terminated array (valid sequence / incomplete
  tail / broken); induction on the string lifts it to each loop. Spec: `theories/Spec/Utf.v` (arithmetic
  definition of the encodings, relation "these bytes spell these code points").
* C09-C13, C58-C61: corollaries of the exactness theorems plus facts about the spec.
* C14-C20, C62: the same induction for the is-functions; target ranges are specified by intervals.
* C21-C25: the memory model makes an out-of-range read `Undefined`; the exactness theorems quantify over the
  bytes after the NUL. Over-reads of the length-bounded calls are exhibited as `_refuted` theorems.
* C26-C32: induction with the length bookkeeping as loop invariant.
* C33-C38: induction on the chain of `andIf/andIfNot`.
* C36, C40, C41, C44: exhaustive kernel computation over code points 0..0x10FFFF lifted by lemmas, plus
  symbolic reasoning for larger values; all ten Unicode versions.
* C45-C52: list induction. C53-C54: table sweep over 256 bytes plus list induction.
* C55-C57, C63-C65: unfolding to the fixed-width functions plus their theorems.
* C66-C68: induction on the lines of the file; the stream and its end-of-file flag are part of the state.
* C84: case analysis over the file system given as a record of functions.
* C69-C71: from the exactness theorems, by uniqueness of the division of a text into sequences.
* C72-C75, C77: facts about all case pairs (`LowerPairs.v`, one sweep per version) lifted to texts.
* C76, C77, C81: linear merges of the tables of two versions or two classes, then induction.
* C78-C80, C82, C83: from the exactness theorems of the functions involved.
* C85-C88, C91-C96, C100, C101: symbolic execution of the parsed source by rewriting (`CxxTools.v`), one lemma per function, induction
  on the array for each loop; C89: from C85, C87, C88 and C91-C94, whose right-hand sides do not mention the implementation;
  C90, C97: those theorems composed with the exactness theorems of the model.
* C98: `CxxPure.v` compiles functions of one character to Coq functions, with a proof; the kernel compares the result
  with `Gen/Unicode<N>.v` (`CxxBits<N>.v`). C99: `CxxLink.v` shows that replacing given functions by definitions that do
  the same changes no call.
* C102: induction on the fuel, the call being its own argument. C103: as C90.
* C104: each call of `Spec/Safe.v` is one of C85-C101 with a model function that returns (C21-C25, C39-C54) on what comes before
  the first zero; `C104_every_function` computes that every name in the parsed library is called by `call_of` or `edit_of` or is a helper.
* C105: the kernel runs the parser on the text, once for each configuration (once for all for the bits<N> directories, which have
  no conditions), and compares; overload resolution does not depend on the order of the functions since at most one fits.
* C106: symbolic execution of `process` and `main` (`CxxTool.v`, `CxxToolMain.v`), one lemma for a turn of the loop; the lines of a file
  are finitely many, so one bound on the fuel serves all calls of `split`.
* C107-C116: the scripts are turned into lists of steps; what a list of copies does depends only on the last names of the paths, which
  never clash (`separate`, computed). C112: what has been dealt with is as before the installation, the rest as after it.
* C117-C120: invariant over the history: where there is a mark, either something watched is newer or what was made is as the sources are.
  C121: invariant: if `done_` has all, everything is built; install and uninstall keep it by C109.
* C122-C126: what each command touches, then the recipes line by line. C129: make reads a list of distinct names back by induction over it.
* C130-C135: what the installer does is a list of additions, the uninstaller of deletions. C132: symbolic execution; the loop over `.` and `..`
  ends after at most three names, whatever the directory holds.
* C142: the kernel reads the text; its commands are run step by step on an arbitrary disk.
* C143: the kernel reads the text; commands that only write messages are dropped by a general lemma; the rest is run in parts, each described by
  the values of the variables used after it. Spelling a path and reading it back are inverse for names without `/`.
* C144: the kernel reads both texts; they are run in sixteen parts, each described by the variables it changes and the requests it adds, for
  settings that do not collide with the words of if() (`clean`: no variable is called like a compared word, the variables of lists are not in the cache).
  C145-C153 follow from the list of requests.
* C154: the kernel reads the text; its commands are run step by step for every setting of four conditions (Apple, Unix, Windows, googletest there already).
* C155: the kernel reads the text; its two dozen commands are run for arbitrary arguments and versions.
* C156: the kernel reads the recipes; the shell takes a value without special characters as it is, by induction over it.
* C157: the kernel reads the text; it is run for each of five cases of what is known of the compiler.
* C158: C129 gives what the Makefile reads, C156 what it runs with it; config.make has none of the names the Makefile itself sets.
* C136-C141: case analysis over the searches; C136 and C137 put C122, C130 and C108 before it.

Where the code violates a property, the full statement is kept, a `_refuted` theorem gives the witness
and a `_partial` theorem proves the largest true part, usually the exact behaviour on every input.

## What the proofs found
Each of these is a theorem ending in `_refuted`.
* Target `kUtf16` of `isUtf8`/`isUcs4` accepts values above 0x10FFFF (C14, C17, C18).
* `toUtf8(char16_t*)` does not reject a lone low surrogate; its output is then not valid UTF-8 (C08, C13).
* Some incomplete tails that nothing could complete are ignored (C14, C61).
* With a predicate, `isUtf16` asks about the high surrogate, not about the code point (C37, C38).
* `unicodeLength` of `char16_t*`/`char32_t*` and five wchar_t conversions use a null pointer (C23).
* The length-bounded calls may read one element behind the n (C24, C25).
* `isUtf8(p, n)` errs in both directions at a cut sequence (C26).
* `unicodeLength` of text with a cut tail is one too small, 2^32 - 1 if nothing precedes the tail (C28).
* `toLower` departs from `UnicodeData.txt` at listed code points, such as U+00D7 (C40).
* `join` with delimiter 0 drops it; `split` overflows an int from 2^31 delimiters on (C45, C47, C48).
* `trimWhiteSpace` leaves 0x0B, 0x0C, 0x85, 0x1680, 0x2028, 0x2029 (C52).
* 16-bit `isWstring` accepts text that `toWstring` rejects or copies with half a pair (C56).
* WIN32 `toUtf8(nullptr)` is undefined; `_MBCS` `toTstring(string)` recurses forever and `toTstring` converts
  ASCII only; `_UNICODE` `toTstring(char16_t*)` checks nothing (C63, C64, C65).
* `isUtf8` and `unicodeLength` of char and char16_t compute the address before their argument, and
  `unicodeLength(const char32_t*, n)` the one n behind it, which is undefined at the ends of an array (C86).
* A predicate chain that forbids a class and then requires it loses the first condition (C33, C80).
* `mkUnicodeTestData` returns 0 if outfile cannot be created and empties a file given twice (C84); it never ends if the last line lacks a newline, and indexes out of range on a long line
  without a semicolon (C67, C68).
* `make.py install` puts the x64 library into lib/Win32/MinSizeRel (C108); see C107, C112, C113, C115, C116 for the other scripts.
* The scripts overlook changes: of UnicodeData.txt, the test framework and FindANSAK.cmake (C118, C119), removals (C117), and with the
  Makefile every change after `make clean` (C120). `make.py all scrub install` fails (C121).
* `make clean` after `make scrub` deletes the sources (C126); `make uninstall` removes include and lib of the home directory whatever the
  prefix (C123) and stops before the library if a header is missing (C124); `configure` obeys variables of the environment named like its
  own (C127) and uses sudo for every absolute prefix but the home directory (C128).
* The Windows uninstaller leaves all directories but include\ansak, and FindANSAK.cmake if something else is in there (C133, C134); the
  installer carries stale files of `build\nsis` along, which the uninstaller then leaves (C134).
* `FindANSAK.cmake` stores the library of an ANSAK_DIR in the environment in a misspelt variable and so never finds it (C136), never looks
  into lib/Debug (C138), passes the word ANSAK_INCLUDE to include_directories (C139) and ignores ANSAK_NO_GENERATOR_LIBS (C141).
* `CMakeLists.txt` takes Visual Studio 2008 for later than 2015 (C147); a coverage build as a part of another project fails (C148)
  and tests there link a googletest that is not built (C152); on Windows googletest keeps the runtime in a DLL that it is meant to lose (C154); configure.cmd does not try python3 where there is no python, and its option --python never works (C155); on macOS the Makefile hands --config Release to cmake as one word, on Linux an empty word to ctest (C156); FindASan.cmake never says that there is no sanitizer, and drops CMAKE_REQUIRED_FLAGS (C157);
  `packaging.cmake` fails before cmake 3.14 and without `lsb_release`, and makes DEB packages on Red Hat Enterprise (C149).

## Wrong programs
`tools/mutate.py` rebuilds a scratch copy in `/tmp` with one definition changed, admitting each lemma whose
proof breaks, so `Print Assumptions` shows which theorems still stand; `tools/mutate_scripts.py` does so for the build scripts. Results: `seeded/LOG.jsonl`.
