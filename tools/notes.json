{
 "C08": {
  "note": "False as stated: a lone low surrogate is not rejected (C08_..._refuted). The partial theorem is the exact characterisation of what toUtf8(char16_t*) returns on every input."
 },
 "C13": {
  "note": "False as stated, because of C08. The partial theorem covers every to-function on every input except toUtf8(char16_t*) on text with a lone low surrogate."
 },
 "C33": {
  "note": "Proved for all chains without a class both required and forbidden (the proviso of the property); C33_chain_general gives the exact meaning of every chain, and C33_inconsistent_chain_refuted shows the proviso is needed."
 },
 "C40": {
  "note": "False as stated in every version (C40_..._refuted: U+00D7). The partial theorem is exact: it lists, for each version, precisely the code points that depart from UnicodeData.txt and what they are mapped to."
 },
 "C61": {
  "note": "False as stated (C61_..._refuted); completable tails are all ignored (partial), but some tails that cannot be completed are ignored too."
 },
 "C14": {
  "note": "False as stated: target kUtf16 accepts values above 0x10FFFF and some ignored tails cannot be completed (C14_..._refuted). C14_exact_answer_partial is the exact verdict on every input; the others give the part of the documented meaning that holds."
 },
 "C17": {
  "note": "False as stated for target kUtf16, which accepts values above 0x10FFFF (C17_..._refuted). C17_exact_answer_partial is the exact verdict for every target; the documented meaning holds for the other four (C17_other_targets_partial)."
 },
 "C18": {
  "note": "False as stated for UTF-8 and UCS-4 sources with target kUtf16 (C18_..._refuted); proved for UTF-16 and UCS-2 sources, and for the others on text up to 0x10FFFF or any other target."
 },
 "C37": {
  "note": "False for UTF-16: the predicate sees the high surrogate instead of the code point (C37_utf16_refuted). Proved for UTF-8, UCS-2 and UCS-4; the UTF-16 partial theorems are exact."
 },
 "C38": {
  "note": "False as soon as UTF-16 text has a surrogate pair and a predicate is given (C38_..._refuted); proved for UTF-8 against UCS-4, for UTF-16 without a predicate and for text of the basic plane."
 },
 "C23": {
  "note": "False for the char16_t and char32_t forms of unicodeLength and for five wchar_t conversions, which use a null pointer (C23_..._refuted); the partial theorems cover all other functions, so together every entry point is settled."
 },
 "C24": {
  "note": "False: one byte behind the n may be read (C24_stays_inside_refuted). C24_over_read_partial states exactly when; C26_exact_answer_partial shows the byte never matters."
 },
 "C25": {
  "note": "False for char and char16_t (C25_..._refuted), proved for char32_t; the partial theorems state exactly when the element behind the n is read."
 },
 "C26": {
  "note": "False in both directions (C26_..._refuted). The exact verdict on arbitrary bytes is proved, and agreement with the NUL-terminated call on well-formed text cut anywhere."
 },
 "C28": {
  "note": "False (C28_..._refuted): the count is one too small, 2^32 - 1 if nothing precedes the tail. The partial theorems give the exact result on every incomplete tail."
 },
 "C31": {
  "note": "Cut text is counted as stated; false for a zero inside a sequence and for a stray continuation byte (C31_..._refuted). Exact results on arbitrary elements are proved for all three widths."
 },
 "C45": {
  "note": "False as stated for d = 0 (join appends nothing for it) and for 2^31 or more delimiters, whose int count overflows (C45_..._refuted). Proved for every other s and d; C45_zero_partial gives the exact result for d = 0."
 },
 "C46": {
  "note": "Proved for fewer than 2^31 delimiters; from 2^31 on the signed counter overflows (C46_overflow_partial, C45_overflow_refuted)."
 },
 "C47": {
  "note": "Proved for at most 2^31 pieces; beyond that split's signed counter overflows (C47_overflow_refuted)."
 },
 "C48": {
  "note": "False for d = 0 (C48_zero_refuted), where the pieces are just concatenated (C48_zero_partial); proved for every other d."
 },
 "C52": {
  "note": "False in every version (C52_all_blanks_refuted). C52_exact_partial: exactly the White_Space code points other than 0x0B, 0x0C, 0x85, 0x1680, 0x2028 and 0x2029 are trimmed."
 },
 "C55": {
  "note": "Every wchar_t entry point is characterised on every NUL-terminated string, for both widths. w16_toUtf8 shares the leniency of C08."
 },
 "C56": {
  "note": "Proved for 32-bit wchar_t. False for 16 bits: values above 0x10FFFF pass isWstring but not toWstring, and a lone final high surrogate is copied (C56_..._refuted). The partial theorems are exact."
 },
 "C62": {
  "note": "Proved for UTF-8, UCS-2, UCS-4 and for UTF-16 without a predicate; with a predicate UTF-16 asks it about the high surrogate (C37_utf16_refuted), stated exactly in C62_utf16_predicate_partial."
 },
 "C63": {
  "note": "Proved for every string; false for a null pointer, which toUtf8 copies from (C63_null_refuted)."
 },
 "C64": {
  "note": "False for both builds (C64_..._refuted): _MBCS converts ASCII only although isTstring accepts more, _UNICODE drops values above 0x10FFFF and does not check UTF-16 at all. The partial theorems give the exact results."
 },
 "C65": {
  "note": "False for _MBCS: the overloads on strings resolve to themselves and never return (C65_mbcs_refuted, C65_mbcs_never_returns_partial). The _UNICODE overloads meet the property (C65_unicode)."
 },
 "C66": {
  "note": "Proved for every file of data lines, followed by nothing or by a line the tool stops at."
 },
 "C67": {
  "note": "Proved for files ending in a newline. False otherwise: a last data line without newline is written for ever (C67_never_ends_refuted, C67_never_ends_partial)."
 },
 "C68": {
  "note": "C66 covers files of data lines. False in general: any line of more than ten characters without a semicolon is indexed out of range (C68_no_semicolon_refuted, C68_no_semicolon_partial)."
 },
 "C69": {
  "note": "Proved for the four NUL-terminated is-functions."
 },
 "C70": {
  "note": "Proved for the eight NUL-terminated to-functions; an empty result counts as not converted."
 },
 "C71": {
  "note": "Proved for the eight NUL-terminated to-functions; C71_case shows the bounds are reached."
 },
 "C72": {
  "note": "ASCII is left only in a Turkic language (C72_turkic_refuted); the UTF-16 theorem is for the null predicate, as a UTF-16 predicate sees surrogates (C37)."
 },
 "C73": {
  "note": "Texts are well formed; for UTF-8 also at most 0x10FFFF."
 },
 "C74": {
  "note": "Stated for UCS-4; the example shows the comma meets the condition in every version and language."
 },
 "C75": {
  "note": "The example reaches both bounds."
 },
 "C76": {
  "note": "Proved for pred32 and the UTF-8 and UCS-4 is-functions; a chain that both requires and forbids Assigned behaves as requiring it."
 },
 "C77": {
  "note": "Stated for UCS-4; the other encodings follow from C43."
 },
 "C78": {
  "note": "split is limited to fewer than 2^31 pieces (see C46)."
 },
 "C79": {
  "note": "Proved for trim, trim with a set, trimAscii7WhiteSpace and the UTF-16 and UCS-4 trimWhiteSpace."
 },
 "C80": {
  "note": "Adding conditions restricts a consistent chain; for one that forbids and then requires the same class it does not (C80_widens_refuted)."
 },
 "C81": {
  "note": "By linear merges of the range tables."
 },
 "C82": {
  "note": "For valid texts; half a surrogate pair counts -1 (C28)."
 },
 "C83": {
  "note": "Both code pages."
 },
 "C84": {
  "note": "filebuf::open does not throw, so exit codes 3 and 4 are never returned: an outfile that cannot be created goes unnoticed (C84_silent_failure_refuted), and one file given for both is emptied (C84_same_file_refuted). The partial theorems give the behaviour in every case."
 },
 "C85": {
  "note": "Gen/Source.v is what tools/cxx2ast.py parsed from /repo; Cxx/Semantics.v gives it meaning (integer promotions, conversions, overload resolution, pointers into arrays, undefined behaviour). The functions of the bits<N> directories are taken from their separate translation (Gen/Unicode<N>.v). isUtf8 needs a byte before the text or an implementation that tolerates the pointer test - 1 (C86)."
 },
 "C86": {
  "status": "partial",
  "note": "isUtf8 and unicodeLength (char, char16_t) compute src - 1 (string.cxx:236, 760, 853), so they are undefined, strictly, for every text that begins its array; unicodeLength(const char32_t*, n) computes src + n (string.cxx:938). Partial: the other functions never leave their arrays, nor do these where something stands before the text."
 },
 "C87": {
  "note": "As C85. Every overload for char, char16_t and char32_t."
 },
 "C88": {
  "note": "As C85. The pointers src - 1 and src + testLength are hypotheses (C86)."
 },
 "C90": {
  "note": "The exactness theorems about the model (C01-C12, C14-C17) carried over to the parsed source by C85 and C87. isUtf8 under implementations that tolerate src - 1 (C86); ranges of kUtf16 as in C14 and C17."
 },
 "C91": {
  "note": "As C85. The functions toLower and toTurkic of the bits<N> directories are taken from Gen/Unicode<N>.v; C91_tables: every version maps char32_t to char32_t."
 },
 "C92": {
  "note": "As C85."
 },
 "C93": {
  "note": "As C85. The result is what is left in the by-reference argument. [holds] says that the string is shorter than 2^63, as any object is."
 },
 "C94": {
  "note": "As C85, one proof for the template at each of the three character types."
 },
 "C95": {
  "note": "As C85, in the configuration where wchar_t has 32 bits; C100 has the others."
 },
 "C96": {
  "note": "As C85. The char overload needs every byte assigned and none private, which holds of all tables (C96_tables)."
 },
 "C97": {
  "note": "C39-C54 carried over to the parsed source by C91-C94."
 },
 "C98": {
  "note": "A compiler from the parsed functions to the functions of the model, proved correct, and a comparison of its output with Gen/Unicode<N>.v in the kernel, for all ten versions."
 },
 "C99": {
  "note": "C99_transfer carries every theorem of C85-C97 over to the linked library. isUtf8 as in C90 on machines where forming src - 1 is harmless (C86)."
 },
 "C100": {
  "note": "As C85; the configuration (what the preprocessor sees) is a parameter of the semantics."
 },
 "C101": {
  "note": "As C85. The overloads on strings with _MBCS are in C102: they never return."
 },
 "C102": {
  "note": "False for _MBCS: overload resolution in the parsed text, seeing only what is declared before, picks the function itself (C102_mbcs_never_partial: no result with any fuel and depth; C102_mbcs_refuted). Partial: true with _UNICODE for every text."
 },
 "C103": {
  "note": "From C95 and C100 and the exactness theorems of the model. For 32-bit wchar_t \"is a text\" means up to 0x1FFFFF, see C17."
 },
 "C104": {
  "note": "Covers every name in the parsed library that is not a helper (C104_every_function). Left out of the calls: pointers to the first element of an array for the functions that form the pointer before it, if that is undefined (C86), a number of elements with none after them (C24, C25), toTstring of a string with _MBCS, which never returns (C102)."
 },
 "C105": {
  "note": "The functions come in another order than in Gen/Source.v (files one after another); C105_files says they are a permutation of each other and C105_calls that this does not matter. #include is taken as the order of the files, not expanded."
 },
 "C106": {
  "note": "Files of less than 2^63 bytes and fewer than 2^31 arguments. What is written reaches the file when it is closed; a file has one name; no stream operation throws, so the catch block is never run (simplifications at the top of Cxx/Tool.v)."
 },
 "C107": {
  "note": "What each target does is a parameter of process. C107_late_refuted: clean has been done before the misspelt instal is refused."
 },
 "C108": {
  "note": "From the point where make_all has returned. Missing: lib\\Win32\\MinSizeRel (C108_minsizerel_partial says what it gets instead)."
 },
 "C113": {
  "note": "rmtree is all or nothing in the model. Missing: without makensis, see C113_no_nsis_partial."
 },
 "C114": {
  "note": "The copying of the NSIS scripts and the run of makensis are not modelled."
 },
 "C115": {
  "note": "make.py hands the version to cmake in decimal; C115_exactly_partial is an equivalence."
 },
 "C116": {
  "note": "Names of ASCII characters (repr)."
 },
 "C117": {
  "note": "Missing: removed and restored files and the remains of failed builds, each refuted. C117_faithful_partial covers removals of other files."
 },
 "C118": {
  "note": "Missing: UnicodeData.txt and submods/CMakeLists.txt, both refuted."
 },
 "C119": {
  "note": "Missing: FindANSAK.cmake, refuted, and what is missing in C118."
 },
 "C120": {
  "note": "Missing: after make clean (C120_cleaned_partial: make then never looks at a source again) and files added after configure."
 },
 "C121": {
  "note": "make_all and the targets test, package, cmake-install and cmake-uninstall are parameters. Missing: scrub."
 },
 "C122": {
  "note": "From the point where build/all.touch is up to date. Which files the pattern *hxx takes is spelt out by hidden and ends."
 },
 "C123": {
  "note": "Missing: include and lib of the home directory, removed (if empty) without sudo whatever the prefix (C123_home_refuted)."
 },
 "C124": {
  "note": "Missing: a header that is not there (C124_stuck says what happens then, for every disk)."
 },
 "C125": {
  "note": "Missing: include, lib and the directories above, but C125_home_partial covers everything for the home directory."
 },
 "C126": {
  "note": "Missing: hidden files, and no directory build: C126_everything says that then everything that is not hidden is deleted."
 },
 "C127": {
  "note": "No wildcards, backslashes, dollar signs or newlines in values. Missing: inherited variables and the documented prefix on Linux, both refuted."
 },
 "C128": {
  "note": "C128_exact is an equivalence for all prefixes without blanks. $second, used and never set in the script, is taken from the environment."
 },
 "C129": {
  "note": "C129_exact says what make reads for all values; partial for words separated by single blanks."
 },
 "C130": {
  "note": "makensis and the compressed installer are a list of directories with files; the user gives up where a file cannot be written."
 },
 "C131": {
  "note": "For every outcome. The uninstaller ignores all failures, as the script does."
 },
 "C132": {
  "note": "The 21 instructions of the function on a machine with two registers, stack, error flag and open searches."
 },
 "C133": {
  "note": "Missing: directories other than include\\ansak (C133_directories: they always stay) and FindANSAK.cmake with something else in include\\ansak (refuted)."
 },
 "C134": {
  "note": "Missing: directories remain and so do stale files in build\\nsis, both refuted."
 },
 "C135": {
  "note": "Missing: Win32/MinSizeRel, refuted (the defect of C108)."
 },
 "C136": {
  "note": "Missing: ANSAK_DIR in the environment (C136_environment says what happens, for every disk) and CMAKE_PREFIX_PATH, which comes first."
 },
 "C137": {
  "note": "From the build through package, installer and FindANSAK. Missing: Win32/MinSizeRel after make.py install (C108)."
 },
 "C138": {
  "note": "Missing: lib/Debug, and lib with a platform; C138_case_1 and C138_case_2 show that both always fail."
 },
 "C139": {
  "note": "C139_literal: the only argument ever passed is the word ANSAK_INCLUDE.",
  "status": "partial"
 },
 "C140": {
  "note": "Missing: libraries by configuration, of which only Debug is looked for."
 },
 "C141": {
  "note": "C141_no_effect: for all disks and settings the libraries are the same with and without it.",
  "status": "partial"
 },
 "C142": {
  "note": "The lines of the file are in Gen/TextScripts.v; a change of any command in the sections or functions breaks the proof. Lines outside sections and functions are read but, except UninstPage, without effect here."
 },
 "C143": {
  "note": "For paths with ordinary names (ordinary: no /, ; or -NOTFOUND in a name; no bare drive as a directory of headers or libraries; a directory called Debug is at least two below the root or a drive). The lines are in Gen/TextScripts.v and read by Model/Cmake.v."
 },
 "C144": {
  "note": "For settings that do not collide with the words compared in if() (clean). The lines are in Gen/TextLists.v and run by Model/Lists.v."
 },
 "C145": {
  "note": "For settings that do not collide with the words compared in if() (clean). The lines are in Gen/TextLists.v and run by Model/Lists.v."
 },
 "C146": {
  "note": "For settings that do not collide with the words compared in if() (clean). The lines are in Gen/TextLists.v and run by Model/Lists.v. The names of the files are in Gen/Files.v; files of cmake itself (CTest, CPack) are left out."
 },
 "C147": {
  "note": "For settings that do not collide with the words compared in if() (clean). The lines are in Gen/TextLists.v and run by Model/Lists.v. False for Visual Studio 2005 and 2008: generators are compared as words."
 },
 "C148": {
  "note": "For settings that do not collide with the words compared in if() (clean). The lines are in Gen/TextLists.v and run by Model/Lists.v. False as a part of another project: CodeCoverage is included for the root project only."
 },
 "C149": {
  "note": "For settings that do not collide with the words compared in if() (clean). The lines are in Gen/TextLists.v and run by Model/Lists.v. False before cmake 3.14 (static library without ARCHIVE destination), if lsb_release writes nothing, and for RedHatEnterprise."
 },
 "C150": {
  "note": "For settings that do not collide with the words compared in if() (clean). The lines are in Gen/TextLists.v and run by Model/Lists.v."
 },
 "C151": {
  "note": "For settings that do not collide with the words compared in if() (clean). The lines are in Gen/TextLists.v and run by Model/Lists.v."
 },
 "C152": {
  "note": "For settings that do not collide with the words compared in if() (clean). The lines are in Gen/TextLists.v and run by Model/Lists.v. False as a part of another project: gtest_main is linked but the submodules are added for the root project only."
 },
 "C153": {
  "note": "For settings that do not collide with the words compared in if() (clean). The lines are in Gen/TextLists.v and run by Model/Lists.v."
 },
 "C154": {
  "note": "The lines are in Gen/TextSubmods.v and run by Model/Submods.v; what googletest does with the variables it is given is not modelled. False for the static runtime: /MD is replaced by /MT after add_subdirectory."
 },
 "C155": {
  "note": "The lines are in Gen/TextCmd.v and run by Model/Cmd.v. False if python is not there (status 9009 passes for a version of at least 3, so python3 is not tried), and with --python: shift leaves %* alone, so configure.py gets --python, which it refuses. For arguments that are single words."
 },
 "C156": {
  "note": "The lines are in Gen/TextMakefile.v and run by Model/Makefile.v, for values that are words without special characters (the generator may have blanks). False with CONFIG (macOS): the quotes in CONFIG_SELECT make one word of --config and its value; and without (Linux): ctest is given an empty word."
 },
 "C157": {
  "note": "The lines are in Gen/TextAsan.v and run by Model/Asan.v; what the compiler makes of a flag is a parameter. False if HAVE_ADDRESS_SANITIZER was true before and the compiler has no sanitizer; CMAKE_REQUIRED_FLAGS is counted among the names it may use, and is always lost."
 },
 "C158": {
  "note": "C127 and C129 put before C156, through the lines of config.make (Model/Configure.v, Model/Makefile.v). The environment of make is taken not to have CXXSELECT, CONFIG_SELECT or C_SELECT. False on macOS of the configuration and elsewhere of the words for ctest, as in C156."
 }
}
