#!/usr/bin/env python3
"""Writes /verif/properties.jsonl."""
import json, os
P = []
def p(id, title, statement, quantifier, why, anchors):
    P.append(dict(id=id, title=title, statement=statement, quantifier=quantifier, why_tests_cant=why, anchors=anchors))
S = 'source/string.cxx'; I = 'source/string_internal.hxx'; D = 'source/string_decode_utf8.cxx'; H = 'interface/string.hxx'
E = 'source/encoding_check_predicate.cxx'; L = 'source/string_tolower.cxx'; U = 'source/string_toutf8.cxx'
J = 'interface/string_splitjoin.hxx'; T = 'interface/string_trim.hxx'
INF = 'The set of strings is infinite; tests sample a handful of literals.'

# ---- conversions ----
p('C01', 'UTF-8 to UCS-4 decodes exactly', 'toUcs4 of a NUL-terminated byte string returns exactly the code points the bytes encode when the bytes are a sequence of well-formed UTF-8 sequences (1 to 6 bytes, values 1..0x7FFFFFFF, shortest form, no lone surrogates, a surrogate pair written as two 3-byte sequences read as one code point), ignoring one incomplete sequence at the very end; it returns the empty string for every other byte string.', 'every NUL-terminated byte string, any length, any bytes after the NUL', INF, [D+':decodeUtf8', S+':toUcs4(const char*)'])
p('C02', 'UTF-8 to UTF-16 re-encodes exactly', 'toUtf16 of a NUL-terminated byte string returns the UTF-16 form (surrogate pairs above 0xFFFF) of the code points the bytes encode when all of them are at most 0x10FFFF, ignoring one incomplete sequence at the end, and the empty string otherwise.', 'every NUL-terminated byte string', INF, [S+':toUtf16(const char*)', S+':isUtf16Encodable', I+':rawEncodeUtf16'])
p('C03', 'UTF-8 to UCS-2 re-encodes exactly', 'toUcs2 of a NUL-terminated byte string returns the encoded code points when all are at most 0xFFFF (ignoring one incomplete trailing sequence) and the empty string otherwise.', 'every NUL-terminated byte string', INF, [S+':toUcs2(const char*)'])
p('C04', 'UCS-4 to UTF-8 encodes exactly', 'toUtf8 of a NUL-terminated UCS-4 string returns the concatenated shortest UTF-8 forms of its code points if none is a surrogate and all are below 0x80000000, and the empty string otherwise.', 'every NUL-terminated char32_t string', INF, [S+':toUtf8(const char32_t*)', I+':encodeUtf8'])
p('C05', 'UCS-4 to UTF-16 encodes exactly', 'toUtf16 of a NUL-terminated UCS-4 string returns the concatenated UTF-16 forms of its code points if none is a surrogate and all are at most 0x10FFFF, and the empty string otherwise.', 'every NUL-terminated char32_t string', INF, [S+':toUtf16(const char32_t*)'])
p('C06', 'UCS-4 to UCS-2 copies exactly', 'toUcs2 of a NUL-terminated UCS-4 string returns the same values if all are at most 0xFFFF and none is a surrogate, and the empty string otherwise.', 'every NUL-terminated char32_t string', INF, [S+':toUcs2(const char32_t*)'])
p('C07', 'UTF-16 to UCS-4 decodes exactly', 'toUcs4 of a NUL-terminated char16_t string returns the code points of well-formed UTF-16, ignoring a lone high surrogate at the very end, and the empty string for any other string (unpaired high or low surrogate elsewhere).', 'every NUL-terminated char16_t string', INF, [S+':toUcs4(const char16_t*)', I+':rawDecodeUtf16'])
p('C08', 'UTF-16 to UTF-8 rejects everything malformed', 'toUtf8 of a NUL-terminated char16_t string returns the UTF-8 form of well-formed UTF-16 (ignoring a lone high surrogate at the very end) and, as documented for every to-function, the empty string when there is any incorrectness in the encoding.', 'every NUL-terminated char16_t string', INF, [S+':toUtf8(const char16_t*)', H+':to<RangeType> functions'])
p('C09', 'UCS-4 round-trips through UTF-8', 'toUcs4(toUtf8(s)) = s for every UCS-4 string of non-zero, non-surrogate values below 0x80000000.', 'every such string', INF, [S+':toUtf8(const ucs4String&)', S+':toUcs4(const string&)'])
p('C10', 'UCS-4 round-trips through UTF-16', 'toUcs4(toUtf16(s)) = s for every UCS-4 string of non-zero Unicode scalar values.', 'every such string', INF, [S+':toUtf16(const ucs4String&)', S+':toUcs4(const utf16String&)'])
p('C11', 'UTF-16 round-trips through UTF-8 and UCS-4', 'For every well-formed UTF-16 string s without NUL, toUtf16(toUtf8(s)) = s and toUtf16(toUcs4(s)) = s.', 'every well-formed UTF-16 string', INF, [S+':toUtf8(const utf16String&)', S+':toUtf16(const string&)'])
p('C12', 'UTF-8 round-trips and is normalised', 'For every UTF-8 string that encodes no code point as a surrogate pair and ends on a sequence boundary, toUtf8(toUcs4(s)) = s; for every accepted UTF-8 string whatever, toUtf8(toUcs4(s)) is the shortest-form UTF-8 of the same code points.', 'every accepted UTF-8 string', INF, [S+':toUcs4(const string&)', S+':toUtf8(const ucs4String&)'])
p('C13', 'Conversion outputs are always valid', 'The result of every to-function is accepted by the is-function of its encoding: isUtf8(toUtf8(x)), isUtf16(toUtf16(x)), isUcs2(toUcs2(x)), isUcs4(toUcs4(x)) are true for every input x.', 'every input string of every source encoding', INF, [S+':toUtf8', S+':toUtf16', S+':toUcs2', S+':toUcs4'])
p('C14', 'isUtf8 answers exactly for every target', 'isUtf8(s, target) on a NUL-terminated byte string is true exactly when s is well-formed as in C01, every code point belongs to the documented range of the target, and an incomplete sequence at the very end, if any, could have been completed to a character of that range (as the header documents).', 'every NUL-terminated byte string, every targetRange value', INF, [S+':isUtf8', I+':getRangeFlag(char)', I+':getCharEncodableRangeFlags'])
p('C15', 'isUtf16 answers exactly for every target', 'isUtf16(s, target) is true exactly when s is well-formed UTF-16 (a lone final high surrogate ignored when the target has characters that need one) all of whose code points belong to the range of the target.', 'every NUL-terminated char16_t string, every targetRange value', INF, [S+':isUtf16', I+':getRangeFlag(char16_t)'])
p('C16', 'isUcs2 answers exactly for every target', 'isUcs2(s, target) is true exactly when s contains no surrogate and every unit belongs to the range of the target.', 'every NUL-terminated char16_t string, every targetRange value', INF, [S+':isUcs2'])
p('C17', 'isUcs4 answers exactly for every target', 'isUcs4(s, target) is true exactly when every unit is a non-surrogate belonging to the documented range of the target.', 'every NUL-terminated char32_t string, every targetRange value', INF, [S+':isUcs4', H+':RangeType'])
p('C18', 'Strings that pass isX(target) re-encode in the target', 'If isX(s, target) is true then the to-function of that target on s succeeds: it returns the re-encoding of all code points of s (documented guarantee in the header banner).', 'every string of every source encoding, every target', INF, [H+':banner lines 42-44', S+':isUtf8', S+':isUcs4', S+':toUtf16'])
p('C19', 'Target ranges nest', 'A string accepted for kAscii is accepted for kUcs2; accepted for kUcs2 implies kUnicode; kUnicode implies kUtf16; kUtf16 implies kUtf8; kUtf8 implies kUcs4, for each is-function.', 'every string, every pair of targets', INF, [I+':RangeTypeFlags', S+':isUtf8', S+':isUtf16', S+':isUcs2', S+':isUcs4'])
p('C20', 'Invalid target values and empty inputs', 'Each is-function returns false for every targetRange outside kAscii..kUnicode, whatever the string, and true for the empty string and the null pointer for every valid target and every predicate.', 'every int target value, every string and predicate', 'The enum is an int: 2^32 values times all strings.', [S+':isUtf8', S+':isUtf16', S+':isUcs2', S+':isUcs4'])
# ---- memory ----
p('C21', 'NUL-terminated calls never read past the NUL', 'Given a pointer to an array that contains a zero element, every NUL-terminated is-, to- and unicodeLength call terminates without reading outside the array, and its result does not depend on anything after the first zero.', 'every array containing a zero, every contents after it, every function', 'Out-of-bounds reads are schedule- and layout-dependent and need not change results in a test.', [S, D+':decodeUtf8'])
p('C22', 'basic_string overloads stop at the first embedded zero', 'The std::basic_string overload of every is-, to- and unicodeLength function behaves as the function applied to the part of the string before its first embedded zero; toLower on UCS-4 strings instead maps every element.', 'every string, with or without embedded zeros', INF, [S, L])
p('C23', 'Null pointers are treated as empty strings', 'Every pointer-taking is-function returns true, every to-function returns an empty string and unicodeLength returns 0 for a null pointer.', 'every pointer-taking entry point (including the wchar_t ones)', 'Undefined behaviour cannot be observed reliably by a test.', [S, H])
p('C24', 'Length-bounded isUtf8 stays inside its buffer', 'isUtf8(p, n) with n > 0 reads only p[0..n-1].', 'every buffer and every length n > 0', 'An over-read of one byte is invisible unless the byte lies on an unmapped page.', [S+':isUtf8', S+':isSecondHalfUtf16AsUtf8'])
p('C25', 'Length-bounded unicodeLength stays inside its buffer', 'unicodeLength(p, n) with n > 0 reads only p[0..n-1], for char, char16_t and char32_t.', 'every buffer and every length n > 0', 'As C24.', [S+':unicodeLength'])
p('C26', 'Length-bounded isUtf8 verdict', 'isUtf8(p, n) with n > 0 is true exactly when the n bytes are well-formed UTF-8 possibly ending in one incomplete but completable sequence, i.e. agrees with the NUL-terminated verdict on the same n bytes.', 'every NUL-free buffer of n > 0 bytes', INF, [S+':isUtf8'])
# ---- lengths ----
p('C27', 'unicodeLength counts UTF-8 code points', 'unicodeLength of a NUL-terminated UTF-8 string that is well formed, ends on a sequence boundary and contains only code points up to 0x10FFFF is its number of code points (modulo 2^32); it is 0 if the string is malformed or has a larger value.', 'every NUL-terminated byte string', INF, [S+':unicodeLength(const char*)'])
p('C28', 'unicodeLength ignores an incomplete tail', 'For a string ending in an incomplete sequence, unicodeLength returns the number of complete code points before it, as documented for all functions of the library (incomplete sequences at the end are ignored).', 'every NUL-terminated string with an incomplete tail (UTF-8 and UTF-16)', INF, [S+':unicodeLength(const char*)', S+':unicodeLength(const char16_t*)'])
p('C29', 'unicodeLength counts UTF-16 code points', 'unicodeLength of a NUL-terminated well-formed UTF-16 string is its number of code points (mod 2^32), and 0 if an unpaired surrogate occurs before the end.', 'every NUL-terminated char16_t string', INF, [S+':unicodeLength(const char16_t*)'])
p('C30', 'unicodeLength counts UCS-4 code points', 'unicodeLength of a NUL-terminated UCS-4 string is its number of elements (mod 2^32) if it contains no surrogate, else 0.', 'every NUL-terminated char32_t string', INF, [S+':unicodeLength(const char32_t*)'])
p('C31', 'Length-bounded unicodeLength', 'unicodeLength(p, n), n > 0, of well-formed text cut after n units is the number of code points that lie completely inside the first n units; it is 0 when a zero element occurs inside the first n units after the start, and 0 on malformed input.', 'every buffer and n > 0, for UTF-8, UTF-16 and UCS-4', INF, [S+':unicodeLength'])
p('C32', 'All length functions agree with the decoders', 'unicodeLength(s) equals the length of toUcs4(s) for well-formed UTF-8/UTF-16 text, and a text has the same unicodeLength in all three encodings.', 'every Unicode text', INF, [S+':unicodeLength', S+':toUcs4'])
# ---- predicates ----
p('C33', 'Predicate chains mean conjunction', 'A predicate built by validIf/validIfNot followed by any number of andIf/andIfNot accepts a character exactly when every positive condition holds and every negative condition fails, provided no class is both required and forbidden.', 'every chain of every length, every character, every char width', 'Chains are unbounded and characters number 2^32.', [E, H+':EncodingCheckPredicate'])
p('C34', 'No-check predicates accept everything', 'The default predicate, and validIf/validIfNot of kIsNone or of an out-of-range value, accept every character and leave every is-function unchanged.', 'every character, every string, every int class value', INF, [E])
p('C35', 'Predicate equality is behavioural', 'p == q is an equivalence that holds exactly when the two chains check the same classes with the same polarity; equal predicates accept the same characters, and a predicate equal to the default one is a no-check predicate.', 'every pair of chains', 'Pairs of unbounded chains.', [E+':operator=='])
p('C36', 'Character classes match the Unicode data', 'For each of the ten selectable Unicode versions: kIsAssigned holds exactly for the code points listed in that version\'s UnicodeData.txt that are neither surrogates nor private use, kIsPrivate exactly for its private-use ranges, kIsControl exactly for category Cc, and kIsWhitespace exactly for the 25 White_Space code points; the char, char16_t and char32_t overloads agree on values they share.', 'every char32_t value (2^32), all ten versions', 'The shipped test walks one version chosen at build time, up to 0x10FFFE only.', ['source/bits7..16/char_is_unicode.cxx', 'source/bits7..16/UnicodeData.txt'])
p('C37', 'A predicate restricts is-functions code point by code point', 'isX(s, target, pred) is true exactly when isX(s, target) is true and pred accepts every code point of s, for UTF-8, UTF-16, UCS-2 and UCS-4.', 'every string, target and predicate', INF, [S+':isUtf8', S+':isUtf16', S+':isUcs2', S+':isUcs4'])
p('C38', 'Predicate verdicts do not depend on the encoding', 'The same text checked with the same target and predicate gets the same answer from isUtf8, isUtf16 and isUcs4.', 'every text, target, predicate', INF, [S+':isUtf16', S+':isUtf8', S+':isUcs4'])
# ---- lower case ----
p('C39', 'toLower maps code point by code point', 'toLower of a UCS-4 string has the same length and its i-th element depends only on the i-th element and on whether lang is Turkic; toLower distributes over concatenation.', 'every UCS-4 string, every lang', INF, [L+':toLower(const ucs4String&)'])
p('C40', 'Lower-case mapping matches the Unicode data', 'Without a Turkic language, each code point is mapped to its simple lowercase mapping in the selected version\'s UnicodeData.txt, and code points without one are unchanged.', 'every char32_t value, all ten versions', 'The tests list selected mappings only.', ['source/bits7..16/char_to_lower.cxx', 'source/bits7..16/UnicodeData.txt'])
p('C41', 'toLower is idempotent', 'toLower(toLower(s, l), l) = toLower(s, l) for every string s and language l.', 'every UCS-4 string, every lang, all ten versions', INF, [L, 'source/bits7..16/char_to_lower.cxx'])
p('C42', 'Turkic behaviour is selected by exactly ten codes', 'toLower treats capital I as dotless exactly when lang is one of az, aze, azj, azb, kk, kaz, tt, tat, tr, tur; any other lang (including null) gives the default result; Turkic and default results differ only on capital I.', 'every NUL-terminated lang string and null, every string', 'The set of lang strings is infinite.', [L+':isTurkicLang', 'source/bits7..16/char_to_lower.cxx:turkicToLower'])
p('C43', 'toLower agrees across encodings', 'toLower of a UTF-8 or UTF-16 string is the re-encoding of toLower of its code points; malformed input gives the empty string; the number of code points is preserved.', 'every string', INF, [L])
p('C44', 'toLower never produces invalid values', 'toLower maps Unicode scalar values to Unicode scalar values, never maps a non-zero value to zero, and leaves every value above 0x1FFFF unchanged; so lower-casing valid text never fails.', 'every char32_t value, all ten versions', '2^32 values per version.', ['source/bits7..16/char_to_lower.cxx', L])
# ---- split / join ----
p('C45', 'join undoes split', 'join(split(s, d), d) = s for every string s and delimiter d.', 'every string and delimiter, every character type', INF, [J])
p('C46', 'split produces exactly the pieces between delimiters', 'split of a non-empty string yields (number of delimiters + 1) pieces, none containing the delimiter, whose delimiter-separated concatenation is the string; split of the empty string yields no piece.', 'every string and delimiter', INF, [J+':split'])
p('C47', 'split undoes join', 'split(join(v, d), d) = v for every vector v of delimiter-free pieces other than the vector holding just one empty string, d non-zero.', 'every vector of strings', INF, [J])
p('C48', 'join concatenates with single delimiters', 'join(v, d) is the concatenation of the pieces with exactly one d between neighbours; its size is the sum of the sizes plus (count - 1).', 'every vector of strings, every delimiter', INF, [J+':join'])
# ---- trim ----
p('C49', 'trim removes exactly the outer blanks', 'trim(s) / trim(s, set) leaves s = prefix ++ result ++ suffix where prefix and suffix consist of blanks (characters of set) and result neither starts nor ends with one; such a decomposition is unique unless s is all blanks, in which case the result is empty.', 'every string and set', INF, [T+':trim'])
p('C50', 'trimWhiteSpace agrees across encodings', 'trimWhiteSpace of UTF-8 or UTF-16 text equals re-encoding the trimmed code points; UTF-8 text that is malformed or holds values above 0x10FFFF becomes empty.', 'every string', INF, [T+':trimWhiteSpace'])
p('C51', 'trim is idempotent', 'Trimming twice equals trimming once, for every trim variant.', 'every string', INF, [T])
p('C52', 'trimWhiteSpace trims all Unicode blanks', 'As the README says, trimWhiteSpace trims all blank code points defined in Unicode (every code point of kIsWhitespace).', 'every string', INF, [T+':trimWhiteSpace', 'README.md'])
# ---- code pages ----
p('C53', 'Code-page conversion is exact', 'toUtf8(s, kSrcCP1252) and toUtf8(s, kSrcCP1250) return the UTF-8 form of the Microsoft mapping of each byte, and the empty string if any byte is unassigned in that code page; kSrcUnicode returns the bytes unchanged; any other value returns the empty string.', 'every NUL-terminated byte string, every int source type', INF, [U])
p('C54', 'Code-page conversion is lossless', 'On strings of assigned bytes, the conversion is injective and produces valid UTF-8 with one code point per byte.', 'every pair of strings', 'Pairs of arbitrary strings.', [U])
# ---- wchar_t ----
p('C55', 'wchar_t entry points agree with the fixed-width ones', 'With 32-bit wchar_t the isX/toX functions on wide strings equal the char32_t functions (with target kUtf16 for isUtf8/isUtf16/isUcs4); with 16-bit wchar_t they equal the char16_t ones; toWstring inverts them on valid text.', 'every wide string', INF, [H+':wchar_t section'])
p('C56', 'isWstring guarantees toWstring', 'If isWstring(x) is true then toWstring(x) is the wide re-encoding of all code points of x, for both wchar_t widths.', 'every string of every source encoding', INF, [H+':isWstring', H+':toWstring'])
p('C57', 'Reported Unicode version', 'getUnicodeVersionSupported returns "N.0.0" for the build-time selected version N, for each of the ten versions.', 'all ten versions', 'A test run sees one build configuration.', ['source/bits7..16/char_is_unicode.cxx:supportedUnicodeVersion', S+':getUnicodeVersionSupported'])
# ---- algebra ----
p('C58', 'Conversions distribute over concatenation', 'If a is well-formed text ending on a sequence boundary then isX(a ++ b, t) = isX(a, t) and isX(b, t), and if a and b both convert then toX(a ++ b) = toX(a) ++ toX(b).', 'every pair of strings', 'Pairs of arbitrary strings.', [S])
p('C59', 'ASCII is transparent', 'A string of values 1..0x7F is accepted by every is-function for every target and converts element by element to itself in every direction.', 'every ASCII string', INF, [S])
p('C60', 'UTF-8 output is injective and order preserving', 'toUtf8 on valid UCS-4 strings is injective, and comparing outputs bytewise as unsigned values gives the same order as comparing the code-point sequences.', 'every pair of valid UCS-4 strings', 'Pairs of arbitrary strings.', [S+':toUtf8(const char32_t*)', I+':encodeUtf8'])
p('C61', 'Only completable tails are ignored by conversions', 'A conversion from UTF-8 ignores an incomplete sequence at the end of the text exactly when bytes could be appended to complete it to a valid sequence; any other incomplete sequence makes the result empty.', 'every NUL-terminated byte string, each of the three targets', INF, [S])
# ---- overloads and platform helpers ----
p('C62', 'The bare checks decide well-formedness', 'With targetRange left out, isUtf8 / isUtf16 / isUcs2 / isUcs4 are "a bare check of the correctness of the encoding": true exactly for well-formed text (cut-short tails ignored), so isUtf8(s) is true exactly when toUcs4(s) decodes s; isX(s, pred) is that check with the predicate required of every character.', 'every string, every predicate', INF, [H+':isUtf8', H+':isUtf16', H+':isUcs2', H+':isUcs4'])
p('C63', 'WIN32 narrow overloads', 'On WIN32 isUtf16/isUcs2/isUcs4(const char*) check UTF-8 text against that target, and toUtf8(const char*) returns its argument if it is well-formed UTF-8 and the empty string otherwise, null included.', 'every NUL-terminated byte string and null', INF, [H+':WIN32 section'])
p('C64', 'isTstring guarantees toTstring', 'If isTstring(x) is true then toTstring(x) is x re-encoded for TCHAR, for _MBCS and _UNICODE builds; if it is false toTstring(x) is empty.', 'every string of every source encoding', INF, [H+':isTstring', H+':toTstring'])
p('C65', 'toTstring accepts strings and pointers alike', 'toTstring of a string object returns what toTstring returns for its c_str(), for _MBCS and _UNICODE builds.', 'every string', 'No test is built for WIN32 with _MBCS.', [H+':toTstring'])
# ---- the generator of the test data ----
p('C66', 'The test-data tool lists the assigned code points', 'mkUnicodeTestData, given UnicodeData.txt, writes a C++ array holding the code field of every data line except those whose name marks them as surrogate or private use, in file order, closed by 0xFFFFFFFF.', 'every file of well-formed data lines', 'The tool is run on one file per build; its output is only looked at by the test it feeds.', ['mkUnicodeTestData/mkUnicodeTestData.cxx:process'])
p('C67', 'The test-data tool always ends', 'process() of mkUnicodeTestData ends on every input file.', 'every byte sequence as input file', 'The set of files is infinite; the shipped ones all end in a newline.', ['mkUnicodeTestData/mkUnicodeTestData.cxx:process'])
p('C68', 'The test-data tool has no undefined behaviour', 'process() of mkUnicodeTestData never indexes outside the vector of fields, whatever the newline-terminated input file.', 'every newline-terminated file', 'The set of files is infinite.', ['mkUnicodeTestData/mkUnicodeTestData.cxx:process'])
# ---- texts that arrive piece by piece, sizes ----
p('C69', 'What passes keeps passing when cut', 'If an is-function accepts a text, it accepts every beginning of it, wherever the cut falls, for every target and predicate; so a text that fails cannot be mended by appending to it.', 'every NUL-terminated string, every cut position, target and predicate', 'Pairs of arbitrary strings.', [S])
p('C70', 'Converting a beginning gives a beginning', 'If a to-function converts a text, it converts every beginning of it, and the result is a beginning of the whole result.', 'every NUL-terminated string and cut position', 'Pairs of arbitrary strings.', [S])
p('C71', 'Sizes of results are bounded both ways', 'The size of the result of every to-function is at most a fixed multiple of the size of its argument (1, 2, 3, 4 or 6 by direction), and a non-empty result is never shorter than a fixed fraction of it: nothing is dropped but a cut tail.', 'every NUL-terminated string', INF, [S])
# ---- laws relating calls ----
p('C72', 'Lower-casing changes no verdict', 'A text and its lower-cased form get the same answer from isUtf8, isUtf16 and isUcs4 for every target but kAscii (and every predicate for UTF-8 and UCS-4); outside the Turkic languages ASCII text stays ASCII.', 'every text, language, target and predicate, all ten versions', INF, [L, S])
p('C73', 'Lower-casing and trimming commute', 'trimWhiteSpace(toLower(s)) = toLower(trimWhiteSpace(s)), in UTF-8, UTF-16 and UCS-4.', 'every text and language, all ten versions', INF, [L, T])
p('C74', 'Lower-casing commutes with split and join', 'For a delimiter that is its own lower case and that of nothing else, the pieces of the lower-cased text are the lower-cased pieces, and joining lower-cased pieces is lower-casing the joined text.', 'every text or vector of texts, every such delimiter, all ten versions', INF, [L, J])
p('C75', 'Sizes of lower-cased texts', 'toLower of UTF-16 text never changes the number of units; of UTF-8 text it at most doubles the number of bytes, and outside the Turkic languages grows it by at most half.', 'every text and language, all ten versions', 'The extremes are reached only by particular letters.', [L, 'source/bits7..16/char_to_lower.cxx'])
p('C76', 'Later Unicode versions accept what earlier ones did', 'A string passing an is-function under a predicate in one Unicode version passes it in every later one, unless the predicate forbids assigned characters; predicates not mentioning kIsAssigned do not depend on the version at all.', 'every string, target, chain, every pair of the ten versions', 'A test run sees one build configuration.', ['source/bits7..16/char_is_unicode.cxx', E])
p('C77', 'Later Unicode versions keep case mappings', 'A mapping of one version is kept by every later one; lower-casing with the old version first changes nothing for the new one, and the old version leaves alone what the new one produces.', 'every string, language, every pair of the ten versions', 'A test run sees one build configuration.', ['source/bits7..16/char_to_lower.cxx', L])
p('C78', 'Splitting and joining texts put together', 'split(a + d + b, d) is split(a, d) followed by split(b, d) for non-empty a and b; join of two non-empty vectors put together is join(u, d) + d + join(w, d); join(split(s, d), e) replaces every d by e.', 'all strings, vectors and delimiters (non-zero for join)', 'Pairs of arbitrary strings.', [J])
p('C79', 'Trimming ignores added blanks', 'Putting blanks around a text does not change its trimmed form; a text is unchanged by trimming exactly when it is empty or neither begins nor ends with a blank; trimming fewer kinds of blanks first does not matter, and nothing is left to trim for the weaker kind.', 'every string, every set of blanks', INF, [T])
p('C80', 'Chains are sets of conditions', 'Predicates built from the same conditions in any order, with any repetitions, are equal; adding conditions can only reject more.', 'every pair of chains', 'Pairs of unbounded chains.', [E])
p('C81', 'How the classes lie', 'No private-use code point is assigned, every control and whitespace code point is; surrogates, noncharacters and values above 0x10FFFF are in no class.', 'every char32_t value, all ten versions', '2^32 values per version.', ['source/bits7..16/char_is_unicode.cxx'])
p('C82', 'Lengths add up', 'unicodeLength(a + b) = unicodeLength(a) + unicodeLength(b) (mod 2^32) for valid texts in each encoding, and toLower does not change it.', 'every pair of valid texts', 'Pairs of arbitrary strings.', [S+':unicodeLength', L])
p('C83', 'Code-page conversion byte by byte', 'toUtf8(a + b, cp) is toUtf8(a, cp) + toUtf8(b, cp) if both convert and empty if one fails; ASCII text is unchanged; the result has one to three bytes per byte and is valid UTF-8 of the Basic Multilingual Plane.', 'every pair of byte strings, both code pages', 'Pairs of arbitrary strings.', [U])
p('C84', 'The test-data tool reports what it did', 'main() of mkUnicodeTestData returns 0 exactly if it has written the array made from infile to outfile, 1 without two arguments, 2 or 3 if infile or outfile cannot be opened, and changes no file but outfile.', 'every file system state and argument list', 'Failing opens depend on the file system; no test runs the tool.', ['mkUnicodeTestData/mkUnicodeTestData.cxx:main'])
# ---- the source text itself ----
p('C85', 'The source of the checking functions does what the model says', 'Run by a semantics of C++, the text of isUtf8, isUtf16, isUcs2 and isUcs4 (every overload and default argument of interface/string.hxx, and all they call in source/) gives exactly the result of the model, undefined behaviour included, whether char is signed or not.', 'every array of units, every pointer into it or null, every target, predicate and length, both signednesses of char, any Unicode tables', 'The platform decides the signedness of char; the set of strings is infinite.', [S, I, 'source/string_decode_utf8.cxx', E, H])
p('C86', 'No pointer outside an array is formed', 'No library function, given valid text, computes a pointer before the beginning or beyond one past the end of its array (undefined by the letter of the standard even if it is never read).', 'every valid argument', 'No usual machine traps on such a pointer.', [S])
p('C87', 'The source of the conversions does what the model says', 'Run by a semantics of C++, the text of toUtf8, toUcs2, toUtf16 and toUcs4 (from char, char16_t and char32_t, strings and pointers, null included) gives exactly the result of the model, undefined behaviour included.', 'every array of units, every pointer into it or null, both signednesses of char', INF, [S, I, 'source/string_decode_utf8.cxx'])
p('C88', 'The source of unicodeLength does what the model says', 'Run by a semantics of C++, the text of the six overloads of unicodeLength, with and without a length, gives exactly the result of the model, undefined behaviour and wrap-around included.', 'every array of units, every pointer into it or null, every length', INF, [S+':unicodeLength'])
p('C89', 'The signedness of char does not matter', 'isUtf8, toUcs2, toUtf16, toUcs4, unicodeLength, toLower, the trimming functions, split and the code-page conversion return the same for a byte string whether the compiler makes char signed or unsigned.', 'every byte string, both signednesses of char', 'A test run sees one compiler.', [S, I, 'source/string_decode_utf8.cxx'])
p('C90', 'The source converts and checks exactly', 'The parsed source, run by the semantics of C++, converts text that reads as code points (an incomplete end ignored) to its re-encoding and anything else to the empty string, answers the checks exactly, and brings text back to itself through UTF-8 and UTF-16.', 'every NUL-free string of each encoding, every target', INF, [S, I, 'source/string_decode_utf8.cxx', H])
p('C91', 'The source of toLower does what the model says', 'Run by a semantics of C++, the text of the three overloads of toLower, with and without a language code, gives exactly the result of the model.', 'every string, every language code or null, every table of case pairs', INF, [L])
p('C92', 'The source of the code-page conversion does what the model says', 'Run by a semantics of C++, the text of toUtf8(const char*, SourceEncoding) gives exactly the result of the model.', 'every byte array, every pointer into it or null, every value of the enumeration type', INF, [U])
p('C93', 'The source of the trimming functions does what the model says', 'Run by a semantics of C++, the templates trim, with and without a set, trimAscii7WhiteSpace and the three overloads of trimWhiteSpace leave in their argument exactly the result of the model.', 'every string an object can hold', INF, [T])
p('C94', 'The source of split and join does what the model says', 'Run by a semantics of C++, the templates split and join give exactly the result of the model for char, char16_t and char32_t, signed overflow included.', 'every string or vector, every delimiter', INF, [J])
p('C95', 'The source of the wchar_t functions does what the model says', 'Run by a semantics of C++, the text of the 32-bit wchar_t functions (isUtf8, isUtf16, isUcs2, isUcs4, isWstring and the conversions from and to wchar_t, pointers and strings) gives exactly the result of the model, undefined behaviour for null included.', 'every array of units, every pointer into it or null, every string', INF, [S])
p('C96', 'The source of the predicates does what the model says', 'Run by a semantics of C++, validIf, validIfNot, checkIf, checkIfNot, andIf, andIfNot, ==, != and the three call operators of EncodingCheckPredicate give exactly the result of the model.', 'every predicate, every value of the enumeration type, every character', 'There are 2^64 predicate objects and 2^32 characters.', [E, H])
p('C97', 'The source trims, splits, joins and lower-cases exactly', 'The parsed source, run by the semantics of C++, removes exactly the outer blanks, cuts exactly at the delimiters (with fewer than 2^31 of them, from there on its counter overflows), glues with single delimiters (with none if the delimiter is 0), maps code pages exactly, and lower-cases as UnicodeData.txt says outside the listed departures, alike in all encodings.', 'every string of each encoding, every version of the tables', INF, [T, J, L, U])
p('C98', 'The source of the character functions follows UnicodeData.txt', 'The parsed source of each source/bits<N> directory, run by the semantics of C++ and called from the rest of the library, answers isUnicodeAssigned, isUnicodePrivate, isControlChar and isWhitespaceChar as UnicodeData.txt of that version says, and getUnicodeVersionSupported names that version.', 'every value of char, char16_t and char32_t, every version, char signed or not', INF, ['source/bits16/char_is_unicode.cxx', 'source/bits16/char_to_lower.cxx', S])
p('C99', 'The linked library', 'The parsed library linked with the parsed source/bits<N>, nothing in it given by the model, converts, checks, lower-cases, trims, splits and joins exactly as specified, and a chain of predicates holds of a character if and only if the character meets every condition of it.', 'every string of each encoding, every version, every consistent chain', INF, [S, I, E, L, U, T, J, 'source/bits16/char_is_unicode.cxx', 'source/bits16/char_to_lower.cxx'])
p('C100', 'The source of the 16-bit wchar_t functions does what the model says', 'Run by a semantics of C++, the text of the 16-bit wchar_t functions (isUtf8, isUtf16, isUcs2, isUcs4, isWstring and the conversions from and to wchar_t, pointers and strings) gives exactly the result of the model, undefined behaviour included, with and without WIN32, _MBCS and _UNICODE.', 'every array of units, every pointer into it or null, every string, the four configurations with 16-bit wchar_t', INF, [H])
p('C101', 'The source of the WIN32 and TCHAR functions does what the model says', 'Run by a semantics of C++, the text of the functions that exist only on Windows (the overloads on narrow strings, isTstring and toTstring with _MBCS and with _UNICODE) gives exactly the result of the model.', 'every array of units, every pointer into it or null, every string, each configuration for Windows', INF, [H])
p('C102', 'toTstring of a string is toTstring of its characters, in the source', 'Run by a semantics of C++ with its rules of overload resolution, the text of toTstring(s) returns what the text of toTstring(s.c_str()) returns.', 'every string of each encoding, _MBCS and _UNICODE', 'Whether a call ends for every input is not decided by running it on some.', [H])
p('C103', 'The wchar_t functions of the source are exact', 'In every configuration the parsed wchar_t functions answer exactly whether a wide string is a text and convert exactly from and to UTF-8, UTF-16 and UTF-32; a text converted there and back is itself, also in the library linked with each bits<N>.', 'every text, every configuration, every version', INF, [H, S])
p('C104', 'Every call on texts that end in a zero returns', 'Run by a semantics of C++, with any bits<N>, in any configuration, whether char is signed or not, every call of a public function whose pointers point to arrays with a zero at or after them (or to at least one element more than the number passed), or are null where that is allowed, ends and nothing undefined happens on the way, whatever the contents; the other null pointers, and splitting at 2^31 or more delimiters, are undefined.', 'every public function, every configuration, every version, every argument as described', INF, [S, I, H, J, T])
p('C105', 'The proved program is the text of the files', 'The text of the source files, copied character by character and taken through a preprocessor for conditional compilation, a tokenizer and a parser written in Coq, is the program that the other theorems about the parsed source are about: for every configuration and Unicode version each call of a function gives the same outcome, so that what those theorems say holds of the text.', 'every configuration, every version, every function, every argument, every bound on rounds and nesting', INF, [S, I, H, J, T])
p('C106', 'The source of mkUnicodeTestData does what the model says', 'Read by a parser and run by a semantics of C++, both written in Coq, the text of mkUnicodeTestData.cxx, linked with the text of the library, gives for every file system and command line exactly the exit code and files of the model of C66-C68 and C84, undefined behaviour and endless loops included, and writes the usage messages to cerr; so it lists exactly the assigned code points, and has exactly the faults shown there.', 'every file system, every argument list, every version and configuration, char signed or not', INF, ['mkUnicodeTestData/mkUnicodeTestData.cxx', J])
p('C107', 'Targets are done in a sensible order', 'help is done alone; otherwise every target is done as often as it was given and in that order, except that clean is done once and first; without targets, all is done; a target that is not known is refused before anything is done (false: it is refused when its turn comes).', 'every list of targets', 'Disks and command lines are unboundedly many; the scripts have no tests at all.', ['make.py'])
p('C108', 'install puts every file where it belongs', 'After make.py install returns, every header, library and program database is below the prefix where it belongs, as it was built (false for lib/Win32/MinSizeRel, which gets the x64 library).', 'every disk, prefix and source directory', 'Disks and command lines are unboundedly many; the scripts have no tests at all.', ['make.py','project.py'])
p('C109', 'install and uninstall keep to their own', 'Whatever comes of them, install and uninstall change nothing but their 15 files and 13 directories, uninstall adds nothing, and everything still lies in a directory.', 'every disk, every outcome including failures half way', 'Disks and command lines are unboundedly many; the scripts have no tests at all.', ['make.py'])
p('C110', 'install succeeds exactly if nothing stands in its way', 'If the prefix is a directory, its directories are there or can be made, its files can be written and all built files exist, install succeeds; and it succeeds only then (but for the one library it does not use).', 'every disk', 'Disks and command lines are unboundedly many; the scripts have no tests at all.', ['make.py'])
p('C111', 'uninstall leaves nothing of ours', 'After uninstall returns none of the files is left, and a directory of ours is left only if something else is in it.', 'every disk, installed or not', 'Disks and command lines are unboundedly many; the scripts have no tests at all.', ['make.py'])
p('C112', 'uninstall undoes install', 'If none of the files was there, then install and uninstall leave the disk as it was (false if one of the directories was there and empty).', 'every disk', 'Disks and command lines are unboundedly many; the scripts have no tests at all.', ['make.py'])
p('C113', 'clean deletes what was built and nothing else', 'clean deletes the two build directories, the gathered package, the installer and the two marks with all below them and nothing else (false without makensis: KeyError before anything is deleted).', 'every disk', 'Disks and command lines are unboundedly many; the scripts have no tests at all.', ['make.py'])
p('C114', 'A package holds what belongs in it', 'The part of make.py package that gathers the files puts each header, library and program database where it belongs (the database of RelWithDebInfo from either of two places), and changes nothing outside build/nsis.', 'every disk', 'Disks and command lines are unboundedly many; the scripts have no tests at all.', ['make.py','project.py'])
p('C115', 'The installer is named after the Unicode version it holds', 'For every version given to configure.py, the number in the name of the installer is the version the library was compiled for (false for exactly the versions outside 7..16).', 'every integer', 'Disks and command lines are unboundedly many; the scripts have no tests at all.', ['configure.py','project.py','make.py','CMakeLists.txt','NSIS/ansak-string.nsi'])
p('C116', 'cmake is told the compiler that was asked for', 'The CXX of cmake is what was given as --compiler (false: it is that name in quotes, or CXX of the environment if there is one).', 'every name and environment', 'Disks and command lines are unboundedly many; the scripts have no tests at all.', ['configure.py','make.py'])
p('C117', 'make.py all leaves libraries made from the sources as they are', 'After make.py all has ended well, the libraries are made from the settings and sources as they are, and a second run does nothing (false after a file was removed or put back with its old time stamp, or a build failed and what was newer is gone).', 'every history of edits, failed and successful builds and cleans', 'The order of edits and builds is unbounded; the scripts have no tests at all.', ['make.py','CMakeLists.txt'])
p('C118', 'make.py test tests the sources as they are', 'After make.py test has ended well, the tests have passed with every file they need as it is (false for UnicodeData.txt and submods/CMakeLists.txt, which are not looked at).', 'every history of edits and builds', 'The order of edits and builds is unbounded; the scripts have no tests at all.', ['make.py','CMakeLists.txt'])
p('C119', 'make.py package leaves an installer made from the files as they are', 'After make.py package has ended well, the installer is made from every file it needs as it is (false for FindANSAK.cmake, which is not looked at).', 'every history of edits and builds', 'The order of edits and builds is unbounded; the scripts have no tests at all.', ['make.py','NSIS/ansak-string.nsi'])
p('C120', 'make leaves a library made from the sources as they are', 'After make has ended well, the library is made from config.make and the sources as they are (false after make clean, which deletes the list of sources, and for files that came after configure).', 'every history of edits, configurations and builds', 'The order of edits and builds is unbounded; the scripts have no tests at all.', ['Makefile','configure','CMakeLists.txt'])
p('C121', 'install finds everything built', 'Whatever targets are given to make.py, when install begins everything it copies has been built (false if scrub comes between all and install).', 'every list of targets and every disk', 'The order of edits and builds is unbounded; the scripts have no tests at all.', ['make.py'])
p('C122', 'make install puts every file where it belongs', 'After make install ends well, the library that was built and every header of interface are below the prefix where they belong.', 'every disk, prefix and source directory, with and without sudo and CONFIG', 'Disks and command lines are unboundedly many; the scripts have no tests at all.', ['Makefile'])
p('C123', 'make install and make uninstall keep to their own', 'Whatever comes of them, make install changes nothing but the way to its directories, the headers and the library, and make uninstall nothing but those files, their directory and include and lib below the prefix (false without sudo: include and lib of the home directory, whatever the prefix).', 'every disk, every outcome including failures half way', 'Disks and command lines are unboundedly many; the scripts have no tests at all.', ['Makefile'])
p('C124', 'make uninstall leaves nothing of ours', 'After make uninstall none of the headers and not the library are left (false if one of the three headers is not there: it fails and the library stays).', 'every disk, installed or not', 'Disks and command lines are unboundedly many; the scripts have no tests at all.', ['Makefile'])
p('C125', 'make uninstall undoes make install', 'If none of the files was there, then make install and make uninstall leave the disk as it was (false with sudo: include and lib stay; true for the home directory).', 'every disk', 'Disks and command lines are unboundedly many; the scripts have no tests at all.', ['Makefile'])
p('C126', 'make clean and make scrub delete what was built and nothing else', 'make clean empties build and changes nothing else, make scrub removes build and config.make and nothing else (false for clean without a directory build, as after scrub: it deletes the sources; hidden files stay).', 'every disk', 'Disks and command lines are unboundedly many; the scripts have no tests at all.', ['Makefile'])
p('C127', 'configure takes the options given and the documented defaults', 'Of --prefix, --compiler and --unicode-version the last one given counts, if none is the documented default; every other argument is refused (false for variables of the environment of the same names; the prefix on Linux is not the documented one).', 'every list of arguments, every environment', 'Disks and command lines are unboundedly many; the scripts have no tests at all.', ['configure','README.md'])
p('C128', 'configure asks for sudo where it is needed', 'sudo is used if and only if the prefix lies in /usr or /Applications and the system is not MinGW or Cygwin, as the comment says (false: for every absolute prefix but the home directory).', 'every prefix without blanks, every environment', 'Disks and command lines are unboundedly many; the scripts have no tests at all.', ['configure'])
p('C129', 'make reads what configure settled', 'Each variable of config.make has for make the value that configure settled (false for values with several blanks together or a #).', 'every value, every environment', 'Disks and command lines are unboundedly many; the scripts have no tests at all.', ['configure','Makefile'])
p('C130', 'The installer puts everything where it belongs', 'Every file in the directories make.py package gathers is carried by the installer and, if it succeeds, arrives unchanged at the same place below $INSTDIR: from the build to the other machine.', 'every disk, package and directory', 'Disks are unboundedly many; the installer script has no tests.', ['NSIS/ansak-string.nsi','make.py'])
p('C131', 'Installer and uninstaller keep to their own', 'Whatever comes of them, the installer changes nothing but the ways to its directories and the files it carries and removes nothing, and the uninstaller removes only our files, include\\ansak, FindANSAK.cmake and itself.', 'every disk, package and directory', 'Disks are unboundedly many; the installer script has no tests.', ['NSIS/ansak-string.nsi','make.py'])
p('C132', 'un.isEmptyDir is right', 'On every machine un.isEmptyDir answers "1" if its argument is an empty directory and "0" otherwise, pops its argument, restores $0 and $1 and closes its search.', 'every disk, package and directory', 'Disks are unboundedly many; the installer script has no tests.', ['NSIS/ansak-string.nsi','make.py'])
p('C133', 'The uninstaller leaves nothing of ours', 'It removes all files of the installation and the directories made for them (false: only include\\ansak is ever removed, and FindANSAK.cmake stays if something else is in there).', 'every disk, package and directory', 'Disks are unboundedly many; the installer script has no tests.', ['NSIS/ansak-string.nsi','make.py'])
p('C134', 'Installing and removing leaves the disk as it was', 'On a disk without our files the uninstaller restores what was there before the installer ran (false: directories remain, and stale files of the package).', 'every disk, package and directory', 'Disks are unboundedly many; the installer script has no tests.', ['NSIS/ansak-string.nsi','make.py'])
p('C135', 'make.py install and the installer install the same', 'From the same build both put the same files in the same places (false for the library of Win32/MinSizeRel).', 'every disk, package and directory', 'Disks are unboundedly many; the installer script has no tests.', ['NSIS/ansak-string.nsi','make.py'])
p('C136', 'FindANSAK finds the installation named by ANSAK_DIR on Unix', 'With ANSAK_DIR naming a directory that holds an installation, such as one made by make install, FindANSAK.cmake gives its library and its include directory (false if ANSAK_DIR is in the environment: a misspelt variable).', 'every disk and every setting of the variables', 'Disks and settings are unboundedly many; the module has no tests.', ['FindANSAK.cmake','Makefile'])
p('C137', 'FindANSAK finds what was installed on Windows', 'After the installer or make.py install, FindANSAK.cmake finds the installation, and every configuration of the chosen platform is given the library built for it.', 'every disk and every setting of the variables', 'Disks and settings are unboundedly many; the module has no tests.', ['FindANSAK.cmake','NSIS/ansak-string.nsi','make.py'])
p('C138', 'FindANSAK finds all documented layouts', 'On Windows libraries in lib, lib/Debug and lib/<architecture>/Debug are found (false for lib/Debug, and for lib if a platform is given).', 'every disk and every setting of the variables', 'Disks and settings are unboundedly many; the module has no tests.', ['FindANSAK.cmake'])
p('C139', 'FindANSAK passes the include directory on', 'Unless ANSAK_ISOLATE is set, the directory of the headers is passed to include_directories (false: the name of the variable is).', 'every disk and every setting of the variables', 'Disks and settings are unboundedly many; the module has no tests.', ['FindANSAK.cmake'])
p('C140', 'What FindANSAK reports exists', 'Every header and library reported as found exists (false for the configurations other than Debug).', 'every disk and every setting of the variables', 'Disks and settings are unboundedly many; the module has no tests.', ['FindANSAK.cmake'])
p('C141', 'ANSAK_NO_GENERATOR_LIBS', 'With ANSAK_NO_GENERATOR_LIBS the libraries are given as single files (false: it changes nothing about them).', 'every disk and every setting of the variables', 'Disks and settings are unboundedly many; the module has no tests.', ['FindANSAK.cmake'])
p('C142', 'The text of the installer script does what the model says', 'The text of NSIS/ansak-string.nsi, read and run as it stands, packs, installs and removes as Model/Nsis.v says, on every disk; if the user declines the removal nothing changes.', 'every disk, every directory to install into, every package, both answers', 'The script is only run by hand on Windows; disks are unboundedly many.', ['NSIS/ansak-string.nsi'])
p('C143', 'The text of FindANSAK.cmake does what the model says', 'The text of FindANSAK.cmake, read and run as it stands, uses only commands of the modelled part of cmake, ends (normally, by return after an error, or by a fatal error) as Model/Find.v says and leaves in its variables what the model says it finds.', 'every disk, all variables and environments, all search directories', 'The module is never run by the tests; disks and settings are unboundedly many.', ['FindANSAK.cmake:156-514'])
p('C144', 'The text of CMakeLists.txt and packaging.cmake does what is wanted', 'The text of both files, read and run as it stands, uses only commands of the modelled part of cmake, ends in an error exactly for the settings listed in Model/ListsWanted.v, and otherwise asks cmake for exactly the listed things in the listed order.', 'every setting of the variables, the cache, the cmake release and the Linux distribution', 'The tests run with one setting on one machine; the settings are unboundedly many.', ['CMakeLists.txt', 'packaging.cmake'])
p('C145', 'One Unicode version per build', 'The library, its tests and its package are of one Unicode version: the one asked for if it is supported (7 to 16), else 16.', 'every setting of the variables, the cache, the cmake release and the Linux distribution', 'The tests run with one setting on one machine; the settings are unboundedly many.', ['CMakeLists.txt:134-185', 'packaging.cmake'])
p('C146', 'The build names only files that exist', 'Every file of the project that is compiled, included or installed exists, or is made by a program of the project from a file that exists.', 'every setting of the variables, the cache, the cmake release and the Linux distribution', 'The tests run with one setting on one machine; the settings are unboundedly many.', ['CMakeLists.txt', 'packaging.cmake'])
p('C147', 'When there are unit tests', 'There are unit tests exactly if the library is built by itself, TEST_ANSAKSTRING is set or coverage is asked for, but not for Visual Studio before 2015 (false for Visual Studio 2005 and 2008).', 'every setting of the variables, the cache, the cmake release and the Linux distribution', 'The tests run with one setting on one machine; the settings are unboundedly many.', ['CMakeLists.txt:69-96'])
p('C148', 'Coverage builds', 'A coverage build has unit tests and a target that reports the coverage, and is refused for Visual Studio (false as a part of another project: it ends in an error).', 'every setting of the variables, the cache, the cmake release and the Linux distribution', 'The tests run with one setting on one machine; the settings are unboundedly many.', ['CMakeLists.txt:76-115', 'CMakeLists.txt:185-235'])
p('C149', 'What packages are made', 'On Linux a TGZ and an RPM or DEB package, on Windows TGZ, NSIS and WIX, on macOS TGZ are made, named after the Unicode version and of version 2.0.1 (false: error before cmake 3.14 and without lsb_release; DEB on Red Hat Enterprise).', 'every setting of the variables, the cache, the cmake release and the Linux distribution', 'The tests run with one setting on one machine; the settings are unboundedly many.', ['packaging.cmake'])
p('C150', 'Installed headers are complete', 'Packages install exactly the three public headers, and these include by name only headers installed with them.', 'every setting of the variables, the cache, the cmake release and the Linux distribution', 'The tests run with one setting on one machine; the settings are unboundedly many.', ['packaging.cmake:36-39', 'interface/string.hxx', 'interface/string_trim.hxx', 'interface/string_splitjoin.hxx'])
p('C151', 'The build agrees with the scripts around it', 'Given the number make.py hands over, CMakeLists.txt builds the Unicode version the model of the scripts says; packages hold the headers that make install, make.py install and the installer install, in the same place.', 'every setting of the variables, the cache, the cmake release and the Linux distribution', 'The tests run with one setting on one machine; the settings are unboundedly many.', ['CMakeLists.txt:134-172', 'packaging.cmake:36-39', 'make.py:257'])
p('C152', 'Targets are made before they are used', 'Every target that is given options, linked, run, tested or installed was made before; everything linked is made by the build (false for tests as a part of another project).', 'every setting of the variables, the cache, the cmake release and the Linux distribution', 'The tests run with one setting on one machine; the settings are unboundedly many.', ['CMakeLists.txt:99-235', 'packaging.cmake:36'])
p('C153', 'What the build depends on and leaves alone', 'CMakeLists.txt and packaging.cmake change no variable but the listed ones, and what they ask cmake for depends only on sixteen variables, the release of cmake and whether SETUP_TARGET_FOR_COVERAGE is known.', 'every setting of the variables, the cache, the cmake release and the Linux distribution', 'The tests run with one setting on one machine; the settings are unboundedly many.', ['CMakeLists.txt', 'packaging.cmake'])
p('C154', 'How googletest is brought in', 'submods/CMakeLists.txt, read and run as it stands, adds googletest once, exactly if neither gmock nor gtest is a target, not to be installed, on Unix with warnings that are not errors, and on Windows with the static runtime (the last is false: the flags are changed after googletest was added).', 'every setting of the variables, every set of targets', 'The tests run with one setting on one machine; the settings are unboundedly many.', ['submods/CMakeLists.txt:36-63'])
p('C155', 'configure.cmd finds Python 3', 'configure.cmd, read and run as it stands, runs configure.py with python if it is of version 3, else with python3 if that is, else not at all, and with the python given by --python; all arguments are handed on and make.cmd is made for that python (false if there is no python, and always with --python).', 'every set of pythons, all arguments', 'The script is only run by hand on Windows; arguments are unboundedly many.', ['configure.cmd:46-100', 'choosep3.py:45-50', 'configure.py:152-174', 'configure.py:221-229'])
p('C156', 'make runs what configure settled', 'The recipes of the Makefile, read and run as they stand, configure in build with the compiler, generator and Unicode version that were settled, build and test the settled configuration, and make an RPM or DEB package exactly if there is something to make it with (false: with a configuration cmake gets it as one word with --config, without one ctest gets an empty word).', 'every setting of the variables of config.make', 'The recipes have no tests; settings are unboundedly many.', ['Makefile:49-75', 'Makefile:95-114'])
p('C157', 'FindASan keeps its promises', 'FindASan.cmake, read and run as it stands, defines the build type ASan, with the sanitizer for compilers and linkers, exactly if the compiler has one, says so in HAVE_ADDRESS_SANITIZER and changes no variables but its own (false: HAVE_ADDRESS_SANITIZER stays true if it was, and CMAKE_REQUIRED_FLAGS is lost).', 'every setting of the variables, every compiler', 'The module is only included for one build type; settings are unboundedly many.', ['cmake/modules/FindASan.cmake:24-69'])
p('C158', 'What is given to configure is what make uses', 'The compiler and the Unicode version settled by configure from its options, written to config.make and read from there, are what the recipes of the Makefile hand to cmake, with the generator and configuration of the system, and packages are made exactly where the program for them was found (false: on macOS the configuration is not handed over, elsewhere ctest gets an empty word).', 'all arguments of configure, every environment, every compiler and version of plain characters', 'A test goes through one machine and one set of options; both are unboundedly many.', ['configure:107-140', 'configure:142-223', 'Makefile:49-75', 'Makefile:95-114'])
with open(os.path.join(os.path.dirname(os.path.abspath(__file__)), '..', 'properties.jsonl'), 'w') as f:
    for x in P: f.write(json.dumps(x, ensure_ascii=False) + '\n')
print(len(P))
