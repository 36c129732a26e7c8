{"id": "C01", "title": "UTF-8 to UCS-4 decodes exactly", "statement": "toUcs4 of a NUL-terminated byte string returns exactly the code points the bytes encode when the bytes are a sequence of well-formed UTF-8 sequences (1 to 6 bytes, values 1..0x7FFFFFFF, shortest form, no lone surrogates, a surrogate pair written as two 3-byte sequences read as one code point), ignoring one incomplete sequence at the very end; it returns the empty string for every other byte string.", "quantifier": "every NUL-terminated byte string, any length, any bytes after the NUL", "why_tests_cant": "The set of strings is infinite; tests sample a handful of literals.", "anchors": ["source/string_decode_utf8.cxx:decodeUtf8", "source/string.cxx:toUcs4(const char*)"]}
{"id": "C02", "title": "UTF-8 to UTF-16 re-encodes exactly", "statement": "toUtf16 of a NUL-terminated byte string returns the UTF-16 form (surrogate pairs above 0xFFFF) of the code points the bytes encode when all of them are at most 0x10FFFF, ignoring one incomplete sequence at the end, and the empty string otherwise.", "quantifier": "every NUL-terminated byte string", "why_tests_cant": "The set of strings is infinite; tests sample a handful of literals.", "anchors": ["source/string.cxx:toUtf16(const char*)", "source/string.cxx:isUtf16Encodable", "source/string_internal.hxx:rawEncodeUtf16"]}
{"id": "C03", "title": "UTF-8 to UCS-2 re-encodes exactly", "statement": "toUcs2 of a NUL-terminated byte string returns the encoded code points when all are at most 0xFFFF (ignoring one incomplete trailing sequence) and the empty string otherwise.", "quantifier": "every NUL-terminated byte string", "why_tests_cant": "The set of strings is infinite; tests sample a handful of literals.", "anchors": ["source/string.cxx:toUcs2(const char*)"]}
{"id": "C04", "title": "UCS-4 to UTF-8 encodes exactly", "statement": "toUtf8 of a NUL-terminated UCS-4 string returns the concatenated shortest UTF-8 forms of its code points if none is a surrogate and all are below 0x80000000, and the empty string otherwise.", "quantifier": "every NUL-terminated char32_t string", "why_tests_cant": "The set of strings is infinite; tests sample a handful of literals.", "anchors": ["source/string.cxx:toUtf8(const char32_t*)", "source/string_internal.hxx:encodeUtf8"]}
{"id": "C05", "title": "UCS-4 to UTF-16 encodes exactly", "statement": "toUtf16 of a NUL-terminated UCS-4 string returns the concatenated UTF-16 forms of its code points if none is a surrogate and all are at most 0x10FFFF, and the empty string otherwise.", "quantifier": "every NUL-terminated char32_t string", "why_tests_cant": "The set of strings is infinite; tests sample a handful of literals.", "anchors": ["source/string.cxx:toUtf16(const char32_t*)"]}
{"id": "C06", "title": "UCS-4 to UCS-2 copies exactly", "statement": "toUcs2 of a NUL-terminated UCS-4 string returns the same values if all are at most 0xFFFF and none is a surrogate, and the empty string otherwise.", "quantifier": "every NUL-terminated char32_t string", "why_tests_cant": "The set of strings is infinite; tests sample a handful of literals.", "anchors": ["source/string.cxx:toUcs2(const char32_t*)"]}
{"id": "C07", "title": "UTF-16 to UCS-4 decodes exactly", "statement": "toUcs4 of a NUL-terminated char16_t string returns the code points of well-formed UTF-16, ignoring a lone high surrogate at the very end, and the empty string for any other string (unpaired high or low surrogate elsewhere).", "quantifier": "every NUL-terminated char16_t string", "why_tests_cant": "The set of strings is infinite; tests sample a handful of literals.", "anchors": ["source/string.cxx:toUcs4(const char16_t*)", "source/string_internal.hxx:rawDecodeUtf16"]}
{"id": "C08", "title": "UTF-16 to UTF-8 rejects everything malformed", "statement": "toUtf8 of a NUL-terminated char16_t string returns the UTF-8 form of well-formed UTF-16 (ignoring a lone high surrogate at the very end) and, as documented for every to-function, the empty string when there is any incorrectness in the encoding.", "quantifier": "every NUL-terminated char16_t string", "why_tests_cant": "The set of strings is infinite; tests sample a handful of literals.", "anchors": ["source/string.cxx:toUtf8(const char16_t*)", "interface/string.hxx:to<RangeType> functions"]}
{"id": "C09", "title": "UCS-4 round-trips through UTF-8", "statement": "toUcs4(toUtf8(s)) = s for every UCS-4 string of non-zero, non-surrogate values below 0x80000000.", "quantifier": "every such string", "why_tests_cant": "The set of strings is infinite; tests sample a handful of literals.", "anchors": ["source/string.cxx:toUtf8(const ucs4String&)", "source/string.cxx:toUcs4(const string&)"]}
{"id": "C10", "title": "UCS-4 round-trips through UTF-16", "statement": "toUcs4(toUtf16(s)) = s for every UCS-4 string of non-zero Unicode scalar values.", "quantifier": "every such string", "why_tests_cant": "The set of strings is infinite; tests sample a handful of literals.", "anchors": ["source/string.cxx:toUtf16(const ucs4String&)", "source/string.cxx:toUcs4(const utf16String&)"]}
{"id": "C11", "title": "UTF-16 round-trips through UTF-8 and UCS-4", "statement": "For every well-formed UTF-16 string s without NUL, toUtf16(toUtf8(s)) = s and toUtf16(toUcs4(s)) = s.", "quantifier": "every well-formed UTF-16 string", "why_tests_cant": "The set of strings is infinite; tests sample a handful of literals.", "anchors": ["source/string.cxx:toUtf8(const utf16String&)", "source/string.cxx:toUtf16(const string&)"]}
{"id": "C12", "title": "UTF-8 round-trips and is normalised", "statement": "For every UTF-8 string that encodes no code point as a surrogate pair and ends on a sequence boundary, toUtf8(toUcs4(s)) = s; for every accepted UTF-8 string whatever, toUtf8(toUcs4(s)) is the shortest-form UTF-8 of the same code points.", "quantifier": "every accepted UTF-8 string", "why_tests_cant": "The set of strings is infinite; tests sample a handful of literals.", "anchors": ["source/string.cxx:toUcs4(const string&)", "source/string.cxx:toUtf8(const ucs4String&)"]}
{"id": "C13", "title": "Conversion outputs are always valid", "statement": "The result of every to-function is accepted by the is-function of its encoding: isUtf8(toUtf8(x)), isUtf16(toUtf16(x)), isUcs2(toUcs2(x)), isUcs4(toUcs4(x)) are true for every input x.", "quantifier": "every input string of every source encoding", "why_tests_cant": "The set of strings is infinite; tests sample a handful of literals.", "anchors": ["source/string.cxx:toUtf8", "source/string.cxx:toUtf16", "source/string.cxx:toUcs2", "source/string.cxx:toUcs4"]}
{"id": "C14", "title": "isUtf8 answers exactly for every target", "statement": "isUtf8(s, target) on a NUL-terminated byte string is true exactly when s is well-formed as in C01, every code point belongs to the documented range of the target, and an incomplete sequence at the very end, if any, could have been completed to a character of that range (as the header documents).", "quantifier": "every NUL-terminated byte string, every targetRange value", "why_tests_cant": "The set of strings is infinite; tests sample a handful of literals.", "anchors": ["source/string.cxx:isUtf8", "source/string_internal.hxx:getRangeFlag(char)", "source/string_internal.hxx:getCharEncodableRangeFlags"]}
{"id": "C15", "title": "isUtf16 answers exactly for every target", "statement": "isUtf16(s, target) is true exactly when s is well-formed UTF-16 (a lone final high surrogate ignored when the target has characters that need one) all of whose code points belong to the range of the target.", "quantifier": "every NUL-terminated char16_t string, every targetRange value", "why_tests_cant": "The set of strings is infinite; tests sample a handful of literals.", "anchors": ["source/string.cxx:isUtf16", "source/string_internal.hxx:getRangeFlag(char16_t)"]}
{"id": "C16", "title": "isUcs2 answers exactly for every target", "statement": "isUcs2(s, target) is true exactly when s contains no surrogate and every unit belongs to the range of the target.", "quantifier": "every NUL-terminated char16_t string, every targetRange value", "why_tests_cant": "The set of strings is infinite; tests sample a handful of literals.", "anchors": ["source/string.cxx:isUcs2"]}
{"id": "C17", "title": "isUcs4 answers exactly for every target", "statement": "isUcs4(s, target) is true exactly when every unit is a non-surrogate belonging to the documented range of the target.", "quantifier": "every NUL-terminated char32_t string, every targetRange value", "why_tests_cant": "The set of strings is infinite; tests sample a handful of literals.", "anchors": ["source/string.cxx:isUcs4", "interface/string.hxx:RangeType"]}
{"id": "C18", "title": "Strings that pass isX(target) re-encode in the target", "statement": "If isX(s, target) is true then the to-function of that target on s succeeds: it returns the re-encoding of all code points of s (documented guarantee in the header banner).", "quantifier": "every string of every source encoding, every target", "why_tests_cant": "The set of strings is infinite; tests sample a handful of literals.", "anchors": ["interface/string.hxx:banner lines 42-44", "source/string.cxx:isUtf8", "source/string.cxx:isUcs4", "source/string.cxx:toUtf16"]}
{"id": "C19", "title": "Target ranges nest", "statement": "A string accepted for kAscii is accepted for kUcs2; accepted for kUcs2 implies kUnicode; kUnicode implies kUtf16; kUtf16 implies kUtf8; kUtf8 implies kUcs4, for each is-function.", "quantifier": "every string, every pair of targets", "why_tests_cant": "The set of strings is infinite; tests sample a handful of literals.", "anchors": ["source/string_internal.hxx:RangeTypeFlags", "source/string.cxx:isUtf8", "source/string.cxx:isUtf16", "source/string.cxx:isUcs2", "source/string.cxx:isUcs4"]}
{"id": "C20", "title": "Invalid target values and empty inputs", "statement": "Each is-function returns false for every targetRange outside kAscii..kUnicode, whatever the string, and true for the empty string and the null pointer for every valid target and every predicate.", "quantifier": "every int target value, every string and predicate", "why_tests_cant": "The enum is an int: 2^32 values times all strings.", "anchors": ["source/string.cxx:isUtf8", "source/string.cxx:isUtf16", "source/string.cxx:isUcs2", "source/string.cxx:isUcs4"]}
{"id": "C21", "title": "NUL-terminated calls never read past the NUL", "statement": "Given a pointer to an array that contains a zero element, every NUL-terminated is-, to- and unicodeLength call terminates without reading outside the array, and its result does not depend on anything after the first zero.", "quantifier": "every array containing a zero, every contents after it, every function", "why_tests_cant": "Out-of-bounds reads are schedule- and layout-dependent and need not change results in a test.", "anchors": ["source/string.cxx", "source/string_decode_utf8.cxx:decodeUtf8"]}
{"id": "C22", "title": "basic_string overloads stop at the first embedded zero", "statement": "The std::basic_string overload of every is-, to- and unicodeLength function behaves as the function applied to the part of the string before its first embedded zero; toLower on UCS-4 strings instead maps every element.", "quantifier": "every string, with or without embedded zeros", "why_tests_cant": "The set of strings is infinite; tests sample a handful of literals.", "anchors": ["source/string.cxx", "source/string_tolower.cxx"]}
{"id": "C23", "title": "Null pointers are treated as empty strings", "statement": "Every pointer-taking is-function returns true, every to-function returns an empty string and unicodeLength returns 0 for a null pointer.", "quantifier": "every pointer-taking entry point (including the wchar_t ones)", "why_tests_cant": "Undefined behaviour cannot be observed reliably by a test.", "anchors": ["source/string.cxx", "interface/string.hxx"]}
{"id": "C24", "title": "Length-bounded isUtf8 stays inside its buffer", "statement": "isUtf8(p, n) with n > 0 reads only p[0..n-1].", "quantifier": "every buffer and every length n > 0", "why_tests_cant": "An over-read of one byte is invisible unless the byte lies on an unmapped page.", "anchors": ["source/string.cxx:isUtf8", "source/string.cxx:isSecondHalfUtf16AsUtf8"]}
{"id": "C25", "title": "Length-bounded unicodeLength stays inside its buffer", "statement": "unicodeLength(p, n) with n > 0 reads only p[0..n-1], for char, char16_t and char32_t.", "quantifier": "every buffer and every length n > 0", "why_tests_cant": "As C24.", "anchors": ["source/string.cxx:unicodeLength"]}
{"id": "C26", "title": "Length-bounded isUtf8 verdict", "statement": "isUtf8(p, n) with n > 0 is true exactly when the n bytes are well-formed UTF-8 possibly ending in one incomplete but completable sequence, i.e. agrees with the NUL-terminated verdict on the same n bytes.", "quantifier": "every NUL-free buffer of n > 0 bytes", "why_tests_cant": "The set of strings is infinite; tests sample a handful of literals.", "anchors": ["source/string.cxx:isUtf8"]}
{"id": "C27", "title": "unicodeLength counts UTF-8 code points", "statement": "unicodeLength of a NUL-terminated UTF-8 string that is well formed, ends on a sequence boundary and contains only code points up to 0x10FFFF is its number of code points (modulo 2^32); it is 0 if the string is malformed or has a larger value.", "quantifier": "every NUL-terminated byte string", "why_tests_cant": "The set of strings is infinite; tests sample a handful of literals.", "anchors": ["source/string.cxx:unicodeLength(const char*)"]}
{"id": "C28", "title": "unicodeLength ignores an incomplete tail", "statement": "For a string ending in an incomplete sequence, unicodeLength returns the number of complete code points before it, as documented for all functions of the library (incomplete sequences at the end are ignored).", "quantifier": "every NUL-terminated string with an incomplete tail (UTF-8 and UTF-16)", "why_tests_cant": "The set of strings is infinite; tests sample a handful of literals.", "anchors": ["source/string.cxx:unicodeLength(const char*)", "source/string.cxx:unicodeLength(const char16_t*)"]}
{"id": "C29", "title": "unicodeLength counts UTF-16 code points", "statement": "unicodeLength of a NUL-terminated well-formed UTF-16 string is its number of code points (mod 2^32), and 0 if an unpaired surrogate occurs before the end.", "quantifier": "every NUL-terminated char16_t string", "why_tests_cant": "The set of strings is infinite; tests sample a handful of literals.", "anchors": ["source/string.cxx:unicodeLength(const char16_t*)"]}
{"id": "C30", "title": "unicodeLength counts UCS-4 code points", "statement": "unicodeLength of a NUL-terminated UCS-4 string is its number of elements (mod 2^32) if it contains no surrogate, else 0.", "quantifier": "every NUL-terminated char32_t string", "why_tests_cant": "The set of strings is infinite; tests sample a handful of literals.", "anchors": ["source/string.cxx:unicodeLength(const char32_t*)"]}
{"id": "C31", "title": "Length-bounded unicodeLength", "statement": "unicodeLength(p, n), n > 0, of well-formed text cut after n units is the number of code points that lie completely inside the first n units; it is 0 when a zero element occurs inside the first n units after the start, and 0 on malformed input.", "quantifier": "every buffer and n > 0, for UTF-8, UTF-16 and UCS-4", "why_tests_cant": "The set of strings is infinite; tests sample a handful of literals.", "anchors": ["source/string.cxx:unicodeLength"]}
{"id": "C32", "title": "All length functions agree with the decoders", "statement": "unicodeLength(s) equals the length of toUcs4(s) for well-formed UTF-8/UTF-16 text, and a text has the same unicodeLength in all three encodings.", "quantifier": "every Unicode text", "why_tests_cant": "The set of strings is infinite; tests sample a handful of literals.", "anchors": ["source/string.cxx:unicodeLength", "source/string.cxx:toUcs4"]}
{"id": "C33", "title": "Predicate chains mean conjunction", "statement": "A predicate built by validIf/validIfNot followed by any number of andIf/andIfNot accepts a character exactly when every positive condition holds and every negative condition fails, provided no class is both required and forbidden.", "quantifier": "every chain of every length, every character, every char width", "why_tests_cant": "Chains are unbounded and characters number 2^32.", "anchors": ["source/encoding_check_predicate.cxx", "interface/string.hxx:EncodingCheckPredicate"]}
{"id": "C34", "title": "No-check predicates accept everything", "statement": "The default predicate, and validIf/validIfNot of kIsNone or of an out-of-range value, accept every character and leave every is-function unchanged.", "quantifier": "every character, every string, every int class value", "why_tests_cant": "The set of strings is infinite; tests sample a handful of literals.", "anchors": ["source/encoding_check_predicate.cxx"]}
{"id": "C35", "title": "Predicate equality is behavioural", "statement": "p == q is an equivalence that holds exactly when the two chains check the same classes with the same polarity; equal predicates accept the same characters, and a predicate equal to the default one is a no-check predicate.", "quantifier": "every pair of chains", "why_tests_cant": "Pairs of unbounded chains.", "anchors": ["source/encoding_check_predicate.cxx:operator=="]}
{"id": "C36", "title": "Character classes match the Unicode data", "statement": "For each of the ten selectable Unicode versions: kIsAssigned holds exactly for the code points listed in that version's UnicodeData.txt that are neither surrogates nor private use, kIsPrivate exactly for its private-use ranges, kIsControl exactly for category Cc, and kIsWhitespace exactly for the 25 White_Space code points; the char, char16_t and char32_t overloads agree on values they share.", "quantifier": "every char32_t value (2^32), all ten versions", "why_tests_cant": "The shipped test walks one version chosen at build time, up to 0x10FFFE only.", "anchors": ["source/bits7..16/char_is_unicode.cxx", "source/bits7..16/UnicodeData.txt"]}
{"id": "C37", "title": "A predicate restricts is-functions code point by code point", "statement": "isX(s, target, pred) is true exactly when isX(s, target) is true and pred accepts every code point of s, for UTF-8, UTF-16, UCS-2 and UCS-4.", "quantifier": "every string, target and predicate", "why_tests_cant": "The set of strings is infinite; tests sample a handful of literals.", "anchors": ["source/string.cxx:isUtf8", "source/string.cxx:isUtf16", "source/string.cxx:isUcs2", "source/string.cxx:isUcs4"]}
{"id": "C38", "title": "Predicate verdicts do not depend on the encoding", "statement": "The same text checked with the same target and predicate gets the same answer from isUtf8, isUtf16 and isUcs4.", "quantifier": "every text, target, predicate", "why_tests_cant": "The set of strings is infinite; tests sample a handful of literals.", "anchors": ["source/string.cxx:isUtf16", "source/string.cxx:isUtf8", "source/string.cxx:isUcs4"]}
{"id": "C39", "title": "toLower maps code point by code point", "statement": "toLower of a UCS-4 string has the same length and its i-th element depends only on the i-th element and on whether lang is Turkic; toLower distributes over concatenation.", "quantifier": "every UCS-4 string, every lang", "why_tests_cant": "The set of strings is infinite; tests sample a handful of literals.", "anchors": ["source/string_tolower.cxx:toLower(const ucs4String&)"]}
{"id": "C40", "title": "Lower-case mapping matches the Unicode data", "statement": "Without a Turkic language, each code point is mapped to its simple lowercase mapping in the selected version's UnicodeData.txt, and code points without one are unchanged.", "quantifier": "every char32_t value, all ten versions", "why_tests_cant": "The tests list selected mappings only.", "anchors": ["source/bits7..16/char_to_lower.cxx", "source/bits7..16/UnicodeData.txt"]}
{"id": "C41", "title": "toLower is idempotent", "statement": "toLower(toLower(s, l), l) = toLower(s, l) for every string s and language l.", "quantifier": "every UCS-4 string, every lang, all ten versions", "why_tests_cant": "The set of strings is infinite; tests sample a handful of literals.", "anchors": ["source/string_tolower.cxx", "source/bits7..16/char_to_lower.cxx"]}
{"id": "C42", "title": "Turkic behaviour is selected by exactly ten codes", "statement": "toLower treats capital I as dotless exactly when lang is one of az, aze, azj, azb, kk, kaz, tt, tat, tr, tur; any other lang (including null) gives the default result; Turkic and default results differ only on capital I.", "quantifier": "every NUL-terminated lang string and null, every string", "why_tests_cant": "The set of lang strings is infinite.", "anchors": ["source/string_tolower.cxx:isTurkicLang", "source/bits7..16/char_to_lower.cxx:turkicToLower"]}
{"id": "C43", "title": "toLower agrees across encodings", "statement": "toLower of a UTF-8 or UTF-16 string is the re-encoding of toLower of its code points; malformed input gives the empty string; the number of code points is preserved.", "quantifier": "every string", "why_tests_cant": "The set of strings is infinite; tests sample a handful of literals.", "anchors": ["source/string_tolower.cxx"]}
{"id": "C44", "title": "toLower never produces invalid values", "statement": "toLower maps Unicode scalar values to Unicode scalar values, never maps a non-zero value to zero, and leaves every value above 0x1FFFF unchanged; so lower-casing valid text never fails.", "quantifier": "every char32_t value, all ten versions", "why_tests_cant": "2^32 values per version.", "anchors": ["source/bits7..16/char_to_lower.cxx", "source/string_tolower.cxx"]}
{"id": "C45", "title": "join undoes split", "statement": "join(split(s, d), d) = s for every string s and delimiter d.", "quantifier": "every string and delimiter, every character type", "why_tests_cant": "The set of strings is infinite; tests sample a handful of literals.", "anchors": ["interface/string_splitjoin.hxx"]}
{"id": "C46", "title": "split produces exactly the pieces between delimiters", "statement": "split of a non-empty string yields (number of delimiters + 1) pieces, none containing the delimiter, whose delimiter-separated concatenation is the string; split of the empty string yields no piece.", "quantifier": "every string and delimiter", "why_tests_cant": "The set of strings is infinite; tests sample a handful of literals.", "anchors": ["interface/string_splitjoin.hxx:split"]}
{"id": "C47", "title": "split undoes join", "statement": "split(join(v, d), d) = v for every vector v of delimiter-free pieces other than the vector holding just one empty string, d non-zero.", "quantifier": "every vector of strings", "why_tests_cant": "The set of strings is infinite; tests sample a handful of literals.", "anchors": ["interface/string_splitjoin.hxx"]}
{"id": "C48", "title": "join concatenates with single delimiters", "statement": "join(v, d) is the concatenation of the pieces with exactly one d between neighbours; its size is the sum of the sizes plus (count - 1).", "quantifier": "every vector of strings, every delimiter", "why_tests_cant": "The set of strings is infinite; tests sample a handful of literals.", "anchors": ["interface/string_splitjoin.hxx:join"]}
{"id": "C49", "title": "trim removes exactly the outer blanks", "statement": "trim(s) / trim(s, set) leaves s = prefix ++ result ++ suffix where prefix and suffix consist of blanks (characters of set) and result neither starts nor ends with one; such a decomposition is unique unless s is all blanks, in which case the result is empty.", "quantifier": "every string and set", "why_tests_cant": "The set of strings is infinite; tests sample a handful of literals.", "anchors": ["interface/string_trim.hxx:trim"]}
{"id": "C50", "title": "trimWhiteSpace agrees across encodings", "statement": "trimWhiteSpace of UTF-8 or UTF-16 text equals re-encoding the trimmed code points; UTF-8 text that is malformed or holds values above 0x10FFFF becomes empty.", "quantifier": "every string", "why_tests_cant": "The set of strings is infinite; tests sample a handful of literals.", "anchors": ["interface/string_trim.hxx:trimWhiteSpace"]}
{"id": "C51", "title": "trim is idempotent", "statement": "Trimming twice equals trimming once, for every trim variant.", "quantifier": "every string", "why_tests_cant": "The set of strings is infinite; tests sample a handful of literals.", "anchors": ["interface/string_trim.hxx"]}
{"id": "C52", "title": "trimWhiteSpace trims all Unicode blanks", "statement": "As the README says, trimWhiteSpace trims all blank code points defined in Unicode (every code point of kIsWhitespace).", "quantifier": "every string", "why_tests_cant": "The set of strings is infinite; tests sample a handful of literals.", "anchors": ["interface/string_trim.hxx:trimWhiteSpace", "README.md"]}
{"id": "C53", "title": "Code-page conversion is exact", "statement": "toUtf8(s, kSrcCP1252) and toUtf8(s, kSrcCP1250) return the UTF-8 form of the Microsoft mapping of each byte, and the empty string if any byte is unassigned in that code page; kSrcUnicode returns the bytes unchanged; any other value returns the empty string.", "quantifier": "every NUL-terminated byte string, every int source type", "why_tests_cant": "The set of strings is infinite; tests sample a handful of literals.", "anchors": ["source/string_toutf8.cxx"]}
{"id": "C54", "title": "Code-page conversion is lossless", "statement": "On strings of assigned bytes, the conversion is injective and produces valid UTF-8 with one code point per byte.", "quantifier": "every pair of strings", "why_tests_cant": "Pairs of arbitrary strings.", "anchors": ["source/string_toutf8.cxx"]}
{"id": "C55", "title": "wchar_t entry points agree with the fixed-width ones", "statement": "With 32-bit wchar_t the isX/toX functions on wide strings equal the char32_t functions (with target kUtf16 for isUtf8/isUtf16/isUcs4); with 16-bit wchar_t they equal the char16_t ones; toWstring inverts them on valid text.", "quantifier": "every wide string", "why_tests_cant": "The set of strings is infinite; tests sample a handful of literals.", "anchors": ["interface/string.hxx:wchar_t section"]}
{"id": "C56", "title": "isWstring guarantees toWstring", "statement": "If isWstring(x) is true then toWstring(x) is the wide re-encoding of all code points of x, for both wchar_t widths.", "quantifier": "every string of every source encoding", "why_tests_cant": "The set of strings is infinite; tests sample a handful of literals.", "anchors": ["interface/string.hxx:isWstring", "interface/string.hxx:toWstring"]}
{"id": "C57", "title": "Reported Unicode version", "statement": "getUnicodeVersionSupported returns \"N.0.0\" for the build-time selected version N, for each of the ten versions.", "quantifier": "all ten versions", "why_tests_cant": "A test run sees one build configuration.", "anchors": ["source/bits7..16/char_is_unicode.cxx:supportedUnicodeVersion", "source/string.cxx:getUnicodeVersionSupported"]}
{"id": "C58", "title": "Conversions distribute over concatenation", "statement": "If a is well-formed text ending on a sequence boundary then isX(a ++ b, t) = isX(a, t) and isX(b, t), and if a and b both convert then toX(a ++ b) = toX(a) ++ toX(b).", "quantifier": "every pair of strings", "why_tests_cant": "Pairs of arbitrary strings.", "anchors": ["source/string.cxx"]}
{"id": "C59", "title": "ASCII is transparent", "statement": "A string of values 1..0x7F is accepted by every is-function for every target and converts element by element to itself in every direction.", "quantifier": "every ASCII string", "why_tests_cant": "The set of strings is infinite; tests sample a handful of literals.", "anchors": ["source/string.cxx"]}
{"id": "C60", "title": "UTF-8 output is injective and order preserving", "statement": "toUtf8 on valid UCS-4 strings is injective, and comparing outputs bytewise as unsigned values gives the same order as comparing the code-point sequences.", "quantifier": "every pair of valid UCS-4 strings", "why_tests_cant": "Pairs of arbitrary strings.", "anchors": ["source/string.cxx:toUtf8(const char32_t*)", "source/string_internal.hxx:encodeUtf8"]}
{"id": "C61", "title": "Only completable tails are ignored by conversions", "statement": "A conversion from UTF-8 ignores an incomplete sequence at the end of the text exactly when bytes could be appended to complete it to a valid sequence; any other incomplete sequence makes the result empty.", "quantifier": "every NUL-terminated byte string, each of the three targets", "why_tests_cant": "The set of strings is infinite; tests sample a handful of literals.", "anchors": ["source/string.cxx"]}
{"id": "C62", "title": "The bare checks decide well-formedness", "statement": "With targetRange left out, isUtf8 / isUtf16 / isUcs2 / isUcs4 are \"a bare check of the correctness of the encoding\": true exactly for well-formed text (cut-short tails ignored), so isUtf8(s) is true exactly when toUcs4(s) decodes s; isX(s, pred) is that check with the predicate required of every character.", "quantifier": "every string, every predicate", "why_tests_cant": "The set of strings is infinite; tests sample a handful of literals.", "anchors": ["interface/string.hxx:isUtf8", "interface/string.hxx:isUtf16", "interface/string.hxx:isUcs2", "interface/string.hxx:isUcs4"]}
{"id": "C63", "title": "WIN32 narrow overloads", "statement": "On WIN32 isUtf16/isUcs2/isUcs4(const char*) check UTF-8 text against that target, and toUtf8(const char*) returns its argument if it is well-formed UTF-8 and the empty string otherwise, null included.", "quantifier": "every NUL-terminated byte string and null", "why_tests_cant": "The set of strings is infinite; tests sample a handful of literals.", "anchors": ["interface/string.hxx:WIN32 section"]}
{"id": "C64", "title": "isTstring guarantees toTstring", "statement": "If isTstring(x) is true then toTstring(x) is x re-encoded for TCHAR, for _MBCS and _UNICODE builds; if it is false toTstring(x) is empty.", "quantifier": "every string of every source encoding", "why_tests_cant": "The set of strings is infinite; tests sample a handful of literals.", "anchors": ["interface/string.hxx:isTstring", "interface/string.hxx:toTstring"]}
{"id": "C65", "title": "toTstring accepts strings and pointers alike", "statement": "toTstring of a string object returns what toTstring returns for its c_str(), for _MBCS and _UNICODE builds.", "quantifier": "every string", "why_tests_cant": "No test is built for WIN32 with _MBCS.", "anchors": ["interface/string.hxx:toTstring"]}
{"id": "C66", "title": "The test-data tool lists the assigned code points", "statement": "mkUnicodeTestData, given UnicodeData.txt, writes a C++ array holding the code field of every data line except those whose name marks them as surrogate or private use, in file order, closed by 0xFFFFFFFF.", "quantifier": "every file of well-formed data lines", "why_tests_cant": "The tool is run on one file per build; its output is only looked at by the test it feeds.", "anchors": ["mkUnicodeTestData/mkUnicodeTestData.cxx:process"]}
{"id": "C67", "title": "The test-data tool always ends", "statement": "process() of mkUnicodeTestData ends on every input file.", "quantifier": "every byte sequence as input file", "why_tests_cant": "The set of files is infinite; the shipped ones all end in a newline.", "anchors": ["mkUnicodeTestData/mkUnicodeTestData.cxx:process"]}
{"id": "C68", "title": "The test-data tool has no undefined behaviour", "statement": "process() of mkUnicodeTestData never indexes outside the vector of fields, whatever the newline-terminated input file.", "quantifier": "every newline-terminated file", "why_tests_cant": "The set of files is infinite.", "anchors": ["mkUnicodeTestData/mkUnicodeTestData.cxx:process"]}
{"id": "C69", "title": "What passes keeps passing when cut", "statement": "If an is-function accepts a text, it accepts every beginning of it, wherever the cut falls, for every target and predicate; so a text that fails cannot be mended by appending to it.", "quantifier": "every NUL-terminated string, every cut position, target and predicate", "why_tests_cant": "Pairs of arbitrary strings.", "anchors": ["source/string.cxx"]}
{"id": "C70", "title": "Converting a beginning gives a beginning", "statement": "If a to-function converts a text, it converts every beginning of it, and the result is a beginning of the whole result.", "quantifier": "every NUL-terminated string and cut position", "why_tests_cant": "Pairs of arbitrary strings.", "anchors": ["source/string.cxx"]}
{"id": "C71", "title": "Sizes of results are bounded both ways", "statement": "The size of the result of every to-function is at most a fixed multiple of the size of its argument (1, 2, 3, 4 or 6 by direction), and a non-empty result is never shorter than a fixed fraction of it: nothing is dropped but a cut tail.", "quantifier": "every NUL-terminated string", "why_tests_cant": "The set of strings is infinite; tests sample a handful of literals.", "anchors": ["source/string.cxx"]}
{"id": "C72", "title": "Lower-casing changes no verdict", "statement": "A text and its lower-cased form get the same answer from isUtf8, isUtf16 and isUcs4 for every target but kAscii (and every predicate for UTF-8 and UCS-4); outside the Turkic languages ASCII text stays ASCII.", "quantifier": "every text, language, target and predicate, all ten versions", "why_tests_cant": "The set of strings is infinite; tests sample a handful of literals.", "anchors": ["source/string_tolower.cxx", "source/string.cxx"]}
{"id": "C73", "title": "Lower-casing and trimming commute", "statement": "trimWhiteSpace(toLower(s)) = toLower(trimWhiteSpace(s)), in UTF-8, UTF-16 and UCS-4.", "quantifier": "every text and language, all ten versions", "why_tests_cant": "The set of strings is infinite; tests sample a handful of literals.", "anchors": ["source/string_tolower.cxx", "interface/string_trim.hxx"]}
{"id": "C74", "title": "Lower-casing commutes with split and join", "statement": "For a delimiter that is its own lower case and that of nothing else, the pieces of the lower-cased text are the lower-cased pieces, and joining lower-cased pieces is lower-casing the joined text.", "quantifier": "every text or vector of texts, every such delimiter, all ten versions", "why_tests_cant": "The set of strings is infinite; tests sample a handful of literals.", "anchors": ["source/string_tolower.cxx", "interface/string_splitjoin.hxx"]}
{"id": "C75", "title": "Sizes of lower-cased texts", "statement": "toLower of UTF-16 text never changes the number of units; of UTF-8 text it at most doubles the number of bytes, and outside the Turkic languages grows it by at most half.", "quantifier": "every text and language, all ten versions", "why_tests_cant": "The extremes are reached only by particular letters.", "anchors": ["source/string_tolower.cxx", "source/bits7..16/char_to_lower.cxx"]}
{"id": "C76", "title": "Later Unicode versions accept what earlier ones did", "statement": "A string passing an is-function under a predicate in one Unicode version passes it in every later one, unless the predicate forbids assigned characters; predicates not mentioning kIsAssigned do not depend on the version at all.", "quantifier": "every string, target, chain, every pair of the ten versions", "why_tests_cant": "A test run sees one build configuration.", "anchors": ["source/bits7..16/char_is_unicode.cxx", "source/encoding_check_predicate.cxx"]}
{"id": "C77", "title": "Later Unicode versions keep case mappings", "statement": "A mapping of one version is kept by every later one; lower-casing with the old version first changes nothing for the new one, and the old version leaves alone what the new one produces.", "quantifier": "every string, language, every pair of the ten versions", "why_tests_cant": "A test run sees one build configuration.", "anchors": ["source/bits7..16/char_to_lower.cxx", "source/string_tolower.cxx"]}
{"id": "C78", "title": "Splitting and joining texts put together", "statement": "split(a + d + b, d) is split(a, d) followed by split(b, d) for non-empty a and b; join of two non-empty vectors put together is join(u, d) + d + join(w, d); join(split(s, d), e) replaces every d by e.", "quantifier": "all strings, vectors and delimiters (non-zero for join)", "why_tests_cant": "Pairs of arbitrary strings.", "anchors": ["interface/string_splitjoin.hxx"]}
{"id": "C79", "title": "Trimming ignores added blanks", "statement": "Putting blanks around a text does not change its trimmed form; a text is unchanged by trimming exactly when it is empty or neither begins nor ends with a blank; trimming fewer kinds of blanks first does not matter, and nothing is left to trim for the weaker kind.", "quantifier": "every string, every set of blanks", "why_tests_cant": "The set of strings is infinite; tests sample a handful of literals.", "anchors": ["interface/string_trim.hxx"]}
{"id": "C80", "title": "Chains are sets of conditions", "statement": "Predicates built from the same conditions in any order, with any repetitions, are equal; adding conditions can only reject more.", "quantifier": "every pair of chains", "why_tests_cant": "Pairs of unbounded chains.", "anchors": ["source/encoding_check_predicate.cxx"]}
{"id": "C81", "title": "How the classes lie", "statement": "No private-use code point is assigned, every control and whitespace code point is; surrogates, noncharacters and values above 0x10FFFF are in no class.", "quantifier": "every char32_t value, all ten versions", "why_tests_cant": "2^32 values per version.", "anchors": ["source/bits7..16/char_is_unicode.cxx"]}
{"id": "C82", "title": "Lengths add up", "statement": "unicodeLength(a + b) = unicodeLength(a) + unicodeLength(b) (mod 2^32) for valid texts in each encoding, and toLower does not change it.", "quantifier": "every pair of valid texts", "why_tests_cant": "Pairs of arbitrary strings.", "anchors": ["source/string.cxx:unicodeLength", "source/string_tolower.cxx"]}
{"id": "C83", "title": "Code-page conversion byte by byte", "statement": "toUtf8(a + b, cp) is toUtf8(a, cp) + toUtf8(b, cp) if both convert and empty if one fails; ASCII text is unchanged; the result has one to three bytes per byte and is valid UTF-8 of the Basic Multilingual Plane.", "quantifier": "every pair of byte strings, both code pages", "why_tests_cant": "Pairs of arbitrary strings.", "anchors": ["source/string_toutf8.cxx"]}
{"id": "C84", "title": "The test-data tool reports what it did", "statement": "main() of mkUnicodeTestData returns 0 exactly if it has written the array made from infile to outfile, 1 without two arguments, 2 or 3 if infile or outfile cannot be opened, and changes no file but outfile.", "quantifier": "every file system state and argument list", "why_tests_cant": "Failing opens depend on the file system; no test runs the tool.", "anchors": ["mkUnicodeTestData/mkUnicodeTestData.cxx:main"]}
{"id": "C85", "title": "The source of the checking functions does what the model says", "statement": "Run by a semantics of C++, the text of isUtf8, isUtf16, isUcs2 and isUcs4 (every overload and default argument of interface/string.hxx, and all they call in source/) gives exactly the result of the model, undefined behaviour included, whether char is signed or not.", "quantifier": "every array of units, every pointer into it or null, every target, predicate and length, both signednesses of char, any Unicode tables", "why_tests_cant": "The platform decides the signedness of char; the set of strings is infinite.", "anchors": ["source/string.cxx", "source/string_internal.hxx", "source/string_decode_utf8.cxx", "source/encoding_check_predicate.cxx", "interface/string.hxx"]}
{"id": "C86", "title": "No pointer outside an array is formed", "statement": "No library function, given valid text, computes a pointer before the beginning or beyond one past the end of its array (undefined by the letter of the standard even if it is never read).", "quantifier": "every valid argument", "why_tests_cant": "No usual machine traps on such a pointer.", "anchors": ["source/string.cxx"]}
{"id": "C87", "title": "The source of the conversions does what the model says", "statement": "Run by a semantics of C++, the text of toUtf8, toUcs2, toUtf16 and toUcs4 (from char, char16_t and char32_t, strings and pointers, null included) gives exactly the result of the model, undefined behaviour included.", "quantifier": "every array of units, every pointer into it or null, both signednesses of char", "why_tests_cant": "The set of strings is infinite; tests sample a handful of literals.", "anchors": ["source/string.cxx", "source/string_internal.hxx", "source/string_decode_utf8.cxx"]}
{"id": "C88", "title": "The source of unicodeLength does what the model says", "statement": "Run by a semantics of C++, the text of the six overloads of unicodeLength, with and without a length, gives exactly the result of the model, undefined behaviour and wrap-around included.", "quantifier": "every array of units, every pointer into it or null, every length", "why_tests_cant": "The set of strings is infinite; tests sample a handful of literals.", "anchors": ["source/string.cxx:unicodeLength"]}
{"id": "C89", "title": "The signedness of char does not matter", "statement": "isUtf8, toUcs2, toUtf16, toUcs4, unicodeLength, toLower, the trimming functions, split and the code-page conversion return the same for a byte string whether the compiler makes char signed or unsigned.", "quantifier": "every byte string, both signednesses of char", "why_tests_cant": "A test run sees one compiler.", "anchors": ["source/string.cxx", "source/string_internal.hxx", "source/string_decode_utf8.cxx"]}
{"id": "C90", "title": "The source converts and checks exactly", "statement": "The parsed source, run by the semantics of C++, converts text that reads as code points (an incomplete end ignored) to its re-encoding and anything else to the empty string, answers the checks exactly, and brings text back to itself through UTF-8 and UTF-16.", "quantifier": "every NUL-free string of each encoding, every target", "why_tests_cant": "The set of strings is infinite; tests sample a handful of literals.", "anchors": ["source/string.cxx", "source/string_internal.hxx", "source/string_decode_utf8.cxx", "interface/string.hxx"]}
{"id": "C91", "title": "The source of toLower does what the model says", "statement": "Run by a semantics of C++, the text of the three overloads of toLower, with and without a language code, gives exactly the result of the model.", "quantifier": "every string, every language code or null, every table of case pairs", "why_tests_cant": "The set of strings is infinite; tests sample a handful of literals.", "anchors": ["source/string_tolower.cxx"]}
{"id": "C92", "title": "The source of the code-page conversion does what the model says", "statement": "Run by a semantics of C++, the text of toUtf8(const char*, SourceEncoding) gives exactly the result of the model.", "quantifier": "every byte array, every pointer into it or null, every value of the enumeration type", "why_tests_cant": "The set of strings is infinite; tests sample a handful of literals.", "anchors": ["source/string_toutf8.cxx"]}
{"id": "C93", "title": "The source of the trimming functions does what the model says", "statement": "Run by a semantics of C++, the templates trim, with and without a set, trimAscii7WhiteSpace and the three overloads of trimWhiteSpace leave in their argument exactly the result of the model.", "quantifier": "every string an object can hold", "why_tests_cant": "The set of strings is infinite; tests sample a handful of literals.", "anchors": ["interface/string_trim.hxx"]}
{"id": "C94", "title": "The source of split and join does what the model says", "statement": "Run by a semantics of C++, the templates split and join give exactly the result of the model for char, char16_t and char32_t, signed overflow included.", "quantifier": "every string or vector, every delimiter", "why_tests_cant": "The set of strings is infinite; tests sample a handful of literals.", "anchors": ["interface/string_splitjoin.hxx"]}
{"id": "C95", "title": "The source of the wchar_t functions does what the model says", "statement": "Run by a semantics of C++, the text of the 32-bit wchar_t functions (isUtf8, isUtf16, isUcs2, isUcs4, isWstring and the conversions from and to wchar_t, pointers and strings) gives exactly the result of the model, undefined behaviour for null included.", "quantifier": "every array of units, every pointer into it or null, every string", "why_tests_cant": "The set of strings is infinite; tests sample a handful of literals.", "anchors": ["source/string.cxx"]}
{"id": "C96", "title": "The source of the predicates does what the model says", "statement": "Run by a semantics of C++, validIf, validIfNot, checkIf, checkIfNot, andIf, andIfNot, ==, != and the three call operators of EncodingCheckPredicate give exactly the result of the model.", "quantifier": "every predicate, every value of the enumeration type, every character", "why_tests_cant": "There are 2^64 predicate objects and 2^32 characters.", "anchors": ["source/encoding_check_predicate.cxx", "interface/string.hxx"]}
{"id": "C97", "title": "The source trims, splits, joins and lower-cases exactly", "statement": "The parsed source, run by the semantics of C++, removes exactly the outer blanks, cuts exactly at the delimiters (with fewer than 2^31 of them, from there on its counter overflows), glues with single delimiters (with none if the delimiter is 0), maps code pages exactly, and lower-cases as UnicodeData.txt says outside the listed departures, alike in all encodings.", "quantifier": "every string of each encoding, every version of the tables", "why_tests_cant": "The set of strings is infinite; tests sample a handful of literals.", "anchors": ["interface/string_trim.hxx", "interface/string_splitjoin.hxx", "source/string_tolower.cxx", "source/string_toutf8.cxx"]}
{"id": "C98", "title": "The source of the character functions follows UnicodeData.txt", "statement": "The parsed source of each source/bits<N> directory, run by the semantics of C++ and called from the rest of the library, answers isUnicodeAssigned, isUnicodePrivate, isControlChar and isWhitespaceChar as UnicodeData.txt of that version says, and getUnicodeVersionSupported names that version.", "quantifier": "every value of char, char16_t and char32_t, every version, char signed or not", "why_tests_cant": "The set of strings is infinite; tests sample a handful of literals.", "anchors": ["source/bits16/char_is_unicode.cxx", "source/bits16/char_to_lower.cxx", "source/string.cxx"]}
{"id": "C99", "title": "The linked library", "statement": "The parsed library linked with the parsed source/bits<N>, nothing in it given by the model, converts, checks, lower-cases, trims, splits and joins exactly as specified, and a chain of predicates holds of a character if and only if the character meets every condition of it.", "quantifier": "every string of each encoding, every version, every consistent chain", "why_tests_cant": "The set of strings is infinite; tests sample a handful of literals.", "anchors": ["source/string.cxx", "source/string_internal.hxx", "source/encoding_check_predicate.cxx", "source/string_tolower.cxx", "source/string_toutf8.cxx", "interface/string_trim.hxx", "interface/string_splitjoin.hxx", "source/bits16/char_is_unicode.cxx", "source/bits16/char_to_lower.cxx"]}
{"id": "C100", "title": "The source of the 16-bit wchar_t functions does what the model says", "statement": "Run by a semantics of C++, the text of the 16-bit wchar_t functions (isUtf8, isUtf16, isUcs2, isUcs4, isWstring and the conversions from and to wchar_t, pointers and strings) gives exactly the result of the model, undefined behaviour included, with and without WIN32, _MBCS and _UNICODE.", "quantifier": "every array of units, every pointer into it or null, every string, the four configurations with 16-bit wchar_t", "why_tests_cant": "The set of strings is infinite; tests sample a handful of literals.", "anchors": ["interface/string.hxx"]}
{"id": "C101", "title": "The source of the WIN32 and TCHAR functions does what the model says", "statement": "Run by a semantics of C++, the text of the functions that exist only on Windows (the overloads on narrow strings, isTstring and toTstring with _MBCS and with _UNICODE) gives exactly the result of the model.", "quantifier": "every array of units, every pointer into it or null, every string, each configuration for Windows", "why_tests_cant": "The set of strings is infinite; tests sample a handful of literals.", "anchors": ["interface/string.hxx"]}
{"id": "C102", "title": "toTstring of a string is toTstring of its characters, in the source", "statement": "Run by a semantics of C++ with its rules of overload resolution, the text of toTstring(s) returns what the text of toTstring(s.c_str()) returns.", "quantifier": "every string of each encoding, _MBCS and _UNICODE", "why_tests_cant": "Whether a call ends for every input is not decided by running it on some.", "anchors": ["interface/string.hxx"]}
{"id": "C103", "title": "The wchar_t functions of the source are exact", "statement": "In every configuration the parsed wchar_t functions answer exactly whether a wide string is a text and convert exactly from and to UTF-8, UTF-16 and UTF-32; a text converted there and back is itself, also in the library linked with each bits<N>.", "quantifier": "every text, every configuration, every version", "why_tests_cant": "The set of strings is infinite; tests sample a handful of literals.", "anchors": ["interface/string.hxx", "source/string.cxx"]}
{"id": "C104", "title": "Every call on texts that end in a zero returns", "statement": "Run by a semantics of C++, with any bits<N>, in any configuration, whether char is signed or not, every call of a public function whose pointers point to arrays with a zero at or after them (or to at least one element more than the number passed), or are null where that is allowed, ends and nothing undefined happens on the way, whatever the contents; the other null pointers, and splitting at 2^31 or more delimiters, are undefined.", "quantifier": "every public function, every configuration, every version, every argument as described", "why_tests_cant": "The set of strings is infinite; tests sample a handful of literals.", "anchors": ["source/string.cxx", "source/string_internal.hxx", "interface/string.hxx", "interface/string_splitjoin.hxx", "interface/string_trim.hxx"]}
{"id": "C105", "title": "The proved program is the text of the files", "statement": "The text of the source files, copied character by character and taken through a preprocessor for conditional compilation, a tokenizer and a parser written in Coq, is the program that the other theorems about the parsed source are about: for every configuration and Unicode version each call of a function gives the same outcome, so that what those theorems say holds of the text.", "quantifier": "every configuration, every version, every function, every argument, every bound on rounds and nesting", "why_tests_cant": "The set of strings is infinite; tests sample a handful of literals.", "anchors": ["source/string.cxx", "source/string_internal.hxx", "interface/string.hxx", "interface/string_splitjoin.hxx", "interface/string_trim.hxx"]}
{"id": "C106", "title": "The source of mkUnicodeTestData does what the model says", "statement": "Read by a parser and run by a semantics of C++, both written in Coq, the text of mkUnicodeTestData.cxx, linked with the text of the library, gives for every file system and command line exactly the exit code and files of the model of C66-C68 and C84, undefined behaviour and endless loops included, and writes the usage messages to cerr; so it lists exactly the assigned code points, and has exactly the faults shown there.", "quantifier": "every file system, every argument list, every version and configuration, char signed or not", "why_tests_cant": "The set of strings is infinite; tests sample a handful of literals.", "anchors": ["mkUnicodeTestData/mkUnicodeTestData.cxx", "interface/string_splitjoin.hxx"]}
{"id": "C107", "title": "Targets are done in a sensible order", "statement": "help is done alone; otherwise every target is done as often as it was given and in that order, except that clean is done once and first; without targets, all is done; a target that is not known is refused before anything is done (false: it is refused when its turn comes).", "quantifier": "every list of targets", "why_tests_cant": "Disks and command lines are unboundedly many; the scripts have no tests at all.", "anchors": ["make.py"]}
{"id": "C108", "title": "install puts every file where it belongs", "statement": "After make.py install returns, every header, library and program database is below the prefix where it belongs, as it was built (false for lib/Win32/MinSizeRel, which gets the x64 library).", "quantifier": "every disk, prefix and source directory", "why_tests_cant": "Disks and command lines are unboundedly many; the scripts have no tests at all.", "anchors": ["make.py", "project.py"]}
{"id": "C109", "title": "install and uninstall keep to their own", "statement": "Whatever comes of them, install and uninstall change nothing but their 15 files and 13 directories, uninstall adds nothing, and everything still lies in a directory.", "quantifier": "every disk, every outcome including failures half way", "why_tests_cant": "Disks and command lines are unboundedly many; the scripts have no tests at all.", "anchors": ["make.py"]}
{"id": "C110", "title": "install succeeds exactly if nothing stands in its way", "statement": "If the prefix is a directory, its directories are there or can be made, its files can be written and all built files exist, install succeeds; and it succeeds only then (but for the one library it does not use).", "quantifier": "every disk", "why_tests_cant": "Disks and command lines are unboundedly many; the scripts have no tests at all.", "anchors": ["make.py"]}
{"id": "C111", "title": "uninstall leaves nothing of ours", "statement": "After uninstall returns none of the files is left, and a directory of ours is left only if something else is in it.", "quantifier": "every disk, installed or not", "why_tests_cant": "Disks and command lines are unboundedly many; the scripts have no tests at all.", "anchors": ["make.py"]}
{"id": "C112", "title": "uninstall undoes install", "statement": "If none of the files was there, then install and uninstall leave the disk as it was (false if one of the directories was there and empty).", "quantifier": "every disk", "why_tests_cant": "Disks and command lines are unboundedly many; the scripts have no tests at all.", "anchors": ["make.py"]}
{"id": "C113", "title": "clean deletes what was built and nothing else", "statement": "clean deletes the two build directories, the gathered package, the installer and the two marks with all below them and nothing else (false without makensis: KeyError before anything is deleted).", "quantifier": "every disk", "why_tests_cant": "Disks and command lines are unboundedly many; the scripts have no tests at all.", "anchors": ["make.py"]}
{"id": "C114", "title": "A package holds what belongs in it", "statement": "The part of make.py package that gathers the files puts each header, library and program database where it belongs (the database of RelWithDebInfo from either of two places), and changes nothing outside build/nsis.", "quantifier": "every disk", "why_tests_cant": "Disks and command lines are unboundedly many; the scripts have no tests at all.", "anchors": ["make.py", "project.py"]}
{"id": "C115", "title": "The installer is named after the Unicode version it holds", "statement": "For every version given to configure.py, the number in the name of the installer is the version the library was compiled for (false for exactly the versions outside 7..16).", "quantifier": "every integer", "why_tests_cant": "Disks and command lines are unboundedly many; the scripts have no tests at all.", "anchors": ["configure.py", "project.py", "make.py", "CMakeLists.txt", "NSIS/ansak-string.nsi"]}
{"id": "C116", "title": "cmake is told the compiler that was asked for", "statement": "The CXX of cmake is what was given as --compiler (false: it is that name in quotes, or CXX of the environment if there is one).", "quantifier": "every name and environment", "why_tests_cant": "Disks and command lines are unboundedly many; the scripts have no tests at all.", "anchors": ["configure.py", "make.py"]}
{"id": "C117", "title": "make.py all leaves libraries made from the sources as they are", "statement": "After make.py all has ended well, the libraries are made from the settings and sources as they are, and a second run does nothing (false after a file was removed or put back with its old time stamp, or a build failed and what was newer is gone).", "quantifier": "every history of edits, failed and successful builds and cleans", "why_tests_cant": "The order of edits and builds is unbounded; the scripts have no tests at all.", "anchors": ["make.py", "CMakeLists.txt"]}
{"id": "C118", "title": "make.py test tests the sources as they are", "statement": "After make.py test has ended well, the tests have passed with every file they need as it is (false for UnicodeData.txt and submods/CMakeLists.txt, which are not looked at).", "quantifier": "every history of edits and builds", "why_tests_cant": "The order of edits and builds is unbounded; the scripts have no tests at all.", "anchors": ["make.py", "CMakeLists.txt"]}
{"id": "C119", "title": "make.py package leaves an installer made from the files as they are", "statement": "After make.py package has ended well, the installer is made from every file it needs as it is (false for FindANSAK.cmake, which is not looked at).", "quantifier": "every history of edits and builds", "why_tests_cant": "The order of edits and builds is unbounded; the scripts have no tests at all.", "anchors": ["make.py", "NSIS/ansak-string.nsi"]}
{"id": "C120", "title": "make leaves a library made from the sources as they are", "statement": "After make has ended well, the library is made from config.make and the sources as they are (false after make clean, which deletes the list of sources, and for files that came after configure).", "quantifier": "every history of edits, configurations and builds", "why_tests_cant": "The order of edits and builds is unbounded; the scripts have no tests at all.", "anchors": ["Makefile", "configure", "CMakeLists.txt"]}
{"id": "C121", "title": "install finds everything built", "statement": "Whatever targets are given to make.py, when install begins everything it copies has been built (false if scrub comes between all and install).", "quantifier": "every list of targets and every disk", "why_tests_cant": "The order of edits and builds is unbounded; the scripts have no tests at all.", "anchors": ["make.py"]}
{"id": "C122", "title": "make install puts every file where it belongs", "statement": "After make install ends well, the library that was built and every header of interface are below the prefix where they belong.", "quantifier": "every disk, prefix and source directory, with and without sudo and CONFIG", "why_tests_cant": "Disks and command lines are unboundedly many; the scripts have no tests at all.", "anchors": ["Makefile"]}
{"id": "C123", "title": "make install and make uninstall keep to their own", "statement": "Whatever comes of them, make install changes nothing but the way to its directories, the headers and the library, and make uninstall nothing but those files, their directory and include and lib below the prefix (false without sudo: include and lib of the home directory, whatever the prefix).", "quantifier": "every disk, every outcome including failures half way", "why_tests_cant": "Disks and command lines are unboundedly many; the scripts have no tests at all.", "anchors": ["Makefile"]}
{"id": "C124", "title": "make uninstall leaves nothing of ours", "statement": "After make uninstall none of the headers and not the library are left (false if one of the three headers is not there: it fails and the library stays).", "quantifier": "every disk, installed or not", "why_tests_cant": "Disks and command lines are unboundedly many; the scripts have no tests at all.", "anchors": ["Makefile"]}
{"id": "C125", "title": "make uninstall undoes make install", "statement": "If none of the files was there, then make install and make uninstall leave the disk as it was (false with sudo: include and lib stay; true for the home directory).", "quantifier": "every disk", "why_tests_cant": "Disks and command lines are unboundedly many; the scripts have no tests at all.", "anchors": ["Makefile"]}
{"id": "C126", "title": "make clean and make scrub delete what was built and nothing else", "statement": "make clean empties build and changes nothing else, make scrub removes build and config.make and nothing else (false for clean without a directory build, as after scrub: it deletes the sources; hidden files stay).", "quantifier": "every disk", "why_tests_cant": "Disks and command lines are unboundedly many; the scripts have no tests at all.", "anchors": ["Makefile"]}
{"id": "C127", "title": "configure takes the options given and the documented defaults", "statement": "Of --prefix, --compiler and --unicode-version the last one given counts, if none is the documented default; every other argument is refused (false for variables of the environment of the same names; the prefix on Linux is not the documented one).", "quantifier": "every list of arguments, every environment", "why_tests_cant": "Disks and command lines are unboundedly many; the scripts have no tests at all.", "anchors": ["configure", "README.md"]}
{"id": "C128", "title": "configure asks for sudo where it is needed", "statement": "sudo is used if and only if the prefix lies in /usr or /Applications and the system is not MinGW or Cygwin, as the comment says (false: for every absolute prefix but the home directory).", "quantifier": "every prefix without blanks, every environment", "why_tests_cant": "Disks and command lines are unboundedly many; the scripts have no tests at all.", "anchors": ["configure"]}
{"id": "C129", "title": "make reads what configure settled", "statement": "Each variable of config.make has for make the value that configure settled (false for values with several blanks together or a #).", "quantifier": "every value, every environment", "why_tests_cant": "Disks and command lines are unboundedly many; the scripts have no tests at all.", "anchors": ["configure", "Makefile"]}
{"id": "C130", "title": "The installer puts everything where it belongs", "statement": "Every file in the directories make.py package gathers is carried by the installer and, if it succeeds, arrives unchanged at the same place below $INSTDIR: from the build to the other machine.", "quantifier": "every disk, package and directory", "why_tests_cant": "Disks are unboundedly many; the installer script has no tests.", "anchors": ["NSIS/ansak-string.nsi", "make.py"]}
{"id": "C131", "title": "Installer and uninstaller keep to their own", "statement": "Whatever comes of them, the installer changes nothing but the ways to its directories and the files it carries and removes nothing, and the uninstaller removes only our files, include\\ansak, FindANSAK.cmake and itself.", "quantifier": "every disk, package and directory", "why_tests_cant": "Disks are unboundedly many; the installer script has no tests.", "anchors": ["NSIS/ansak-string.nsi", "make.py"]}
{"id": "C132", "title": "un.isEmptyDir is right", "statement": "On every machine un.isEmptyDir answers \"1\" if its argument is an empty directory and \"0\" otherwise, pops its argument, restores $0 and $1 and closes its search.", "quantifier": "every disk, package and directory", "why_tests_cant": "Disks are unboundedly many; the installer script has no tests.", "anchors": ["NSIS/ansak-string.nsi", "make.py"]}
{"id": "C133", "title": "The uninstaller leaves nothing of ours", "statement": "It removes all files of the installation and the directories made for them (false: only include\\ansak is ever removed, and FindANSAK.cmake stays if something else is in there).", "quantifier": "every disk, package and directory", "why_tests_cant": "Disks are unboundedly many; the installer script has no tests.", "anchors": ["NSIS/ansak-string.nsi", "make.py"]}
{"id": "C134", "title": "Installing and removing leaves the disk as it was", "statement": "On a disk without our files the uninstaller restores what was there before the installer ran (false: directories remain, and stale files of the package).", "quantifier": "every disk, package and directory", "why_tests_cant": "Disks are unboundedly many; the installer script has no tests.", "anchors": ["NSIS/ansak-string.nsi", "make.py"]}
{"id": "C135", "title": "make.py install and the installer install the same", "statement": "From the same build both put the same files in the same places (false for the library of Win32/MinSizeRel).", "quantifier": "every disk, package and directory", "why_tests_cant": "Disks are unboundedly many; the installer script has no tests.", "anchors": ["NSIS/ansak-string.nsi", "make.py"]}
{"id": "C136", "title": "FindANSAK finds the installation named by ANSAK_DIR on Unix", "statement": "With ANSAK_DIR naming a directory that holds an installation, such as one made by make install, FindANSAK.cmake gives its library and its include directory (false if ANSAK_DIR is in the environment: a misspelt variable).", "quantifier": "every disk and every setting of the variables", "why_tests_cant": "Disks and settings are unboundedly many; the module has no tests.", "anchors": ["FindANSAK.cmake", "Makefile"]}
{"id": "C137", "title": "FindANSAK finds what was installed on Windows", "statement": "After the installer or make.py install, FindANSAK.cmake finds the installation, and every configuration of the chosen platform is given the library built for it.", "quantifier": "every disk and every setting of the variables", "why_tests_cant": "Disks and settings are unboundedly many; the module has no tests.", "anchors": ["FindANSAK.cmake", "NSIS/ansak-string.nsi", "make.py"]}
{"id": "C138", "title": "FindANSAK finds all documented layouts", "statement": "On Windows libraries in lib, lib/Debug and lib/<architecture>/Debug are found (false for lib/Debug, and for lib if a platform is given).", "quantifier": "every disk and every setting of the variables", "why_tests_cant": "Disks and settings are unboundedly many; the module has no tests.", "anchors": ["FindANSAK.cmake"]}
{"id": "C139", "title": "FindANSAK passes the include directory on", "statement": "Unless ANSAK_ISOLATE is set, the directory of the headers is passed to include_directories (false: the name of the variable is).", "quantifier": "every disk and every setting of the variables", "why_tests_cant": "Disks and settings are unboundedly many; the module has no tests.", "anchors": ["FindANSAK.cmake"]}
{"id": "C140", "title": "What FindANSAK reports exists", "statement": "Every header and library reported as found exists (false for the configurations other than Debug).", "quantifier": "every disk and every setting of the variables", "why_tests_cant": "Disks and settings are unboundedly many; the module has no tests.", "anchors": ["FindANSAK.cmake"]}
{"id": "C141", "title": "ANSAK_NO_GENERATOR_LIBS", "statement": "With ANSAK_NO_GENERATOR_LIBS the libraries are given as single files (false: it changes nothing about them).", "quantifier": "every disk and every setting of the variables", "why_tests_cant": "Disks and settings are unboundedly many; the module has no tests.", "anchors": ["FindANSAK.cmake"]}
{"id": "C142", "title": "The text of the installer script does what the model says", "statement": "The text of NSIS/ansak-string.nsi, read and run as it stands, packs, installs and removes as Model/Nsis.v says, on every disk; if the user declines the removal nothing changes.", "quantifier": "every disk, every directory to install into, every package, both answers", "why_tests_cant": "The script is only run by hand on Windows; disks are unboundedly many.", "anchors": ["NSIS/ansak-string.nsi"]}
{"id": "C143", "title": "The text of FindANSAK.cmake does what the model says", "statement": "The text of FindANSAK.cmake, read and run as it stands, uses only commands of the modelled part of cmake, ends (normally, by return after an error, or by a fatal error) as Model/Find.v says and leaves in its variables what the model says it finds.", "quantifier": "every disk, all variables and environments, all search directories", "why_tests_cant": "The module is never run by the tests; disks and settings are unboundedly many.", "anchors": ["FindANSAK.cmake:156-514"]}
{"id": "C144", "title": "The text of CMakeLists.txt and packaging.cmake does what is wanted", "statement": "The text of both files, read and run as it stands, uses only commands of the modelled part of cmake, ends in an error exactly for the settings listed in Model/ListsWanted.v, and otherwise asks cmake for exactly the listed things in the listed order.", "quantifier": "every setting of the variables, the cache, the cmake release and the Linux distribution", "why_tests_cant": "The tests run with one setting on one machine; the settings are unboundedly many.", "anchors": ["CMakeLists.txt", "packaging.cmake"]}
{"id": "C145", "title": "One Unicode version per build", "statement": "The library, its tests and its package are of one Unicode version: the one asked for if it is supported (7 to 16), else 16.", "quantifier": "every setting of the variables, the cache, the cmake release and the Linux distribution", "why_tests_cant": "The tests run with one setting on one machine; the settings are unboundedly many.", "anchors": ["CMakeLists.txt:134-185", "packaging.cmake"]}
{"id": "C146", "title": "The build names only files that exist", "statement": "Every file of the project that is compiled, included or installed exists, or is made by a program of the project from a file that exists.", "quantifier": "every setting of the variables, the cache, the cmake release and the Linux distribution", "why_tests_cant": "The tests run with one setting on one machine; the settings are unboundedly many.", "anchors": ["CMakeLists.txt", "packaging.cmake"]}
{"id": "C147", "title": "When there are unit tests", "statement": "There are unit tests exactly if the library is built by itself, TEST_ANSAKSTRING is set or coverage is asked for, but not for Visual Studio before 2015 (false for Visual Studio 2005 and 2008).", "quantifier": "every setting of the variables, the cache, the cmake release and the Linux distribution", "why_tests_cant": "The tests run with one setting on one machine; the settings are unboundedly many.", "anchors": ["CMakeLists.txt:69-96"]}
{"id": "C148", "title": "Coverage builds", "statement": "A coverage build has unit tests and a target that reports the coverage, and is refused for Visual Studio (false as a part of another project: it ends in an error).", "quantifier": "every setting of the variables, the cache, the cmake release and the Linux distribution", "why_tests_cant": "The tests run with one setting on one machine; the settings are unboundedly many.", "anchors": ["CMakeLists.txt:76-115", "CMakeLists.txt:185-235"]}
{"id": "C149", "title": "What packages are made", "statement": "On Linux a TGZ and an RPM or DEB package, on Windows TGZ, NSIS and WIX, on macOS TGZ are made, named after the Unicode version and of version 2.0.1 (false: error before cmake 3.14 and without lsb_release; DEB on Red Hat Enterprise).", "quantifier": "every setting of the variables, the cache, the cmake release and the Linux distribution", "why_tests_cant": "The tests run with one setting on one machine; the settings are unboundedly many.", "anchors": ["packaging.cmake"]}
{"id": "C150", "title": "Installed headers are complete", "statement": "Packages install exactly the three public headers, and these include by name only headers installed with them.", "quantifier": "every setting of the variables, the cache, the cmake release and the Linux distribution", "why_tests_cant": "The tests run with one setting on one machine; the settings are unboundedly many.", "anchors": ["packaging.cmake:36-39", "interface/string.hxx", "interface/string_trim.hxx", "interface/string_splitjoin.hxx"]}
{"id": "C151", "title": "The build agrees with the scripts around it", "statement": "Given the number make.py hands over, CMakeLists.txt builds the Unicode version the model of the scripts says; packages hold the headers that make install, make.py install and the installer install, in the same place.", "quantifier": "every setting of the variables, the cache, the cmake release and the Linux distribution", "why_tests_cant": "The tests run with one setting on one machine; the settings are unboundedly many.", "anchors": ["CMakeLists.txt:134-172", "packaging.cmake:36-39", "make.py:257"]}
{"id": "C152", "title": "Targets are made before they are used", "statement": "Every target that is given options, linked, run, tested or installed was made before; everything linked is made by the build (false for tests as a part of another project).", "quantifier": "every setting of the variables, the cache, the cmake release and the Linux distribution", "why_tests_cant": "The tests run with one setting on one machine; the settings are unboundedly many.", "anchors": ["CMakeLists.txt:99-235", "packaging.cmake:36"]}
{"id": "C153", "title": "What the build depends on and leaves alone", "statement": "CMakeLists.txt and packaging.cmake change no variable but the listed ones, and what they ask cmake for depends only on sixteen variables, the release of cmake and whether SETUP_TARGET_FOR_COVERAGE is known.", "quantifier": "every setting of the variables, the cache, the cmake release and the Linux distribution", "why_tests_cant": "The tests run with one setting on one machine; the settings are unboundedly many.", "anchors": ["CMakeLists.txt", "packaging.cmake"]}
{"id": "C154", "title": "How googletest is brought in", "statement": "submods/CMakeLists.txt, read and run as it stands, adds googletest once, exactly if neither gmock nor gtest is a target, not to be installed, on Unix with warnings that are not errors, and on Windows with the static runtime (the last is false: the flags are changed after googletest was added).", "quantifier": "every setting of the variables, every set of targets", "why_tests_cant": "The tests run with one setting on one machine; the settings are unboundedly many.", "anchors": ["submods/CMakeLists.txt:36-63"]}
{"id": "C155", "title": "configure.cmd finds Python 3", "statement": "configure.cmd, read and run as it stands, runs configure.py with python if it is of version 3, else with python3 if that is, else not at all, and with the python given by --python; all arguments are handed on and make.cmd is made for that python (false if there is no python, and always with --python).", "quantifier": "every set of pythons, all arguments", "why_tests_cant": "The script is only run by hand on Windows; arguments are unboundedly many.", "anchors": ["configure.cmd:46-100", "choosep3.py:45-50", "configure.py:152-174", "configure.py:221-229"]}
{"id": "C156", "title": "make runs what configure settled", "statement": "The recipes of the Makefile, read and run as they stand, configure in build with the compiler, generator and Unicode version that were settled, build and test the settled configuration, and make an RPM or DEB package exactly if there is something to make it with (false: with a configuration cmake gets it as one word with --config, without one ctest gets an empty word).", "quantifier": "every setting of the variables of config.make", "why_tests_cant": "The recipes have no tests; settings are unboundedly many.", "anchors": ["Makefile:49-75", "Makefile:95-114"]}
{"id": "C157", "title": "FindASan keeps its promises", "statement": "FindASan.cmake, read and run as it stands, defines the build type ASan, with the sanitizer for compilers and linkers, exactly if the compiler has one, says so in HAVE_ADDRESS_SANITIZER and changes no variables but its own (false: HAVE_ADDRESS_SANITIZER stays true if it was, and CMAKE_REQUIRED_FLAGS is lost).", "quantifier": "every setting of the variables, every compiler", "why_tests_cant": "The module is only included for one build type; settings are unboundedly many.", "anchors": ["cmake/modules/FindASan.cmake:24-69"]}
{"id": "C158", "title": "What is given to configure is what make uses", "statement": "The compiler and the Unicode version settled by configure from its options, written to config.make and read from there, are what the recipes of the Makefile hand to cmake, with the generator and configuration of the system, and packages are made exactly where the program for them was found (false: on macOS the configuration is not handed over, elsewhere ctest gets an empty word).", "quantifier": "all arguments of configure, every environment, every compiler and version of plain characters", "why_tests_cant": "A test goes through one machine and one set of options; both are unboundedly many.", "anchors": ["configure:107-140", "configure:142-223", "Makefile:49-75", "Makefile:95-114"]}
