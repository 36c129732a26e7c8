(* Written by tools/text2v.py: the files of /repo; do not edit. *)
From Coq Require Import List String.
Import ListNotations.
Local Open Scope string_scope.

Definition repo_files : list string :=
  [".gitmodules";
   "CHANGES";
   "CMakeLists.txt";
   "FindANSAK.cmake";
   "LICENSE";
   "Makefile";
   "NSIS/ansak-library-bsd-2clause.txt";
   "NSIS/ansak-string.nsi";
   "NSIS/ansak.ico";
   "README.md";
   "choosep3.py";
   "cmake/modules/CodeCoverage.cmake";
   "cmake/modules/FindASan.cmake";
   "configure";
   "configure.cmd";
   "configure.py";
   "interface/internal/string_decode_utf8.hxx";
   "interface/string.hxx";
   "interface/string_splitjoin.hxx";
   "interface/string_trim.hxx";
   "make.py";
   "mkUnicodeTestData/mkUnicodeTestData.cxx";
   "packaging.cmake";
   "project.py";
   "source/bits10/UnicodeData.txt";
   "source/bits10/char_is_unicode.cxx";
   "source/bits10/char_to_lower.cxx";
   "source/bits11/UnicodeData.txt";
   "source/bits11/char_is_unicode.cxx";
   "source/bits11/char_to_lower.cxx";
   "source/bits12/UnicodeData.txt";
   "source/bits12/char_is_unicode.cxx";
   "source/bits12/char_to_lower.cxx";
   "source/bits13/UnicodeData.txt";
   "source/bits13/char_is_unicode.cxx";
   "source/bits13/char_to_lower.cxx";
   "source/bits14/UnicodeData.txt";
   "source/bits14/char_is_unicode.cxx";
   "source/bits14/char_to_lower.cxx";
   "source/bits15/UnicodeData.txt";
   "source/bits15/char_is_unicode.cxx";
   "source/bits15/char_to_lower.cxx";
   "source/bits16/UnicodeData.txt";
   "source/bits16/char_is_unicode.cxx";
   "source/bits16/char_to_lower.cxx";
   "source/bits7/UnicodeData.txt";
   "source/bits7/char_is_unicode.cxx";
   "source/bits7/char_to_lower.cxx";
   "source/bits8/UnicodeData.txt";
   "source/bits8/char_is_unicode.cxx";
   "source/bits8/char_to_lower.cxx";
   "source/bits9/UnicodeData.txt";
   "source/bits9/char_is_unicode.cxx";
   "source/bits9/char_to_lower.cxx";
   "source/encoding_check_predicate.cxx";
   "source/string.cxx";
   "source/string_decode_utf8.cxx";
   "source/string_internal.hxx";
   "source/string_tolower.cxx";
   "source/string_toutf8.cxx";
   "submods/CMakeLists.txt";
   "test/unit/char_is_unicode_test.cxx";
   "test/unit/encode_predicate_test.cxx";
   "test/unit/string_decode_utf8_test.cxx";
   "test/unit/string_splitjoin_test.cxx";
   "test/unit/string_test.cxx";
   "test/unit/string_tolower_test10.cxx";
   "test/unit/string_tolower_test11.cxx";
   "test/unit/string_tolower_test12.cxx";
   "test/unit/string_tolower_test13.cxx";
   "test/unit/string_tolower_test14.cxx";
   "test/unit/string_tolower_test15.cxx";
   "test/unit/string_tolower_test16.cxx";
   "test/unit/string_tolower_test7.cxx";
   "test/unit/string_tolower_test8.cxx";
   "test/unit/string_tolower_test9.cxx";
   "test/unit/string_trim_test.cxx";
   "test/unit/string_wchar_tchar.cxx";
   "test/unit/string_wide_tchar.cxx";
   "test/unit/string_with_predicate_test.cxx"].
