(* The WIN32 part of the 16-bit wchar_t section of interface/string.hxx (lines 545-654 and
   743-862), for _MBCS (TCHAR is char) and for _UNICODE (TCHAR is wchar_t).

   Overload resolution: these are ordinary inline functions, so a call inside one of them sees only
   the overloads declared above it (char, char16_t and char32_t add no associated namespace).  The
   three _MBCS overloads on strings come before the overload on the pointer they mean to call:
   "toTstring(test.c_str())" in toTstring(const utf8String& ) can only see that very function,
   converting the pointer to a new utf8String, and likewise for utf16String and ucs4String. *)
From Coq Require Import ZArith List Bool.
From Verif Require Import Machine.
From Verif.Model Require Import Internal Tables Predicate Str CodePage.
Import ListNotations.
Local Open Scope Z_scope.

(* interface/string.hxx:556-559; 560 is the same on c_str() *)
Definition narrow_isUtf16 (T : UnicodeTables) (test : ptr) : outcome bool := isUtf8 T test kUtf16 nullPredicate.
(* interface/string.hxx:562-565; 566 is the same on c_str() *)
Definition narrow_isUcs2 (T : UnicodeTables) (test : ptr) : outcome bool := isUtf8 T test kUcs2 nullPredicate.
(* interface/string.hxx:568-571; 572 is the same on c_str() *)
Definition narrow_isUcs4 (T : UnicodeTables) (test : ptr) : outcome bool := isUtf8 T test kUcs4 nullPredicate.

(* interface/string.hxx:747-757; 759 is the same on c_str(); isUtf8(src) has target kUtf8 *)
Definition narrow_toUtf8 (T : UnicodeTables) (src : ptr) : outcome (list Z) :=
  do ok <- isUtf8 T src kUtf8 nullPredicate;
  if ok then basic_string src else Done [].

(* isTstring is the same in both: interface/string.hxx:576-611 (_MBCS) and 615-650 (_UNICODE) *)
Definition isTstring_8 (T : UnicodeTables) (test : ptr) : outcome bool := isUtf8 T test kUtf16 nullPredicate.
Definition isTstring_16 (T : UnicodeTables) (test : ptr) : outcome bool := isUtf16 T test kUtf16 nullPredicate.
Definition isTstring_32 (T : UnicodeTables) (test : ptr) : outcome bool := isUcs4 T test kUtf16 nullPredicate.

(* ---------------------------------------------------------------- _MBCS *)

(* interface/string.hxx:768-778 *)
Definition mbcs_toTstring_8 (T : UnicodeTables) (test : ptr) : outcome (list Z) :=
  do ok <- isUtf8 T test kAscii nullPredicate;
  if ok then basic_string test else Done [].
(* interface/string.hxx:792-802 *)
Definition mbcs_toTstring_16 (T : UnicodeTables) (test : ptr) : outcome (list Z) :=
  do ok <- isUtf16 T test kAscii nullPredicate;
  if ok then do s <- toUtf8_16 test; basic_string (c_str s) else Done [].
(* interface/string.hxx:809-819 *)
Definition mbcs_toTstring_32 (T : UnicodeTables) (test : ptr) : outcome (list Z) :=
  do ok <- isUcs4 T test kAscii nullPredicate;
  if ok then do s <- toUtf8_32 test; basic_string (c_str s) else Done [].

(* interface/string.hxx:763-766, 780-783 and 804-807: each builds a string of its own type from
   test.c_str() and calls itself with it (see above) *)
Fixpoint mbcs_toTstring_string (fuel : nat) (test : list Z) : outcome (list Z) :=
  match fuel with
  | O => OutOfFuel
  | S fuel => do s <- basic_string (c_str test); mbcs_toTstring_string fuel s
  end.

(* ---------------------------------------------------------------- _UNICODE *)

(* interface/string.hxx:828-831 *)
Definition unicode_toTstring_8 (test : ptr) : outcome (list Z) := do s <- toUtf16_8 test; basic_string (c_str s).
(* interface/string.hxx:823-826; toUtf16(test) is the overload on strings *)
Definition unicode_toTstring_8_string (test : list Z) : outcome (list Z) := do s <- toUtf16_8_string test; basic_string (c_str s).
(* interface/string.hxx:845-848 *)
Definition unicode_toTstring_16 (test : ptr) : outcome (list Z) := basic_string test.
(* interface/string.hxx:833-836 *)
Definition unicode_toTstring_16_string (test : list Z) : outcome (list Z) := basic_string (c_str test).
(* interface/string.hxx:855-858 *)
Definition unicode_toTstring_32 (test : ptr) : outcome (list Z) := do s <- toUtf16_32 test; basic_string (c_str s).
(* interface/string.hxx:850-853 *)
Definition unicode_toTstring_32_string (test : list Z) : outcome (list Z) := do s <- toUtf16_32_string test; basic_string (c_str s).
