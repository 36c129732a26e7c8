(* The wchar_t section of interface/string.hxx: once for 32-bit wchar_t (WCHAR_MAX >
   0x10000, lines 866-1015) and once for 16-bit wchar_t (WCHAR_MAX < 0x10000, lines
   479-864, without the WIN32 TCHAR helpers, which are in Tchar.v).
   reinterpret_cast between wchar_t* and the same-width charN_t* keeps the values. *)
From Coq Require Import ZArith List Bool.
From Verif Require Import Machine.
From Verif.Model Require Import Internal Tables Predicate Str CodePage.
Import ListNotations.
Local Open Scope Z_scope.

(* ---------------------------------------------------------------- 32-bit wchar_t *)

(* interface/string.hxx:871-877 *)
Definition w32_isUtf8 (T : UnicodeTables) (test : ptr) : outcome bool := isUcs4 T test kUtf16 nullPredicate.
(* interface/string.hxx:880-883 *)
Definition w32_isUtf16 (T : UnicodeTables) (test : ptr) : outcome bool := isUcs4 T test kUtf16 nullPredicate.
(* interface/string.hxx:886-889 *)
Definition w32_isUcs2 (T : UnicodeTables) (test : ptr) : outcome bool := isUcs4 T test kUcs2 nullPredicate.
(* interface/string.hxx:892-898 *)
Definition w32_isUcs4 (T : UnicodeTables) (test : ptr) : outcome bool := isUcs4 T test kUtf16 nullPredicate.
(* interface/string.hxx:906-909; 901-904 is the same on c_str() *)
Definition w32_isWstring_8 (T : UnicodeTables) (test : ptr) : outcome bool := isUtf8 T test kUtf16 nullPredicate.
(* interface/string.hxx:923-926; 911-914 is the same on c_str() *)
Definition w32_isWstring_16 (T : UnicodeTables) (test : ptr) : outcome bool := isUtf16 T test kUcs4 nullPredicate.
(* interface/string.hxx:933-936; 928-931 is the same on c_str() *)
Definition w32_isWstring_32 (T : UnicodeTables) (test : ptr) : outcome bool := isUcs4 T test kUtf16 nullPredicate.

(* interface/string.hxx:941-942 *)
Definition w32_toUtf8 (src : ptr) : outcome (list Z) := toUtf8_32 src.
(* interface/string.hxx:947-948 *)
Definition w32_toUtf16 (src : ptr) : outcome (list Z) := toUtf16_32 src.
(* interface/string.hxx:953-954 *)
Definition w32_toUcs2 (src : ptr) : outcome (list Z) := toUcs2_32 src.
(* interface/string.hxx:959-969 *)
Definition w32_toUcs4 (T : UnicodeTables) (src : ptr) : outcome (list Z) :=
  do ok <- isUcs4 T src kUtf16 nullPredicate;
  if ok then basic_string src else Done [].
(* interface/string.hxx:974-977 *)
Definition w32_toWstring_8 (src : ptr) : outcome (list Z) :=
  do s <- toUcs4_8 src; basic_string (c_str s).
(* interface/string.hxx:983-986 *)
Definition w32_toWstring_16 (src : ptr) : outcome (list Z) :=
  do s <- toUcs4_16 src; basic_string (c_str s).
(* interface/string.hxx:998-1008 *)
Definition w32_toWstring_32 (T : UnicodeTables) (src : ptr) : outcome (list Z) :=
  do ok <- isUcs4 T src kUtf16 nullPredicate;
  if ok then basic_string src else Done [].

(* ---------------------------------------------------------------- 16-bit wchar_t *)

(* interface/string.hxx:484-487 *)
Definition w16_isUtf8 (T : UnicodeTables) (test : ptr) : outcome bool := isUtf16 T test kUtf8 nullPredicate.
(* interface/string.hxx:490-493 *)
Definition w16_isUtf16 (T : UnicodeTables) (test : ptr) : outcome bool := isUtf16 T test kUtf8 nullPredicate.
(* interface/string.hxx:496-499 *)
Definition w16_isUcs2 (T : UnicodeTables) (test : ptr) : outcome bool := isUtf16 T test kUcs2 nullPredicate.
(* interface/string.hxx:502-505 *)
Definition w16_isUcs4 (T : UnicodeTables) (test : ptr) : outcome bool := isUtf16 T test kUcs4 nullPredicate.
(* interface/string.hxx:513-516; 508-511 is the same on c_str() *)
Definition w16_isWstring_8 (T : UnicodeTables) (test : ptr) : outcome bool := isUtf8 T test kUtf16 nullPredicate.
(* interface/string.hxx:530-533; 518-521 is the same on c_str(); targetRange defaults to kUtf16 (:289) *)
Definition w16_isWstring_16 (T : UnicodeTables) (test : ptr) : outcome bool := isUtf16 T test kUtf16 nullPredicate.
(* interface/string.hxx:540-543; 535-538 is the same on c_str() *)
Definition w16_isWstring_32 (T : UnicodeTables) (test : ptr) : outcome bool := isUcs4 T test kUtf16 nullPredicate.

(* interface/string.hxx:659-660 *)
Definition w16_toUtf8 (src : ptr) : outcome (list Z) := toUtf8_16 src.
(* interface/string.hxx:665-676; isUtf16(redirect) has target kUtf16 *)
Definition w16_toUtf16 (T : UnicodeTables) (src : ptr) : outcome (list Z) :=
  do ok <- isUtf16 T src kUtf16 nullPredicate;
  if ok then basic_string src else Done [].
(* interface/string.hxx:681-692; isUcs2(redirect) has target kUcs2 *)
Definition w16_toUcs2 (T : UnicodeTables) (src : ptr) : outcome (list Z) :=
  do ok <- isUcs2 T src kUcs2 nullPredicate;
  if ok then basic_string src else Done [].
(* interface/string.hxx:697-698 *)
Definition w16_toUcs4 (src : ptr) : outcome (list Z) := toUcs4_16 src.
(* interface/string.hxx:703-706 *)
Definition w16_toWstring_8 (src : ptr) : outcome (list Z) :=
  do s <- toUtf16_8 src; basic_string (c_str s).
(* interface/string.hxx:712-722 *)
Definition w16_toWstring_16 (T : UnicodeTables) (src : ptr) : outcome (list Z) :=
  do ok <- isUtf16 T src kUtf16 nullPredicate;
  if ok then basic_string src else Done [].
(* interface/string.hxx:734-737 *)
Definition w16_toWstring_32 (src : ptr) : outcome (list Z) :=
  do s <- toUtf16_32 src; basic_string (c_str s).
