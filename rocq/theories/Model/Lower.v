(* source/string_tolower.cxx *)
From Coq Require Import ZArith List Bool.
From Verif Require Import Machine.
From Verif.Model Require Import Tables Str.
Import ListNotations.
Local Open Scope Z_scope.

(* source/string_tolower.cxx:63-85 -- isTurkicLang; the reads happen in the order written
   ('a' 0x61, 'b' 0x62, 'e' 0x65, 'j' 0x6a, 'k' 0x6b, 'r' 0x72, 't' 0x74, 'u' 0x75, 'z' 0x7a) *)
Definition isTurkicLang (lang : ptr) : outcome bool :=
  match lang with
  | Null => Done false
  | At l =>
    do l0 <- index l 0;
    if l0 =? 0 then Done false else
    do l1 <- index l 1;
    if l1 =? 0 then Done false else
    do l2 <- index l 2;
    if l2 =? 0 then
      Done (((l0 =? 0x74) && (l1 =? 0x72))
            || ((l0 =? 0x61) && (l1 =? 0x7a))
            || ((l0 =? 0x74) && (l1 =? 0x74))
            || ((l0 =? 0x6b) && (l1 =? 0x6b)))
    else
    do l3 <- index l 3;
    if l3 =? 0 then
      Done (((l0 =? 0x74) && (l1 =? 0x75) && (l2 =? 0x72))
            || ((l0 =? 0x74) && (l1 =? 0x61) && (l2 =? 0x74))
            || ((l0 =? 0x6b) && (l1 =? 0x61) && (l2 =? 0x7a))
            || ((l0 =? 0x61) && (l1 =? 0x7a)
                && ((l2 =? 0x65) || (l2 =? 0x62) || (l2 =? 0x6a))))
    else Done false
  end.

(* source/string_tolower.cxx:128-145 -- toLower(const ucs4String&, const char* ) *)
Definition toLower_32 (T : UnicodeTables) (src : list Z) (lang : ptr) : outcome (list Z) :=
  do turkic <- isTurkicLang lang;
  let toLowerFunc := if turkic then t_turkic T else t_lower T in
  Done (map toLowerFunc src).

(* source/string_tolower.cxx:96-108 -- toLower(const utf8String&, const char* ) *)
Definition toLower_8 (T : UnicodeTables) (src : list Z) (lang : ptr) : outcome (list Z) :=
  do src4 <- toUcs4_8_string src;
  match src4 with
  | [] => Done []
  | _ => do low <- toLower_32 T src4 lang; toUtf8_32_string low
  end.

(* source/string_tolower.cxx:112-124 -- toLower(const utf16String&, const char* ) *)
Definition toLower_16 (T : UnicodeTables) (src : list Z) (lang : ptr) : outcome (list Z) :=
  do src4 <- toUcs4_16_string src;
  match src4 with
  | [] => Done []
  | _ => do low <- toLower_32 T src4 lang; toUtf16_32_string low
  end.
