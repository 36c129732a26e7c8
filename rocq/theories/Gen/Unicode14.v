(* GENERATED by tools/cxx2v.py from /repo/source/bits14/char_is_unicode.cxx and
   /repo/source/bits14/char_to_lower.cxx.  One Gallina definition per C++ function,
   same structure, same literals.  Overloads carry the parameter width as a suffix
   (_8 char, _16 char16_t, _32 char32_t).  See tools/cxx2v.py for the integer semantics. *)
From Coq Require Import ZArith Bool String.
From Verif Require Import Machine.
Local Open Scope Z_scope.

(* source/bits14/char_is_unicode.cxx:52 *)
Definition supportedUnicodeVersion : string := "14.0.0"%string.

(* source/string_internal.hxx:118 -- inline overload for char: always true *)
Definition isUnicodeAssigned_8 (c : Z) : bool := true.
(* source/string_internal.hxx:122 -- inline overload for char: always false *)
Definition isUnicodePrivate_8 (c : Z) : bool := false.

(* source/bits14/char_is_unicode.cxx:61-72 *)
Definition isInTheGap0003 (c : Z) : bool :=
  let column := (Z.land (Z.shiftr c 4) 0xf) in
  let row := (Z.land c 0xf) in
  if (column =? 7) then
    ((row =? 8) || (row =? 9))
  else if (column =? 8) then
    (((row <? 4) || (row =? 11)) || (row =? 13))
  else if (column =? 10) then
    (row =? 2)
  else
    false.

(* source/bits14/char_is_unicode.cxx:74-91 *)
Definition isInTheGap0005 (c : Z) : bool :=
  let column := (Z.land (Z.shiftr c 4) 0xf) in
  let row := (Z.land c 0xf) in
  if ((column =? 3) || (column =? 9)) then
    (row =? 0)
  else if (column =? 5) then
    ((row =? 7) || (row =? 8))
  else if (column =? 8) then
    ((row =? 11) || (row =? 12))
  else if (column =? 12) then
    (row >=? 8)
  else if (column =? 14) then
    ((row >=? 11) && (row <=? 14))
  else if (column =? 15) then
    (row >=? 5)
  else
    false.

(* source/bits14/char_is_unicode.cxx:93-105 *)
Definition isInTheGap0007 (c : Z) : bool :=
  let column := (Z.land (Z.shiftr c 4) 0xf) in
  let row := (Z.land c 0xf) in
  if (column =? 0) then
    (row =? 14)
  else if ((column =? 4) || (column =? 15)) then
    ((row =? 11) || (row =? 12))
  else if (column =? 11) then
    (row >=? 2)
  else
    false.

(* source/bits14/char_is_unicode.cxx:107-122 *)
Definition isInTheGap0008 (c : Z) : bool :=
  let column := (Z.land (Z.shiftr c 4) 0xf) in
  let row := (Z.land c 0xf) in
  if (column =? 2) then
    (row >=? 14)
  else if (column =? 3) then
    (row =? 15)
  else if (column =? 5) then
    ((row >=? 12) && (negb (row =? 14)))
  else if (column =? 6) then
    (row >=? 11)
  else if (column =? 8) then
    (row =? 15)
  else if (column =? 9) then
    ((row >=? 2) && (row <=? 7))
  else
    false.

(* source/bits14/char_is_unicode.cxx:124-167 *)
Definition isInTheGap0009 (c : Z) : bool :=
  let column := (Z.land (Z.shiftr c 4) 0xf) in
  let row := (Z.land c 0xf) in
  if (column =? 8) then
    (((row =? 4) || (row =? 13)) || (row =? 14))
  else if (column =? 9) then
    ((row =? 1) || (row =? 2))
  else if (column =? 10) then
    (row =? 9)
  else if (column =? 11) then
    if ((row =? 1) || (row =? 3) || (row =? 4) || (row =? 5) || (row =? 10) || (row =? 11)) then
      true
    else
      false
  else if (column =? 12) then
    if ((row =? 5) || (row =? 6) || (row =? 9) || (row =? 10) || (row =? 15)) then
      true
    else
      false
  else if (column =? 13) then
    if ((row =? 7) || (row =? 12) || (row =? 13) || (row =? 15)) then
      false
    else
      true
  else if (column =? 14) then
    ((row =? 4) || (row =? 5))
  else if (column =? 15) then
    (row =? 15)
  else
    false.

(* source/bits14/char_is_unicode.cxx:169-244 *)
Definition isInTheGap000A (c : Z) : bool :=
  let column := (Z.land (Z.shiftr c 4) 0xf) in
  let row := (Z.land c 0xf) in
  if (column =? 0) then
    (((row =? 0) || (row =? 4)) || ((row >=? 11) && (row <? 15)))
  else if (column =? 1) then
    ((row =? 1) || (row =? 2))
  else if (column =? 2) then
    (row =? 9)
  else if (column =? 3) then
    if ((row =? 1) || (row =? 4) || (row =? 7) || (row =? 10) || (row =? 11) || (row =? 13)) then
      true
    else
      false
  else if (column =? 4) then
    if ((row =? 3) || (row =? 4) || (row =? 5) || (row =? 6) || (row =? 9) || (row =? 10) || (row =? 14) || (row =? 15)) then
      true
    else
      false
  else if (column =? 5) then
    if ((row =? 0) || (row =? 2) || (row =? 3) || (row =? 4) || (row =? 5) || (row =? 6) || (row =? 7) || (row =? 8) || (row =? 13) || (row =? 15)) then
      true
    else
      false
  else if (column =? 6) then
    (row <=? 5)
  else if (column =? 7) then
    (row >=? 7)
  else if (column =? 8) then
    if ((row =? 0) || (row =? 4) || (row =? 14)) then
      true
    else
      false
  else if (column =? 9) then
    (row =? 2)
  else if (column =? 10) then
    (row =? 9)
  else if (column =? 11) then
    if ((row =? 1) || (row =? 4) || (row =? 10) || (row =? 11)) then
      true
    else
      false
  else if (column =? 12) then
    (((row =? 6) || (row =? 10)) || (row >=? 14))
  else if (column =? 13) then
    (row >=? 1)
  else if (column =? 14) then
    ((row =? 4) || (row =? 5))
  else if (column =? 15) then
    ((row >=? 2) && (row <=? 8))
  else
    true.

(* source/bits14/char_is_unicode.cxx:246-327 *)
Definition isInTheGap000B (c : Z) : bool :=
  let column := (Z.land (Z.shiftr c 4) 0xf) in
  let row := (Z.land c 0xf) in
  if (column =? 0) then
    ((((row =? 0) || (row =? 4)) || (row =? 13)) || (row =? 14))
  else if (column =? 1) then
    ((row =? 1) || (row =? 2))
  else if (column =? 2) then
    (row =? 9)
  else if (column =? 3) then
    ((((row =? 1) || (row =? 4)) || (row =? 10)) || (row =? 11))
  else if (column =? 4) then
    if ((row =? 5) || (row =? 6) || (row =? 9) || (row =? 10) || (row =? 14) || (row =? 15)) then
      true
    else
      false
  else if (column =? 5) then
    (((row <=? 4) || ((row >=? 8) && (row <=? 11))) || (row =? 14))
  else if (column =? 6) then
    ((row =? 4) || (row =? 5))
  else if (column =? 7) then
    (row >=? 8)
  else if (column =? 8) then
    if ((row =? 0) || (row =? 1) || (row =? 4) || (row =? 11) || (row =? 12) || (row =? 13)) then
      true
    else
      false
  else if (column =? 9) then
    if ((row =? 1) || (row =? 6) || (row =? 7) || (row =? 8) || (row =? 11) || (row =? 13)) then
      true
    else
      false
  else if (column =? 10) then
    if ((row =? 3) || (row =? 4) || (row =? 8) || (row =? 9) || (row =? 10) || (row =? 14) || (row =? 15)) then
      false
    else
      true
  else if (column =? 11) then
    ((row >=? 10) && (row <=? 13))
  else if (column =? 12) then
    if ((row =? 3) || (row =? 4) || (row =? 5) || (row =? 9) || (row =? 14) || (row =? 15)) then
      true
    else
      false
  else if (column =? 13) then
    if ((row =? 0) || (row =? 7)) then
      false
    else
      true
  else if (column =? 14) then
    (row <=? 5)
  else if (column =? 15) then
    (row >=? 11)
  else
    true.

(* source/bits14/char_is_unicode.cxx:329-353 *)
Definition isInTheGap000C (c : Z) : bool :=
  let column := (Z.land (Z.shiftr c 4) 0xf) in
  let row := (Z.land c 0xf) in
  if (column =? 0) then
    (row =? 13)
  else if (column =? 1) then
    (row =? 1)
  else if (column =? 2) then
    (row =? 9)
  else if (column =? 3) then
    ((row =? 10) || (row =? 11))
  else if (column =? 4) then
    (((row =? 5) || (row =? 9)) || (row >=? 14))
  else if (column =? 5) then
    (((row <=? 4) || (row =? 7)) || ((row >=? 11) && (negb (row =? 13))))
  else if (column =? 6) then
    ((row =? 4) || (row =? 5))
  else if (column =? 7) then
    (row <=? 6)
  else if (column =? 8) then
    (row =? 13)
  else if (column =? 9) then
    (row =? 1)
  else if (column =? 10) then
    (row =? 9)
  else if (column =? 11) then
    (((row =? 4) || (row =? 10)) || (row =? 11))
  else if (column =? 12) then
    (((row =? 5) || (row =? 9)) || (row >=? 14))
  else if (column =? 13) then
    (((row <=? 4) || ((row >=? 7) && (row <=? 12))) || (row =? 15))
  else if (column =? 14) then
    ((row =? 4) || (row =? 5))
  else if (column =? 15) then
    ((row =? 0) || (row >=? 3))
  else
    true.

(* source/bits14/char_is_unicode.cxx:355-375 *)
Definition isInTheGap000D (c : Z) : bool :=
  let column := (Z.land (Z.shiftr c 4) 0xf) in
  let row := (Z.land c 0xf) in
  if (column =? 0) then
    (row =? 13)
  else if (column =? 1) then
    (row =? 1)
  else if (column =? 4) then
    ((row =? 5) || (row =? 9))
  else if (column =? 5) then
    (row <=? 3)
  else if (column =? 6) then
    ((row =? 4) || (row =? 5))
  else if (column =? 8) then
    ((row =? 0) || (row =? 4))
  else if (column =? 9) then
    ((row >=? 7) && (row <=? 9))
  else if (column =? 11) then
    ((row =? 2) || ((row >=? 12) && (negb (row =? 13))))
  else if (column =? 12) then
    (((row >=? 7) && (negb (row =? 10))) && (row <=? 14))
  else if (column =? 13) then
    ((row =? 5) || (row =? 7))
  else if (column =? 14) then
    (row <=? 5)
  else if (column =? 15) then
    ((row <? 2) || (row >=? 5))
  else
    false.

(* source/bits14/char_is_unicode.cxx:377-411 *)
Definition isInTheGap000E (c : Z) : bool :=
  let column := (Z.land (Z.shiftr c 4) 0xf) in
  let row := (Z.land c 0xf) in
  if (column =? 0) then
    (row =? 0)
  else if (column =? 3) then
    ((row >=? 11) && (row <=? 14))
  else if (column =? 5) then
    (row >=? 12)
  else if ((column =? 6) || (column =? 7) || (column =? 14) || (column =? 15)) then
    true
  else if (column =? 8) then
    if ((row =? 0) || (row =? 3) || (row =? 5) || (row =? 11)) then
      true
    else
      false
  else if (column =? 10) then
    if ((row =? 4) || (row =? 6)) then
      true
    else
      false
  else if (column =? 11) then
    (row >=? 14)
  else if (column =? 12) then
    (((row =? 5) || (row =? 7)) || (row >=? 14))
  else if (column =? 13) then
    ((row =? 10) || (row =? 11))
  else
    false.

(* source/bits14/char_is_unicode.cxx:413-430 *)
Definition isInTheGap000F (c : Z) : bool :=
  let column := (Z.land (Z.shiftr c 4) 0xf) in
  let row := (Z.land c 0xf) in
  if (column =? 4) then
    (row =? 8)
  else if (column =? 6) then
    (row >=? 13)
  else if (column =? 7) then
    (row =? 0)
  else if (column =? 9) then
    (row =? 8)
  else if ((column =? 11) || (column =? 12)) then
    (row =? 13)
  else if (column =? 13) then
    (row >=? 11)
  else if ((column =? 14) || (column =? 15)) then
    true
  else
    false.

(* source/bits14/char_is_unicode.cxx:432-441 *)
Definition isInTheGap0010 (c : Z) : bool :=
  let column := (Z.land (Z.shiftr c 4) 0xf) in
  let row := (Z.land c 0xf) in
  if (column =? 12) then
    ((row =? 6) || ((row >=? 8) && (negb (row =? 13))))
  else
    false.

(* source/bits14/char_is_unicode.cxx:443-457 *)
Definition isInTheGap0012 (c : Z) : bool :=
  let column := (Z.land (Z.shiftr c 4) 0xf) in
  let row := (Z.land c 0xf) in
  if (column =? 4) then
    ((row =? 9) || (row >=? 14))
  else if (column =? 5) then
    (((row =? 7) || (row =? 9)) || (row >=? 14))
  else if (column =? 8) then
    ((row =? 9) || (row >=? 14))
  else if (column =? 11) then
    ((((row =? 1) || (row =? 6)) || (row =? 7)) || (row =? 15))
  else if (column =? 12) then
    (((row =? 1) || (row =? 6)) || (row =? 7))
  else if (column =? 13) then
    (row =? 7)
  else
    false.

(* source/bits14/char_is_unicode.cxx:459-472 *)
Definition isInTheGap0013 (c : Z) : bool :=
  let column := (Z.land (Z.shiftr c 4) 0xf) in
  let row := (Z.land c 0xf) in
  if (column =? 1) then
    (((row =? 1) || (row =? 6)) || (row =? 7))
  else if (column =? 5) then
    ((row =? 11) || (row =? 12))
  else if (column =? 7) then
    (row >=? 13)
  else if (column =? 9) then
    (row >=? 10)
  else if (column =? 15) then
    ((Z.land row 7) >=? 6)
  else
    false.

(* source/bits14/char_is_unicode.cxx:474-484 *)
Definition isInTheGap0016 (c : Z) : bool :=
  let column := (Z.land (Z.shiftr c 4) 0xf) in
  let row := (Z.land c 0xf) in
  if (column =? 9) then
    (row >=? 13)
  else if (column =? 15) then
    (row >=? 9)
  else
    false.

(* source/bits14/char_is_unicode.cxx:486-502 *)
Definition isInTheGap0017 (c : Z) : bool :=
  let column := (Z.land (Z.shiftr c 4) 0xf) in
  let row := (Z.land c 0xf) in
  if (column =? 1) then
    ((row >=? 6) && (row <=? 14))
  else if (column =? 3) then
    (row >=? 7)
  else if (column =? 5) then
    (row >=? 4)
  else if (column =? 6) then
    (row =? 13)
  else if (column =? 7) then
    ((row =? 1) || (row >=? 4))
  else if (column =? 13) then
    (row >=? 14)
  else if ((column =? 14) || (column =? 15)) then
    (row >=? 10)
  else
    false.

(* source/bits14/char_is_unicode.cxx:504-516 *)
Definition isInTheGap0018 (c : Z) : bool :=
  let column := (Z.land (Z.shiftr c 4) 0xf) in
  let row := (Z.land c 0xf) in
  if (column =? 1) then
    (row >=? 10)
  else if (column =? 7) then
    (row >=? 9)
  else if (column =? 10) then
    (row >=? 11)
  else if (column =? 15) then
    (row >=? 6)
  else
    false.

(* source/bits14/char_is_unicode.cxx:518-535 *)
Definition isInTheGap0019 (c : Z) : bool :=
  let column := (Z.land (Z.shiftr c 4) 0xf) in
  let row := (Z.land c 0xf) in
  if (column =? 1) then
    (row =? 15)
  else if ((column =? 2) || (column =? 3)) then
    (row >=? 12)
  else if (column =? 4) then
    ((row >=? 1) && (row <=? 3))
  else if (column =? 6) then
    (row >=? 14)
  else if (column =? 7) then
    (row >=? 5)
  else if (column =? 10) then
    (row >=? 12)
  else if (column =? 12) then
    (row >=? 10)
  else if (column =? 13) then
    ((row >=? 11) && (row <=? 13))
  else
    false.

(* source/bits14/char_is_unicode.cxx:537-555 *)
Definition isInTheGap001A (c : Z) : bool :=
  let column := (Z.land (Z.shiftr c 4) 0xf) in
  let row := (Z.land c 0xf) in
  if (column =? 1) then
    ((row =? 12) || (row =? 13))
  else if (column =? 5) then
    (row =? 15)
  else if (column =? 7) then
    ((row =? 13) || (row =? 14))
  else if ((column =? 8) || (column =? 9)) then
    (row >=? 10)
  else if (column =? 10) then
    (row >=? 14)
  else if (column =? 12) then
    (row =? 15)
  else if ((column =? 13) || (column =? 14) || (column =? 15)) then
    true
  else
    false.

(* source/bits14/char_is_unicode.cxx:557-568 *)
Definition isInTheGap001B (c : Z) : bool :=
  let column := (Z.land (Z.shiftr c 4) 0xf) in
  let row := (Z.land c 0xf) in
  if (column =? 4) then
    (row >=? 13)
  else if (column =? 7) then
    (row =? 15)
  else if (column =? 15) then
    ((row >=? 4) && (row <=? 11))
  else
    false.

(* source/bits14/char_is_unicode.cxx:570-584 *)
Definition isInTheGap001C (c : Z) : bool :=
  let column := (Z.land (Z.shiftr c 4) 0xf) in
  let row := (Z.land c 0xf) in
  if (column =? 3) then
    ((row >=? 8) && (row <=? 10))
  else if (column =? 4) then
    ((row >=? 10) && (row <=? 12))
  else if (column =? 8) then
    (row >=? 9)
  else if (column =? 11) then
    ((row =? 11) || (row =? 12))
  else if (column =? 12) then
    (row >=? 8)
  else if (column =? 15) then
    (row >=? 11)
  else
    false.

(* source/bits14/char_is_unicode.cxx:586-602 *)
Definition isInTheGap001F (c : Z) : bool :=
  let column := (Z.land (Z.shiftr c 4) 0xf) in
  let row := (Z.land c 0xf) in
  if ((column =? 1) || (column =? 4)) then
    ((((row =? 6) || (row =? 7)) || (row =? 14)) || (row =? 15))
  else if (column =? 5) then
    ((((row =? 8) || (row =? 10)) || (row =? 12)) || (row =? 14))
  else if (column =? 7) then
    (row >=? 14)
  else if ((column =? 11) || (column =? 12)) then
    (row =? 5)
  else if (column =? 13) then
    (((row =? 4) || (row =? 5)) || (row =? 12))
  else if (column =? 15) then
    (((row <? 2) || (row =? 5)) || (row =? 15))
  else
    false.

(* source/bits14/char_is_unicode.cxx:604-618 *)
Definition isInTheGap0020 (c : Z) : bool :=
  let column := (Z.land (Z.shiftr c 4) 0xf) in
  let row := (Z.land c 0xf) in
  if (column =? 6) then
    (row =? 5)
  else if (column =? 7) then
    ((row =? 2) || (row =? 3))
  else if (column =? 8) then
    (row =? 15)
  else if (column =? 9) then
    (row >=? 13)
  else if (column =? 12) then
    (negb (row =? 0))
  else if (column =? 15) then
    (negb (row =? 0))
  else
    false.

(* source/bits14/char_is_unicode.cxx:620-628 *)
Definition isInTheGap0021 (c : Z) : bool :=
  let column := (Z.land (Z.shiftr c 4) 0xf) in
  if (column =? 8) then
    ((Z.land c 0xf) >=? 12)
  else
    false.

(* source/bits14/char_is_unicode.cxx:630-642 *)
Definition isInTheGap0024 (c : Z) : bool :=
  let column := (Z.land (Z.shiftr c 4) 0xf) in
  let row := (Z.land c 0xf) in
  if (column =? 2) then
    (row >=? 7)
  else if ((column =? 3) || (column =? 5)) then
    true
  else if (column =? 4) then
    (row >=? 11)
  else
    false.

(* source/bits14/char_is_unicode.cxx:644-654 *)
Definition isInTheGap002B (c : Z) : bool :=
  let column := (Z.land (Z.shiftr c 4) 0xf) in
  let row := (Z.land c 0xf) in
  if (column =? 7) then
    ((row =? 4) || (row =? 5))
  else if (column =? 9) then
    (row =? 6)
  else
    false.

(* source/bits14/char_is_unicode.cxx:656-665 *)
Definition isInTheGap002C (c : Z) : bool :=
  let column := (Z.land (Z.shiftr c 4) 0xf) in
  let row := (Z.land c 0xf) in
  if (column =? 15) then
    ((row >=? 4) && (row <=? 8))
  else
    false.

(* source/bits14/char_is_unicode.cxx:667-695 *)
Definition isInTheGap002D (c : Z) : bool :=
  let column := (Z.land (Z.shiftr c 4) 0xf) in
  let row := (Z.land c 0xf) in
  if (column =? 2) then
    if ((row =? 0) || (row =? 1) || (row =? 2) || (row =? 3) || (row =? 4) || (row =? 5) || (row =? 7) || (row =? 13)) then
      false
    else
      true
  else if (column =? 6) then
    ((row >=? 8) && (row <=? 14))
  else if (column =? 7) then
    ((negb (row =? 0)) && (negb (row =? 15)))
  else if (column =? 9) then
    (row >=? 7)
  else if ((column =? 10) || (column =? 11) || (column =? 12) || (column =? 13)) then
    ((row =? 7) || (row =? 15))
  else
    false.

(* source/bits14/char_is_unicode.cxx:697-710 *)
Definition isInTheGap002E (c : Z) : bool :=
  let column := (Z.land (Z.shiftr c 4) 0xf) in
  let row := (Z.land c 0xf) in
  if ((column =? 6) || (column =? 7)) then
    true
  else if (column =? 5) then
    (row >? 13)
  else if (column =? 9) then
    (row =? 10)
  else if (column =? 15) then
    (row >=? 4)
  else
    false.

(* source/bits14/char_is_unicode.cxx:712-723 *)
Definition isInTheGap002F (c : Z) : bool :=
  let column := (Z.land (Z.shiftr c 4) 0xf) in
  let row := (Z.land c 0xf) in
  if (column =? 13) then
    (row >=? 6)
  else if (column =? 14) then
    true
  else if (column =? 15) then
    (row >=? 12)
  else
    false.

(* source/bits14/char_is_unicode.cxx:725-735 *)
Definition isInTheGap0030 (c : Z) : bool :=
  let column := (Z.land (Z.shiftr c 4) 0xf) in
  let row := (Z.land c 0xf) in
  if (column =? 4) then
    (row =? 0)
  else if (column =? 9) then
    ((row =? 7) || (row =? 8))
  else
    false.

(* source/bits14/char_is_unicode.cxx:737-749 *)
Definition isInTheGap0031 (c : Z) : bool :=
  let column := (Z.land (Z.shiftr c 4) 0xf) in
  let row := (Z.land c 0xf) in
  if (column =? 0) then
    (row <=? 4)
  else if (column =? 3) then
    (row =? 0)
  else if (column =? 8) then
    (row =? 15)
  else if (column =? 14) then
    (row >=? 4)
  else
    false.

(* source/bits14/char_is_unicode.cxx:751-754 *)
Definition isInTheGap0032 (c : Z) : bool :=
  (c =? 0x321f).

(* source/bits14/char_is_unicode.cxx:756-766 *)
Definition isInTheGap00A4 (c : Z) : bool :=
  let column := (Z.land (Z.shiftr c 4) 0xf) in
  let row := (Z.land c 0xf) in
  if (column =? 8) then
    (row >=? 13)
  else if (column =? 12) then
    (row >=? 7)
  else
    false.

(* source/bits14/char_is_unicode.cxx:768-779 *)
Definition isInTheGap00A6 (c : Z) : bool :=
  let column := (Z.land (Z.shiftr c 4) 0xf) in
  let row := (Z.land c 0xf) in
  if (column =? 2) then
    (row >=? 12)
  else if (column =? 3) then
    true
  else if (column =? 15) then
    (row >=? 8)
  else
    false.

(* source/bits14/char_is_unicode.cxx:781-793 *)
Definition isInTheGap00A7 (c : Z) : bool :=
  let column := (Z.land (Z.shiftr c 4) 0xf) in
  let row := (Z.land c 0xf) in
  if (column =? 13) then
    (((row >? 9) || (row =? 2)) || (row =? 4))
  else if (column =? 14) then
    true
  else if (column =? 12) then
    (row >=? 11)
  else if (column =? 15) then
    (row <=? 1)
  else
    false.

(* source/bits14/char_is_unicode.cxx:795-808 *)
Definition isInTheGap00A8 (c : Z) : bool :=
  let column := (Z.land (Z.shiftr c 4) 0xf) in
  let row := (Z.land c 0xf) in
  if (column =? 2) then
    (row >=? 13)
  else if (column =? 3) then
    (row >=? 10)
  else if (column =? 7) then
    (row >=? 8)
  else if (column =? 12) then
    ((row >=? 6) && (row <=? 13))
  else if (column =? 13) then
    (row >=? 10)
  else
    false.

(* source/bits14/char_is_unicode.cxx:810-823 *)
Definition isInTheGap00A9 (c : Z) : bool :=
  let column := (Z.land (Z.shiftr c 4) 0xf) in
  let row := (Z.land c 0xf) in
  if (column =? 5) then
    ((row >=? 4) && (row <=? 14))
  else if (column =? 7) then
    (row >=? 13)
  else if (column =? 12) then
    (row =? 14)
  else if (column =? 13) then
    ((row >=? 10) && (row <=? 13))
  else if (column =? 15) then
    (row =? 15)
  else
    false.

(* source/bits14/char_is_unicode.cxx:825-839 *)
Definition isInTheGap00AA (c : Z) : bool :=
  let column := (Z.land (Z.shiftr c 4) 0xf) in
  let row := (Z.land c 0xf) in
  if (column =? 3) then
    (row >=? 7)
  else if (column =? 4) then
    (row >=? 14)
  else if (column =? 5) then
    ((row =? 10) || (row =? 11))
  else if (column =? 12) then
    (row >=? 3)
  else if (column =? 13) then
    (row <=? 10)
  else if (column =? 15) then
    (row >=? 7)
  else
    false.

(* source/bits14/char_is_unicode.cxx:841-855 *)
Definition isInTheGap00AB (c : Z) : bool :=
  let column := (Z.land (Z.shiftr c 4) 0xf) in
  let row := (Z.land c 0xf) in
  if (column =? 0) then
    ((((row =? 0) || (row =? 7)) || (row =? 8)) || (row =? 15))
  else if (column =? 1) then
    ((row =? 0) || (row >=? 7))
  else if (column =? 2) then
    ((row =? 7) || (row =? 15))
  else if (column =? 6) then
    (row >=? 12)
  else if (column =? 14) then
    (row >=? 14)
  else if (column =? 15) then
    (row >=? 10)
  else
    false.

(* source/bits14/char_is_unicode.cxx:857-873 *)
Definition isInTheGap00D7_DF (c : Z) : bool :=
  let page := (Z.land (Z.shiftr c 8) 0xf) in
  if (page =? 7) then
    let column := (Z.land (Z.shiftr c 4) 0xf) in
    let row := (Z.land c 0xf) in
    if (column =? 10) then
      (row >=? 4)
    else if (column =? 12) then
      ((row >=? 7) && (row <=? 10))
    else if (column =? 15) then
      (row >=? 12)
    else
      false
  else
    true.

(* source/bits14/char_is_unicode.cxx:875-887 *)
Definition isInTheGap00FA (c : Z) : bool :=
  let column := (Z.land (Z.shiftr c 4) 0xf) in
  let row := (Z.land c 0xf) in
  if (column =? 6) then
    (row >=? 14)
  else if (column =? 13) then
    (row >=? 10)
  else if ((column =? 14) || (column =? 15)) then
    true
  else
    false.

(* source/bits14/char_is_unicode.cxx:889-903 *)
Definition isInTheGap00FB (c : Z) : bool :=
  let column := (Z.land (Z.shiftr c 4) 0xf) in
  let row := (Z.land c 0xf) in
  if (column =? 0) then
    (row >=? 7)
  else if (column =? 1) then
    ((row <=? 2) || ((row >=? 8) && (row <=? 12)))
  else if (column =? 3) then
    (((row =? 7) || (row =? 13)) || (row =? 15))
  else if (column =? 4) then
    ((row =? 2) || (row =? 5))
  else if (column =? 12) then
    (row >=? 3)
  else if (column =? 13) then
    (row <=? 2)
  else
    false.

(* source/bits14/char_is_unicode.cxx:905-920 *)
Definition isInTheGap00FD (c : Z) : bool :=
  let column := (Z.land (Z.shiftr c 4) 0xf) in
  let row := (Z.land c 0xf) in
  if ((column =? 13) || (column =? 14)) then
    true
  else
    if (column =? 9) then
      (row <=? 1)
    else if (column =? 12) then
      ((row >=? 8) && (row <=? 14))
    else if (column =? 14) then
      true
    else
      false.

(* source/bits14/char_is_unicode.cxx:922-935 *)
Definition isInTheGap00FE (c : Z) : bool :=
  let column := (Z.land (Z.shiftr c 4) 0xf) in
  let row := (Z.land c 0xf) in
  if (column =? 1) then
    (row >=? 10)
  else if (column =? 5) then
    (row =? 3)
  else if (column =? 6) then
    ((row =? 7) || (row >=? 12))
  else if (column =? 7) then
    (row =? 5)
  else if (column =? 15) then
    ((row =? 13) || (row =? 14))
  else
    false.

(* source/bits14/char_is_unicode.cxx:937-951 *)
Definition isInTheGap00FF (c : Z) : bool :=
  let column := (Z.land (Z.shiftr c 4) 0xf) in
  let row := (Z.land c 0xf) in
  if (column =? 0) then
    (row =? 0)
  else if (column =? 11) then
    (row =? 15)
  else if (column =? 12) then
    ((((row =? 0) || (row =? 1)) || (row =? 8)) || (row =? 9))
  else if (column =? 13) then
    ((((row <=? 1) || (row =? 8)) || (row =? 9)) || (row >=? 13))
  else if (column =? 14) then
    ((row =? 7) || (row =? 15))
  else if (column =? 15) then
    ((row <=? 8) || (row >=? 14))
  else
    false.

(* source/bits14/char_is_unicode.cxx:953-969 *)
Definition isInTheGap0100 (c : Z) : bool :=
  let column := (Z.land (Z.shiftr c 4) 0xf) in
  let row := (Z.land c 0xf) in
  if (column =? 0) then
    (row =? 12)
  else if (column =? 2) then
    (row =? 7)
  else if (column =? 3) then
    ((row =? 11) || (row =? 14))
  else if ((column =? 4) || (column =? 5)) then
    (row >=? 14)
  else if ((column =? 6) || (column =? 7)) then
    true
  else if (column =? 15) then
    (row >=? 11)
  else
    false.

(* source/bits14/char_is_unicode.cxx:971-987 *)
Definition isInTheGap0101 (c : Z) : bool :=
  let column := (Z.land (Z.shiftr c 4) 0xf) in
  let row := (Z.land c 0xf) in
  if (column =? 0) then
    ((row >=? 3) && (row <=? 6))
  else if (column =? 3) then
    ((row >=? 4) && (row <=? 6))
  else if (column =? 8) then
    (row =? 15)
  else if (column =? 9) then
    (row >=? 13)
  else if (column =? 10) then
    (negb (row =? 0))
  else if ((column =? 11) || (column =? 12)) then
    true
  else if (column =? 15) then
    (row >=? 14)
  else
    false.

(* source/bits14/char_is_unicode.cxx:989-1005 *)
Definition isInTheGap0102 (c : Z) : bool :=
  let column := (Z.land (Z.shiftr c 4) 0xf) in
  let row := (Z.land c 0xf) in
  if ((column =? 8) || (column =? 10) || (column =? 11) || (column =? 12) || (column =? 14)) then
    false
  else if (column =? 9) then
    (row >=? 13)
  else if (column =? 13) then
    (negb (row =? 0))
  else if (column =? 15) then
    (row >=? 12)
  else
    true.

(* source/bits14/char_is_unicode.cxx:1007-1023 *)
Definition isInTheGap0103 (c : Z) : bool :=
  let column := (Z.land (Z.shiftr c 4) 0xf) in
  let row := (Z.land c 0xf) in
  if (column =? 2) then
    ((row >=? 4) && (row <=? 12))
  else if ((column =? 4) || (column =? 7)) then
    (row >=? 11)
  else if (column =? 9) then
    (row =? 14)
  else if (column =? 12) then
    ((row >=? 4) && (row <=? 7))
  else if (column =? 13) then
    (row >=? 6)
  else if ((column =? 14) || (column =? 15)) then
    true
  else
    false.

(* source/bits14/char_is_unicode.cxx:1025-1037 *)
Definition isInTheGap0104 (c : Z) : bool :=
  let column := (Z.land (Z.shiftr c 4) 0xf) in
  let row := (Z.land c 0xf) in
  if (column =? 9) then
    (row >=? 14)
  else if (column =? 10) then
    (row >=? 10)
  else if (column =? 13) then
    ((row >=? 4) && (row <=? 7))
  else if (column =? 15) then
    (row >=? 12)
  else
    false.

(* source/bits14/char_is_unicode.cxx:1039-1058 *)
Definition isInTheGap0105 (c : Z) : bool :=
  let column := (Z.land (Z.shiftr c 4) 0xf) in
  if (column >=? 12) then
    true
  else
    let row := (Z.land c 0xf) in
    if (column =? 2) then
      (row >=? 8)
    else if (column =? 6) then
      ((row >=? 4) && (row <=? 14))
    else if ((column =? 7) || (column =? 8)) then
      (row =? 11)
    else if (column =? 9) then
      ((row =? 3) || (row =? 6))
    else if (column =? 10) then
      (row =? 2)
    else if (column =? 11) then
      (((row =? 2) || (row =? 10)) || (row >=? 13))
    else
      false.

(* source/bits14/char_is_unicode.cxx:1060-1079 *)
Definition isInTheGap0107 (c : Z) : bool :=
  let column := (Z.land (Z.shiftr c 4) 0xf) in
  let row := (Z.land c 0xf) in
  if ((column =? 0) || (column =? 1) || (column =? 2) || (column =? 4) || (column =? 9) || (column =? 10)) then
    false
  else if (column =? 3) then
    (row >=? 7)
  else if (column =? 5) then
    (row >=? 6)
  else if (column =? 6) then
    (row >=? 8)
  else if (column =? 8) then
    (row =? 6)
  else if (column =? 11) then
    ((row =? 1) || (row >=? 11))
  else
    true.

(* source/bits14/char_is_unicode.cxx:1081-1098 *)
Definition isInTheGap0108 (c : Z) : bool :=
  let column := (Z.land (Z.shiftr c 4) 0xf) in
  let row := (Z.land c 0xf) in
  if (column =? 0) then
    (((row =? 6) || (row =? 7)) || (row =? 9))
  else if (column =? 3) then
    ((row =? 6) || (((row >=? 9) && (row <=? 14)) && (negb (row =? 12))))
  else if (column =? 5) then
    (row =? 6)
  else if (column =? 9) then
    (row =? 15)
  else if (column =? 10) then
    (row <=? 6)
  else if ((column =? 11) || (column =? 12) || (column =? 13)) then
    true
  else if (column =? 15) then
    ((row =? 3) || ((row >=? 6) && (row <=? 10)))
  else
    false.

(* source/bits14/char_is_unicode.cxx:1100-1116 *)
Definition isInTheGap0109 (c : Z) : bool :=
  let column := (Z.land (Z.shiftr c 4) 0xf) in
  let row := (Z.land c 0xf) in
  if (column =? 1) then
    ((row >=? 12) && (row <=? 14))
  else if (column =? 3) then
    ((row >=? 10) && (row <=? 14))
  else if ((column =? 4) || (column =? 5) || (column =? 6) || (column =? 7)) then
    true
  else if (column =? 11) then
    ((row >=? 8) && (row <=? 11))
  else if (column =? 13) then
    (row <=? 1)
  else
    false.

(* source/bits14/char_is_unicode.cxx:1118-1135 *)
Definition isInTheGap010A (c : Z) : bool :=
  let column := (Z.land (Z.shiftr c 4) 0xf) in
  let row := (Z.land c 0xf) in
  if (column =? 0) then
    ((row =? 4) || ((row >=? 7) && (row <=? 11)))
  else if (column =? 1) then
    ((row =? 4) || (row =? 8))
  else if (column =? 3) then
    (((row =? 6) || (row =? 7)) || ((row >=? 11) && (row <=? 14)))
  else if ((column =? 4) || (column =? 5)) then
    (row >=? 9)
  else if ((column =? 10) || (column =? 11)) then
    true
  else if (column =? 14) then
    ((row >=? 7) && (row <=? 10))
  else if (column =? 15) then
    (row >=? 7)
  else
    false.

(* source/bits14/char_is_unicode.cxx:1137-1155 *)
Definition isInTheGap010B (c : Z) : bool :=
  let column := (Z.land (Z.shiftr c 4) 0xf) in
  let row := (Z.land c 0xf) in
  if (column =? 3) then
    ((row >=? 6) && (row <=? 8))
  else if (column =? 5) then
    ((row =? 6) || (row =? 7))
  else if (column =? 7) then
    ((row >=? 3) && (row <=? 7))
  else if (column =? 9) then
    (((row >=? 2) && (row <=? 8)) || (row >=? 13))
  else if (column =? 10) then
    (row <=? 8)
  else if ((column =? 11) || (column =? 12) || (column =? 13) || (column =? 14) || (column =? 15)) then
    true
  else
    false.

(* source/bits14/char_is_unicode.cxx:1157-1171 *)
Definition isInTheGap010C (c : Z) : bool :=
  let column := (Z.land (Z.shiftr c 4) 0xf) in
  let row := (Z.land c 0xf) in
  if (column =? 4) then
    (row >=? 9)
  else if ((column =? 5) || (column =? 6) || (column =? 7)) then
    true
  else if (column =? 11) then
    (row >=? 3)
  else if (column =? 15) then
    ((row >=? 3) && (row <=? 9))
  else
    false.

(* source/bits14/char_is_unicode.cxx:1173-1185 *)
Definition isInTheGap010D (c : Z) : bool :=
  let column := (Z.land (Z.shiftr c 4) 0xf) in
  let row := (Z.land c 0xf) in
  if ((column =? 0) || (column =? 1)) then
    false
  else if (column =? 2) then
    (row >=? 8)
  else if (column =? 3) then
    (row >=? 10)
  else
    true.

(* source/bits14/char_is_unicode.cxx:1187-1201 *)
Definition isInTheGap010E (c : Z) : bool :=
  let column := (Z.land (Z.shiftr c 4) 0xf) in
  let row := (Z.land c 0xf) in
  if ((column =? 6) || (column =? 8) || (column =? 9)) then
    false
  else if (column =? 7) then
    (row =? 15)
  else if (column =? 10) then
    ((row =? 10) || (row >=? 14))
  else if (column =? 11) then
    (row >=? 2)
  else
    true.

(* source/bits14/char_is_unicode.cxx:1203-1224 *)
Definition isInTheGap010F (c : Z) : bool :=
  let column := (Z.land (Z.shiftr c 4) 0xf) in
  let row := (Z.land c 0xf) in
  if ((column =? 0) || (column =? 1) || (column =? 3) || (column =? 4) || (column =? 7) || (column =? 11) || (column =? 14)) then
    false
  else if (column =? 2) then
    (row >=? 8)
  else if (column =? 5) then
    (row >=? 10)
  else if (column =? 8) then
    (row >=? 10)
  else if (column =? 12) then
    (row >=? 12)
  else if (column =? 15) then
    (row >=? 7)
  else
    true.

(* source/bits14/char_is_unicode.cxx:1226-1240 *)
Definition isInTheGap0110 (c : Z) : bool :=
  let column := (Z.land (Z.shiftr c 4) 0xf) in
  let row := (Z.land c 0xf) in
  if (column =? 4) then
    (row >=? 14)
  else if (column =? 5) then
    (row <=? 1)
  else if (column =? 7) then
    ((row >=? 6) && (row <=? 14))
  else if (column =? 12) then
    ((row >=? 3) && (negb (row =? 13)))
  else if (column =? 14) then
    (row >=? 9)
  else if (column =? 15) then
    (row >=? 10)
  else
    false.

(* source/bits14/char_is_unicode.cxx:1242-1255 *)
Definition isInTheGap0111 (c : Z) : bool :=
  let column := (Z.land (Z.shiftr c 4) 0xf) in
  let row := (Z.land c 0xf) in
  if (column =? 3) then
    (row =? 5)
  else if (column =? 4) then
    (row >=? 8)
  else if (column =? 7) then
    (row >=? 7)
  else if (column =? 14) then
    (row =? 0)
  else if (column =? 15) then
    (row >=? 5)
  else
    false.

(* source/bits14/char_is_unicode.cxx:1257-1276 *)
Definition isInTheGap0112 (c : Z) : bool :=
  let column := (Z.land (Z.shiftr c 4) 0xf) in
  let row := (Z.land c 0xf) in
  if (column =? 1) then
    (row =? 2)
  else if (column =? 3) then
    (row =? 15)
  else if ((column =? 4) || (column =? 5) || (column =? 6) || (column =? 7)) then
    true
  else if (column =? 8) then
    (((row =? 7) || (row =? 9)) || (row =? 14))
  else if (column =? 9) then
    (row =? 14)
  else if (column =? 10) then
    (row >=? 10)
  else if (column =? 14) then
    (row >=? 11)
  else if (column =? 15) then
    (row >=? 10)
  else
    false.

(* source/bits14/char_is_unicode.cxx:1278-1308 *)
Definition isInTheGap0113 (c : Z) : bool :=
  let column := (Z.land (Z.shiftr c 4) 0xf) in
  if (column >=? 8) then
    true
  else
    let row := (Z.land c 0xf) in
    if (column =? 0) then
      (((row =? 4) || (row =? 13)) || (row =? 14))
    else if (column =? 1) then
      ((row =? 1) || (row =? 2))
    else if (column =? 2) then
      (row =? 9)
    else if (column =? 3) then
      (((row =? 1) || (row =? 4)) || (row =? 10))
    else if (column =? 4) then
      if ((row =? 5) || (row =? 6) || (row =? 9) || (row =? 10) || (row =? 14) || (row =? 15)) then
        true
      else
        false
    else if (column =? 5) then
      (((row >=? 1) && (row <=? 6)) || ((row >=? 8) && (row <=? 12)))
    else if (column =? 6) then
      (((row =? 4) || (row =? 5)) || (row >=? 13))
    else if (column =? 7) then
      (row >=? 5)
    else
      false.

(* source/bits14/char_is_unicode.cxx:1310-1325 *)
Definition isInTheGap0114 (c : Z) : bool :=
  let column := (Z.land (Z.shiftr c 4) 0xf) in
  let row := (Z.land c 0xf) in
  if (column =? 5) then
    (row =? 12)
  else if (column =? 6) then
    (row >=? 2)
  else if (column =? 12) then
    (row >=? 8)
  else if (column =? 13) then
    (row >=? 10)
  else if ((column =? 7) || (column =? 14) || (column =? 15)) then
    true
  else
    false.

(* source/bits14/char_is_unicode.cxx:1327-1341 *)
Definition isInTheGap0115 (c : Z) : bool :=
  let column := (Z.land (Z.shiftr c 4) 0xf) in
  let row := (Z.land c 0xf) in
  if ((column =? 8) || (column =? 9) || (column =? 10) || (column =? 12)) then
    false
  else if (column =? 11) then
    ((row =? 6) || (row =? 7))
  else if (column =? 13) then
    (row >=? 14)
  else
    true.

(* source/bits14/char_is_unicode.cxx:1343-1360 *)
Definition isInTheGap0116 (c : Z) : bool :=
  let column := (Z.land (Z.shiftr c 4) 0xf) in
  let row := (Z.land c 0xf) in
  if (column =? 4) then
    (row >=? 5)
  else if ((column =? 5) || (column =? 11) || (column =? 12)) then
    (row >=? 10)
  else if (column =? 6) then
    (row >=? 13)
  else if ((column =? 7) || (column =? 13) || (column =? 14) || (column =? 15)) then
    true
  else
    false.

(* source/bits14/char_is_unicode.cxx:1362-1375 *)
Definition isInTheGap0117 (c : Z) : bool :=
  let column := (Z.land (Z.shiftr c 4) 0xf) in
  let row := (Z.land c 0xf) in
  if ((column =? 0) || (column =? 3)) then
    false
  else if (column =? 1) then
    ((row =? 11) || (row =? 12))
  else if (column =? 2) then
    (row >=? 12)
  else if (column =? 4) then
    (row >=? 7)
  else
    true.

(* source/bits14/char_is_unicode.cxx:1377-1393 *)
Definition isInTheGap0118 (c : Z) : bool :=
  let column := (Z.land (Z.shiftr c 4) 0xf) in
  let row := (Z.land c 0xf) in
  if (column =? 3) then
    (row >=? 12)
  else if ((column =? 4) || (column =? 5) || (column =? 6) || (column =? 7) || (column =? 8) || (column =? 9)) then
    true
  else if (column =? 15) then
    ((row >=? 3) && (row <=? 14))
  else
    false.

(* source/bits14/char_is_unicode.cxx:1395-1414 *)
Definition isInTheGap0119 (c : Z) : bool :=
  let column := (Z.land (Z.shiftr c 4) 0xf) in
  let row := (Z.land c 0xf) in
  if (column =? 0) then
    ((((row =? 7) || (row =? 8)) || (row =? 10)) || (row =? 11))
  else if (column =? 1) then
    ((row =? 4) || (row =? 7))
  else if (column =? 3) then
    (((row =? 6) || (row =? 9)) || (row =? 10))
  else if (column =? 4) then
    (row >=? 7)
  else if (column =? 5) then
    (row >=? 10)
  else if ((column =? 10) || (column =? 13)) then
    ((row =? 8) || (row =? 9))
  else if (column =? 14) then
    (row >=? 5)
  else if ((column =? 2) || (column =? 11) || (column =? 12)) then
    false
  else
    true.

(* source/bits14/char_is_unicode.cxx:1416-1427 *)
Definition isInTheGap011A (c : Z) : bool :=
  let column := (Z.land (Z.shiftr c 4) 0xf) in
  let row := (Z.land c 0xf) in
  if (column =? 4) then
    (row >=? 8)
  else if (column =? 10) then
    (row >=? 3)
  else if (column =? 15) then
    (row >=? 9)
  else
    false.

(* source/bits14/char_is_unicode.cxx:1429-1448 *)
Definition isInTheGap011C (c : Z) : bool :=
  let column := (Z.land (Z.shiftr c 4) 0xf) in
  let row := (Z.land c 0xf) in
  if (column =? 0) then
    (row =? 9)
  else if (column =? 3) then
    (row =? 7)
  else if (column =? 4) then
    (row >=? 6)
  else if (column =? 6) then
    (row >=? 13)
  else if (column =? 9) then
    (row <=? 1)
  else if (column =? 10) then
    (row =? 8)
  else if (column =? 11) then
    (row >=? 7)
  else if ((column =? 12) || (column =? 13) || (column =? 14) || (column =? 15)) then
    true
  else
    false.

(* source/bits14/char_is_unicode.cxx:1450-1469 *)
Definition isInTheGap011D (c : Z) : bool :=
  let column := (Z.land (Z.shiftr c 4) 0xf) in
  let row := (Z.land c 0xf) in
  if (column =? 0) then
    ((row =? 7) || (row =? 10))
  else if ((column =? 1) || (column =? 2) || (column =? 7)) then
    false
  else if (column =? 3) then
    ((((row >=? 7) && (row <=? 9)) || (row =? 11)) || (row =? 14))
  else if (column =? 4) then
    (row >=? 8)
  else if ((column =? 5) || (column =? 10)) then
    (row >=? 10)
  else if (column =? 6) then
    ((row =? 6) || (row =? 9))
  else if (column =? 8) then
    (row =? 15)
  else if (column =? 9) then
    ((row =? 2) || (row >=? 9))
  else
    true.

(* source/bits14/char_is_unicode.cxx:1471-1481 *)
Definition isInTheGap011E (c : Z) : bool :=
  let column := (Z.land (Z.shiftr c 4) 0xf) in
  let row := (Z.land c 0xf) in
  if (column =? 14) then
    false
  else if (column =? 15) then
    (row >=? 9)
  else
    true.

(* source/bits14/char_is_unicode.cxx:1483-1496 *)
Definition isInTheGap011F (c : Z) : bool :=
  let column := (Z.land (Z.shiftr c 4) 0xf) in
  let row := (Z.land c 0xf) in
  if ((column =? 12) || (column =? 13) || (column =? 14)) then
    false
  else if (column =? 11) then
    (negb (row =? 0))
  else if (column =? 15) then
    ((row >=? 2) && (row <? 15))
  else
    true.

(* source/bits14/char_is_unicode.cxx:1498-1512 *)
Definition isInTheGap0123 (c : Z) : bool :=
  let column := (Z.land (Z.shiftr c 4) 0xf) in
  if (column >=? 10) then
    true
  else
    let row := (Z.land c 0xf) in
    if (column =? 9) then
      (row >=? 10)
    else
      false.

(* source/bits14/char_is_unicode.cxx:1514-1524 *)
Definition isInTheGap0124 (c : Z) : bool :=
  let column := (Z.land (Z.shiftr c 4) 0xf) in
  let row := (Z.land c 0xf) in
  if (column =? 6) then
    (row =? 15)
  else if (column =? 7) then
    (row >=? 5)
  else
    false.

(* source/bits14/char_is_unicode.cxx:1526-1538 *)
Definition isInTheGap0125 (c : Z) : bool :=
  let column := (Z.land (Z.shiftr c 4) 0xf) in
  if (column <? 4) then
    false
  else
    if (column >? 4) then
      true
    else
      ((Z.land c 0xf) >=? 4).

(* source/bits14/char_is_unicode.cxx:1540-1558 *)
Definition isInTheGap012F (c : Z) : bool :=
  let column := (Z.land (Z.shiftr c 4) 0xf) in
  if (column <? 9) then
    true
  else
    if ((column =? 9) || (column =? 10) || (column =? 11) || (column =? 12) || (column =? 13) || (column =? 14)) then
      false
    else if (column =? 15) then
      ((Z.land c 0xf) >=? 3)
    else
      true.

(* source/bits14/char_is_unicode.cxx:1560-1572 *)
Definition isInTheGap0134 (c : Z) : bool :=
  let column := (Z.land (Z.shiftr c 4) 0xf) in
  let row := (Z.land c 0xf) in
  if ((column =? 0) || (column =? 1)) then
    false
  else if (column =? 2) then
    (row =? 15)
  else if (column =? 3) then
    (row >=? 9)
  else
    true.

(* source/bits14/char_is_unicode.cxx:1574-1586 *)
Definition isInTheGap0146 (c : Z) : bool :=
  let column := (Z.land (Z.shiftr c 4) 0xf) in
  if (column <? 4) then
    false
  else
    if (column >? 4) then
      true
    else
      ((Z.land c 0xf) >=? 7).

(* source/bits14/char_is_unicode.cxx:1588-1603 *)
Definition isInTheGap016A (c : Z) : bool :=
  let column := (Z.land (Z.shiftr c 4) 0xf) in
  let row := (Z.land c 0xf) in
  if (column =? 3) then
    (row >=? 9)
  else if ((column =? 5) || (column =? 11)) then
    (row =? 15)
  else if (column =? 6) then
    ((row >=? 10) && (row <=? 13))
  else if (column =? 12) then
    (row >=? 10)
  else if (column =? 14) then
    (row >=? 14)
  else if (column =? 15) then
    (row >=? 6)
  else
    false.

(* source/bits14/char_is_unicode.cxx:1605-1622 *)
Definition isInTheGap016B (c : Z) : bool :=
  let column := (Z.land (Z.shiftr c 4) 0xf) in
  if (column >=? 9) then
    true
  else
    let row := (Z.land c 0xf) in
    if (column =? 4) then
      (row >=? 6)
    else if (column =? 5) then
      (row =? 10)
    else if (column =? 6) then
      (row =? 2)
    else if (column =? 7) then
      ((row >=? 8) && (row <=? 12))
    else
      false.

(* source/bits14/char_is_unicode.cxx:1624-1637 *)
Definition isInTheGap016E (c : Z) : bool :=
  let column := (Z.land (Z.shiftr c 4) 0xf) in
  if ((column <? 4) || (column >? 9)) then
    true
  else
    if (negb (column =? 9)) then
      false
    else
      ((Z.land c 0xf) >=? 11).

(* source/bits14/char_is_unicode.cxx:1639-1656 *)
Definition isInTheGap016F (c : Z) : bool :=
  let column := (Z.land (Z.shiftr c 4) 0xf) in
  if ((column >=? 10) && (column <=? 13)) then
    true
  else
    let row := (Z.land c 0xf) in
    if (column =? 4) then
      ((row >=? 11) && (row <=? 14))
    else if (column =? 8) then
      ((row >=? 8) && (row <=? 14))
    else if (column =? 14) then
      (row >=? 5)
    else if (column =? 15) then
      (row >=? 2)
    else
      false.

(* source/bits14/char_is_unicode.cxx:1658-1665 *)
Definition isInTheGap0187 (c : Z) : bool :=
  if (negb ((Z.land (Z.shiftr c 4) 0xf) =? 15)) then
    false
  else
    ((Z.land c 0xf) >=? 8).

(* source/bits14/char_is_unicode.cxx:1667-1678 *)
Definition isInTheGap018C (c : Z) : bool :=
  let column := (Z.land (Z.shiftr c 4) 0xf) in
  let row := (Z.land c 0xf) in
  if (column =? 13) then
    (row >=? 6)
  else if ((column =? 14) || (column =? 15)) then
    true
  else
    false.

(* source/bits14/char_is_unicode.cxx:1680-1683 *)
Definition isInTheGap018D (c : Z) : bool :=
  ((Z.land c 0xff) >=? 9).

(* source/bits14/char_is_unicode.cxx:1685-1698 *)
Definition isInTheGap01B1 (c : Z) : bool :=
  let column := (Z.land (Z.shiftr c 4) 0xf) in
  let row := (Z.land c 0xf) in
  if ((column =? 2) || (column =? 5)) then
    (row >=? 3)
  else if (column =? 6) then
    ((row <=? 3) || (row >=? 8))
  else if ((column =? 3) || (column =? 4)) then
    true
  else
    false.

(* source/bits14/char_is_unicode.cxx:1700-1703 *)
Definition isInTheGap01B2 (c : Z) : bool :=
  ((Z.land c 0xff) >=? 0xfc).

(* source/bits14/char_is_unicode.cxx:1705-1723 *)
Definition isInTheGap01BC (c : Z) : bool :=
  let column := (Z.land (Z.shiftr c 4) 0xf) in
  if (column >=? 11) then
    true
  else
    let row := (Z.land c 0xf) in
    if (column =? 6) then
      (row >=? 11)
    else if (column =? 7) then
      (row >=? 13)
    else if (column =? 8) then
      (row >=? 9)
    else if (column =? 9) then
      ((row =? 10) || (row =? 11))
    else if (column =? 10) then
      (row >=? 4)
    else
      false.

(* source/bits14/char_is_unicode.cxx:1725-1741 *)
Definition isInTheGap01CF (c : Z) : bool :=
  let column := (Z.land (Z.shiftr c 4) 0xf) in
  if (column >? 12) then
    true
  else
    let row := (Z.land c 0xf) in
    if (column =? 2) then
      (row >=? 14)
    else if (column =? 4) then
      (row >=? 7)
    else if (column =? 12) then
      (row >=? 4)
    else
      false.

(* source/bits14/char_is_unicode.cxx:1743-1746 *)
Definition isInTheGap01D0 (c : Z) : bool :=
  ((Z.land c 0xff) >=? 0xf6).

(* source/bits14/char_is_unicode.cxx:1748-1759 *)
Definition isInTheGap01D1 (c : Z) : bool :=
  let column := (Z.land (Z.shiftr c 4) 0xf) in
  let row := (Z.land c 0xf) in
  if (column =? 2) then
    ((row =? 7) || (row =? 8))
  else if (column =? 14) then
    (row >=? 11)
  else if (column =? 15) then
    true
  else
    false.

(* source/bits14/char_is_unicode.cxx:1761-1785 *)
Definition isInTheGap01D2 (c : Z) : bool :=
  let column := (Z.land (Z.shiftr c 4) 0xf) in
  let row := (Z.land c 0xf) in
  if ((column =? 0) || (column =? 1) || (column =? 2) || (column =? 3) || (column =? 14)) then
    false
  else if (column =? 4) then
    (row >=? 6)
  else if (column =? 15) then
    (row >=? 4)
  else
    true.

(* source/bits14/char_is_unicode.cxx:1787-1803 *)
Definition isInTheGap01D3 (c : Z) : bool :=
  let column := (Z.land (Z.shiftr c 4) 0xf) in
  let row := (Z.land c 0xf) in
  if ((column =? 0) || (column =? 1) || (column =? 2) || (column =? 3) || (column =? 4) || (column =? 6)) then
    false
  else if (column =? 5) then
    (row >=? 7)
  else if (column =? 7) then
    (row >=? 9)
  else
    true.

(* source/bits14/char_is_unicode.cxx:1805-1829 *)
Definition isInTheGap01D4 (c : Z) : bool :=
  let column := (Z.land (Z.shiftr c 4) 0xf) in
  let row := (Z.land c 0xf) in
  if (column =? 5) then
    (row =? 5)
  else if (column =? 9) then
    (row =? 13)
  else if (column =? 10) then
    if ((row =? 0) || (row =? 1) || (row =? 3) || (row =? 4) || (row =? 7) || (row =? 8) || (row =? 13)) then
      true
    else
      false
  else if (column =? 11) then
    ((row =? 10) || (row =? 12))
  else if (column =? 12) then
    (row =? 4)
  else
    false.

(* source/bits14/char_is_unicode.cxx:1831-1844 *)
Definition isInTheGap01D5 (c : Z) : bool :=
  let column := (Z.land (Z.shiftr c 4) 0xf) in
  let row := (Z.land c 0xf) in
  if (column =? 0) then
    (((row =? 6) || (row =? 11)) || (row =? 12))
  else if (column =? 1) then
    ((row =? 5) || (row =? 13))
  else if (column =? 3) then
    ((row =? 10) || (row =? 15))
  else if (column =? 4) then
    (((row >=? 5) && (row <=? 9)) && (negb (row =? 6)))
  else if (column =? 5) then
    (row =? 1)
  else
    false.

(* source/bits14/char_is_unicode.cxx:1846-1850 *)
Definition isInTheGap01D6 (c : Z) : bool :=
  let offset := (Z.land c 0xff) in
  ((offset =? 0xa6) || (offset =? 0xa7)).

(* source/bits14/char_is_unicode.cxx:1852-1856 *)
Definition isInTheGap01D7 (c : Z) : bool :=
  let offset := (Z.land c 0xff) in
  ((offset =? 0xcc) || (offset =? 0xcd)).

(* source/bits14/char_is_unicode.cxx:1858-1873 *)
Definition isInTheGap01DA (c : Z) : bool :=
  let column := (Z.land (Z.shiftr c 4) 0xf) in
  if (column >=? 11) then
    true
  else
    let row := (Z.land c 0xf) in
    if (column =? 8) then
      (row >=? 12)
    else if (column =? 9) then
      (row <=? 10)
    else if (column =? 10) then
      (row =? 0)
    else
      false.

(* source/bits14/char_is_unicode.cxx:1875-1890 *)
Definition isInTheGap01DF (c : Z) : bool :=
  let column := (Z.land (Z.shiftr c 4) 0xf) in
  if (column >=? 2) then
    true
  else
    if (column =? 1) then
      ((Z.land c 0xf) =? 15)
    else
      false.

(* source/bits14/char_is_unicode.cxx:1892-1907 *)
Definition isInTheGap01E0 (c : Z) : bool :=
  let column := (Z.land (Z.shiftr c 4) 0xf) in
  if (column >=? 3) then
    true
  else
    let row := (Z.land c 0xf) in
    if (column =? 0) then
      (row =? 7)
    else if (column =? 1) then
      ((row =? 9) || (row =? 10))
    else if (column =? 2) then
      (((row =? 2) || (row =? 5)) || (row >=? 11))
    else
      true.

(* source/bits14/char_is_unicode.cxx:1909-1922 *)
Definition isInTheGap01E1 (c : Z) : bool :=
  let column := (Z.land (Z.shiftr c 4) 0xf) in
  let row := (Z.land c 0xf) in
  if ((column =? 0) || (column =? 1)) then
    false
  else if (column =? 2) then
    (row >=? 13)
  else if (column =? 3) then
    (row >=? 14)
  else if (column =? 4) then
    ((row >=? 10) && (row <=? 13))
  else
    true.

(* source/bits14/char_is_unicode.cxx:1924-1938 *)
Definition isInTheGap01E2 (c : Z) : bool :=
  let column := (Z.land (Z.shiftr c 4) 0xf) in
  let row := (Z.land c 0xf) in
  if ((column =? 9) || (column =? 12) || (column =? 13) || (column =? 14)) then
    false
  else if (column =? 10) then
    (row =? 15)
  else if (column =? 15) then
    ((row >=? 10) && (row <=? 14))
  else
    true.

(* source/bits14/char_is_unicode.cxx:1940-1956 *)
Definition isInTheGap01E7 (c : Z) : bool :=
  let column := (Z.land (Z.shiftr c 4) 0xf) in
  if (column <? 14) then
    true
  else
    let row := (Z.land c 0xf) in
    if (column =? 14) then
      (((row =? 7) || (row =? 12)) || (row =? 15))
    else
      (row =? 15).

(* source/bits14/char_is_unicode.cxx:1958-1972 *)
Definition isInTheGap01E8 (c : Z) : bool :=
  let column := (Z.land (Z.shiftr c 4) 0xf) in
  if (column >=? 14) then
    true
  else
    let row := (Z.land c 0xf) in
    if (column =? 12) then
      ((row =? 5) || (row =? 6))
    else if (column =? 13) then
      (row >=? 7)
    else
      false.

(* source/bits14/char_is_unicode.cxx:1974-1994 *)
Definition isInTheGap01E9 (c : Z) : bool :=
  let column := (Z.land (Z.shiftr c 4) 0xf) in
  if (column >=? 6) then
    true
  else
    if (column <? 4) then
      false
    else
      let row := (Z.land c 0xf) in
      if (column =? 4) then
        (row >=? 12)
      else
        ((row >=? 10) && (row <=? 13)).

(* source/bits14/char_is_unicode.cxx:1996-2009 *)
Definition isInTheGap01EC (c : Z) : bool :=
  let column := (Z.land (Z.shiftr c 4) 0xf) in
  let row := (Z.land c 0xf) in
  if (column =? 7) then
    (row =? 0)
  else if ((column =? 8) || (column =? 9) || (column =? 10)) then
    false
  else if (column =? 11) then
    (row >=? 5)
  else
    true.

(* source/bits14/char_is_unicode.cxx:2011-2023 *)
Definition isInTheGap01ED (c : Z) : bool :=
  let column := (Z.land (Z.shiftr c 4) 0xf) in
  let row := (Z.land c 0xf) in
  if (column =? 0) then
    (row =? 0)
  else if ((column =? 1) || (column =? 2)) then
    false
  else if (column =? 3) then
    (row >=? 14)
  else
    true.

(* source/bits14/char_is_unicode.cxx:2025-2093 *)
Definition isInTheGap01EE (c : Z) : bool :=
  let column := (Z.land (Z.shiftr c 4) 0xf) in
  let row := (Z.land c 0xf) in
  if (column =? 0) then
    (row =? 4)
  else if (column =? 2) then
    if ((row =? 0) || (row =? 3) || (row =? 5) || (row =? 6) || (row =? 8)) then
      true
    else
      false
  else if (column =? 3) then
    if ((row =? 3) || (row =? 8) || (row =? 10) || (row =? 12) || (row =? 13) || (row =? 14) || (row =? 15)) then
      true
    else
      false
  else if (column =? 4) then
    if ((row =? 0) || (row =? 1) || (row =? 3) || (row =? 4) || (row =? 5) || (row =? 6) || (row =? 8) || (row =? 10) || (row =? 12)) then
      true
    else
      false
  else if (column =? 5) then
    if ((row =? 0) || (row =? 3) || (row =? 5) || (row =? 6) || (row =? 8) || (row =? 10) || (row =? 12) || (row =? 14)) then
      true
    else
      false
  else if (column =? 6) then
    (((((row =? 0) || (row =? 3)) || (row =? 5)) || (row =? 6)) || (row =? 11))
  else if (column =? 7) then
    ((((row =? 3) || (row =? 8)) || (row =? 13)) || (row =? 15))
  else if (column =? 8) then
    (row =? 10)
  else if (column =? 9) then
    (row >=? 12)
  else if (column =? 10) then
    (((row =? 0) || (row =? 4)) || (row =? 10))
  else if (column =? 11) then
    (row >=? 12)
  else if ((column =? 12) || (column =? 13) || (column =? 14)) then
    true
  else if (column =? 15) then
    (row >=? 2)
  else
    false.

(* source/bits14/char_is_unicode.cxx:2095-2110 *)
Definition isInTheGap01F0 (c : Z) : bool :=
  let column := (Z.land (Z.shiftr c 4) 0xf) in
  let row := (Z.land c 0xf) in
  if (column =? 2) then
    (row >=? 12)
  else if (column =? 9) then
    (row >=? 4)
  else if (column =? 10) then
    (row =? 15)
  else if ((column =? 11) || (column =? 12) || (column =? 13)) then
    (row =? 0)
  else if (column =? 15) then
    (row >=? 6)
  else
    false.

(* source/bits14/char_is_unicode.cxx:2112-2125 *)
Definition isInTheGap01F1 (c : Z) : bool :=
  let column := (Z.land (Z.shiftr c 4) 0xf) in
  let row := (Z.land c 0xf) in
  if (column =? 10) then
    (row >=? 14)
  else if ((column =? 11) || (column =? 12) || (column =? 13)) then
    true
  else if (column =? 14) then
    (row <=? 5)
  else
    false.

(* source/bits14/char_is_unicode.cxx:2127-2144 *)
Definition isInTheGap01F2 (c : Z) : bool :=
  let column := (Z.land (Z.shiftr c 4) 0xf) in
  if (column >=? 7) then
    true
  else
    let row := (Z.land c 0xf) in
    if (column =? 0) then
      (row >=? 3)
    else if (column =? 3) then
      (row >=? 12)
    else if (column =? 4) then
      (row >=? 9)
    else if (column =? 5) then
      (row >=? 2)
    else if (column =? 6) then
      (row >=? 6)
    else
      false.

(* source/bits14/char_is_unicode.cxx:2146-2162 *)
Definition isInTheGap01F6 (c : Z) : bool :=
  let column := (Z.land (Z.shiftr c 4) 0xf) in
  if (column <? 13) then
    false
  else
    let row := (Z.land c 0xf) in
    if (column =? 13) then
      ((row >=? 8) && (row <=? 12))
    else if (column =? 14) then
      (row >=? 13)
    else if (column =? 15) then
      (row >=? 13)
    else
      false.

(* source/bits14/char_is_unicode.cxx:2164-2181 *)
Definition isInTheGap01F7 (c : Z) : bool :=
  let column := (Z.land (Z.shiftr c 4) 0xf) in
  if (column <? 7) then
    false
  else
    let row := (Z.land c 0xf) in
    if (column =? 7) then
      (row >=? 4)
    else if (column =? 13) then
      (row >=? 9)
    else if (column =? 14) then
      (row >=? 12)
    else if (column =? 15) then
      (negb (row =? 0))
    else
      false.

(* source/bits14/char_is_unicode.cxx:2183-2201 *)
Definition isInTheGap01F8 (c : Z) : bool :=
  let column := (Z.land (Z.shiftr c 4) 0xf) in
  if (column >? 11) then
    true
  else
    let row := (Z.land c 0xf) in
    if (column =? 0) then
      (row >=? 12)
    else if (column =? 4) then
      (row >=? 8)
    else if (column =? 5) then
      (row >=? 10)
    else if (column =? 8) then
      (row >=? 8)
    else if (column =? 10) then
      (row >=? 14)
    else if (column =? 11) then
      (row >=? 2)
    else
      false.

(* source/bits14/char_is_unicode.cxx:2203-2221 *)
Definition isInTheGap01FA (c : Z) : bool :=
  let column := (Z.land (Z.shiftr c 4) 0xf) in
  let row := (Z.land c 0xf) in
  if (column =? 5) then
    (row >=? 4)
  else if (column =? 6) then
    (row >=? 14)
  else if (column =? 7) then
    (((row >=? 5) && (row <=? 7)) || (row >=? 13))
  else if (column =? 8) then
    (row >=? 7)
  else if (column =? 10) then
    (row >=? 13)
  else if (column =? 11) then
    (row >=? 11)
  else if (column =? 12) then
    (row >=? 6)
  else if (column =? 13) then
    (row >=? 10)
  else if (column =? 14) then
    (row >=? 8)
  else if (column =? 15) then
    (row >=? 7)
  else
    false.

(* source/bits14/char_is_unicode.cxx:2223-2236 *)
Definition isInTheGap01FB (c : Z) : bool :=
  let column := (Z.land (Z.shiftr c 4) 0xf) in
  let row := (Z.land c 0xf) in
  if (column =? 9) then
    (row =? 3)
  else if (column =? 12) then
    (row >=? 11)
  else if (column =? 15) then
    (row >=? 10)
  else if ((column =? 13) || (column =? 14)) then
    true
  else
    false.

(* source/bits14/char_is_unicode.cxx:2238-2429 *)
Definition isInTheGap01 (c : Z) : bool :=
  let page := (Z.land (Z.shiftr c 8) 0xff) in
  let sheaf := (Z.shiftr page 4) in
  let page := (Z.land page 0xf) in
  if (sheaf =? 0) then
    if (page =? 0) then
      (isInTheGap0100 c)
    else if (page =? 1) then
      (isInTheGap0101 c)
    else if (page =? 2) then
      (isInTheGap0102 c)
    else if (page =? 3) then
      (isInTheGap0103 c)
    else if (page =? 4) then
      (isInTheGap0104 c)
    else if (page =? 5) then
      (isInTheGap0105 c)
    else if (page =? 7) then
      (isInTheGap0107 c)
    else if (page =? 8) then
      (isInTheGap0108 c)
    else if (page =? 9) then
      (isInTheGap0109 c)
    else if (page =? 10) then
      (isInTheGap010A c)
    else if (page =? 11) then
      (isInTheGap010B c)
    else if (page =? 12) then
      (isInTheGap010C c)
    else if (page =? 13) then
      (isInTheGap010D c)
    else if (page =? 14) then
      (isInTheGap010E c)
    else if (page =? 15) then
      (isInTheGap010F c)
    else
      false
  else if (sheaf =? 1) then
    if (page =? 0) then
      (isInTheGap0110 c)
    else if (page =? 1) then
      (isInTheGap0111 c)
    else if (page =? 2) then
      (isInTheGap0112 c)
    else if (page =? 3) then
      (isInTheGap0113 c)
    else if (page =? 4) then
      (isInTheGap0114 c)
    else if (page =? 5) then
      (isInTheGap0115 c)
    else if (page =? 6) then
      (isInTheGap0116 c)
    else if (page =? 7) then
      (isInTheGap0117 c)
    else if (page =? 8) then
      (isInTheGap0118 c)
    else if (page =? 9) then
      (isInTheGap0119 c)
    else if (page =? 10) then
      (isInTheGap011A c)
    else if (page =? 12) then
      (isInTheGap011C c)
    else if (page =? 13) then
      (isInTheGap011D c)
    else if (page =? 14) then
      (isInTheGap011E c)
    else if (page =? 15) then
      (isInTheGap011F c)
    else
      true
  else if (sheaf =? 2) then
    if ((page =? 0) || (page =? 1) || (page =? 2)) then
      false
    else if (page =? 3) then
      (isInTheGap0123 c)
    else if (page =? 4) then
      (isInTheGap0124 c)
    else if (page =? 5) then
      (isInTheGap0125 c)
    else if (page =? 15) then
      (isInTheGap012F c)
    else
      true
  else if (sheaf =? 3) then
    if ((page =? 0) || (page =? 1) || (page =? 2) || (page =? 3)) then
      false
    else if (page =? 4) then
      (isInTheGap0134 c)
    else
      true
  else if (sheaf =? 4) then
    if ((page =? 4) || (page =? 5)) then
      false
    else if (page =? 6) then
      (isInTheGap0146 c)
    else
      true
  else if (sheaf =? 6) then
    if ((page =? 8) || (page =? 9)) then
      false
    else if (page =? 10) then
      (isInTheGap016A c)
    else if (page =? 11) then
      (isInTheGap016B c)
    else if (page =? 14) then
      (isInTheGap016E c)
    else if (page =? 15) then
      (isInTheGap016F c)
    else
      true
  else if (sheaf =? 7) then
    false
  else if (sheaf =? 8) then
    if (page =? 7) then
      (isInTheGap0187 c)
    else if (page =? 12) then
      (isInTheGap018C c)
    else if (page =? 13) then
      (isInTheGap018D c)
    else if ((page =? 14) || (page =? 15)) then
      true
    else
      false
  else if (sheaf =? 10) then
    if (page =? 15) then
      let column := (Z.land (Z.shiftr c 4) 0xf) in
      if (negb (column =? 15)) then
        true
      else
        let row := (Z.land c 0xf) in
        (((row =? 4) || (row =? 12)) || (row =? 15))
    else
      true
  else if (sheaf =? 11) then
    if (page =? 0) then
      false
    else if (page =? 1) then
      (isInTheGap01B1 c)
    else if (page =? 2) then
      (isInTheGap01B2 c)
    else if (page =? 12) then
      (isInTheGap01BC c)
    else
      true
  else if (sheaf =? 12) then
    ((negb (page =? 15)) || (isInTheGap01CF c))
  else if (sheaf =? 13) then
    if ((page =? 8) || (page =? 9)) then
      false
    else if (page =? 0) then
      (isInTheGap01D0 c)
    else if (page =? 1) then
      (isInTheGap01D1 c)
    else if (page =? 2) then
      (isInTheGap01D2 c)
    else if (page =? 3) then
      (isInTheGap01D3 c)
    else if (page =? 4) then
      (isInTheGap01D4 c)
    else if (page =? 5) then
      (isInTheGap01D5 c)
    else if (page =? 6) then
      (isInTheGap01D6 c)
    else if (page =? 7) then
      (isInTheGap01D7 c)
    else if (page =? 10) then
      (isInTheGap01DA c)
    else if (page =? 15) then
      (isInTheGap01DF c)
    else
      true
  else if (sheaf =? 14) then
    if (page =? 0) then
      (isInTheGap01E0 c)
    else if (page =? 1) then
      (isInTheGap01E1 c)
    else if (page =? 2) then
      (isInTheGap01E2 c)
    else if (page =? 7) then
      (isInTheGap01E7 c)
    else if (page =? 8) then
      (isInTheGap01E8 c)
    else if (page =? 9) then
      (isInTheGap01E9 c)
    else if (page =? 12) then
      (isInTheGap01EC c)
    else if (page =? 13) then
      (isInTheGap01ED c)
    else if (page =? 14) then
      (isInTheGap01EE c)
    else
      true
  else if (sheaf =? 15) then
    if ((page =? 3) || (page =? 4) || (page =? 5) || (page =? 9)) then
      false
    else if (page =? 0) then
      (isInTheGap01F0 c)
    else if (page =? 1) then
      (isInTheGap01F1 c)
    else if (page =? 2) then
      (isInTheGap01F2 c)
    else if (page =? 6) then
      (isInTheGap01F6 c)
    else if (page =? 7) then
      (isInTheGap01F7 c)
    else if (page =? 8) then
      (isInTheGap01F8 c)
    else if (page =? 10) then
      (isInTheGap01FA c)
    else if (page =? 11) then
      (isInTheGap01FB c)
    else
      true
  else
    true.

(* source/bits14/char_is_unicode.cxx:2431-2441 *)
Definition isInTheGap02B7 (c : Z) : bool :=
  if ((Z.land (Z.shiftr c 4) 0xf) =? 3) then
    ((Z.land c 0xf) >=? 9)
  else
    false.

(* source/bits14/char_is_unicode.cxx:2443-2453 *)
Definition isInTheGap02B8 (c : Z) : bool :=
  if ((Z.land (Z.shiftr c 4) 0xf) =? 1) then
    ((Z.land c 0xf) >=? 14)
  else
    false.

(* source/bits14/char_is_unicode.cxx:2455-2467 *)
Definition isInTheGap02CE (c : Z) : bool :=
  let column := (Z.land (Z.shiftr c 4) 0xf) in
  let row := (Z.land c 0xf) in
  if (column =? 10) then
    (row >=? 2)
  else
    false.

(* source/bits14/char_is_unicode.cxx:2469-2478 *)
Definition isInTheGap02EB (c : Z) : bool :=
  let column := (Z.land (Z.shiftr c 4) 0xf) in
  if (column =? 14) then
    ((Z.land c 0xf) >? 0)
  else if (column =? 15) then
    true
  else
    false.

(* source/bits14/char_is_unicode.cxx:2480-2492 *)
Definition isInTheGap02FA (c : Z) : bool :=
  let column := (Z.land (Z.shiftr c 4) 0xf) in
  if (column <? 1) then
    false
  else
    if (column >? 1) then
      true
    else
      ((Z.land c 0xf) >=? 14).

(* source/bits14/char_is_unicode.cxx:2494-2546 *)
Definition isInTheGap02 (c : Z) : bool :=
  let page := (Z.land (Z.shiftr c 8) 0xff) in
  let sheaf := (Z.shiftr page 4) in
  let page := (Z.land page 0xf) in
  if (sheaf =? 10) then
    if (page =? 6) then
      ((Z.land (Z.shiftr c 4) 0xf) >? 13)
    else
      false
  else if (sheaf =? 11) then
    if (page =? 7) then
      (isInTheGap02B7 c)
    else if (page =? 8) then
      (isInTheGap02B8 c)
    else
      false
  else if (sheaf =? 12) then
    if (page =? 14) then
      (isInTheGap02CE c)
    else
      false
  else if (sheaf =? 14) then
    if (page =? 11) then
      (isInTheGap02EB c)
    else if ((page =? 12) || (page =? 13) || (page =? 14) || (page =? 15)) then
      true
    else
      false
  else if (sheaf =? 15) then
    if ((page <? 8) || (page >? 10)) then
      true
    else
      if (page <? 10) then
        false
      else
        (isInTheGap02FA c)
  else
    false.

(* source/bits14/char_is_unicode.cxx:2548-2556 *)
Definition isInTheGap03 (c : Z) : bool :=
  let page := (Z.land (Z.shiftr c 8) 0xff) in
  if (page =? 19) then
    ((Z.land c 0xff) >=? 75)
  else
    (page >? 19).

(* source/bits14/char_is_unicode.cxx:2558-2587 *)
Definition isInTheGap0E (c : Z) : bool :=
  let page := (Z.land (Z.shiftr c 8) 0xff) in
  let sheaf := (Z.shiftr page 4) in
  let page := (Z.land page 0xf) in
  if ((sheaf >? 0) || (page >? 1)) then
    true
  else
    let column := (Z.land (Z.shiftr c 4) 0xf) in
    let row := (Z.land c 0xf) in
    if (page =? 0) then
      if ((column >=? 8) || (column =? 1)) then
        true
      else
        if (column =? 0) then
          (negb (row =? 1))
        else
          false
    else
      (column >? 14).

(* source/bits14/char_is_unicode.cxx:2591-2694 *)
Definition isUnicodeAssigned_16 (c : Z) : bool :=
  let page := (Z.land (Z.shiftr c 8) 0xff) in
  let sheaf := (Z.shiftr page 4) in
  let page := (Z.land page 0xf) in
  if (sheaf =? 0) then
    if (page =? 3) then
      (negb (isInTheGap0003 c))
    else if (page =? 5) then
      (negb (isInTheGap0005 c))
    else if (page =? 7) then
      (negb (isInTheGap0007 c))
    else if (page =? 8) then
      (negb (isInTheGap0008 c))
    else if (page =? 9) then
      (negb (isInTheGap0009 c))
    else if (page =? 10) then
      (negb (isInTheGap000A c))
    else if (page =? 11) then
      (negb (isInTheGap000B c))
    else if (page =? 12) then
      (negb (isInTheGap000C c))
    else if (page =? 13) then
      (negb (isInTheGap000D c))
    else if (page =? 14) then
      (negb (isInTheGap000E c))
    else if (page =? 15) then
      (negb (isInTheGap000F c))
    else
      true
  else if (sheaf =? 1) then
    if (page =? 0) then
      (negb (isInTheGap0010 c))
    else if (page =? 2) then
      (negb (isInTheGap0012 c))
    else if (page =? 3) then
      (negb (isInTheGap0013 c))
    else if (page =? 6) then
      (negb (isInTheGap0016 c))
    else if (page =? 7) then
      (negb (isInTheGap0017 c))
    else if (page =? 8) then
      (negb (isInTheGap0018 c))
    else if (page =? 9) then
      (negb (isInTheGap0019 c))
    else if (page =? 10) then
      (negb (isInTheGap001A c))
    else if (page =? 11) then
      (negb (isInTheGap001B c))
    else if (page =? 12) then
      (negb (isInTheGap001C c))
    else if (page =? 15) then
      (negb (isInTheGap001F c))
    else
      true
  else if (sheaf =? 2) then
    if (page =? 0) then
      (negb (isInTheGap0020 c))
    else if (page =? 1) then
      (negb (isInTheGap0021 c))
    else if (page =? 4) then
      (negb (isInTheGap0024 c))
    else if (page =? 11) then
      (negb (isInTheGap002B c))
    else if (page =? 12) then
      (negb (isInTheGap002C c))
    else if (page =? 13) then
      (negb (isInTheGap002D c))
    else if (page =? 14) then
      (negb (isInTheGap002E c))
    else if (page =? 15) then
      (negb (isInTheGap002F c))
    else
      true
  else if (sheaf =? 3) then
    if (page =? 0) then
      (negb (isInTheGap0030 c))
    else if (page =? 1) then
      (negb (isInTheGap0031 c))
    else if (page =? 2) then
      (negb (isInTheGap0032 c))
    else
      true
  else if (sheaf =? 10) then
    if (page =? 4) then
      (negb (isInTheGap00A4 c))
    else if (page =? 6) then
      (negb (isInTheGap00A6 c))
    else if (page =? 7) then
      (negb (isInTheGap00A7 c))
    else if (page =? 8) then
      (negb (isInTheGap00A8 c))
    else if (page =? 9) then
      (negb (isInTheGap00A9 c))
    else if (page =? 10) then
      (negb (isInTheGap00AA c))
    else if (page =? 11) then
      (negb (isInTheGap00AB c))
    else
      true
  else if (sheaf =? 13) then
    (if (page >=? 7) then (negb (isInTheGap00D7_DF c)) else true)
  else if (sheaf =? 14) then
    false
  else if (sheaf =? 15) then
    if ((page =? 0) || (page =? 1) || (page =? 2) || (page =? 3) || (page =? 4) || (page =? 5) || (page =? 6) || (page =? 7) || (page =? 8)) then
      false
    else if (page =? 10) then
      (negb (isInTheGap00FA c))
    else if (page =? 11) then
      (negb (isInTheGap00FB c))
    else if (page =? 13) then
      (negb (isInTheGap00FD c))
    else if (page =? 14) then
      (negb (isInTheGap00FE c))
    else if (page =? 15) then
      (negb (isInTheGap00FF c))
    else
      true
  else
    true.

(* source/bits14/char_is_unicode.cxx:2696-2707 *)
Definition isUnicodeAssigned_32 (c : Z) : bool :=
  let sel := (Z.shiftr c 16) in
  if (sel =? 0) then
    (isUnicodeAssigned_16 (wrap16 (Z.land c 0xffff)))
  else if (sel =? 1) then
    (negb (isInTheGap01 c))
  else if (sel =? 2) then
    (negb (isInTheGap02 c))
  else if (sel =? 3) then
    (negb (isInTheGap03 c))
  else if (sel =? 14) then
    (negb (isInTheGap0E c))
  else
    false.

(* source/bits14/char_is_unicode.cxx:2709-2721 *)
Definition isUnicodePrivate_16 (c : Z) : bool :=
  let page := (Z.land (Z.shiftr c 8) 0xff) in
  let sheaf := (Z.shiftr page 4) in
  let page := (Z.land page 0xf) in
  if (sheaf =? 14) then
    true
  else if (sheaf =? 15) then
    (page <? 9)
  else
    false.

(* source/bits14/char_is_unicode.cxx:2723-2732 *)
Definition isUnicodePrivate_32 (c : Z) : bool :=
  let sel := (Z.shiftr c 16) in
  if (sel =? 0) then
    (isUnicodePrivate_16 (wrap16 (Z.land c 0xffff)))
  else if ((sel =? 15) || (sel =? 16)) then
    ((Z.land c 0xffff) <=? 0xfffd)
  else
    false.

(* source/bits14/char_is_unicode.cxx:2734-2738 *)
Definition isControlChar_8 (c : Z) : bool :=
  let u := (wrap8 c) in
  ((u <? 0x20) || ((u >=? 0x7f) && (u <? 0xa0))).

(* source/bits14/char_is_unicode.cxx:2740-2747 *)
Definition isControlChar_16 (c : Z) : bool :=
  if (negb ((Z.land c (Z.lnot 0xff)) =? 0)) then
    false
  else
    (isControlChar_8 (wrap8 (Z.land c 0xff))).

(* source/bits14/char_is_unicode.cxx:2749-2756 *)
Definition isControlChar_32 (c : Z) : bool :=
  if (negb ((Z.land c (Z.lnot 0xff)) =? 0)) then
    false
  else
    (isControlChar_8 (wrap8 (Z.land c 0xff))).

(* source/bits14/char_is_unicode.cxx:2758-2772 *)
Definition isWhitespaceChar_8 (c : Z) : bool :=
  let sel := (wrap8 c) in
  if ((sel =? 9) || (sel =? 10) || (sel =? 11) || (sel =? 12) || (sel =? 13) || (sel =? 32) || (sel =? 133) || (sel =? 160)) then
    true
  else
    false.

(* source/bits14/char_is_unicode.cxx:2774-2801 *)
Definition isWhitespaceChar_16 (c : Z) : bool :=
  if ((Z.land c 0xff) =? c) then
    (isWhitespaceChar_8 (wrap8 c))
  else
    let page := (Z.land (Z.shiftr c 8) 0xff) in
    let sheaf := (Z.shiftr page 4) in
    let page := (Z.land page 0xf) in
    let byte := (wrap8 c) in
    if (sheaf =? 1) then
      ((page =? 6) && (byte =? 0x80))
    else if (sheaf =? 2) then
      if (negb (page =? 0)) then
        false
      else
        (((((byte <=? 10) || (byte =? 0x28)) || (byte =? 0x29)) || (byte =? 0x2f)) || (byte =? 0x5f))
    else if (sheaf =? 3) then
      ((page =? 0) && (byte =? 0))
    else
      false.

(* source/bits14/char_is_unicode.cxx:2803-2813 *)
Definition isWhitespaceChar_32 (c : Z) : bool :=
  if (c >? 0x3000) then
    false
  else
    (isWhitespaceChar_16 (wrap16 c)).

(* source/bits14/char_to_lower.cxx:55-64 *)
Definition toLowerC (c : Z) : Z :=
  let uc := (wrap8 c) in
  if (((uc <? 0x41) || (uc >? 0xde)) || ((uc >? 0x5a) && (uc <? 0xc0))) then
    c
  else
    (wrap8 (uc + 0x20)).

(* source/bits14/char_to_lower.cxx:69-138 *)
Definition toLower0100 (c : Z) : Z :=
  if (c =? 0x130) then
    0x69
  else
    if (((((c <? 0x138) || ((c >=? 0x14a) && (c <=? 0x177))) || ((c >=? 0x1a0) && (c <=? 0x1a5))) || ((c >=? 0x1de) && (c <=? 0x1ef))) || (c >=? 0x1f8)) then
      (wrap16 (Z.lor c 1))
    else
      if (((((c >=? 0x139) && (c <=? 0x148)) || ((c >=? 0x179) && (c <=? 0x17e))) || ((c >=? 0x1b3) && (c <=? 0x1b6))) || ((c >=? 0x1cf) && (c <=? 0x1dc))) then
        (wrap16 (Z.land (c + 1) (Z.lnot 1)))
      else
        if (c =? 0x178) then
          0xff
        else if (c =? 0x181) then
          0x253
        else if (c =? 0x182) then
          0x183
        else if (c =? 0x184) then
          0x185
        else if (c =? 0x186) then
          0x254
        else if (c =? 0x187) then
          0x188
        else if (c =? 0x189) then
          0x256
        else if (c =? 0x18a) then
          0x257
        else if (c =? 0x18b) then
          0x18c
        else if (c =? 0x18e) then
          0x1dd
        else if (c =? 0x18f) then
          0x259
        else if (c =? 0x190) then
          0x25b
        else if (c =? 0x191) then
          0x192
        else if (c =? 0x193) then
          0x260
        else if (c =? 0x194) then
          0x263
        else if (c =? 0x196) then
          0x269
        else if (c =? 0x197) then
          0x268
        else if (c =? 0x198) then
          0x199
        else if (c =? 0x19c) then
          0x26f
        else if (c =? 0x19d) then
          0x272
        else if (c =? 0x19f) then
          0x275
        else if (c =? 0x1a6) then
          0x280
        else if (c =? 0x1a7) then
          0x1a8
        else if (c =? 0x1a9) then
          0x283
        else if (c =? 0x1ac) then
          0x1ad
        else if (c =? 0x1ae) then
          0x288
        else if (c =? 0x1af) then
          0x1b0
        else if (c =? 0x1b1) then
          0x28a
        else if (c =? 0x1b2) then
          0x28b
        else if (c =? 0x1b7) then
          0x292
        else if (c =? 0x1b8) then
          0x1b9
        else if (c =? 0x1bc) then
          0x1bd
        else if ((c =? 0x1c4) || (c =? 0x1c5)) then
          0x1c6
        else if ((c =? 0x1c7) || (c =? 0x1c8)) then
          0x1c9
        else if ((c =? 0x1ca) || (c =? 0x1cb)) then
          0x1cc
        else if (c =? 0x1cd) then
          0x1ce
        else if ((c =? 0x1f1) || (c =? 0x1f2)) then
          0x1f3
        else if (c =? 0x1f4) then
          0x1f5
        else if (c =? 0x1f6) then
          0x195
        else if (c =? 0x1f7) then
          0x1bf
        else
          c.

(* source/bits14/char_to_lower.cxx:141-162 *)
Definition toLower0200 (c : Z) : Z :=
  if (((c <? 0x220) || ((c >=? 0x222) && (c <=? 0x233))) || ((c >=? 0x246) && (c <=? 0x24f))) then
    (wrap16 (Z.lor c 1))
  else
    if (c =? 0x220) then
      0x19e
    else if (c =? 0x23a) then
      0x2c65
    else if (c =? 0x23b) then
      0x23c
    else if (c =? 0x23d) then
      0x19a
    else if (c =? 0x23e) then
      0x2c66
    else if (c =? 0x241) then
      0x242
    else if (c =? 0x243) then
      0x180
    else if (c =? 0x244) then
      0x289
    else if (c =? 0x245) then
      0x28c
    else
      c.

(* source/bits14/char_to_lower.cxx:165-202 *)
Definition toLower0300 (c : Z) : Z :=
  if ((c <? 0x370) || ((Z.land c 0xf0) =? 0xb0)) then
    c
  else
    if ((((c >=? 0x370) && (c <=? 0x373)) || ((c >=? 0x376) && (c <=? 0x377))) || ((c >=? 0x3d8) && (c <=? 0x3ef))) then
      (wrap16 (Z.lor c 1))
    else
      if (((c >=? 0x391) && (c <=? 0x3a1)) || ((c >=? 0x3a3) && (c <=? 0x3ab))) then
        (wrap16 (c + 0x20))
      else
        if (c =? 0x37f) then
          0x3f3
        else if (c =? 0x386) then
          0x3ac
        else if (c =? 0x388) then
          0x3ad
        else if (c =? 0x389) then
          0x3ae
        else if (c =? 0x38a) then
          0x3af
        else if (c =? 0x38c) then
          0x3cc
        else if (c =? 0x38e) then
          0x3cd
        else if (c =? 0x38f) then
          0x3ce
        else if (c =? 0x3cf) then
          0x3d7
        else if (c =? 0x3f4) then
          0x3b8
        else if (c =? 0x3f7) then
          0x3f8
        else if (c =? 0x3f9) then
          0x3f2
        else if (c =? 0x3fa) then
          0x3fb
        else if (c =? 0x3fd) then
          0x37b
        else if (c =? 0x3fe) then
          0x37c
        else if (c =? 0x3ff) then
          0x37d
        else
          c.

(* source/bits14/char_to_lower.cxx:205-230 *)
Definition toLower0400 (c : Z) : Z :=
  if (c <? 0x410) then
    (wrap16 (c + 0x50))
  else
    if (c <? 0x430) then
      (wrap16 (c + 0x20))
    else
      if ((((c >=? 0x460) && (c <=? 0x481)) || ((c >=? 0x48a) && (c <=? 0x4bf))) || (c >=? 0x4d0)) then
        (wrap16 (Z.lor c 1))
      else
        if (c =? 0x4c0) then
          0x4cf
        else
          if ((c >=? 0x4c1) && (c <=? 0x4ce)) then
            (wrap16 (Z.land (c + 1) (Z.lnot 1)))
          else
            c.

(* source/bits14/char_to_lower.cxx:233-245 *)
Definition toLower0500 (c : Z) : Z :=
  if (c <? 0x530) then
    (wrap16 (Z.lor c 1))
  else
    if ((c >=? 0x531) && (c <=? 0x556)) then
      (wrap16 (c + 0x30))
    else
      c.

(* source/bits14/char_to_lower.cxx:248-340 *)
Definition toLower1000 (c : Z) : Z :=
  let sel := (Z.shiftr c 8) in
  if (sel =? 0x10) then
    if ((((c >=? 0x10a0) && (c <=? 0x10c5)) || (c =? 0x10c7)) || (c =? 0x10cd)) then
      (wrap16 (c + 0x1c60))
    else
      c
  else if (sel =? 0x13) then
    if ((c >=? 0x13a0) && (c <? 0x13f0)) then
      (wrap16 (c + 0x97d0))
    else
      if ((c >=? 0x13f0) && (c <=? 0x13f5)) then
        (wrap16 (Z.lor c 8))
      else
        c
  else if (sel =? 0x1e) then
    if (c =? 0x1e9e) then
      0xdf
    else
      (wrap16 (Z.lor c 1))
  else if (sel =? 0x1f) then
    if ((c <? 0x1f70) || ((c >=? 0x1f80) && (c <? 0x1fb0))) then
      if ((c =? 0x1f1e) || (c =? 0x1f1f) || (c =? 0x1f4e) || (c =? 0x1f4f) || (c =? 0x1f58) || (c =? 0x1f5a) || (c =? 0x1f5c) || (c =? 0x1f5e)) then
        c
      else
        (wrap16 (Z.land c (Z.lnot 8)))
    else
      if (c =? 0x1fb8) then
        0x1fb0
      else if (c =? 0x1fb9) then
        0x1fb1
      else if (c =? 0x1fba) then
        0x1f70
      else if (c =? 0x1fbb) then
        0x1f71
      else if (c =? 0x1fbc) then
        0x1fb3
      else if (c =? 0x1fc8) then
        0x1f72
      else if (c =? 0x1fc9) then
        0x1f73
      else if (c =? 0x1fca) then
        0x1f74
      else if (c =? 0x1fcb) then
        0x1f75
      else if (c =? 0x1fcc) then
        0x1fc3
      else if (c =? 0x1fd8) then
        0x1fd0
      else if (c =? 0x1fd9) then
        0x1fd1
      else if (c =? 0x1fda) then
        0x1f76
      else if (c =? 0x1fdb) then
        0x1f77
      else if (c =? 0x1fe8) then
        0x1fe0
      else if (c =? 0x1fe9) then
        0x1fe1
      else if (c =? 0x1fea) then
        0x1f7a
      else if (c =? 0x1feb) then
        0x1f7b
      else if (c =? 0x1fec) then
        0x1fe5
      else if (c =? 0x1ff8) then
        0x1f78
      else if (c =? 0x1ff9) then
        0x1f79
      else if (c =? 0x1ffa) then
        0x1f7c
      else if (c =? 0x1ffb) then
        0x1f7d
      else if (c =? 0x1ffc) then
        0x1ff3
      else
        c
  else
    c.

(* source/bits14/char_to_lower.cxx:343-399 *)
Definition toLower2000 (c : Z) : Z :=
  if (c =? 0x2126) then
    0x3c9
  else if (c =? 0x212a) then
    0x6b
  else if (c =? 0x212b) then
    0xe5
  else if (c =? 0x2132) then
    0x214e
  else if (c =? 0x2183) then
    0x2184
  else
    if ((Z.land c 0xff00) =? 0x2c00) then
      if (c <? 0x2c30) then
        (wrap16 (c + 0x30))
      else
        if (((c >=? 0x2c80) && (c <=? 0x2ce3)) || (c =? 0x2cf2)) then
          (wrap16 (Z.lor c 1))
        else
          if (((c >=? 0x2c67) && (c <=? 0x2c6c)) || ((c >=? 0x2ceb) && (c <=? 0x2cee))) then
            (wrap16 (Z.land (c + 1) (Z.lnot 1)))
          else
            if ((c =? 0x2c60) || (c =? 0x2c72)) then
              (wrap16 (Z.lor c 1))
            else if (c =? 0x2c75) then
              (wrap16 (c + 1))
            else if (c =? 0x2c62) then
              0x26b
            else if (c =? 0x2c63) then
              0x1d7d
            else if (c =? 0x2c64) then
              0x27d
            else if (c =? 0x2c6d) then
              0x251
            else if (c =? 0x2c6e) then
              0x271
            else if (c =? 0x2c6f) then
              0x250
            else if (c =? 0x2c70) then
              0x252
            else if (c =? 0x2c7e) then
              0x23f
            else if (c =? 0x2c7f) then
              0x240
            else
              c
    else
      if ((Z.land c 0xfff0) =? 0x2160) then
        (wrap16 (Z.lor c 0x10))
      else
        if ((c >=? 0x24b6) && (c <? 0x24d0)) then
          (wrap16 (c + 26))
        else
          c.

(* source/bits14/char_to_lower.cxx:402-463 *)
Definition toLowerA000 (c : Z) : Z :=
  let sel := (Z.shiftr (Z.land c 0xf00) 8) in
  if (sel =? 6) then
    if (((c >=? 0xa640) && (c <=? 0xa66d)) || ((c >=? 0xa680) && (c <=? 0xa69b))) then
      (wrap16 (Z.lor c 1))
    else
      c
  else if (sel =? 7) then
    if (((((((((c >=? 0xa722) && (c <=? 0xa72f)) || ((c >=? 0xa732) && (c <=? 0xa76f))) || ((c >=? 0xa77e) && (c <=? 0xa787))) || ((c >=? 0xa790) && (c <=? 0xa793))) || ((c >=? 0xa796) && (c <=? 0xa7a9))) || ((c >=? 0xa7b4) && (c <=? 0xa7b7))) || ((c >=? 0xa7ba) && (c <=? 0xa7bf))) || ((c >=? 0xa7c0) && (c <=? 0xa7c3))) then
      (wrap16 (Z.lor c 1))
    else
      if ((c >=? 0xa779) && (c <=? 0xa77c)) then
        (wrap16 (Z.land (c + 1) (Z.lnot 1)))
      else
        if (c =? 0xa77d) then
          0x1d79
        else if (c =? 0xa78b) then
          0xa78c
        else if (c =? 0xa78d) then
          0x265
        else if (c =? 0xa7aa) then
          0x266
        else if (c =? 0xa7ab) then
          0x25c
        else if (c =? 0xa7ac) then
          0x261
        else if (c =? 0xa7ad) then
          0x26c
        else if (c =? 0xa7ae) then
          0x26a
        else if (c =? 0xa7b0) then
          0x29e
        else if (c =? 0xa7b1) then
          0x287
        else if (c =? 0xa7b2) then
          0x29d
        else if (c =? 0xa7b3) then
          0xab53
        else if ((c =? 0xa7d0) || (c =? 0xa7d6) || (c =? 0xa7d8)) then
          (wrap16 (Z.lor c 1))
        else if (c =? 0xa7c4) then
          0xa794
        else if (c =? 0xa7c5) then
          0x282
        else if (c =? 0xa7c6) then
          0x1d8e
        else if (c =? 0xa7c7) then
          0xa7c8
        else if (c =? 0xa7c9) then
          0xa7ca
        else if (c =? 0xa7f5) then
          0xa7f6
        else
          c
  else
    c.

(* source/bits14/char_to_lower.cxx:466-480 *)
Definition toLowerF000 (c : Z) : Z :=
  let sel := (Z.shiftr (Z.land c 0xf00) 8) in
  if (sel =? 15) then
    if ((c >? 0xff20) && (c <=? 0xff3a)) then
      (wrap16 (c + 0x20))
    else
      c
  else
    c.

(* source/bits14/char_to_lower.cxx:484-522 *)
Definition toLower2 (c : Z) : Z :=
  let sel := (Z.shiftr c 8) in
  if (sel =? 0) then
    (wrap16 (wrap8 (toLowerC (wrap8 c))))
  else if ((sel =? 15) || (sel =? 14) || (sel =? 13) || (sel =? 12) || (sel =? 11) || (sel =? 10) || (sel =? 9) || (sel =? 8) || (sel =? 7) || (sel =? 6)) then
    c
  else if (sel =? 5) then
    (toLower0500 c)
  else if (sel =? 4) then
    (toLower0400 c)
  else if (sel =? 3) then
    (toLower0300 c)
  else if (sel =? 2) then
    (toLower0200 c)
  else if (sel =? 1) then
    (toLower0100 c)
  else
    let sel := (Z.shiftr c 12) in
    if (sel =? 1) then
      (toLower1000 c)
    else if (sel =? 2) then
      (toLower2000 c)
    else if (sel =? 10) then
      (toLowerA000 c)
    else if (sel =? 15) then
      (toLowerF000 c)
    else
      c.

(* source/bits14/char_to_lower.cxx:528-559 *)
Definition toLower (c : Z) : Z :=
  if (c <? 0x10000) then
    (wrap32 (toLower2 (wrap16 c)))
  else
    if ((c >=? 0x10400) && (c <=? 0x118bf)) then
      if (c <? 0x10428) then
        (wrap32 (c + 0x28))
      else
        if ((c >=? 0x104b0) && (c <=? 0x104d3)) then
          (wrap32 (c + 0x28))
        else
          if ((c >=? 0x10c80) && (c <=? 0x10cb2)) then
            (wrap32 (Z.lor c 0x40))
          else
            if ((c >=? 0x118a0) && (c <? 0x118c0)) then
              (wrap32 (c + 0x20))
            else
              c
    else
      if ((c >=? 0x1e900) && (c <=? 0x1e921)) then
        (wrap32 (c + 0x22))
      else
        c.

(* source/bits14/char_to_lower.cxx:562-570 *)
Definition turkicToLower (c : Z) : Z :=
  if (c =? 0x130) then
    0x69
  else if (c =? 0x49) then
    0x131
  else
    (toLower c).
