(* source/string_internal.hxx and the enums of interface/string.hxx.
   A `char` is its bit pattern 0..255; char16_t 0..0xffff; char32_t 0..0xffffffff. *)
From Coq Require Import ZArith List Bool.
From Verif Require Import Machine.
Import ListNotations.
Local Open Scope Z_scope.

(* interface/string.hxx:75-84 -- enum RangeType : int *)
Definition kAscii : Z := 0.
Definition kUtf8 : Z := 1.
Definition kUcs2 : Z := 2.
Definition kUtf16 : Z := 3.
Definition kUcs4 : Z := 4.
Definition kUnicode : Z := 5.
Definition kFirstInvalidRange : Z := 6.

(* interface/string.hxx:94-102 -- enum EncodingType : int *)
Definition kIsNone : Z := 0.
Definition kIsAssigned : Z := 1.
Definition kIsPrivate : Z := 2.
Definition kIsControl : Z := 3.
Definition kIsWhitespace : Z := 4.
Definition kFirstInvalidEncoding : Z := 5.

(* source/string_internal.hxx:58-76 -- enum RangeTypeFlags : int *)
Definition kNoFlag : Z := 0x0000.
Definition kAsciiFlag : Z := 0x0001.
Definition kUtf8Flag : Z := 0x0002.
Definition kUcs2Flag : Z := 0x0004.
Definition kUtf16Flag : Z := 0x0008.
Definition kUcs4Flag : Z := 0x0010.
Definition kUnicodeFlag : Z := 0x0020.
Definition kInvalidRangeFlag : Z := 0x8000.
Definition k7BitFlags : Z :=
  Z.lor (Z.lor (Z.lor (Z.lor (Z.lor kAsciiFlag kUtf8Flag) kUcs2Flag) kUtf16Flag) kUcs4Flag) kUnicodeFlag.
Definition k16BitFlags : Z :=
  Z.lor (Z.lor (Z.lor (Z.lor kUtf8Flag kUcs2Flag) kUtf16Flag) kUcs4Flag) kUnicodeFlag.
Definition k21BitFlags : Z := Z.lor (Z.lor kUtf8Flag kUtf16Flag) kUcs4Flag.
Definition k21BitUnicodeFlags : Z := Z.lor k21BitFlags kUnicodeFlag.
Definition k31BitFlags : Z := Z.lor kUtf8Flag kUcs4Flag.
Definition k32BitFlags : Z := kUcs4Flag.

(* source/string_internal.hxx:82-88 -- enum EncodingTypeFlags : int *)
Definition kNoneFlag : Z := 0x0000.
Definition kIsAssignedFlag : Z := 0x0001.
Definition kIsPrivateFlag : Z := 0x0002.
Definition kIsControlFlag : Z := 0x0004.
Definition kIsWhiteSpaceFlag : Z := 0x0008.

(* source/string_internal.hxx:137-147 -- getUnicodeEncodableRangeFlag<C>, sizeof(C) > 1.
   (It is only instantiated with char16_t and char32_t.) *)
Definition getUnicodeEncodableRangeFlag (c : Z) : Z :=
  if negb (c =? 0) && ((c <? 0xd800) || (c >? 0xdfff)) && (c <? 0x110000)
  then kUnicodeFlag else kNoFlag.

(* source/string_internal.hxx:153-182 -- getCharEncodableRangeFlags<C>, sizeof(C) > 1 *)
Definition getCharEncodableRangeFlags (c : Z) : Z :=
  if c <=? 0x7f then k7BitFlags
  else if (c >=? 0xd800) && (c <=? 0xdfff) then kInvalidRangeFlag
  else if c <? 0x10000 then k16BitFlags
  else if c <? 0x200000 then Z.lor k21BitFlags (getUnicodeEncodableRangeFlag c)
  else if Z.land c 0x80000000 =? 0 then k31BitFlags else k32BitFlags.

(* source/string_internal.hxx:153-182 -- getCharEncodableRangeFlags<char> (line 158); the
   library never instantiates it for char, its unit test does *)
Definition getCharEncodableRangeFlags8 (c : Z) : Z :=
  if Z.land c 0x80 =? 0 then k7BitFlags else k16BitFlags.

(* source/string_internal.hxx:188-217 -- getRangeFlag(char) *)
Definition getRangeFlag8 (f : Z) : Z :=
  if f <=? 0x7f then k7BitFlags
  else if f <=? 0xbf then kInvalidRangeFlag
  else if f <=? 0xef then k16BitFlags
  else if (f >=? 0xf0) && (f <=? 0xf4) then k21BitUnicodeFlags
  else if (f >=? 0xf5) && (f <=? 0xfd) then k31BitFlags
  else kInvalidRangeFlag.

(* source/string_internal.hxx:223-239 -- getRangeFlag(char16_t) *)
Definition getRangeFlag16 (firstChar : Z) : Z :=
  if (firstChar >=? 0xd800) && (firstChar <=? 0xdbff) then k21BitUnicodeFlags
  else if (firstChar >=? 0xdc00) && (firstChar <=? 0xdfff) then kInvalidRangeFlag
  else if firstChar <=? 0x7f then k7BitFlags
  else k16BitFlags.

(* source/string_internal.hxx:262-271 -- isFirstHalfUtf16<C> *)
Definition isFirstHalfUtf16 (c : Z) : bool := (c >=? 0xd800) && (c <=? 0xdbff).

(* source/string_internal.hxx:279-288 -- isSecondHalfUtf16<C> *)
Definition isSecondHalfUtf16 (c : Z) : bool := (c >=? 0xdc00) && (c <=? 0xdfff).

(* source/string_internal.hxx:293-297 -- rawDecodeUtf8, 2 bytes, returns char16_t *)
Definition rawDecodeUtf8_2 (uc0 uc1 : Z) : Z :=
  wrap16 (Z.shiftl (Z.land uc0 0x1f) 6 + Z.land uc1 0x3f).

(* source/string_internal.hxx:303-307 -- rawDecodeUtf8, 3 bytes, returns char16_t *)
Definition rawDecodeUtf8_3 (uc0 uc1 uc2 : Z) : Z :=
  wrap16 (Z.shiftl (Z.land uc0 0x0f) 12 + Z.shiftl (Z.land uc1 0x3f) 6 + Z.land uc2 0x3f).

(* source/string_internal.hxx:313-318 -- rawDecodeUtf8, 4 bytes, returns char32_t *)
Definition rawDecodeUtf8_4 (uc0 uc1 uc2 uc3 : Z) : Z :=
  wrap32 (Z.shiftl (Z.land uc0 0x07) 18 + Z.shiftl (Z.land uc1 0x3f) 12
          + Z.shiftl (Z.land uc2 0x3f) 6 + Z.land uc3 0x3f).

(* source/string_internal.hxx:324-330 -- rawDecodeUtf8, 5 bytes, returns char32_t *)
Definition rawDecodeUtf8_5 (wc0 wc1 wc2 wc3 wc4 : Z) : Z :=
  wrap32 (Z.shiftl (Z.land wc0 0x03) 24 + Z.shiftl (Z.land wc1 0x3f) 18
          + Z.shiftl (Z.land wc2 0x3f) 12 + Z.shiftl (Z.land wc3 0x3f) 6 + Z.land wc4 0x3f).

(* source/string_internal.hxx:336-342 -- rawDecodeUtf8, 6 bytes, returns char32_t *)
Definition rawDecodeUtf8_6 (wc0 wc1 wc2 wc3 wc4 wc5 : Z) : Z :=
  wrap32 (Z.shiftl (Z.land wc0 0x01) 30 + Z.shiftl (Z.land wc1 0x3f) 24
          + Z.shiftl (Z.land wc2 0x3f) 18 + Z.shiftl (Z.land wc3 0x3f) 12
          + Z.shiftl (Z.land wc4 0x3f) 6 + Z.land wc5 0x3f).

(* source/string_internal.hxx:354-402 -- encodeUtf8<C>: the bytes handed to the adder, in
   order; static_cast<char> keeps the low 8 bits.  Nothing is added for c > 0x7fffffff. *)
Definition encodeUtf8 (c : Z) : list Z :=
  if Z.land c 0xffffff80 =? 0 then [wrap8 c]
  else if c <=? 0x7ff then
    [wrap8 (Z.lor (Z.land (Z.shiftr c 6) 0x1f) 0xc0);
     wrap8 (Z.lor (Z.land c 0x3f) 0x80)]
  else if c <=? 0xffff then
    [wrap8 (Z.lor (Z.land (Z.shiftr c 12) 0x0f) 0xe0);
     wrap8 (Z.lor (Z.land (Z.shiftr c 6) 0x3f) 0x80);
     wrap8 (Z.lor (Z.land c 0x3f) 0x80)]
  else if c <=? 0x1fffff then
    [wrap8 (Z.lor (Z.land (Z.shiftr c 18) 0x07) 0xf0);
     wrap8 (Z.lor (Z.land (Z.shiftr c 12) 0x3f) 0x80);
     wrap8 (Z.lor (Z.land (Z.shiftr c 6) 0x3f) 0x80);
     wrap8 (Z.lor (Z.land c 0x3f) 0x80)]
  else if c <=? 0x3ffffff then
    [wrap8 (Z.lor (Z.land (Z.shiftr c 24) 0x03) 0xf8);
     wrap8 (Z.lor (Z.land (Z.shiftr c 18) 0x3f) 0x80);
     wrap8 (Z.lor (Z.land (Z.shiftr c 12) 0x3f) 0x80);
     wrap8 (Z.lor (Z.land (Z.shiftr c 6) 0x3f) 0x80);
     wrap8 (Z.lor (Z.land c 0x3f) 0x80)]
  else if c <=? 0x7fffffff then
    [wrap8 (Z.lor (Z.land (Z.shiftr c 30) 0x01) 0xfc);
     wrap8 (Z.lor (Z.land (Z.shiftr c 24) 0x3f) 0x80);
     wrap8 (Z.lor (Z.land (Z.shiftr c 18) 0x3f) 0x80);
     wrap8 (Z.lor (Z.land (Z.shiftr c 12) 0x3f) 0x80);
     wrap8 (Z.lor (Z.land (Z.shiftr c 6) 0x3f) 0x80);
     wrap8 (Z.lor (Z.land c 0x3f) 0x80)]
  else [].

(* source/string_internal.hxx:412-420 -- rawDecodeUtf16 (char32_t arithmetic) *)
Definition rawDecodeUtf16 (wc0 wc1 : Z) : Z :=
  wrap32 (0x10000 + Z.shiftl (Z.land wc0 0x3ff) 10 + Z.land wc1 0x3ff).

(* source/string_internal.hxx:426-445 -- rawEncodeUtf16<C>: the units handed to the adder *)
Definition rawEncodeUtf16 (c : Z) : list Z :=
  if c <? 0x10000 then [wrap16 c]
  else let c' := wrap32 (c - 0x10000) in
       [wrap16 (0xd800 + Z.land (Z.shiftr c' 10) 0x3ff);
        wrap16 (0xdc00 + Z.land c' 0x3ff)].
