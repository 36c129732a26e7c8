(* source/string_decode_utf8.cxx *)
From Coq Require Import ZArith List Bool.
From Verif Require Import Machine.
From Verif.Model Require Import Internal.
Import ListNotations.
Local Open Scope Z_scope.

(* The fragment the C++ repeats for every byte after the first:
     auto ucN = static_cast<unsigned char>( *++p ); if (ucN == 0) { return 0; }
     if (ucN < lo || ucN > hi) { p = nullptr; return 0; }
   (source/string_decode_utf8.cxx:97-98 and the identical pairs of lines up to 188).
   [rest] is p before the increment; [k ucN p] is the code after the fragment. *)
Definition next_byte (lo hi : Z) (rest : list Z)
  (k : Z -> list Z -> outcome (Z * ptr)) : outcome (Z * ptr) :=
  do p <- incr rest;
  do ucn <- deref p;
  if ucn =? 0 then Done (0, At p)
  else if (ucn <? lo) || (ucn >? hi) then Done (0, Null)
  else k ucn p.

(* source/string_decode_utf8.cxx:78-201 -- decodeUtf8(const char*& p): the returned value
   and the value of p afterwards. *)
Definition decodeUtf8 (p : list Z) : outcome (Z * ptr) :=
  do uc <- deref p;
  if uc <=? 0x7f then Done (uc, At p)
  else if uc <=? 0xbf then Done (0, Null)
  else if uc <=? 0xdf then
    next_byte 0x80 0xbf p (fun uc1 p =>
      let r := rawDecodeUtf8_2 uc uc1 in
      if r <? 0x80 then Done (0, Null) else Done (r, At p))
  else if uc <=? 0xef then
    next_byte 0x80 0xbf p (fun uc1 p =>
    next_byte 0x80 0xbf p (fun uc2 p =>
      let w := rawDecodeUtf8_3 uc uc1 uc2 in
      if isFirstHalfUtf16 w then
        next_byte 0xe0 0xef p (fun uc3 p =>
        next_byte 0x80 0xbf p (fun uc4 p =>
        next_byte 0x80 0xbf p (fun uc5 p =>
          let w2 := rawDecodeUtf8_3 uc3 uc4 uc5 in
          if isSecondHalfUtf16 w2
          then Done (wrap32 (0x10000 + Z.shiftl (Z.land w 0x3ff) 10 + Z.land w2 0x3ff), At p)
          else Done (0, Null))))
      else if (w <? 0x800) || isSecondHalfUtf16 w then Done (0, Null)
      else Done (w, At p)))
  else if uc <=? 0xf7 then
    next_byte 0x80 0xbf p (fun uc1 p =>
    next_byte 0x80 0xbf p (fun uc2 p =>
    next_byte 0x80 0xbf p (fun uc3 p =>
      let r := rawDecodeUtf8_4 uc uc1 uc2 uc3 in
      if r <? 0x10000 then Done (0, Null) else Done (r, At p))))
  else if uc <=? 0xfb then
    next_byte 0x80 0xbf p (fun uc1 p =>
    next_byte 0x80 0xbf p (fun uc2 p =>
    next_byte 0x80 0xbf p (fun uc3 p =>
    next_byte 0x80 0xbf p (fun uc4 p =>
      let r := rawDecodeUtf8_5 uc uc1 uc2 uc3 uc4 in
      if r <? 0x200000 then Done (0, Null) else Done (r, At p)))))
  else if uc <=? 0xfd then
    next_byte 0x80 0xbf p (fun uc1 p =>
    next_byte 0x80 0xbf p (fun uc2 p =>
    next_byte 0x80 0xbf p (fun uc3 p =>
    next_byte 0x80 0xbf p (fun uc4 p =>
    next_byte 0x80 0xbf p (fun uc5 p =>
      let r := rawDecodeUtf8_6 uc uc1 uc2 uc3 uc4 uc5 in
      if r <? 0x4000000 then Done (0, Null) else Done (r, At p))))))
  else Done (0, Null).
