(* source/string.cxx *)
From Coq Require Import String ZArith List Bool.
From Verif Require Import Machine.
From Verif.Model Require Import Internal Decode Tables Predicate.
Import ListNotations.
Local Open Scope Z_scope.

(* ------------------------------------------------------------------ local helpers *)

(* source/string.cxx:63-64 -- rangeTypeToRangeFlag[] *)
Definition rangeTypeToRangeFlag : list Z :=
  [kAsciiFlag; kUtf8Flag; kUcs2Flag; kUtf16Flag; kUcs4Flag; kUnicodeFlag].

(* array read with an index already checked by the caller (source/string.cxx:232, 371, 430, 468) *)
Definition rangeFlagOf (targetRange : Z) : Z := nth (Z.to_nat targetRange) rangeTypeToRangeFlag 0.

(* source/string.cxx:223, 362, 421, 459 -- targetRange < kAscii || targetRange > kUnicode *)
Definition badRange (targetRange : Z) : bool := (targetRange <? kAscii) || (targetRange >? kUnicode).

(* source/string.cxx:74-85 -- isUtf16Encodable<char32_t>; ~0x1fffff is converted to unsigned *)
Definition isUtf16Encodable (c : Z) : bool :=
  (c <=? 0x10ffff) && (Z.land c (wrap32 (Z.lnot 0x1fffff)) =? 0).

(* source/string.cxx:93-99 *)
Definition isUtf16EscapedRange (c : Z) : bool := isFirstHalfUtf16 c || isSecondHalfUtf16 c.

(* source/string.cxx:112-158 -- sequenceSizeCharStarts on a non-null pointer to byte uc (int result) *)
Definition sequenceSizeCharStarts (uc : Z) : Z :=
  if uc =? 0 then 0
  else if uc <=? 0x7f then 1
  else if uc <=? 0xbf then -1
  else if uc <=? 0xdf then 2
  else if uc <=? 0xef then 3
  else if uc <=? 0xf7 then 4
  else if uc <=? 0xfb then 5
  else if uc <=? 0xfd then 6
  else -1.

(* source/string.cxx:169-178 -- reads p[0], p[1], p[2] *)
Definition isFirstHalfUtf16AsUtf8 (p : list Z) : outcome bool :=
  do c0 <- index p 0; do c1 <- index p 1; do c2 <- index p 2;
  Done (isFirstHalfUtf16 (rawDecodeUtf8_3 c0 c1 c2)).

(* source/string.cxx:189-198 -- reads p[0], p[1], p[2] *)
Definition isSecondHalfUtf16AsUtf8 (p : list Z) : outcome bool :=
  do c0 <- index p 0; do c1 <- index p 1; do c2 <- index p 2;
  Done (isSecondHalfUtf16 (rawDecodeUtf8_3 c0 c1 c2)).

(* source/string.cxx:331-334 *)
Definition getUnicodeVersionSupported (T : UnicodeTables) : string := t_version T.

(* The length check the UTF-8 scanners do before decoding, when length terminated:
   source/string.cxx:250-271 (isUtf8) and :768-791 (unicodeLength), identical except for
   what they return.  [outOfOrder] is returned for an unexpected second half, [outOfSpace]
   when the sequence does not fit; [k seqStarts] is the code after the check. *)
Definition lengthCheck {A} (p : list Z) (uc lengthLeft : Z) (outOfOrder outOfSpace : A)
  (k : Z -> outcome A) : outcome A :=
  let seqStarts := wrap32 (sequenceSizeCharStarts uc) in
  let enoughRoom seqStarts :=
    if seqStarts >? lengthLeft then Done outOfSpace else k seqStarts in
  if seqStarts =? 3 then
    do second <- (if lengthLeft >? 1 then isSecondHalfUtf16AsUtf8 p else Done false);
    if second then Done outOfOrder
    else
      do first <- (if lengthLeft >=? 3 then isFirstHalfUtf16AsUtf8 p else Done false);
      enoughRoom (if first then 6 else seqStarts)
  else enoughRoom seqStarts.

(* ------------------------------------------------------------------ isUtf8 *)

(* source/string.cxx:238-314 -- the for loop.  [p]: the loop variable; [pLast]: how many
   elements lie between pLast and the end of the array (pLast starts one before test;
   it is only used in the difference p - pLast). *)
Fixpoint isUtf8_loop (T : UnicodeTables) (pred : EncodingCheckPredicate) (restrictToThis : Z)
  (lengthTerminated : bool) (fuel : nat) (p : list Z) (pLast lengthLeft : Z) : outcome bool :=
  match fuel with
  | O => OutOfFuel
  | S fuel =>
    do u <- deref p;
    if u =? 0 then Done (negb lengthTerminated)
    else if Z.land (getRangeFlag8 u) restrictToThis =? 0 then Done false
    else
      let decodeAndGoOn (seqStarts : Z) : outcome bool :=
        do cp <- decodeUtf8 p;
        let '(c, p') := cp in
        match p' with
        | Null => Done false
        | At p' =>
          if c =? 0 then (do z <- deref p'; Done (z =? 0))
          else
            let usedThisTime := wrap32 (pLast - remaining p') in
            if lengthTerminated && negb (seqStarts =? usedThisTime) then Done false
            else
              let charFlag := getCharEncodableRangeFlags c in
              if (Z.land charFlag restrictToThis =? 0)
                 || (negb (predicateEq pred nullPredicate) && negb (pred32 T pred c))
              then Done false
              else if lengthTerminated && (lengthLeft <=? usedThisTime) then Done true
              else
                do p'' <- incr p';
                isUtf8_loop T pred restrictToThis lengthTerminated fuel p''
                  (if lengthTerminated then remaining p' else pLast)
                  (if lengthTerminated then wrap32 (lengthLeft - usedThisTime) else lengthLeft)
        end in
      if lengthTerminated
      then lengthCheck p u lengthLeft false true decodeAndGoOn
      else decodeAndGoOn (wrap32 (sequenceSizeCharStarts u))
  end.

(* source/string.cxx:210-318 -- the local isUtf8 all public ones call *)
Definition isUtf8_impl (T : UnicodeTables) (test : ptr) (testLength targetRange : Z)
  (pred : EncodingCheckPredicate) : outcome bool :=
  let lengthTerminated := negb (testLength =? 0) in
  if badRange targetRange then Done false
  else match test with
  | Null => Done true
  | At p =>
    do u <- deref p;
    if u =? 0 then Done true
    else isUtf8_loop T pred (rangeFlagOf targetRange) lengthTerminated (S (length p)) p
           (remaining p + 1) testLength
  end.

(* source/string.cxx:343-346 -- isUtf8(const char*, RangeType, pred) *)
Definition isUtf8 (T : UnicodeTables) (test : ptr) (targetRange : Z)
  (pred : EncodingCheckPredicate) : outcome bool := isUtf8_impl T test 0 targetRange pred.

(* source/string.cxx:338-341 -- isUtf8(const std::string&, RangeType, pred) *)
Definition isUtf8_string (T : UnicodeTables) (test : list Z) (targetRange : Z)
  (pred : EncodingCheckPredicate) : outcome bool := isUtf8_impl T (c_str test) 0 targetRange pred.

(* source/string.cxx:348-351 -- isUtf8(const char*, unsigned int, pred) *)
Definition isUtf8_length (T : UnicodeTables) (test : ptr) (testLength : Z)
  (pred : EncodingCheckPredicate) : outcome bool := isUtf8_impl T test testLength kUtf8 pred.

(* ------------------------------------------------------------------ isUtf16 *)

(* source/string.cxx:374-407 -- the for loop *)
Fixpoint isUtf16_loop (T : UnicodeTables) (pred : EncodingCheckPredicate) (restrictToThis : Z)
  (p : list Z) : outcome bool :=
  match p with
  | [] => Undefined
  | c :: p' =>
    if c =? 0 then Done true
    else if Z.land (getRangeFlag16 c) restrictToThis =? 0 then Done false
    else
      let rejects charFlag :=
        (Z.land charFlag restrictToThis =? 0)
        || (negb (predicateEq pred nullPredicate) && negb (pred16 T pred c)) in
      if isFirstHalfUtf16 c then
        match p' with
        | [] => Undefined
        | c1 :: p'' =>
          if c1 =? 0 then Done true                      (* break *)
          else if negb (isSecondHalfUtf16 c1) then Done false
          else if rejects k21BitUnicodeFlags then Done false
          else isUtf16_loop T pred restrictToThis p''
        end
      else if rejects (getCharEncodableRangeFlags c) then Done false
      else isUtf16_loop T pred restrictToThis p'
  end.

(* source/string.cxx:360-410 -- isUtf16(const char16_t*, RangeType, pred) *)
Definition isUtf16 (T : UnicodeTables) (test : ptr) (targetRange : Z)
  (pred : EncodingCheckPredicate) : outcome bool :=
  if badRange targetRange then Done false
  else match test with
  | Null => Done true
  | At p =>
    do u <- deref p;
    if u =? 0 then Done true else isUtf16_loop T pred (rangeFlagOf targetRange) p
  end.

(* source/string.cxx:355-358 *)
Definition isUtf16_string (T : UnicodeTables) (test : list Z) (targetRange : Z)
  (pred : EncodingCheckPredicate) : outcome bool := isUtf16 T (c_str test) targetRange pred.

(* ------------------------------------------------------------------ isUcs2 *)

(* source/string.cxx:433-445 -- the for loop *)
Fixpoint isUcs2_loop (T : UnicodeTables) (pred : EncodingCheckPredicate) (restrictToThis : Z)
  (p : list Z) : outcome bool :=
  match p with
  | [] => Undefined
  | c :: p' =>
    if c =? 0 then Done true
    else if isUtf16EscapedRange c then Done false
    else if (Z.land (getCharEncodableRangeFlags c) restrictToThis =? 0)
            || (negb (predicateEq pred nullPredicate) && negb (pred16 T pred c))
    then Done false
    else isUcs2_loop T pred restrictToThis p'
  end.

(* source/string.cxx:419-448 -- isUcs2(const char16_t*, RangeType, pred) *)
Definition isUcs2 (T : UnicodeTables) (test : ptr) (targetRange : Z)
  (pred : EncodingCheckPredicate) : outcome bool :=
  if badRange targetRange then Done false
  else match test with
  | Null => Done true
  | At p =>
    do u <- deref p;
    if u =? 0 then Done true else isUcs2_loop T pred (rangeFlagOf targetRange) p
  end.

(* source/string.cxx:414-417 *)
Definition isUcs2_string (T : UnicodeTables) (test : list Z) (targetRange : Z)
  (pred : EncodingCheckPredicate) : outcome bool := isUcs2 T (c_str test) targetRange pred.

(* ------------------------------------------------------------------ isUcs4 *)

(* source/string.cxx:471-478 -- the for loop *)
Fixpoint isUcs4_loop (T : UnicodeTables) (pred : EncodingCheckPredicate) (restrictToThis : Z)
  (p : list Z) : outcome bool :=
  match p with
  | [] => Undefined
  | c :: p' =>
    if c =? 0 then Done true
    else if (Z.land (getCharEncodableRangeFlags c) restrictToThis =? 0)
            || (negb (predicateEq pred nullPredicate) && negb (pred32 T pred c))
    then Done false
    else isUcs4_loop T pred restrictToThis p'
  end.

(* source/string.cxx:457-481 -- isUcs4(const char32_t*, RangeType, pred) *)
Definition isUcs4 (T : UnicodeTables) (test : ptr) (targetRange : Z)
  (pred : EncodingCheckPredicate) : outcome bool :=
  if badRange targetRange then Done false
  else match test with
  | Null => Done true
  | At p =>
    do u <- deref p;
    if u =? 0 then Done true else isUcs4_loop T pred (rangeFlagOf targetRange) p
  end.

(* source/string.cxx:452-455 *)
Definition isUcs4_string (T : UnicodeTables) (test : list Z) (targetRange : Z)
  (pred : EncodingCheckPredicate) : outcome bool := isUcs4 T (c_str test) targetRange pred.

(* ------------------------------------------------------------------ toUtf8 *)

(* `if (src && *src) { for (p = src; *p; ++p) ... } return result;` with an empty result:
   the shape of every to-function (source/string.cxx:490, 526, 558, 588, 615, 646, 676, 706) *)
Definition convert (src : ptr) (loop : list Z -> outcome (list Z)) : outcome (list Z) :=
  match src with
  | Null => Done []
  | At p => do u <- deref p; if u =? 0 then Done [] else loop p
  end.

(* source/string.cxx:493-510 -- the for loop of toUtf8(const char16_t* ) *)
Fixpoint toUtf8_16_loop (p : list Z) (result : list Z) : outcome (list Z) :=
  match p with
  | [] => Undefined
  | c :: p' =>
    if c =? 0 then Done result
    else if isFirstHalfUtf16 c then
      match p' with
      | [] => Undefined
      | c1 :: p'' =>
        if c1 =? 0 then Done result                       (* break *)
        else if negb (isSecondHalfUtf16 c1) then Done []
        else toUtf8_16_loop p'' (result ++ encodeUtf8 (rawDecodeUtf16 c c1))
      end
    else toUtf8_16_loop p' (result ++ encodeUtf8 c)
  end.

(* source/string.cxx:487-514 *)
Definition toUtf8_16 (src : ptr) : outcome (list Z) := convert src (fun p => toUtf8_16_loop p []).
(* source/string.cxx:516-519 *)
Definition toUtf8_16_string (src : list Z) : outcome (list Z) := toUtf8_16 (c_str src).

(* source/string.cxx:529-540 -- the for loop of toUtf8(const char32_t* ) *)
Fixpoint toUtf8_32_loop (p : list Z) (result : list Z) : outcome (list Z) :=
  match p with
  | [] => Undefined
  | c :: p' =>
    if c =? 0 then Done result
    else if (Z.land c 0x80000000 =? 0) && negb (isFirstHalfUtf16 c) && negb (isSecondHalfUtf16 c)
    then toUtf8_32_loop p' (result ++ encodeUtf8 c)
    else Done []
  end.

(* source/string.cxx:523-544 *)
Definition toUtf8_32 (src : ptr) : outcome (list Z) := convert src (fun p => toUtf8_32_loop p []).
(* source/string.cxx:546-549 *)
Definition toUtf8_32_string (src : list Z) : outcome (list Z) := toUtf8_32 (c_str src).

(* ------------------------------------------------------------------ toUcs2 *)

(* source/string.cxx:560-572 -- the for loop of toUcs2(const char* ) *)
Fixpoint toUcs2_8_loop (fuel : nat) (p : list Z) (result : list Z) : outcome (list Z) :=
  match fuel with
  | O => OutOfFuel
  | S fuel =>
    do u <- deref p;
    if u =? 0 then Done result
    else
      do cp <- decodeUtf8 p;
      let '(c, p') := cp in
      match p' with
      | Null => Done []
      | At p' =>
        if c >? 0xffff then Done []
        else if c =? 0 then Done result                   (* break *)
        else do p'' <- incr p'; toUcs2_8_loop fuel p'' (result ++ [wrap16 c])
      end
  end.

(* source/string.cxx:555-576 *)
Definition toUcs2_8 (src : ptr) : outcome (list Z) :=
  convert src (fun p => toUcs2_8_loop (S (length p)) p []).
(* source/string.cxx:578-581 *)
Definition toUcs2_8_string (src : list Z) : outcome (list Z) := toUcs2_8 (c_str src).

(* source/string.cxx:590-597 -- the for loop of toUcs2(const char32_t* ) *)
Fixpoint toUcs2_32_loop (p : list Z) (result : list Z) : outcome (list Z) :=
  match p with
  | [] => Undefined
  | c :: p' =>
    if c =? 0 then Done result
    else if isFirstHalfUtf16 c || isSecondHalfUtf16 c || (c >=? 0x10000) then Done []
    else toUcs2_32_loop p' (result ++ [wrap16 c])
  end.

(* source/string.cxx:585-601 *)
Definition toUcs2_32 (src : ptr) : outcome (list Z) := convert src (fun p => toUcs2_32_loop p []).
(* source/string.cxx:603-606 *)
Definition toUcs2_32_string (src : list Z) : outcome (list Z) := toUcs2_32 (c_str src).

(* ------------------------------------------------------------------ toUtf16 *)

(* source/string.cxx:618-630 -- the for loop of toUtf16(const char* ) *)
Fixpoint toUtf16_8_loop (fuel : nat) (p : list Z) (result : list Z) : outcome (list Z) :=
  match fuel with
  | O => OutOfFuel
  | S fuel =>
    do u <- deref p;
    if u =? 0 then Done result
    else
      do cp <- decodeUtf8 p;
      let '(c, p') := cp in
      match p' with
      | Null => Done []
      | At p' =>
        if negb (isUtf16Encodable c) then Done []
        else if c =? 0 then Done result                   (* break *)
        else do p'' <- incr p'; toUtf16_8_loop fuel p'' (result ++ rawEncodeUtf16 c)
      end
  end.

(* source/string.cxx:612-634 *)
Definition toUtf16_8 (src : ptr) : outcome (list Z) :=
  convert src (fun p => toUtf16_8_loop (S (length p)) p []).
(* source/string.cxx:636-639 *)
Definition toUtf16_8_string (src : list Z) : outcome (list Z) := toUtf16_8 (c_str src).

(* source/string.cxx:649-658 -- the for loop of toUtf16(const char32_t* ) (p is never null there) *)
Fixpoint toUtf16_32_loop (p : list Z) (result : list Z) : outcome (list Z) :=
  match p with
  | [] => Undefined
  | c :: p' =>
    if c =? 0 then Done result
    else if negb (isUtf16Encodable c) || isFirstHalfUtf16 c || isSecondHalfUtf16 c then Done []
    else toUtf16_32_loop p' (result ++ rawEncodeUtf16 c)
  end.

(* source/string.cxx:643-662 *)
Definition toUtf16_32 (src : ptr) : outcome (list Z) := convert src (fun p => toUtf16_32_loop p []).
(* source/string.cxx:664-667 *)
Definition toUtf16_32_string (src : list Z) : outcome (list Z) := toUtf16_32 (c_str src).

(* ------------------------------------------------------------------ toUcs4 *)

(* source/string.cxx:678-690 -- the for loop of toUcs4(const char* ) *)
Fixpoint toUcs4_8_loop (fuel : nat) (p : list Z) (result : list Z) : outcome (list Z) :=
  match fuel with
  | O => OutOfFuel
  | S fuel =>
    do u <- deref p;
    if u =? 0 then Done result
    else
      do cp <- decodeUtf8 p;
      let '(c, p') := cp in
      match p' with
      | Null => Done []
      | At p' =>
        if c =? 0 then Done result                        (* break *)
        else do p'' <- incr p'; toUcs4_8_loop fuel p'' (result ++ [c])
      end
  end.

(* source/string.cxx:673-694 *)
Definition toUcs4_8 (src : ptr) : outcome (list Z) :=
  convert src (fun p => toUcs4_8_loop (S (length p)) p []).
(* source/string.cxx:696-699 *)
Definition toUcs4_8_string (src : list Z) : outcome (list Z) := toUcs4_8 (c_str src).

(* source/string.cxx:708-729 -- the for loop of toUcs4(const char16_t* ) *)
Fixpoint toUcs4_16_loop (p : list Z) (result : list Z) : outcome (list Z) :=
  match p with
  | [] => Undefined
  | c :: p' =>
    if c =? 0 then Done result
    else if isFirstHalfUtf16 c then
      match p' with
      | [] => Undefined
      | c1 :: p'' =>
        if c1 =? 0 then Done result                       (* break *)
        else if negb (isSecondHalfUtf16 c1) then Done []
        else toUcs4_16_loop p'' (result ++ [rawDecodeUtf16 c c1])
      end
    else if isSecondHalfUtf16 c then Done []
    else toUcs4_16_loop p' (result ++ [c])
  end.

(* source/string.cxx:703-733 *)
Definition toUcs4_16 (src : ptr) : outcome (list Z) := convert src (fun p => toUcs4_16_loop p []).
(* source/string.cxx:735-738 *)
Definition toUcs4_16_string (src : list Z) : outcome (list Z) := toUcs4_16 (c_str src).

(* ------------------------------------------------------------------ unicodeLength *)

(* source/string.cxx:763-831 -- the for loop of unicodeLength(const char*, unsigned int);
   [pLast] as in isUtf8_loop, [r] the unsigned counter *)
Fixpoint unicodeLength8_loop (lengthTerminated : bool) (fuel : nat) (p : list Z)
  (pLast lengthLeft r : Z) : outcome Z :=
  match fuel with
  | O => OutOfFuel
  | S fuel =>
    do u <- deref p;
    if u =? 0 then Done (if lengthTerminated then 0 else r)
    else
      let decodeAndGoOn (_ : Z) : outcome Z :=
        do cp <- decodeUtf8 p;
        let '(c, p') := cp in
        match p' with
        | Null => Done 0
        | At p' =>
          if Z.land (rangeFlagOf kUnicode) (getCharEncodableRangeFlags c) =? 0 then Done 0
          else if c =? 0 then
            do z <- deref p'; Done (if z =? 0 then wrap32 (r - 1) else 0)
          else
            let usedThisTime := wrap32 (pLast - remaining p') in
            if lengthTerminated && (lengthLeft =? usedThisTime) then Done (wrap32 (r + 1))
            else
              do p'' <- incr p';
              unicodeLength8_loop lengthTerminated fuel p''
                (if lengthTerminated then remaining p' else pLast)
                (if lengthTerminated then wrap32 (lengthLeft - usedThisTime) else lengthLeft)
                (wrap32 (r + 1))
        end in
      if lengthTerminated then lengthCheck p u lengthLeft 0 r decodeAndGoOn
      else decodeAndGoOn 0
  end.

(* source/string.cxx:749-836 *)
Definition unicodeLength8 (src : ptr) (testLength : Z) : outcome Z :=
  match src with
  | Null => Done 0
  | At p =>
    do u <- deref p;
    if u =? 0 then Done 0
    else unicodeLength8_loop (negb (testLength =? 0)) (S (length p)) p
           (remaining p + 1) testLength 0
  end.
(* source/string.cxx:744-747 (testLength defaults to 0, interface/string.hxx:401) *)
Definition unicodeLength8_string (src : list Z) : outcome Z := unicodeLength8 (c_str src) 0.

(* source/string.cxx:857-912 -- the for loop of unicodeLength(const char16_t*, unsigned int).
   p[1] is read whether or not the unit is a first half. *)
Fixpoint unicodeLength16_loop (lengthTerminated : bool) (p : list Z)
  (pLast lengthLeft r : Z) : outcome Z :=
  match p with
  | [] => Undefined
  | c :: p1 =>
    if c =? 0 then Done (if lengthTerminated then 0 else r)
    else if isSecondHalfUtf16 c then Done 0
    else
      let isFirstHalf := isFirstHalfUtf16 c in
      let wordsNeeded := if isFirstHalf then 2 else 1 in
      if lengthTerminated && (wordsNeeded >? lengthLeft) then Done r
      else
        match p1 with
        | [] => Undefined
        | c1 :: p2 =>
          if isFirstHalf && (c1 =? 0) then Done (wrap32 (r - 1))
          else if isFirstHalf && isSecondHalfUtf16 c1 then
            (* ++p: the loop variable is now p1 *)
            let usedThisTime := wrap32 (pLast - remaining p1) in
            if lengthTerminated && (lengthLeft =? usedThisTime) then Done (wrap32 (r + 1))
            else unicodeLength16_loop lengthTerminated p2
                   (if lengthTerminated then remaining p1 else pLast)
                   (if lengthTerminated then wrap32 (lengthLeft - usedThisTime) else lengthLeft)
                   (wrap32 (r + 1))
          else if isFirstHalf then Done 0
          else
            let usedThisTime := wrap32 (pLast - remaining p) in
            if lengthTerminated && (lengthLeft =? usedThisTime) then Done (wrap32 (r + 1))
            else unicodeLength16_loop lengthTerminated p1
                   (if lengthTerminated then remaining p else pLast)
                   (if lengthTerminated then wrap32 (lengthLeft - usedThisTime) else lengthLeft)
                   (wrap32 (r + 1))
        end
  end.

(* source/string.cxx:847-915 -- no null check: a null src is dereferenced *)
Definition unicodeLength16 (src : ptr) (testLength : Z) : outcome Z :=
  match src with
  | Null => Undefined
  | At p => unicodeLength16_loop (negb (testLength =? 0)) p (remaining p + 1) testLength 0
  end.
(* source/string.cxx:842-845 *)
Definition unicodeLength16_string (src : list Z) : outcome Z := unicodeLength16 (c_str src) 0.

(* source/string.cxx:932-943 -- the for loop of unicodeLength(const char32_t*, unsigned int).
   [used] is p - src, so p + 1 == src + testLength is used + 1 = testLength. *)
Fixpoint unicodeLength32_loop (testLength : Z) (p : list Z) (used r : Z) : outcome Z :=
  match p with
  | [] => Undefined
  | c :: p' =>
    if c =? 0 then Done (if negb (testLength =? 0) then 0 else r)
    else if isFirstHalfUtf16 c || isSecondHalfUtf16 c then Done 0
    else if negb (testLength =? 0) && (used + 1 =? testLength) then Done (wrap32 (r + 1))
    else unicodeLength32_loop testLength p' (used + 1) (wrap32 (r + 1))
  end.

(* source/string.cxx:926-946 -- no null check: a null src is dereferenced *)
Definition unicodeLength32 (src : ptr) (testLength : Z) : outcome Z :=
  match src with
  | Null => Undefined
  | At p => unicodeLength32_loop testLength p 0 0
  end.
(* source/string.cxx:921-924 *)
Definition unicodeLength32_string (src : list Z) : outcome Z := unicodeLength32 (c_str src) 0.
