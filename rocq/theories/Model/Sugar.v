(* The overloads of interface/string.hxx that leave out targetRange: the default arguments and the
   "syntactic-sugar" inline functions. *)
From Coq Require Import ZArith List Bool.
From Verif Require Import Machine.
From Verif.Model Require Import Internal Tables Predicate Str.
Import ListNotations.
Local Open Scope Z_scope.

(* interface/string.hxx:259-265 with targetRange and pred left out; 245-251 is the same on a string *)
Definition isUtf8_bare (T : UnicodeTables) (test : ptr) : outcome bool := isUtf8 T test kUtf8 nullPredicate.
(* interface/string.hxx:288-290; 285-287 is the same on a string *)
Definition isUtf16_bare (T : UnicodeTables) (test : ptr) : outcome bool := isUtf16 T test kUtf16 nullPredicate.
(* interface/string.hxx:303-305; 300-302 is the same on a string *)
Definition isUcs2_bare (T : UnicodeTables) (test : ptr) : outcome bool := isUcs2 T test kUcs2 nullPredicate.
(* interface/string.hxx:318-320; 315-317 is the same on a string *)
Definition isUcs4_bare (T : UnicodeTables) (test : ptr) : outcome bool := isUcs4 T test kUcs4 nullPredicate.

(* interface/string.hxx:267-271; 253-257 is the same on a string *)
Definition isUtf8_pred (T : UnicodeTables) (test : ptr) (pred : EncodingCheckPredicate) : outcome bool := isUtf8 T test kUtf8 pred.
(* interface/string.hxx:294-295; 292-293 is the same on a string *)
Definition isUtf16_pred (T : UnicodeTables) (test : ptr) (pred : EncodingCheckPredicate) : outcome bool := isUtf16 T test kUtf16 pred.
(* interface/string.hxx:309-310; 307-308 is the same on a string *)
Definition isUcs2_pred (T : UnicodeTables) (test : ptr) (pred : EncodingCheckPredicate) : outcome bool := isUcs2 T test kUcs2 pred.
(* interface/string.hxx:324-325; 322-323 is the same on a string *)
Definition isUcs4_pred (T : UnicodeTables) (test : ptr) (pred : EncodingCheckPredicate) : outcome bool := isUcs4 T test kUcs4 pred.

(* interface/string.hxx:397-401, 407, 413: unicodeLength with the length left out *)
Definition unicodeLength8_bare (src : ptr) : outcome Z := unicodeLength8 src 0.
Definition unicodeLength16_bare (src : ptr) : outcome Z := unicodeLength16 src 0.
Definition unicodeLength32_bare (src : ptr) : outcome Z := unicodeLength32 src 0.
