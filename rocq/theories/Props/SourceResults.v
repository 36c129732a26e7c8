(* The library source as parsed (Gen/Source.v), run by the semantics of Cxx/Semantics.v: the conversions (C87) and
   the lengths (C88) are what the model says; whether char is signed makes no difference (C89); what the source
   does in terms of the specification (C90).  For C86 see also Props/Source.v. *)
From Coq Require Import ZArith List Bool String.
From Verif Require Import Machine.
From Verif.Model Require Import Tables Internal Predicate Decode Str Sugar.
From Verif.Cxx Require Import Syntax Semantics Program Values.
From Verif.Spec Require Import Utf Target Result Source.
From Verif.Proof Require Import CxxMono CxxResults CxxEndToEnd.
Import ListNotations.
Local Open Scope string_scope.
Local Open Scope list_scope.
Local Open Scope Z_scope.

(* ---------------------------------------------------------------- C87 *)

Theorem C87_toUtf8 : forall I T,
  (forall arr p, points_into unit16 arr p ->
     runs_to I T "toUtf8" [vptr Char16 arr p] (string_of Char (toUtf8_16 p))) /\
  (forall s, Forall unit16 s ->
     runs_to I T "toUtf8" [VS Char16 s] (string_of Char (toUtf8_16_string s))) /\
  (forall arr p, points_into unit32 arr p ->
     runs_to I T "toUtf8" [vptr Char32 arr p] (string_of Char (toUtf8_32 p))) /\
  (forall s, Forall unit32 s ->
     runs_to I T "toUtf8" [VS Char32 s] (string_of Char (toUtf8_32_string s))).
Proof. exact all_toUtf8. Qed.
Print Assumptions C87_toUtf8.

Theorem C87_toUcs2 : forall I T,
  (forall arr p, points_into byte arr p ->
     runs_to I T "toUcs2" [vptr Char arr p] (string_of Char16 (toUcs2_8 p))) /\
  (forall s, Forall byte s ->
     runs_to I T "toUcs2" [VS Char s] (string_of Char16 (toUcs2_8_string s))) /\
  (forall arr p, points_into unit32 arr p ->
     runs_to I T "toUcs2" [vptr Char32 arr p] (string_of Char16 (toUcs2_32 p))) /\
  (forall s, Forall unit32 s ->
     runs_to I T "toUcs2" [VS Char32 s] (string_of Char16 (toUcs2_32_string s))).
Proof. exact all_toUcs2. Qed.
Print Assumptions C87_toUcs2.

Theorem C87_toUtf16 : forall I T,
  (forall arr p, points_into byte arr p ->
     runs_to I T "toUtf16" [vptr Char arr p] (string_of Char16 (toUtf16_8 p))) /\
  (forall s, Forall byte s ->
     runs_to I T "toUtf16" [VS Char s] (string_of Char16 (toUtf16_8_string s))) /\
  (forall arr p, points_into unit32 arr p ->
     runs_to I T "toUtf16" [vptr Char32 arr p] (string_of Char16 (toUtf16_32 p))) /\
  (forall s, Forall unit32 s ->
     runs_to I T "toUtf16" [VS Char32 s] (string_of Char16 (toUtf16_32_string s))).
Proof. exact all_toUtf16. Qed.
Print Assumptions C87_toUtf16.

Theorem C87_toUcs4 : forall I T,
  (forall arr p, points_into byte arr p ->
     runs_to I T "toUcs4" [vptr Char arr p] (string_of Char32 (toUcs4_8 p))) /\
  (forall s, Forall byte s ->
     runs_to I T "toUcs4" [VS Char s] (string_of Char32 (toUcs4_8_string s))) /\
  (forall arr p, points_into unit16 arr p ->
     runs_to I T "toUcs4" [vptr Char16 arr p] (string_of Char32 (toUcs4_16 p))) /\
  (forall s, Forall unit16 s ->
     runs_to I T "toUcs4" [VS Char16 s] (string_of Char32 (toUcs4_16_string s))).
Proof. exact all_toUcs4. Qed.
Print Assumptions C87_toUcs4.

Definition signed_chars : implementation := {| char_signed := true; pointer_checks := false; configured := Wchar32 |}.
Definition strict : implementation := {| char_signed := true; pointer_checks := true; configured := Wchar32 |}.
Definition strict_unsigned : implementation := {| char_signed := false; pointer_checks := true; configured := Wchar32 |}.

Ltac run_it := apply (runs_from _ _ 20 10); [vm_compute; discriminate | vm_compute; reflexivity].

(* U+1F600 both ways, and an unpaired half *)
Example C87_case :
  Forall unit32 [0x41; 0x1F600] /\
  runs_to strict tables16 "toUtf8" [VS Char32 [0x41; 0x1F600]] (Done (VS Char [0x41; 0xF0; 0x9F; 0x98; 0x80])) /\
  runs_to strict_unsigned tables16 "toUcs4" [VS Char [0x41; 0xF0; 0x9F; 0x98; 0x80]] (Done (VS Char32 [0x41; 0x1F600])) /\
  runs_to strict tables16 "toUtf16" [VS Char [0x41; 0xF0; 0x9F; 0x98; 0x80]] (Done (VS Char16 [0x41; 0xD83D; 0xDE00])) /\
  runs_to strict tables16 "toUcs2" [VS Char [0x41; 0xF0; 0x9F; 0x98; 0x80]] (Done (VS Char16 [])) /\
  runs_to strict tables16 "toUtf8" [VS Char16 [0xDE00]] (Done (VS Char [0xED; 0xB8; 0x80])) /\
  runs_to strict tables16 "toUcs4" [VS Char16 [0xDE00]] (Done (VS Char32 [])) /\
  runs_to strict tables16 "toUtf8" [VP Char16 PNull] (Done (VS Char [])) /\
  runs_to strict tables16 "toUtf8" [vptr Char32 [0x41; 0x42] (At [0x42])] Undefined.
Proof. split; [repeat constructor; discriminate|]. repeat split; run_it. Qed.

(* ---------------------------------------------------------------- C88 *)

Theorem C88_unicodeLength : forall I T,
  (forall arr p n, points_into byte arr p -> may_step_back I arr p -> uint32 n ->
     runs_to I T "unicodeLength" [vptr Char arr p; VI UInt n] (integer UInt (unicodeLength8 p n))) /\
  (forall arr p, points_into byte arr p -> may_step_back I arr p ->
     runs_to I T "unicodeLength" [vptr Char arr p] (integer UInt (unicodeLength8 p 0))) /\
  (forall s, Forall byte s -> pointer_checks I = false ->
     runs_to I T "unicodeLength" [VS Char s] (integer UInt (unicodeLength8_string s))) /\
  (forall arr p n, points_into unit16 arr p -> may_step_back I arr p -> uint32 n ->
     runs_to I T "unicodeLength" [vptr Char16 arr p; VI UInt n] (integer UInt (unicodeLength16 p n))) /\
  (forall arr p, points_into unit16 arr p -> may_step_back I arr p ->
     runs_to I T "unicodeLength" [vptr Char16 arr p] (integer UInt (unicodeLength16 p 0))) /\
  (forall s, Forall unit16 s -> pointer_checks I = false ->
     runs_to I T "unicodeLength" [VS Char16 s] (integer UInt (unicodeLength16_string s))) /\
  (forall arr p n, points_into unit32 arr p -> may_step_to I n p -> uint32 n ->
     runs_to I T "unicodeLength" [vptr Char32 arr p; VI UInt n] (integer UInt (unicodeLength32 p n))) /\
  (forall arr p, points_into unit32 arr p ->
     runs_to I T "unicodeLength" [vptr Char32 arr p] (integer UInt (unicodeLength32 p 0))) /\
  (forall s, Forall unit32 s ->
     runs_to I T "unicodeLength" [VS Char32 s] (integer UInt (unicodeLength32_string s))).
Proof. exact all_unicodeLength. Qed.
Print Assumptions C88_unicodeLength.

Example C88_case :
  points_into byte [0x58; 0xC3; 0xA9; 0x41; 0] (At [0xC3; 0xA9; 0x41; 0]) /\
  may_step_back strict [0x58; 0xC3; 0xA9; 0x41; 0] (At [0xC3; 0xA9; 0x41; 0]) /\ uint32 2 /\
  may_step_to strict 2 (At [0x41; 0x42; 0]) /\
  runs_to strict tables16 "unicodeLength" [vptr Char [0x58; 0xC3; 0xA9; 0x41; 0] (At [0xC3; 0xA9; 0x41; 0])] (Done (VI UInt 2)) /\
  runs_to strict tables16 "unicodeLength" [vptr Char [0x58; 0xC3; 0xA9; 0x41; 0] (At [0xC3; 0xA9; 0x41; 0]); VI UInt 2] (Done (VI UInt 1)) /\
  runs_to signed_chars tables16 "unicodeLength" [VS Char16 [0xD83D; 0xDE00; 0x41]] (Done (VI UInt 2)) /\
  runs_to signed_chars tables16 "unicodeLength" [VS Char16 [0xD83D]] (Done (VI UInt 0xFFFFFFFF)) /\
  runs_to strict tables16 "unicodeLength" [vptr Char32 [0x41; 0x42; 0] (At [0x41; 0x42; 0]); VI UInt 2] (Done (VI UInt 2)) /\
  runs_to signed_chars tables16 "unicodeLength" [VP Char16 PNull] Undefined.
Proof.
  split; [split; [exists [0x58]; reflexivity | repeat constructor; discriminate]|].
  split; [right; reflexivity|]. split; [vm_compute; split; congruence|]. split; [right; vm_compute; congruence|].
  repeat split; run_it.
Qed.

(* ---------------------------------------------------------------- C86 *)

(* unicodeLength, too, forms pointers before its array (for char and char16_t) and, for char32_t, past the end
   of it, where a length greater than the array's is given. *)
Theorem C86_unicodeLength_refuted : exists I T,
  (exists s, Forall byte s /\ ~ In 0 s /\ unicodeLength8_string s = Done 1 /\ runs_to I T "unicodeLength" [VS Char s] Undefined) /\
  (exists s, Forall unit16 s /\ ~ In 0 s /\ unicodeLength16_string s = Done 1 /\ runs_to I T "unicodeLength" [VS Char16 s] Undefined) /\
  (exists arr n, Forall unit32 arr /\ unicodeLength32 (At arr) n = Done 0 /\
     runs_to I T "unicodeLength" [vptr Char32 arr (At arr); VI UInt n] Undefined).
Proof. exact length_steps_back. Qed.
Print Assumptions C86_unicodeLength_refuted.

(* What holds, by the letter of the standard too: the other functions never form such pointers, nor do isUtf8 and
   unicodeLength where something stands before the text.  Missing: texts at the beginning of their arrays. *)
Theorem C86_others_partial : forall I T,
  (forall us f, text8 us -> In f ["toUcs2"; "toUtf16"; "toUcs4"] -> call_returns I T f [VS Char us]) /\
  (forall us f, text16 us -> In f ["isUtf16"; "isUcs2"; "toUtf8"; "toUcs4"] -> call_returns I T f [VS Char16 us]) /\
  (forall us f, text32 us -> In f ["isUcs4"; "toUtf8"; "toUcs2"; "toUtf16"; "unicodeLength"] -> call_returns I T f [VS Char32 us]) /\
  (forall b us f, byte b -> text8 us -> In f ["isUtf8"; "unicodeLength"] ->
     call_returns I T f [vptr Char (b :: us ++ [0]) (At (us ++ [0]))]) /\
  (forall b us, unit16 b -> text16 us -> call_returns I T "unicodeLength" [vptr Char16 (b :: us ++ [0]) (At (us ++ [0]))]).
Proof. exact e_returns. Qed.
Print Assumptions C86_others_partial.
Example C86_case : text8 [0xC3; 0xA9] /\ byte 0x58 /\
  runs_to strict tables16 "isUtf8" [vptr Char (0x58 :: [0xC3; 0xA9] ++ [0]) (At ([0xC3; 0xA9] ++ [0]))] (Done (VB true)) /\
  runs_to strict tables16 "isUtf8" [vptr Char ([0xC3; 0xA9] ++ [0]) (At ([0xC3; 0xA9] ++ [0]))] Undefined.
Proof. split; [repeat constructor; discriminate|]. split; [vm_compute; split; congruence|]. split; run_it. Qed.

(* ---------------------------------------------------------------- C89 *)

Theorem C89_signedness_of_char : forall T f bs,
  In f ["isUtf8"; "toUcs2"; "toUtf16"; "toUcs4"; "unicodeLength"] -> Forall byte bs ->
  exists r, forall b c, runs_to {| char_signed := b; pointer_checks := false; configured := c |} T f [VS Char bs] r.
Proof. exact e_signedness. Qed.
Print Assumptions C89_signedness_of_char.
(* the two do differ in what a char holding C3 is *)
Example C89_case : Forall byte [0xC3; 0xA9] /\ norm strict Char 0xC3 = -61 /\ norm strict_unsigned Char 0xC3 = 0xC3 /\
  runs_to strict tables16 "toUcs4" [VS Char [0xC3; 0xA9]] (Done (VS Char32 [0xE9])) /\
  runs_to strict_unsigned tables16 "toUcs4" [VS Char [0xC3; 0xA9]] (Done (VS Char32 [0xE9])).
Proof. split; [repeat constructor; discriminate|]. split; [reflexivity|]. split; [reflexivity|]. split; run_it. Qed.

(* ---------------------------------------------------------------- C90 *)

Theorem C90_conversions : forall I T,
  (forall bs, text8 bs -> call_converts I T "toUcs4" [VS Char bs] Char32 (fun cs => reads_as cs bs) (fun cs => cs)) /\
  (forall bs, text8 bs -> call_converts I T "toUtf16" [VS Char bs] Char16
     (fun cs => reads_as cs bs /\ Forall (fun c => c <= 0x10FFFF) cs) (flat_map utf16_units)) /\
  (forall bs, text8 bs -> call_converts I T "toUcs2" [VS Char bs] Char16
     (fun cs => reads_as cs bs /\ Forall (fun c => c <= 0xFFFF) cs) (fun cs => cs)) /\
  (forall us, text32 us -> call_converts I T "toUtf8" [VS Char32 us] Char
     (fun cs => cs = us /\ Forall encodable8 cs) (flat_map utf8_bytes)) /\
  (forall us, text32 us -> call_converts I T "toUtf16" [VS Char32 us] Char16
     (fun cs => cs = us /\ Forall scalar cs) (flat_map utf16_units)) /\
  (forall us, text32 us -> call_converts I T "toUcs2" [VS Char32 us] Char16
     (fun cs => cs = us /\ Forall bmp cs) (fun cs => cs)) /\
  (forall us, text16 us -> call_converts I T "toUcs4" [VS Char16 us] Char32
     (fun cs => reads_as16 cs us) (fun cs => cs)) /\
  (forall us, text16 us -> call_converts I T "toUtf8" [VS Char16 us] Char
     (fun cs => lenient_as16 cs us) (flat_map utf8_bytes)).
Proof. exact e_conversions. Qed.
Print Assumptions C90_conversions.

Theorem C90_checks : forall I T,
  (forall bs t, pointer_checks I = false -> text8 bs ->
     call_answers I T "isUtf8" [VS Char bs; VI Enum (code t)]
       (acceptable8 (range_isUtf8 t) (possible_lead t) bs)) /\
  (forall us t, text16 us ->
     call_answers I T "isUtf16" [VS Char16 us; VI Enum (code t)]
       (acceptable16 (documented t) (supplementary_target t) us)) /\
  (forall us t, text16 us ->
     call_answers I T "isUcs2" [VS Char16 us; VI Enum (code t)] (Forall (fun c => bmp c /\ documented t c) us)) /\
  (forall us t, text32 us ->
     call_answers I T "isUcs4" [VS Char32 us; VI Enum (code t)] (Forall (range_isUcs4 t) us)).
Proof. exact e_checks. Qed.
Print Assumptions C90_checks.

Theorem C90_round_trips : forall I T,
  (forall s, Forall encodable8 s ->
     exists bs, runs_to I T "toUtf8" [VS Char32 s] (Done (VS Char bs)) /\ runs_to I T "toUcs4" [VS Char bs] (Done (VS Char32 s))) /\
  (forall s, Forall scalar s ->
     exists us, runs_to I T "toUtf16" [VS Char32 s] (Done (VS Char16 us)) /\ runs_to I T "toUcs4" [VS Char16 us] (Done (VS Char32 s))) /\
  (forall cs, Forall scalar cs ->
     exists bs, runs_to I T "toUtf8" [VS Char16 (flat_map utf16_units cs)] (Done (VS Char bs)) /\
       runs_to I T "toUtf16" [VS Char bs] (Done (VS Char16 (flat_map utf16_units cs)))).
Proof. exact e_round. Qed.
Print Assumptions C90_round_trips.

Example C90_case : Forall encodable8 [0x41; 0x7FFFFFFF] /\ Forall scalar [0x41; 0x1F600] /\
  text8 [0x41; 0xE2; 0x82] /\ reads_as [0x41] [0x41; 0xE2; 0x82] /\
  runs_to strict tables16 "toUcs4" [VS Char [0x41; 0xE2; 0x82]] (Done (VS Char32 [0x41])).
Proof. exact case_end_to_end. Qed.
