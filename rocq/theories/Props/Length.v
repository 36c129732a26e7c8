(* C26-C32: length-bounded verdicts and unicodeLength. *)
From Coq Require Import ZArith List Bool Lia.
From Verif Require Import Machine.
From Verif.Model Require Import Internal Decode Tables Predicate Str.
From Verif.Spec Require Import Utf Target Result Bounded.
From Verif.Proof Require Import LengthFuncs Calls Bounded16 Witness MemoryWitness MemoryCases.
Import ListNotations.
Local Open Scope Z_scope.

(* ---- C26: the verdict of isUtf8(p, n) ----
   Full statement (false both ways): for n > 0 bytes bs, isUtf8_length answers as the NUL-terminated
   isUtf8 does on bs.  It says yes to 0xE2 0x41 (whatever follows an announced but missing third byte
   is not looked at) and no to 0xED 0xB0. *)
Theorem C26_too_lax_refuted : exists bs, text8 bs /\
  (forall T a after, bytes (a :: after) -> isUtf8_length T (At (bs ++ a :: after)) (len bs) nullPredicate = Done true) /\
  (forall T junk, isUtf8 T (At (bs ++ 0 :: junk)) (code Utf8) nullPredicate = Done false).
Proof. exact bounded_too_lax. Qed.
Print Assumptions C26_too_lax_refuted.

Theorem C26_too_strict_refuted : exists bs, text8 bs /\
  (forall T a after, bytes (a :: after) -> isUtf8_length T (At (bs ++ a :: after)) (len bs) nullPredicate = Done false) /\
  (forall T junk, isUtf8 T (At (bs ++ 0 :: junk)) (code Utf8) nullPredicate = Done true).
Proof. exact bounded_too_strict. Qed.
Print Assumptions C26_too_strict_refuted.

(* What holds.  The exact answer, for any bytes of which the first is not zero; it does not depend on
   what follows them.  [bounded8]: whole sequences, then nothing, or a sequence that announces more
   than there is, or one interrupted by a zero. *)
Theorem C26_exact_answer_partial : forall T pred bs a after, bytes (bs ++ a :: after) -> 0 < hd 0 bs -> len bs < 0x100000000 ->
  answers Done (isUtf8_length T (At (bs ++ a :: after)) (len bs) pred) (bounded8 (fun c => pred32 T pred c = true) bs).
Proof. exact bounded_verdict. Qed.
Print Assumptions C26_exact_answer_partial.

Theorem C26_exact_answer_alone_partial : forall T pred bs, bytes bs -> 0 < hd 0 bs -> len bs < 0x100000000 ->
  ~ two_of_three (fun c => pred32 T pred c = true) bs ->
  answers Done (isUtf8_length T (At bs) (len bs) pred) (bounded8 (fun c => pred32 T pred c = true) bs).
Proof. exact bounded_verdict_alone. Qed.
Print Assumptions C26_exact_answer_alone_partial.

(* on well-formed text, cut anywhere, it agrees with the NUL-terminated call *)
Theorem C26_agrees_partial : forall T pred cs body tail a after junk, utf8_text cs body -> tail = [] \/ completable tail ->
  body ++ tail <> [] -> bytes (a :: after) -> len (body ++ tail) < 0x100000000 ->
  isUtf8_length T (At ((body ++ tail) ++ a :: after)) (len (body ++ tail)) pred =
  isUtf8 T (At ((body ++ tail) ++ 0 :: junk)) (code Utf8) pred.
Proof. exact bounded_agrees. Qed.
Print Assumptions C26_agrees_partial.

Example C26_case : bounded8 (fun c => pred32 (tables V7) nullPredicate c = true) [0x61; 0xE2; 0x82] /\
  isUtf8_length (tables V7) (At [0x61; 0xE2; 0x82; 0x41]) 3 nullPredicate = Done true /\
  isUtf8_length (tables V7) (At [0x61; 0xE2; 0x82; 0x41]) 4 nullPredicate = Done false /\
  isUtf8_length (tables V7) (At [0x61; 0xE2; 0x82; 0xAC]) 4 nullPredicate = Done true /\
  completable [0xE2; 0x82].
Proof. split; [exact case_runs_out|]. split; [reflexivity|]. split; [reflexivity|]. split; [reflexivity|exact case_completable]. Qed.

(* ---- C27: UTF-8 ---- *)
Theorem C27_counts : forall bs junk, text8 bs ->
  (forall cs, utf8_text cs bs -> Forall upto cs -> unicodeLength8 (At (bs ++ 0 :: junk)) 0 = Done (wrap32 (len cs))) /\
  ((forall cs, reads_as cs bs -> ~ Forall upto cs) -> unicodeLength8 (At (bs ++ 0 :: junk)) 0 = Done 0).
Proof. exact count8. Qed.
Print Assumptions C27_counts.

Example C27_case : utf8_text [0x61] [0x61] /\ Forall upto [0x61] /\
  unicodeLength8 (At [0x61; 0xE2; 0x82; 0xAC; 0xF0; 0x9F; 0x98; 0x80; 0]) 0 = Done 3 /\
  unicodeLength8 (At [0x61; 0x80; 0x61; 0]) 0 = Done 0 /\ unicodeLength8 (At [0x61; 0xF4; 0x90; 0x80; 0x80; 0]) 0 = Done 0.
Proof. split; [exact (proj1 case_text_8)|]. split; [exact (proj2 case_text_8)|]. repeat split. Qed.

(* ---- C28: incomplete tails ----
   Full statement (false): an incomplete sequence at the end is not counted, so the result is the
   number of complete code points.  The loop counts one less, and 2^32 - 1 if there are none. *)
Theorem C28_utf8_refuted : exists cs body tail, utf8_text cs body /\ completable tail /\
  (forall junk, unicodeLength8 (At ((body ++ tail) ++ 0 :: junk)) 0 <> Done (len cs)) /\
  (forall junk, unicodeLength8 (At ((body ++ tail) ++ 0 :: junk)) 0 = Done 0xFFFFFFFF).
Proof. exact tail_length8. Qed.
Print Assumptions C28_utf8_refuted.

Theorem C28_utf16_refuted : exists cs body h, utf16_text cs body /\ high_surrogate h /\
  (forall junk, unicodeLength16 (At ((body ++ [h]) ++ 0 :: junk)) 0 <> Done (len cs)).
Proof. exact tail_length16. Qed.
Print Assumptions C28_utf16_refuted.

(* What holds: the exact result. *)
Theorem C28_utf8_partial : forall cs body tail junk, utf8_text cs body -> Forall upto cs -> cut_short tail -> text8 tail ->
  unicodeLength8 (At ((body ++ tail) ++ 0 :: junk)) 0 = Done (wrap32 (len cs - 1)).
Proof. exact tail_exact8. Qed.
Print Assumptions C28_utf8_partial.

Theorem C28_utf16_partial : forall cs body h junk, utf16_text cs body -> high_surrogate h ->
  unicodeLength16 (At ((body ++ [h]) ++ 0 :: junk)) 0 = Done (wrap32 (len cs - 1)).
Proof. exact tail_exact16. Qed.
Print Assumptions C28_utf16_partial.

Example C28_case : unicodeLength8 (At [0x61; 0x62; 0xE2; 0x82; 0]) 0 = Done 1 /\ unicodeLength16 (At [0x61; 0xD83D; 0]) 0 = Done 0 /\
  utf16_text [0x1F600; 0x41] [0xD83D; 0xDE00; 0x41] /\ unicodeLength16 (At [0xD83D; 0xDE00; 0x41; 0xD83D; 0]) 0 = Done 1.
Proof. split; [reflexivity|]. split; [reflexivity|]. split; [exact case_text_16|reflexivity]. Qed.

(* ---- C29: UTF-16 ---- *)
Theorem C29_counts : forall us junk, text16 us ->
  (forall cs, utf16_text cs us -> unicodeLength16 (At (us ++ 0 :: junk)) 0 = Done (wrap32 (len cs))) /\
  ((forall cs, ~ reads_as16 cs us) -> unicodeLength16 (At (us ++ 0 :: junk)) 0 = Done 0).
Proof. exact count16. Qed.
Print Assumptions C29_counts.

Example C29_case : utf16_text [0x1F600; 0x41] [0xD83D; 0xDE00; 0x41] /\ unicodeLength16 (At [0xD83D; 0xDE00; 0x41; 0]) 0 = Done 2 /\
  unicodeLength16 (At [0x41; 0xDE00; 0x41; 0]) 0 = Done 0 /\ unicodeLength16 (At [0x41; 0xD83D; 0x41; 0]) 0 = Done 0.
Proof. split; [exact case_text_16|]. repeat split. Qed.

(* ---- C30: UCS-4 ---- *)
Theorem C30_counts : forall us junk, text32 us ->
  (Forall (fun c => ~ surrogate c) us -> unicodeLength32 (At (us ++ 0 :: junk)) 0 = Done (wrap32 (len us))) /\
  (~ Forall (fun c => ~ surrogate c) us -> unicodeLength32 (At (us ++ 0 :: junk)) 0 = Done 0).
Proof. exact unicodeLength32_exact. Qed.
Print Assumptions C30_counts.

Example C30_case : text32 [0x41; 0xFFFFFFFF] /\ unicodeLength32 (At [0x41; 0xFFFFFFFF; 0]) 0 = Done 2 /\
  unicodeLength32 (At [0x41; 0xD800; 0]) 0 = Done 0.
Proof. split; [range|]. repeat split. Qed.

(* ---- C31: unicodeLength(p, n) ----
   Full statement (false): the number of code points completely inside the n units; 0 if a zero
   occurs among them or they are malformed.  Cut text is counted correctly (C31_utf8_cut_partial),
   but a zero inside a sequence gives one less than the count before it, and a byte that starts no
   sequence ends the count instead of making the result 0. *)
Theorem C31_zero_refuted : exists bs, bytes bs /\ In 0 bs /\ 0 < hd 0 bs /\
  unicodeLength8 (At (bs ++ [0])) (len bs) = Done 0xFFFFFFFF.
Proof. exact zero_in_sequence. Qed.
Print Assumptions C31_zero_refuted.

Theorem C31_malformed_refuted : exists bs, text8 bs /\ (forall cs, ~ reads_as cs bs) /\
  unicodeLength8 (At (bs ++ [0])) (len bs) = Done 1.
Proof. exact stray_byte. Qed.
Print Assumptions C31_malformed_refuted.

Theorem C31_utf8_cut_partial : forall cs body tail a after, utf8_text cs body -> Forall upto cs ->
  tail = [] \/ completable tail -> body ++ tail <> [] -> bytes (a :: after) -> len (body ++ tail) < 0x100000000 ->
  unicodeLength8 (At ((body ++ tail) ++ a :: after)) (len (body ++ tail)) = Done (len cs).
Proof. exact bounded_cut8. Qed.
Print Assumptions C31_utf8_cut_partial.

Theorem C31_utf16_cut_partial : forall cs body tail a after, utf16_text cs body ->
  tail = [] \/ (exists h, tail = [h] /\ high_surrogate h) -> body ++ tail <> [] -> len (body ++ tail) < 0x100000000 ->
  unicodeLength16 (At ((body ++ tail) ++ a :: after)) (len (body ++ tail)) = Done (len cs).
Proof. exact bounded_cut16. Qed.
Print Assumptions C31_utf16_cut_partial.

(* the exact results on arbitrary elements, whatever follows them *)
Theorem C31_utf8_exact_partial : forall bs a after, bytes (bs ++ a :: after) -> 0 < hd 0 bs -> len bs < 0x100000000 ->
  bounded_count8 bs (fun v => unicodeLength8 (At (bs ++ a :: after)) (len bs) = Done v).
Proof. exact bounded_count8_exact. Qed.
Print Assumptions C31_utf8_exact_partial.

Theorem C31_utf16_exact_partial : forall us a after, Forall unit16 us -> us <> [] -> len us < 0x100000000 ->
  bounded_count16 us (fun v => unicodeLength16 (At (us ++ a :: after)) (len us) = Done v).
Proof. exact bounded_count16_exact. Qed.
Print Assumptions C31_utf16_exact_partial.

Theorem C31_ucs4 : forall us after, Forall unit32 us -> us <> [] -> len us < 0x100000000 ->
  bounded_count32 us (fun v => unicodeLength32 (At (us ++ after)) (len us) = Done v).
Proof. exact unicodeLength32_bounded. Qed.
Print Assumptions C31_ucs4.

Example C31_case : unicodeLength8 (At [0x61; 0xE2; 0x82; 0xAC]) 3 = Done 1 /\ unicodeLength8 (At [0x61; 0xE2; 0x82; 0xAC]) 4 = Done 2 /\
  unicodeLength8 (At [0x61; 0; 0x62; 0x63]) 3 = Done 0 /\ unicodeLength16 (At [0x61; 0xD83D; 0xDE00; 0]) 2 = Done 1 /\
  unicodeLength16 (At [0x61; 0xD83D; 0; 0x41]) 3 = Done 0 /\ unicodeLength16 (At [0xD83D; 0; 0x41]) 2 = Done 0xFFFFFFFF /\
  unicodeLength32 (At [0x61; 0x62; 0xD800]) 2 = Done 2 /\ unicodeLength32 (At [0x61; 0x62; 0xD800]) 3 = Done 0.
Proof. repeat split. Qed.

(* ---- C32: agreement ---- *)
Theorem C32_utf8 : forall cs bs, utf8_text cs bs -> Forall upto cs ->
  exists r, toUcs4_8_string bs = Done r /\ unicodeLength8_string bs = Done (wrap32 (len r)).
Proof. exact length8_agrees. Qed.
Print Assumptions C32_utf8.

Theorem C32_utf16 : forall cs us, utf16_text cs us ->
  exists r, toUcs4_16_string us = Done r /\ unicodeLength16_string us = Done (wrap32 (len r)).
Proof. exact length16_agrees. Qed.
Print Assumptions C32_utf16.

Theorem C32_across : forall cs bs us, utf8_text cs bs -> utf16_text cs us ->
  unicodeLength8_string bs = Done (wrap32 (len cs)) /\ unicodeLength16_string us = Done (wrap32 (len cs)) /\
  unicodeLength32_string cs = Done (wrap32 (len cs)).
Proof. exact lengths_agree. Qed.
Print Assumptions C32_across.

Example C32_case : utf16_text [0x1F600; 0x41] [0xD83D; 0xDE00; 0x41] /\
  unicodeLength8_string [0xF0; 0x9F; 0x98; 0x80; 0x41] = Done 2 /\ unicodeLength16_string [0xD83D; 0xDE00; 0x41] = Done 2 /\
  unicodeLength32_string [0x1F600; 0x41] = Done 2.
Proof. split; [exact case_text_16|]. repeat split. Qed.
