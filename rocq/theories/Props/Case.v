(* C39-C44: toLower. *)
From Coq Require Import ZArith List Bool Lia.
From Verif Require Import Machine.
From Verif.Model Require Import Tables Str Lower.
From Verif.Spec Require Import Utf Target Result Ucd Lowercase Case.
From Verif.Proof Require Import TablesFacts CaseFacts CaseWitness.
Import ListNotations.
Local Open Scope Z_scope.

(* ---- C39: code point by code point ---- *)
Theorem C39_pointwise : forall T lang, language lang -> exists f, forall s, toLower_32 T s lang = Done (map f s).
Proof. exact pointwise. Qed.
Print Assumptions C39_pointwise.

Theorem C39_depends_on_turkic_only : forall T lang lang' s, language lang -> language lang' ->
  (turkic lang <-> turkic lang') -> toLower_32 T s lang = toLower_32 T s lang'.
Proof. exact same_language. Qed.
Print Assumptions C39_depends_on_turkic_only.

Theorem C39_concatenation : forall T lang a b, language lang -> exists ra rb,
  toLower_32 T a lang = Done ra /\ toLower_32 T b lang = Done rb /\ toLower_32 T (a ++ b) lang = Done (ra ++ rb) /\
  length ra = length a.
Proof. exact lower_concat. Qed.
Print Assumptions C39_concatenation.

Example C39_case : language (At [0x65; 0x6e; 0; 99]) /\
  toLower_32 (tables V16) [0x41; 0; 0x10400; 0x49] (At [0x65; 0x6e; 0; 99]) = Done [0x61; 0; 0x10428; 0x69].
Proof. exact (conj english_language eq_refl). Qed.

(* ---- C40: the data ----
   Full statement (false, see C40_lower_matches_data_refuted):
     forall v s, Forall unit32 s -> exists r,
       toLower_32 (tables v) s Null = Done r /\ Forall2 (lowers_to v) s r. *)
Theorem C40_lower_matches_data_refuted : forall v, exists c r, unit32 c /\
  toLower_32 (tables v) [c] Null = Done [r] /\ ~ lowers_to v c r.
Proof. exact data_refuted. Qed.
Print Assumptions C40_lower_matches_data_refuted.

(* What holds: the mapping agrees with the data exactly off the two lists of Spec/Lowercase.v; the
   code points of lower_missing are left alone, those of lower_extra get the listed value. *)
Theorem C40_lower_matches_data_partial : forall v s, Forall unit32 s -> exists r, toLower_32 (tables v) s Null = Done r /\
  Forall2 (fun c d => (lowers_to v c d <-> ~ departs v c) /\
    (in_ranges (lower_missing v) c -> d = c) /\ (forall d', In (c, d') (lower_extra v) -> d = d')) s r.
Proof. exact lower_data. Qed.
Print Assumptions C40_lower_matches_data_partial.

Example C40_case : lowers_to V16 0x10400 0x10428 /\ lowers_to V16 0x61 0x61 /\ ~ departs V16 0x10400 /\ departs V16 0x1C90 /\
  toLower_32 (tables V16) [0x10400; 0x61; 0x1C90; 0xD7] Null = Done [0x10428; 0x61; 0x1C90; 0xF7].
Proof. exact (conj data_case1 (conj data_case2 (conj data_case3 (conj data_case4 eq_refl)))). Qed.

(* ---- C41: idempotence ---- *)
Theorem C41_idempotent : forall v lang s, language lang -> Forall unit32 s -> exists r,
  toLower_32 (tables v) s lang = Done r /\ toLower_32 (tables v) r lang = Done r.
Proof. exact lower_idempotent. Qed.
Print Assumptions C41_idempotent.

Theorem C41_idempotent_utf8 : forall v lang bs, language lang -> text8 bs -> exists r,
  toLower_8 (tables v) bs lang = Done r /\ toLower_8 (tables v) r lang = Done r.
Proof. exact lower_8_twice. Qed.
Print Assumptions C41_idempotent_utf8.

Theorem C41_idempotent_utf16 : forall v lang us, language lang -> text16 us -> exists r,
  toLower_16 (tables v) us lang = Done r /\ toLower_16 (tables v) r lang = Done r.
Proof. exact lower_16_twice. Qed.
Print Assumptions C41_idempotent_utf16.

Example C41_case : toLower_32 (tables V7) [0x130; 0x1C4; 0x49] (At [0x74; 0x72; 0]) = Done [0x69; 0x1C6; 0x131] /\
  toLower_8 (tables V16) [0xC3; 0x89; 0x41; 0xE2] Null = Done [0xC3; 0xA9; 0x61].
Proof. split; reflexivity. Qed.

(* ---- C42: Turkic ---- *)
Theorem C42_capital_i : forall v lang, language lang ->
  (turkic lang -> toLower_32 (tables v) [0x49] lang = Done [0x131]) /\
  (~ turkic lang -> toLower_32 (tables v) [0x49] lang = Done [0x69]).
Proof. exact capital_i. Qed.
Print Assumptions C42_capital_i.

Theorem C42_otherwise_equal : forall v lang s, language lang -> ~ In 0x49 s ->
  toLower_32 (tables v) s lang = toLower_32 (tables v) s Null.
Proof. exact only_capital_i. Qed.
Print Assumptions C42_otherwise_equal.

(* the ten codes, whatever follows the terminating zero; a null pointer or any other code is not Turkic *)
Example C42_case :
  turkic (At [0x74; 0x72; 0; 1]) /\ turkic (At [0x61; 0x7a; 0x62; 0]) /\
  language (At [0x74; 0x72; 0x75; 0]) /\ ~ turkic (At [0x74; 0x72; 0x75; 0]) /\ ~ turkic Null /\
  toLower_32 (tables V16) [0x49] (At [0x74; 0x72; 0x75; 0]) = Done [0x69].
Proof. exact (conj turkic_case1 (conj turkic_case2 (conj turkic_case3 (conj turkic_case4 (conj turkic_case5 eq_refl))))). Qed.

(* ---- C43: the other encodings ---- *)
Theorem C43_utf8 : forall v lang bs cs, language lang -> text8 bs -> reads_as cs bs -> exists low,
  toLower_32 (tables v) cs lang = Done low /\ toLower_8 (tables v) bs lang = Done (flat_map utf8_bytes low) /\
  length low = length cs.
Proof. exact lower_8. Qed.
Print Assumptions C43_utf8.

Theorem C43_utf8_malformed : forall T lang bs, text8 bs -> (forall cs, ~ reads_as cs bs) -> toLower_8 T bs lang = Done [].
Proof. exact lower_8_bad. Qed.
Print Assumptions C43_utf8_malformed.

Theorem C43_utf16 : forall v lang us cs, language lang -> text16 us -> reads_as16 cs us -> exists low,
  toLower_32 (tables v) cs lang = Done low /\ toLower_16 (tables v) us lang = Done (flat_map utf16_units low) /\
  length low = length cs.
Proof. exact lower_16. Qed.
Print Assumptions C43_utf16.

Theorem C43_utf16_malformed : forall T lang us, text16 us -> (forall cs, ~ reads_as16 cs us) -> toLower_16 T us lang = Done [].
Proof. exact lower_16_bad. Qed.
Print Assumptions C43_utf16_malformed.

Example C43_case : toLower_8 (tables V16) [0xE1; 0xBA; 0x9E; 0x41] Null = Done [0xC3; 0x9F; 0x61] /\
  toLower_8 (tables V16) [0x41; 0x80] Null = Done [] /\
  toLower_16 (tables V16) [0xD801; 0xDC00; 0x41] Null = Done [0xD801; 0xDC28; 0x61] /\
  toLower_16 (tables V16) [0xDC00; 0x41] Null = Done [].
Proof. repeat split. Qed.

(* ---- C44: values ---- *)
Theorem C44_scalars_stay_scalars : forall v lang s, language lang -> Forall scalar s -> exists r,
  toLower_32 (tables v) s lang = Done r /\ Forall scalar r /\ length r = length s.
Proof. exact lower_scalars. Qed.
Print Assumptions C44_scalars_stay_scalars.

Theorem C44_high_values_unchanged : forall v lang s, language lang ->
  Forall (fun c => 0x1FFFF < c < 0x100000000) s -> toLower_32 (tables v) s lang = Done s.
Proof. exact lower_high. Qed.
Print Assumptions C44_high_values_unchanged.

Theorem C44_zero_only_from_zero : forall v lang s, language lang -> Forall unit32 s -> exists r,
  toLower_32 (tables v) s lang = Done r /\ Forall2 (fun c d => d = 0 <-> c = 0) s r.
Proof. exact lower_zero. Qed.
Print Assumptions C44_zero_only_from_zero.

Example C44_case : Forall scalar [0x1E921; 0x41] /\ toLower_32 (tables V16) [0x1E921; 0x41] Null = Done [0x1E943; 0x61] /\
  toLower_32 (tables V16) [0xFFFFFFFF; 0] Null = Done [0xFFFFFFFF; 0].
Proof. exact (conj scalar_case (conj eq_refl eq_refl)). Qed.
