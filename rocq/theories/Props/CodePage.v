(* C53 - C54: code pages *)
From Coq Require Import ZArith List Bool.
From Verif Require Import Machine.
From Verif.Model Require Import CodePage.
From Verif.Spec Require Import Utf Result CodePage.
From Verif.Proof Require Import CodePageFacts.
Import ListNotations.
Local Open Scope Z_scope.

(* ---- C53: code-page conversion is exact ---- *)
Theorem C53_cp1252 : forall bs junk, text8 bs ->
  exact_conversion (stand_for page1252 bs) (flat_map utf8_bytes) (toUtf8_cp (At (bs ++ 0 :: junk)) kSrcCP1252).
Proof. exact toUtf8_cp1252_exact. Qed.
Print Assumptions C53_cp1252.

Theorem C53_cp1250 : forall bs junk, text8 bs ->
  exact_conversion (stand_for page1250 bs) (flat_map utf8_bytes) (toUtf8_cp (At (bs ++ 0 :: junk)) kSrcCP1250).
Proof. exact toUtf8_cp1250_exact. Qed.
Print Assumptions C53_cp1250.

(* the bytes each page leaves out, and what one of them does to a string *)
Theorem C53_cp1252_assigned : forall b, 0 < b <= 0xFF ->
  (exists c, stands_for page1252 b c) <-> ~ In b [0x81; 0x8D; 0x8F; 0x90; 0x9D].
Proof. exact assigned1252. Qed.
Print Assumptions C53_cp1252_assigned.

Theorem C53_cp1250_assigned : forall b, 0 < b <= 0xFF ->
  (exists c, stands_for page1250 b c) <-> ~ In b [0x81; 0x83; 0x88; 0x90; 0x98].
Proof. exact assigned1250. Qed.
Print Assumptions C53_cp1250_assigned.

Theorem C53_cp1252_unassigned : forall bs junk b, text8 bs -> In b bs -> In b [0x81; 0x8D; 0x8F; 0x90; 0x9D] ->
  toUtf8_cp (At (bs ++ 0 :: junk)) kSrcCP1252 = Done [].
Proof. exact cp1252_unassigned. Qed.
Print Assumptions C53_cp1252_unassigned.

Theorem C53_cp1250_unassigned : forall bs junk b, text8 bs -> In b bs -> In b [0x81; 0x83; 0x88; 0x90; 0x98] ->
  toUtf8_cp (At (bs ++ 0 :: junk)) kSrcCP1250 = Done [].
Proof. exact cp1250_unassigned. Qed.
Print Assumptions C53_cp1250_unassigned.

Theorem C53_unicode : forall bs junk, text8 bs -> toUtf8_cp (At (bs ++ 0 :: junk)) kSrcUnicode = Done bs.
Proof. exact toUtf8_cp_unicode. Qed.
Print Assumptions C53_unicode.

Theorem C53_other : forall bs junk n, text8 bs -> n <> kSrcUnicode -> n <> kSrcCP1252 -> n <> kSrcCP1250 ->
  toUtf8_cp (At (bs ++ 0 :: junk)) n = Done [].
Proof. exact toUtf8_cp_other. Qed.
Print Assumptions C53_other.

Example C53_case : stand_for page1252 [0x41; 0x80; 0xE9] [0x41; 0x20AC; 0xE9] /\
  toUtf8_cp (At [0x41; 0x80; 0xE9; 0]) kSrcCP1252 = Done [0x41; 0xE2; 0x82; 0xAC; 0xC3; 0xA9] /\
  toUtf8_cp (At [0x41; 0x80; 0xE8; 0]) kSrcCP1250 = Done [0x41; 0xE2; 0x82; 0xAC; 0xC4; 0x8D] /\
  toUtf8_cp (At [0x41; 0x81; 0xE8; 0]) kSrcCP1250 = Done [] /\ toUtf8_cp (At [0x41; 0x81; 0]) kSrcUnicode = Done [0x41; 0x81] /\
  toUtf8_cp (At [0x41; 0]) 3 = Done [].
Proof. split; [exact case_1252|]. repeat split. Qed.

(* ---- C54: code-page conversion is lossless ---- *)
Theorem C54_cp1252_valid : forall bs cs, stand_for page1252 bs cs ->
  exists r, toUtf8_cp (c_str bs) kSrcCP1252 = Done r /\ utf8_text cs r /\ Forall scalar cs /\ length cs = length bs.
Proof. exact cp1252_valid. Qed.
Print Assumptions C54_cp1252_valid.

Theorem C54_cp1250_valid : forall bs cs, stand_for page1250 bs cs ->
  exists r, toUtf8_cp (c_str bs) kSrcCP1250 = Done r /\ utf8_text cs r /\ Forall scalar cs /\ length cs = length bs.
Proof. exact cp1250_valid. Qed.
Print Assumptions C54_cp1250_valid.

Theorem C54_cp1252_injective : forall bs bs' cs cs', stand_for page1252 bs cs -> stand_for page1252 bs' cs' ->
  toUtf8_cp (c_str bs) kSrcCP1252 = toUtf8_cp (c_str bs') kSrcCP1252 -> bs = bs'.
Proof. exact cp1252_injective. Qed.
Print Assumptions C54_cp1252_injective.

Theorem C54_cp1250_injective : forall bs bs' cs cs', stand_for page1250 bs cs -> stand_for page1250 bs' cs' ->
  toUtf8_cp (c_str bs) kSrcCP1250 = toUtf8_cp (c_str bs') kSrcCP1250 -> bs = bs'.
Proof. exact cp1250_injective. Qed.
Print Assumptions C54_cp1250_injective.

Example C54_case : stand_for page1250 [0x41; 0x80; 0xE8] [0x41; 0x20AC; 0x10D] /\
  toUtf8_cp (c_str [0x41; 0x80; 0xE8]) kSrcCP1250 = Done [0x41; 0xE2; 0x82; 0xAC; 0xC4; 0x8D] /\
  utf8_text [0x41; 0x20AC; 0x10D] [0x41; 0xE2; 0x82; 0xAC; 0xC4; 0x8D].
Proof. split; [exact case_1250|]. split; [reflexivity|]. exact case_1250_text. Qed.
