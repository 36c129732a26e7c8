(* C66 - C68: the tool that writes the array the library's own tests run over *)
From Coq Require Import ZArith List Bool String.
From Verif Require Import Machine.
From Verif.Model Require Import TestData.
From Verif.Spec Require Import Text TestData.
From Verif.Proof Require Import TestDataFacts.
Import ListNotations.
Local Open Scope Z_scope.

(* ---- C66: the array lists exactly the assigned code points ---- *)
Theorem C66_lists_the_codes : forall es cs rest fuel, Forall entry_ok es -> es <> [] ->
  Z.of_nat (List.length es) <= 0x7fffffff -> listing es cs -> stop rest -> (List.length es < fuel)%nat ->
  exists out, process fuel (file es ++ rest) = Done out /\ visible out = array_of cs.
Proof. exact process_lists. Qed.
Print Assumptions C66_lists_the_codes.

Example C66_case : Forall entry_ok [letter; half; emoji] /\
  listing [letter; half; emoji] [chars "0041"; chars "1F600"] /\
  process 9 (file [letter; half; emoji]) = Done (chars "char32_t validUnicodeCodePoints[] = {" ++ [10] ++
    chars "     0x0041, 0x1F600, 0xFFFFFFFF };" ++ [10]) /\
  process 9 (file [letter] ++ chars "short" ++ 10 :: file [emoji]) = Done (chars "char32_t validUnicodeCodePoints[] = {" ++ [10] ++
    chars "     0x0041, 0xFFFFFFFF };" ++ [10]).
Proof. exact (conj three_ok (conj three_listing (conj eq_refl eq_refl))). Qed.

(* ---- C67: the tool ends on every file ----
   Full statement: forall f, exists fuel, process fuel f <> OutOfFuel.
   Missing: files whose last line has no newline.  getline leaves the line as it was when the end of the
   file has been seen, so a long last line is written again and again. *)
Theorem C67_ends_partial : forall f fuel, newline_terminated f -> (List.length f < fuel)%nat ->
  process fuel f <> OutOfFuel.
Proof. exact process_ends. Qed.
Print Assumptions C67_ends_partial.

Theorem C67_never_ends_partial : forall es e, Forall entry_ok es -> Z.of_nat (List.length es) <= 0x7fffffff ->
  entry_ok e -> forall fuel out, process fuel (file es ++ line e) <> Done out.
Proof. exact process_stuck. Qed.
Print Assumptions C67_never_ends_partial.

Theorem C67_never_ends_refuted : exists f, forall fuel out, process fuel f <> Done out.
Proof. exact no_newline_refuted. Qed.
Print Assumptions C67_never_ends_refuted.

Example C67_case : newline_terminated (file [letter; half; emoji]) /\
  (List.length (file [letter; half; emoji]) < 200)%nat /\ process 50 (line letter) = OutOfFuel.
Proof.
  split; [right; exists (file [letter; half] ++ line emoji); reflexivity|].
  split; [apply (proj1 (Nat.ltb_lt _ _)); reflexivity|reflexivity].
Qed.

(* ---- C68: the tool has no undefined behaviour ----
   Full statement: forall f fuel, newline_terminated f -> process fuel f <> Undefined.
   Proved (C66) for files of data lines; a line of more than ten characters without a semicolon has no
   fields[1]. *)
Theorem C68_no_semicolon_partial : forall es cs bad junk fuel, Forall entry_ok es -> listing es cs ->
  Z.of_nat (List.length es) <= 0x7fffffff -> (List.length es < fuel)%nat ->
  ~ In 10 bad -> ~ In 59 bad -> 10 < Z.of_nat (List.length bad) ->
  process fuel (file es ++ bad ++ 10 :: junk) = Undefined.
Proof. exact process_bad. Qed.
Print Assumptions C68_no_semicolon_partial.

Theorem C68_no_semicolon_refuted : exists f, newline_terminated f /\
  forall fuel, (List.length f < fuel)%nat -> process fuel f = Undefined.
Proof. exact no_semicolon_refuted. Qed.
Print Assumptions C68_no_semicolon_refuted.

Example C68_case : process 9 (file [letter] ++ chars "not a data line" ++ [10]) = Undefined /\
  ~ In 59 (chars "not a data line").
Proof. split; [reflexivity|absent]. Qed.
