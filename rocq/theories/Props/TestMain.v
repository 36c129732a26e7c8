(* C84: main() of the tool that writes the test data *)
From Coq Require Import ZArith List Bool String.
From Verif Require Import Machine.
From Verif.Model Require Import TestData TestMain.
From Verif.Spec Require Import Text TestData.
From Verif.Proof Require Import TestDataFacts TestMainFacts.
Import ListNotations.
Local Open Scope Z_scope.

(* ---- C84: exit code and files ----
   Full statement: main returns 0 exactly if it has written the array of infile to outfile, 1 without two
   arguments, 2 or 3 if infile or outfile cannot be opened; it changes no file but outfile.
   Missing: a file that exists but cannot be opened is not noticed (0 is returned), and giving one file for
   both empties it. *)
Theorem C84_usage : forall fuel w args, List.length args <> 2%nat -> main fuel w args = Done (1, w).
Proof. exact main_usage. Qed.
Print Assumptions C84_usage.

Theorem C84_missing_infile : forall fuel w i o, found_by_stat w i = false -> main fuel w [i; o] = Done (2, w).
Proof. exact main_missing. Qed.
Print Assumptions C84_missing_infile.

Theorem C84_converts_partial : forall fuel w i o es cs rest,
  i <> o -> found_by_stat w i = true -> readable w i = true -> writable w o = true ->
  content w i = file es ++ rest -> Forall entry_ok es -> es <> [] -> Z.of_nat (List.length es) <= 0x7fffffff ->
  listing es cs -> stop rest -> (List.length es < fuel)%nat ->
  exists w', main fuel w [i; o] = Done (0, w') /\ visible (content w' o) = array_of cs /\ found_by_stat w' o = true /\
    forall n, n <> o -> content w' n = content w n /\ found_by_stat w' n = found_by_stat w n.
Proof. exact main_converts. Qed.
Print Assumptions C84_converts_partial.

(* 3 and 4 are never returned *)
Theorem C84_codes_partial : forall fuel w args c w', main fuel w args = Done (c, w') ->
  c = 1 /\ w' = w /\ List.length args <> 2%nat \/
  c = 2 /\ w' = w /\ (exists i o, args = [i; o] /\ found_by_stat w i = false) \/
  c = 0 /\ exists i o, args = [i; o] /\ found_by_stat w i = true.
Proof. exact main_codes. Qed.
Print Assumptions C84_codes_partial.

Theorem C84_no_outfile_partial : forall fuel w i o w', found_by_stat w i = true -> writable w o = false ->
  main fuel w [i; o] = Done (0, w') -> w' = w.
Proof. exact main_no_outfile. Qed.
Print Assumptions C84_no_outfile_partial.

Theorem C84_no_infile_partial : forall fuel w i o, found_by_stat w i = true -> readable w i = false -> writable w o = true ->
  exists w', main fuel w [i; o] = Done (0, w') /\ content w' o = [].
Proof. exact main_no_infile. Qed.
Print Assumptions C84_no_infile_partial.

Theorem C84_silent_failure_refuted : exists w i o, found_by_stat w i = true /\ readable w i = true /\ writable w o = false /\
  forall fuel, (9 < fuel)%nat -> main fuel w [i; o] = Done (0, w).
Proof. exact main_silent_refuted. Qed.
Print Assumptions C84_silent_failure_refuted.

Theorem C84_same_file_refuted : exists w f, found_by_stat w f = true /\ content w f <> [] /\
  forall fuel, exists w', main fuel w [f; f] = Done (0, w') /\ content w' f = [].
Proof. exact main_overwrites_refuted. Qed.
Print Assumptions C84_same_file_refuted.

Example C84_case : found_by_stat free_world (chars "in") = true /\ readable free_world (chars "in") = true /\
  writable free_world (chars "out") = true /\ content free_world (chars "in") = file [letter] ++ [] /\
  (exists w', main 9 free_world [chars "in"; chars "out"] = Done (0, w') /\
     content w' (chars "out") = chars "char32_t validUnicodeCodePoints[] = {" ++ [10] ++ chars "     0x0041, 0xFFFFFFFF };" ++ [10] /\
     content w' (chars "in") = file [letter]) /\
  writable read_only (chars "out") = false.
Proof.
  split; [reflexivity|]. split; [reflexivity|]. split; [reflexivity|]. split; [reflexivity|]. split; [|reflexivity].
  eexists. split; [reflexivity|]. split; reflexivity.
Qed.
