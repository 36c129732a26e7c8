(* C157: what FindASan.cmake, read and run as it stands, finds and leaves behind *)
From Coq Require Import List Bool String Ascii.
From Verif Require Import Gen.TextAsan Model.Cmake Model.Asan Spec.Asan.
From Verif.Proof Require Import Asan.
Import ListNotations.
Open Scope string_scope.
Open Scope list_scope.

(* ---- C157: FindASan.cmake makes the build type ASan, with the sanitizer for compilers and linkers, exactly if the compiler has one, says so in
   HAVE_ADDRESS_SANITIZER and leaves everything else alone ---- *)
Theorem C157_found : forall w, first_time w -> able w = true -> exists v, run_asan FindASan_cmake w = Some v /\
  v "HAVE_ADDRESS_SANITIZER" = Some "TRUE" /\ forall x, In x asan_flags -> has_option sanitizer (text (v x)).
Proof. exact found_right. Qed.
Print Assumptions C157_found.

Theorem C157_unable : forall w, first_time w -> able w = false -> exists v, run_asan FindASan_cmake w = Some v /\
  forall x, ~ In x ["CMAKE_REQUIRED_FLAGS"; "HAVE_FLAG_SANITIZE_ADDRESS"] -> v x = given w x.
Proof. exact unable_right. Qed.
Print Assumptions C157_unable.

Theorem C157_kept : forall w, exists v, run_asan FindASan_cmake w = Some v /\ forall x, ~ In x own -> v x = given w x.
Proof. exact kept_right. Qed.
Print Assumptions C157_kept.

(* Full statement: without the condition on HAVE_ADDRESS_SANITIZER.
   Missing: it is false if that was true before: it is set to FALSE only where it is set to TRUE next. *)
Theorem C157_told_partial : forall w, first_time w -> truth (text (given w "HAVE_ADDRESS_SANITIZER")) = false ->
  exists v, run_asan FindASan_cmake w = Some v /\ truth (text (v "HAVE_ADDRESS_SANITIZER")) = able w.
Proof. exact told_right. Qed.
Print Assumptions C157_told_partial.

Theorem C157_told_refuted : exists w v, first_time w /\ run_asan FindASan_cmake w = Some v /\ truth (text (v "HAVE_ADDRESS_SANITIZER")) <> able w.
Proof. exact told_fails. Qed.
Print Assumptions C157_told_refuted.

(* The flags somebody else required are lost. *)
Theorem C157_required : forall w, exists v, run_asan FindASan_cmake w = Some v /\ v "CMAKE_REQUIRED_FLAGS" = None.
Proof. exact required_lost. Qed.
Print Assumptions C157_required.

Example C157_case : first_time clang /\ able clang = true /\ given clang "CMAKE_REQUIRED_FLAGS" = Some "-m32" /\ first_time stale /\ able stale = false /\
  truth (text (given clang "HAVE_ADDRESS_SANITIZER")) = false /\ ~ In "CMAKE_CXX_FLAGS" own /\
  match run_asan FindASan_cmake clang with
  | Some v => v "CMAKE_CXX_FLAGS_ASAN" = Some "-O1 -g -fsanitize=address -fno-omit-frame-pointer -fno-optimize-sibling-calls" /\ v "CMAKE_REQUIRED_FLAGS" = None
  | None => False
  end.
Proof.
  split; [split; reflexivity|]. split; [reflexivity|]. split; [reflexivity|]. split; [split; reflexivity|]. split; [reflexivity|]. split; [reflexivity|].
  split; [cbn; intuition discriminate|]. vm_compute. split; reflexivity.
Qed.
