(* C154: what submods/CMakeLists.txt, read and run as it stands, brings in and how *)
From Coq Require Import List Bool String.
From Verif Require Import Gen.TextSubmods Model.Cmake Model.Submods Spec.Submods.
From Verif.Proof Require Import Submods.
Import ListNotations.
Open Scope string_scope.
Open Scope list_scope.

(* ---- C154: googletest is added, once, exactly if neither gmock nor gtest is a target; it is not installed, is a DLL on Windows, and sees every
   other variable as it was; warnings are not errors for it on Unix ---- *)
Theorem C154_added : forall w, exists s, run_submods CMakeLists_txt w = Done s /\
  if present w then dirs s = [] else
  exists d, dirs s = [d] /\ name d = "googletest" /\ with_vars d "INSTALL_GTEST" = Some "OFF" /\
    (on w "WIN32" = true -> with_vars d "BUILD_SHARED_LIBS" = Some "on") /\
    (forall x, x <> "INSTALL_GTEST" -> (x = "BUILD_SHARED_LIBS" -> on w "WIN32" = false) -> with_vars d x = has w x).
Proof. exact added_right. Qed.
Print Assumptions C154_added.

Theorem C154_options : forall w s d, run_submods CMakeLists_txt w = Done s -> In d (dirs s) ->
  (In "-Wno-error" (with_options d) <-> on w "APPLE" = true \/ on w "UNIX" = true) /\
  (In "-Wno-uninitialized" (with_options d) <-> on w "APPLE" = true) /\
  (In "-Wno-maybe-uninitialized" (with_options d) <-> on w "APPLE" = false /\ on w "UNIX" = true) /\
  (forall o, In o (with_options d) -> In o ["-Wno-error"; "-Wno-uninitialized"; "-Wno-maybe-uninitialized"]).
Proof. exact options_right. Qed.
Print Assumptions C154_options.

(* Full statement: on Windows googletest is built with the static runtime (lines 50-62): static_runtime (with_vars d) for every d that is added.
   Missing: it is false, the flags are replaced after googletest was added; they hold for this directory, in which nothing is built. *)
Theorem C154_static_partial : forall w s, run_submods CMakeLists_txt w = Done s -> present w = false -> on w "WIN32" = true -> static_runtime (vars s).
Proof. exact static_here. Qed.
Print Assumptions C154_static_partial.

Theorem C154_static_refuted : exists w s d, run_submods CMakeLists_txt w = Done s /\ on w "WIN32" = true /\ In d (dirs s) /\ ~ static_runtime (with_vars d).
Proof. exact (ex_intro _ windows not_static). Qed.
Print Assumptions C154_static_refuted.

Example C154_case : present mac = false /\ on mac "APPLE" = true /\ present within = true /\ on within "UNIX" = true /\
  present windows = false /\ on windows "WIN32" = true /\
  match run_submods CMakeLists_txt mac with
  | Done s => map name (dirs s) = ["googletest"] /\ map with_options (dirs s) = [["-Wno-error"; "-Wno-uninitialized"]]
  | Unclear => False
  end /\
  match run_submods CMakeLists_txt windows with
  | Done s => vars s "CMAKE_CXX_FLAGS_DEBUG" = Some "/MTd /Zi" /\ map (fun d => with_vars d "CMAKE_CXX_FLAGS_DEBUG") (dirs s) = [Some "/MDd /Zi"]
  | Unclear => False
  end.
Proof. vm_compute. repeat split. Qed.
