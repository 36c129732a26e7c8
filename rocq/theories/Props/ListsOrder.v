(* C152: CMakeLists.txt makes targets before it uses them *)
From Coq Require Import ZArith List Bool String Ascii.
From Verif Require Import Gen.TextLists Model.Lists Model.ListsWanted Spec.Lists Spec.ListsOrder.
From Verif.Proof Require Import ListsOrder ListsWorlds.
Import ListNotations.
Open Scope string_scope.
Open Scope list_scope.

(* ---- C152: every target that is given options, linked, run, tested or installed was made before ---- *)
Theorem C152_order : forall w, clean w -> fails w = false -> exists t, run_lists CMakeLists_txt packaging_cmake w = Went t /\ in_order t.
Proof. exact targets_ordered. Qed.
Print Assumptions C152_order.

(* Full statement: everything that is linked is made by the build:
     forall w, clean w -> fails w = false ->
       exists t, run_lists CMakeLists_txt packaging_cmake w = Went t /\ forall r x, In r (asked t) -> In x (links r) -> made_by (asked t) x.
   Missing: tests as a part of another project, for which it is false (below): there googletest has to come from that project. *)
Theorem C152_linked_partial : forall w, clean w -> fails w = false -> root w = true ->
  exists t, run_lists CMakeLists_txt packaging_cmake w = Went t /\ forall r x, In r (asked t) -> In x (links r) -> made_by (asked t) x.
Proof. exact linked_made. Qed.
Print Assumptions C152_linked_partial.

Theorem C152_linked_refuted : exists w t r, clean w /\ root w = false /\ run_lists CMakeLists_txt packaging_cmake w = Went t /\ In r (asked t) /\
  In "gtest_main" (links r) /\ ~ made_by (asked t) "gtest_main".
Proof. exact not_made. Qed.
Print Assumptions C152_linked_refuted.

Example C152_case : clean debian /\ fails debian = false /\ root debian = true /\
  uses ("target_link_libraries", words ["ansakStringTest"; "PRIVATE"; "ansakString"; "gtest_main"]) = ["ansakStringTest"] /\
  links ("target_link_libraries", words ["ansakStringTest"; "PRIVATE"; "ansakString"; "gtest_main"]) = ["ansakString"; "gtest_main"] /\
  defines ("add_executable", words ["ansakStringTest"; "test/unit/string_test.cxx"]) = ["ansakStringTest"] /\
  uses ("install", words ["TARGETS"; "ansakString"; "LIBRARY"; "DESTINATION"; "lib/"]) = ["ansakString"].
Proof. split; [exact debian_clean|]. repeat split; vm_compute; reflexivity. Qed.
