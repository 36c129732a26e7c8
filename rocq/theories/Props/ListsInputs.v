(* C153: what CMakeLists.txt and packaging.cmake depend on and what they leave alone *)
From Coq Require Import ZArith List Bool String Ascii.
From Verif Require Import Gen.TextLists Model.Lists Model.ListsWanted Spec.ListsInputs.
From Verif.Proof Require Import ListsInputs ListsCase ListsWorlds.
Import ListNotations.
Open Scope string_scope.
Open Scope list_scope.

(* ---- C153: variables other than the listed ones keep their values; the build is the same whenever the sixteen inputs, the
   release of cmake and the presence of SETUP_TARGET_FOR_COVERAGE are ---- *)
Theorem C153_kept : forall w t, clean w -> run_lists CMakeLists_txt packaging_cmake w = Went t ->
  forall x, ~ In x own -> value w t x = given w x.
Proof. exact others_kept. Qed.
Print Assumptions C153_kept.

Theorem C153_inputs : forall w w', clean w -> clean w' -> (forall x, In x inputs -> setting w x = setting w' x) -> release w = release w' ->
  defined w "setup_target_for_coverage" = defined w' "setup_target_for_coverage" ->
  match run_lists CMakeLists_txt packaging_cmake w, run_lists CMakeLists_txt packaging_cmake w' with
  | Went t, Went t' => asked t = asked t'
  | Fatal, Fatal => True
  | _, _ => False
  end.
Proof. exact same_inputs. Qed.
Print Assumptions C153_inputs.

Example C153_case : clean fedora_12 /\ clean debian /\ (forall x, In x inputs -> setting fedora_12 x = setting debian x) /\
  release fedora_12 = release debian /\ distro fedora_12 <> distro debian /\
  ~ In "CMAKE_CXX_COMPILER_ID" own /\ In "CMAKE_CXX_STANDARD" own /\
  exists t, run_lists CMakeLists_txt packaging_cmake debian = Went t.
Proof.
  destruct fedora_debian as (A & B & C & D & E). do 5 (split; [assumption|]). split; [apply not_among; reflexivity|].
  split; [apply among; reflexivity|]. destruct debian_run as (t & R & _). exists t. exact R.
Qed.
