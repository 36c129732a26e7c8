(** What the build may depend on. *)
From Coq Require Import List String.
Import ListNotations.
Open Scope string_scope.

Definition inputs : list string :=
  ["CMAKE_SOURCE_DIR"; "CMAKE_CURRENT_SOURCE_DIR"; "CMAKE_BINARY_DIR"; "CMAKE_CURRENT_BINARY_DIR"; "CMAKE_BUILD_TYPE"; "CMAKE_GENERATOR";
   "TEST_ANSAKSTRING"; "ANSAK_UNICODE_SUPPORT"; "UNIX"; "WIN32"; "COVERAGE"; "CMAKE_SYSTEM_NAME"; "CMAKE_CXX_COMPILER_ID"; "CMAKE_CXX_COMPILER_VERSION";
   "CMAKE_COMMAND"; "CMAKE_CFG_INTDIR"].
