(** What submods/CMakeLists.txt is for *)
From Coq Require Import List Bool String.
From Verif Require Import Model.Cmake Model.Submods.
Import ListNotations.
Open Scope string_scope.
Open Scope list_scope.

Definition on (w : above) (x : string) : bool := truth (text (has w x)).

(** Somebody else has brought googletest in. *)
Definition present (w : above) : bool := target w "gmock" || target w "gtest".

Definition occurs (a s : string) : Prop := exists p q, s = (p ++ a ++ q)%string.

(** The variables the compiler's options are taken from *)
Definition flags : list string :=
  ["CMAKE_CXX_FLAGS"; "CMAKE_CXX_FLAGS_DEBUG"; "CMAKE_CXX_FLAGS_RELEASE"; "CMAKE_C_FLAGS"; "CMAKE_C_FLAGS_DEBUG"; "CMAKE_C_FLAGS_RELEASE"].

(** No library of googletest asks for the runtime in a DLL. *)
Definition static_runtime (v : string -> option string) : Prop := forall x, In x flags -> ~ occurs "/MD" (text (v x)).
