(** What FindASan.cmake promises in its lines 24-30 *)
From Coq Require Import List Bool String Ascii.
From Verif Require Import Model.Cmake Model.Asan.
Import ListNotations.
Open Scope string_scope.
Open Scope list_scope.

Definition sanitizer : string := "-fsanitize=address".

(** The compiler has an address sanitizer, with warnings as errors and the flag given to the linker too. *)
Definition able (w : before_it) : bool := accepts w "-Werror -fsanitize=address" sanitizer.

(** Nothing of it has been decided before. *)
Definition first_time (w : before_it) : Prop := given w "HAVE_FLAG_SANITIZE_ADDRESS" = None /\ truth (text (given w "ADDRESS_SANITIZER_FLAG")) = false.

Definition asan_flags : list string := ["CMAKE_C_FLAGS_ASAN"; "CMAKE_CXX_FLAGS_ASAN"; "CMAKE_EXE_LINKER_FLAGS_ASAN"; "CMAKE_SHARED_LINKER_FLAGS_ASAN"].

(** The names it may use *)
Definition own : list string := asan_flags ++ ["HAVE_ADDRESS_SANITIZER"; "HAVE_FLAG_SANITIZE_ADDRESS"; "ADDRESS_SANITIZER_FLAG"; "CMAKE_REQUIRED_FLAGS"].

(** One of the options, among others *)
Definition has_option (o s : string) : Prop := In o (split_at " "%char "" s).
