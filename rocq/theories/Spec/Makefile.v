(** What the recipes of the Makefile have to run *)
From Coq Require Import ZArith List Bool String Ascii.
From Verif Require Import Model.Cmake Model.Makefile.
Import ListNotations.
Open Scope string_scope.
Open Scope list_scope.

Definition letters : list ascii := list_ascii_of_string "abcdefghijklmnopqrstuvwxyzABCDEFGHIJKLMNOPQRSTUVWXYZ0123456789+-./_".
Definition plain_char (c : ascii) : bool := existsb (Ascii.eqb c) letters.

(** A word that means itself to make and the shell, and a text that does within quotes *)
Definition plain (s : string) : Prop := forall c, In c (list_ascii_of_string s) -> plain_char c = true.
Definition quotable (s : string) : Prop := forall c, In c (list_ascii_of_string s) -> plain_char c = true \/ c = " "%char.

(** What configure may have settled, if the environment does not have the names the Makefile uses *)
Definition settled (v : settings) : Prop :=
  plain (v "CXX") /\ plain (v "CONFIG") /\ plain (v "UNICODE_VERSION") /\ quotable (v "GENERATOR") /\ plain (v "BUILDS_RPM") /\ plain (v "BUILDS_DEB") /\
  v "CXXSELECT" = "" /\ v "CONFIG_SELECT" = "" /\ v "C_SELECT" = "".

Definition unless_empty (s : string) (l : list string) : list string := if String.eqb s "" then [] else l.

(** cmake is run in build, for our sources, Unicode version, compiler and generator. *)
Definition configuring (v : settings) : program :=
  ("build", unless_empty (v "CXX") [("CXX=" ++ v "CXX")%string] ++ ["cmake"; "../"; ("-DANSAK_UNICODE_SUPPORT=" ++ v "UNICODE_VERSION")%string; "-G"; v "GENERATOR"]).

(** cmake builds the target in the configuration asked for. *)
Definition building (v : settings) (target : string) : program :=
  (".", ["cmake"; "--build"; "build"] ++ unless_empty (v "CONFIG") ["--config"; v "CONFIG"] ++ ["--target"; target]).

(** ctest tests that configuration. *)
Definition testing (v : settings) : program := ("build", ["ctest"; "."] ++ unless_empty (v "CONFIG") ["-C"; v "CONFIG"]).

(** There is nothing to make such packages with. *)
Definition none (s : string) : bool := if String.eqb s "" then false else match to_number s with Some z => Z.eqb z 0 | None => false end.

Definition packing (kind : string) : program := ("build", ["cpack"; "."; "-G"; kind]).
