(** In which order the build has to be described. *)
From Coq Require Import List Bool String.
From Verif Require Import Model.Lists.
Import ListNotations.
Open Scope string_scope.
Open Scope list_scope.

(** The targets a request makes, the ones that have to be there before it, and the libraries it links *)
Definition defines (r : request) : list string :=
  if String.eqb (fst r) "add_library" || String.eqb (fst r) "add_executable" then firstn 1 (map snd (snd r))
  else [].

Fixpoint after (x : string) (l : list string) : list string :=
  match l with [] => [] | y :: l => if String.eqb y x then l else after x l end.

Definition uses (r : request) : list string :=
  let a := map snd (snd r) in
  if String.prefix "target_" (fst r) then firstn 1 a
  else if String.eqb (fst r) "add_custom_command" then
    if String.eqb (hd "" a) "TARGET" then firstn 1 (tl a) else firstn 1 (after "COMMAND" (skipn 2 a)) (* after OUTPUT and its file *)
  else if String.eqb (fst r) "add_test" then firstn 1 (after "COMMAND" a)
  else if String.eqb (fst r) "install" && String.eqb (hd "" a) "TARGETS" then firstn 1 (tl a)
  else if String.eqb (fst r) "setup_target_for_coverage" then firstn 1 (tl a)
  else [].

Definition links (r : request) : list string :=
  if String.eqb (fst r) "target_link_libraries" then after "PRIVATE" (map snd (snd r)) else [].

(** [x] is made by one of the requests [l]; googletest is made by the submodules. *)
Definition made_by (l : list request) (x : string) : Prop :=
  (exists r, In r l /\ In x (defines r)) \/ x = "gtest_main" /\ In ("add_subdirectory", [(false, "submods")]) l.

Definition in_order (t : state) : Prop :=
  forall l r m x, asked t = l ++ r :: m -> In x (uses r) -> exists r', In r' l /\ In x (defines r').
