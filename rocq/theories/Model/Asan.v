(** /repo/cmake/modules/FindASan.cmake, which CMakeLists.txt 100-102 includes, run as it
    stands (lines 32-69), on the reader of Model/Lists.v and the values of Model/Submods.v.

    Simplified:
    - Variables and cache are one: set( CACHE FORCE ) and unset() decide what the name
      means afterwards.
    - What the compiler makes of a flag is a parameter; check_cxx_compiler_flag() asks it
      unless its variable is defined already. *)
From Coq Require Import List Bool String Ascii.
From Verif Require Import Model.Cmake Model.Lists Model.Submods.
Import ListNotations.
Open Scope string_scope.
Open Scope list_scope.

(** The variables there are, and whether the compiler takes a flag together with those of CMAKE_REQUIRED_FLAGS *)
Record before_it := { given : string -> option string; accepts : string -> string -> bool }.

Inductive end_of := On (s : here) | Returned (s : here) | Lost.

Definition asan_command (w : before_it) (n : string) (a : list string) (s : here) : end_of :=
  if String.eqb n "set" then
    match a with
    | [x; v] => On (set_var x v s)
    | [x; v; "CACHE"; "STRING"; _; "FORCE"] => On (set_var x v s)
    | _ => Lost
    end
  else if String.eqb n "unset" then match a with [x] => On (put x None s) | _ => Lost end
  else if String.eqb n "check_cxx_compiler_flag" then
    match a with
    | [f; x] => On (match vars s x with
                    | Some _ => s
                    | None => set_var x (if accepts w (text (vars s "CMAKE_REQUIRED_FLAGS")) f then "1" else "") s
                    end)
    | _ => Lost
    end
  else if String.eqb n "include" then match a with ["CheckCXXCompilerFlag"] => On s | _ => Lost end
  else if String.eqb n "mark_as_advanced" then On s
  else if String.eqb n "return" then Returned s
  else Lost.

Definition asan_judged (c : list arg) (s : here) : option bool :=
  match map (fun a => (quoted a, pieces a)) c with
  | [(false, [Lit v])] => Some (truth (text (vars s v)))
  | [(false, [Lit "NOT"]); (false, [Lit v])] => Some (negb (truth (text (vars s v))))
  | _ => None
  end.

Fixpoint asan_block (fuel : nat) (w : before_it) (b : block) (s : here) : end_of :=
  match fuel with
  | O => Lost
  | S fuel =>
      match b with
      | Nil => On s
      | Do n a rest => match asan_command w n (arg_list s a) s with On s => asan_block fuel w rest s | r => r end
      | If c x y rest =>
          match asan_judged c s with
          | Some t => match asan_block fuel w (if t then x else y) s with On s => asan_block fuel w rest s | r => r end
          | None => Lost
          end
      | Fun _ _ _ _ => Lost
      end
  end.

(** The variables after include( FindASan ) *)
Definition run_asan (lines : list string) (w : before_it) : option (string -> option string) :=
  match read_lists lines with
  | Some b =>
      match asan_block 100 w b {| values_of := {| news := []; before := given w |}; options := []; dirs := [] |} with
      | On s | Returned s => Some (vars s)
      | Lost => None
      end
  | None => None
  end.
