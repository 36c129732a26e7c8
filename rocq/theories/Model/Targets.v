(** Several targets in one run of /repo/make.py: [done_] remembers what need not
    be done again.

    Simplified: [make_all] (249-286) is a parameter, and so are the targets test,
    package, cmake-install and cmake-uninstall, which add to [done_] as they
    like; as in Model/Make.v nothing is printed. *)
From Coq Require Import ZArith List Bool String Ascii.
From Verif Require Import Model.Make.
Import ListNotations.
Open Scope string_scope.
Open Scope list_scope.

Section Targets.
Variables prefix here : path.
Variable nsis : bool.
Variable package : string.
Variable build : io unit.
Variable other : string -> list string -> io (list string).

(** make.py 503-504, 506-507: "rmdir /s /q", run by cmd.exe, whose failure is
    not looked at *)
Definition rmdir_s (p : path) : io unit := fun d =>
  if is_dir d p then (Returned tt, snd (rmtree p d)) else (Returned tt, d).

(** make.py 502-508: [scrub] *)
Definition scrub : io unit :=
  rmdir_s (here ++ ["build"]) ;;;
  rm_f (here ++ ["configvars.py"]) ;;;
  rmdir_s (here ++ ["__pycache__"]).

(** make.py 314-315: "if 'all' not in self.done_: self.make_all()"; 253, 283:
    [make_all] adds "all" *)
Definition ensure (done : list string) : io (list string) :=
  if existsb (String.eqb "all") done then ret done else build ;;; ret ("all" :: done).

(** make.py 538-541 *)
Definition do_target (done : list string) (t : string) : io (list string) :=
  if String.eqb t "all" then build ;;; ret ("all" :: done)
  else if String.eqb t "install" then
    done <~ ensure done ;; install prefix here ;;; ret done
  else if String.eqb t "uninstall" then uninstall prefix ;;; ret done
  else if String.eqb t "clean" then clean here nsis package ;;; ret done
  else if String.eqb t "scrub" then scrub ;;; ret done
  else if String.eqb t "help" then ret done
  else if existsb (String.eqb t) targets then other t done
  else raise Failed.

(** make.py 545-547 *)
Fixpoint do_targets (done : list string) (ts : list string) : io (list string) :=
  match ts with
  | [] => ret done
  | t :: ts => done <~ do_target done t ;; do_targets done ts
  end.

End Targets.
