(** What configure.cmd is for *)
From Coq Require Import ZArith List Bool String.
From Verif Require Import Model.Cmd.
Import ListNotations.
Open Scope string_scope.
Open Scope list_scope.

(** This python is there and of version 3 (or later). *)
Definition modern (m : machine) (p : string) : bool := match version m p with Some v => Z.leb 3 v | None => false end.
Definition there (m : machine) (p : string) : Prop := version m p <> None.

(** The python to configure with *)
Definition chosen (m : machine) : option string :=
  if modern m "python" then Some "python" else if modern m "python3" then Some "python3" else None.

(** Arguments meant for configure.py *)
Definition plain (args : list string) : Prop := forall x r, args = x :: r -> ~ In x ["--help"; "-h"; "--python"].

(** Those of the programs that were run that configure *)
Definition configuring (ran : list (list string)) : list (list string) :=
  filter (fun w => match w with _ :: "configure.py" :: _ => true | _ => false end) ran.

(** Everything that is run configures, asks for a version or sees whether there is cmake. *)
Definition harmless (ran : list (list string)) : Prop :=
  forall w, In w ran -> w = ["cmake.exe"; "--version"] \/ (exists p, w = [p; "choosep3.py"]) \/ In w (configuring ran).
