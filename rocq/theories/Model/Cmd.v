(** /repo/configure.cmd, which looks for Python 3 and configures with it, run as it
    stands (lines 46-100), /repo/choosep3.py (45-50) as far as its status goes, and how
    /repo/configure.py takes its arguments (152-174 and 221-229).

    Simplified:
    - The arguments are words without blanks, quotes, commas, = (but for configure.py)
      or %, and no program is itself a .cmd or .bat file.
    - Status 9009 is what cmd.exe gives for a program that is not there.
    - shift moves %1 but not %* (as cmd.exe documents it).
    - What the programs do is not looked into, only which are run with what.
    - Of argparse: which options are taken; the value of --unicode-version is not read. *)
From Coq Require Import ZArith List Bool String Ascii.
From Verif Require Import Model.Cmake.
Import ListNotations.
Open Scope string_scope.
Open Scope list_scope.

(** * The commands *)

Inductive command :=
  | Label (l : string)
  | Goto (l : string)
  | If_first (v l : string)           (* if "%1"=="v" goto l *)
  | If_below (n : Z) (l : string)     (* if not errorlevel n goto l *)
  | Shift
  | Run (w : list string).

Definition words (s : string) : list string := filter (fun x => negb (String.eqb x "")) (split_at " " "" s).

(** A word between two others *)
Definition between (a b s : string) : option string :=
  let n := String.length s - String.length b in
  if (String.prefix a s && String.eqb (substring n (String.length b) s) b && Nat.leb (String.length a + String.length b) (String.length s))%bool
  then Some (substring (String.length a) (n - String.length a) s) else None.

Definition quiet (w : string) : bool := existsb (String.eqb w) ["@echo"; "REM"; "echo"; "echo."].

(** None: not understood; Some []: nothing that matters here *)
Definition read_line (s : string) : option (list command) :=
  match words s with
  | [] => Some []
  | ["goto"; l] => Some [Goto l]
  | ["shift"] => Some [Shift]
  | ["if"; "not"; "errorlevel"; n; "goto"; l] => match to_number n with Some z => Some [If_below z l] | None => None end
  | ["if"; c; "goto"; l] => match between """%1""==""" """" c with Some v => Some [If_first v l] | None => None end
  | "if" :: _ => None
  | "call" :: w => Some [Run (filter (fun x => negb (String.prefix "2>" x)) w)]
  | String c l :: w =>
      if Ascii.eqb c ":" then match w with [] => Some [Label l] | _ => None end
      else if quiet (String c l) then Some []
      else Some [Run (filter (fun x => negb (String.prefix "2>" x)) (String c l :: w))]
  | "" :: _ => None
  end.

Fixpoint read_cmd (lines : list string) : option (list command) :=
  match lines with
  | [] => Some []
  | s :: lines => match read_line s, read_cmd lines with Some a, Some b => Some (a ++ b) | _, _ => None end
  end.

(** * Running them *)

(** The major version of each python there is, and the status of everything else *)
Record machine := { version : string -> option Z; status : list string -> Z }.

(** choosep3.py 47-50: the status is the major version. *)
Definition status_of (m : machine) (w : list string) : Z :=
  match w with
  | [p; "choosep3.py"] => match version m p with Some v => v | None => 9009%Z end
  | _ => status m w
  end.

Record at_work := { shifted : list string; errorlevel : Z; ran : list (list string) }.

Definition first (l : list string) : string := match l with x :: _ => x | [] => "" end.

Definition put_in (all now : list string) (w : string) : list string :=
  if String.eqb w "%*" then all
  else if String.eqb w "%1" then match now with x :: _ => [x] | [] => [] end
  else [w].

Fixpoint from_label (l : string) (p : list command) : option (list command) :=
  match p with
  | [] => None
  | Label k :: p => if String.eqb k l then Some p else from_label l p
  | _ :: p => from_label l p
  end.

Fixpoint run (fuel : nat) (m : machine) (prog : list command) (all : list string) (p : list command) (s : at_work) : option at_work :=
  match fuel with
  | O => None
  | S fuel =>
      let jump l := match from_label l prog with Some p => run fuel m prog all p s | None => None end in
      match p with
      | [] => Some s
      | Label _ :: p => run fuel m prog all p s
      | Goto l :: _ => jump l
      | If_first v l :: p => if String.eqb (first (shifted s)) v then jump l else run fuel m prog all p s
      | If_below n l :: p => if Z.ltb (errorlevel s) n then jump l else run fuel m prog all p s
      | Shift :: p => run fuel m prog all p {| shifted := tl (shifted s); errorlevel := errorlevel s; ran := ran s |}
      | Run w :: p =>
          let w := flat_map (put_in all (shifted s)) w in
          run fuel m prog all p {| shifted := shifted s; errorlevel := status_of m w; ran := ran s ++ [w] |}
      end
  end.

(** The programs configure.cmd runs, each with its arguments *)
Definition run_cmd (lines : list string) (m : machine) (args : list string) : option (list (list string)) :=
  match read_cmd lines with
  | Some p => match run 100 m p args p {| shifted := args; errorlevel := 0%Z; ran := [] |} with Some s => Some (ran s) | None => None end
  | None => None
  end.

(** * configure.py *)

(** 222-228: which python make.cmd is to use, and the arguments that are parsed *)
Definition entry (argv : list string) : string * list string :=
  match argv with
  | [] => ("python", ["--help"])
  | x :: r => if String.prefix "-" x then ("python", argv) else (x, r)
  end.

Definition with_value : list string := ["--prefix"; "--compiler"; "--unicode-version"; "--make-nsis"].
Definition without_value : list string := ["--verbose"; "--help"].

(** 152-174: argparse takes the beginning of one option only for the option. *)
Definition meant (x : string) : list string :=
  if existsb (String.eqb x) (with_value ++ without_value) then [x]
  else if String.prefix "--" x then filter (String.prefix x) (with_value ++ without_value) else [].

(** What becomes of the arguments: [true] if configure.py goes on to configure *)
Fixpoint takes (l : list string) : bool :=
  match l with
  | [] => true
  | x :: r =>
      if String.eqb x "-v" then takes r
      else match split_at "=" "" x with
           | [o] => match meant o with
                    | [k] => if existsb (String.eqb k) with_value then match r with v :: r => negb (String.prefix "-" v) && takes r | [] => false end
                             else String.eqb k "--verbose" && takes r
                    | _ => false
                    end
           | o :: _ => match meant o with [k] => existsb (String.eqb k) with_value && takes r | _ => false end
           | [] => false
           end
  end.
