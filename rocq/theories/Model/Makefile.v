(** The recipes of /repo/Makefile that build, test and package (lines 49-75 and 95-114),
    read and run as they stand: which programs are run where and with which words.

    Simplified:
    - Every command succeeds, cd included, so all lines of a recipe are run.
    - Of make: variables set with = in the conditionals at the top, $(..), @, lines
      continued with a backslash.  When a recipe is run is Model/Stamps.v's business.
    - Of the shell: blanks, quotes, ;, cd, echo and if [ .. -eq 0 ] without nesting.
      A [ that is not given two numbers fails. *)
From Coq Require Import ZArith List Bool String Ascii.
From Verif Require Import Model.Cmake.
Import ListNotations.
Open Scope string_scope.
Open Scope list_scope.

Definition settings := string -> string.

Definition tab : ascii := ascii_of_nat 9.
Definition quote : ascii := ascii_of_nat 34.
Definition apostrophe : ascii := ascii_of_nat 39.
Definition backslash : ascii := ascii_of_nat 92.

(** * What make reads *)

(** Of a line in a recipe: the text after the tab *)
Definition after_tab (s : string) : option string :=
  match s with String c r => if Ascii.eqb c tab then Some r else None | EmptyString => None end.

Fixpoint unfinished (s : string) : option string :=
  match s with
  | EmptyString => None
  | String c EmptyString => if Ascii.eqb c backslash then Some EmptyString else None
  | String c r => match unfinished r with Some x => Some (String c x) | None => None end
  end.

(** The lines of a recipe, those continued put together *)
Fixpoint recipe (sofar : string) (l : list string) : list string :=
  match l with
  | [] => []
  | s :: l =>
      match after_tab s with
      | None => []
      | Some r => match unfinished r with
                  | Some x => recipe (sofar ++ x)%string l
                  | None => (sofar ++ r)%string :: recipe "" l
                  end
      end
  end.

Fixpoint rule (target : string) (l : list string) : option (list string) :=
  match l with
  | [] => None
  | s :: l => if String.prefix (target ++ ":")%string s then Some (recipe "" l) else rule target l
  end.

(** $(..) with the values of [v]; $$ is $. *)
Fixpoint expand (v : settings) (name : option string) (s : string) : string :=
  match s with
  | EmptyString => EmptyString
  | String c r =>
      match name with
      | Some n => if Ascii.eqb c ")" then (v n ++ expand v None r)%string else expand v (Some (n ++ String c "")%string) r
      | None =>
          match c, r with
          | "$"%char, String d r' => if Ascii.eqb d "(" then expand v (Some "") r' else if Ascii.eqb d "$" then String d (expand v None r') else String c (expand v None r)
          | _, _ => String c (expand v None r)
          end
      end
  end.

Definition put (v : settings) (n x : string) : settings := fun y => if String.eqb y n then x else v y.

Definition set_here (s : string) : option (string * string) :=
  match split_at " " "" s with
  | n :: "=" :: _ => Some (n, substring (String.length n + 3) (String.length s) s)
  | _ => None
  end.

(** ifneq ($(strip $(n)),) *)
Definition asked_for (s : string) : option string :=
  if String.prefix "ifneq ($(strip $(" s then
    match split_at ")" "" (substring 17 (String.length s) s) with
    | [n; ""; ","; ""] => Some n
    | _ => None
    end
  else None.

(** A value is empty for make if it has nothing but blanks. *)
Fixpoint blank (s : string) : bool := match s with EmptyString => true | String c r => Ascii.eqb c " " && blank r end.

Inductive directive := Ask (n : string) | Else | Endif | Set_ (n x : string).

Definition directive_of (s : string) : list directive :=
  match asked_for s with
  | Some n => [Ask n]
  | None =>
      if String.eqb s "else" then [Else]
      else if String.eqb s "endif" then [Endif]
      else match after_tab s with
           | Some r => match set_here r with Some (n, x) => [Set_ n x] | None => [] end
           | None => []
           end
  end.

(** Lines 50-59: [on] says whether the branch counts; outside of ifneq nothing is set. *)
Fixpoint conditionals (on : option bool) (v : settings) (l : list directive) : settings :=
  match l with
  | [] => v
  | Ask n :: l => conditionals (Some (negb (blank (v n)))) v l
  | Else :: l => conditionals (match on with Some b => Some (negb b) | None => None end) v l
  | Endif :: l => conditionals None v l
  | Set_ n x :: l => conditionals on (match on with Some true => put v n (expand v None x) | _ => v end) l
  end.

(** * What the shell does *)

Inductive token := Word (s : string) | Semi.

Inductive mode := Between | Within (s : string) | Quoted (q : ascii) (s : string).

Definition snoc (s : string) (c : ascii) : string := (s ++ String c "")%string.

Fixpoint tokens (m : mode) (s : string) : list token :=
  match s with
  | EmptyString => match m with Between => [] | Within x => [Word x] | Quoted _ x => [Word x] end
  | String c r =>
      match m with
      | Quoted q x => if Ascii.eqb c q then tokens (Within x) r else tokens (Quoted q (snoc x c)) r
      | _ =>
          let sofar := match m with Within x => x | _ => "" end in
          let done := match m with Within x => [Word x] | _ => [] end in
          if (Ascii.eqb c " " || Ascii.eqb c tab)%bool then done ++ tokens Between r
          else if Ascii.eqb c ";" then done ++ Semi :: tokens Between r
          else if (Ascii.eqb c quote || Ascii.eqb c apostrophe)%bool then tokens (Quoted c sofar) r
          else tokens (Within (snoc sofar c)) r
      end
  end.

Fixpoint commands (now : list string) (l : list token) : list (list string) :=
  match l with
  | [] => [now]
  | Semi :: l => now :: commands [] l
  | Word w :: l => commands (now ++ [w]) l
  end.

(** [ .. -eq 0 ] *)
Definition holds (c : list string) : bool :=
  match c with
  | ["["; x; "-eq"; y; "]"] => match to_number x, to_number y with Some a, Some b => Z.eqb a b | _, _ => false end
  | _ => false
  end.

(** A program: where it is run, and its words *)
Definition program := (string * list string)%type.

Definition one (dir : string) (w : list string) : string * list program :=
  match w with
  | [] => (dir, [])
  | ["cd"; d] => (d, [])
  | "echo" :: _ => (dir, [])
  | _ => (dir, [(dir, w)])
  end.

Definition one_if (active : bool) (dir : string) (w : list string) : string * list program := if active then one dir w else (dir, []).

(** [active]: the branch we are in is taken; [cond]: what came of the last if *)
Fixpoint shell (active cond : bool) (dir : string) (l : list (list string)) : list program :=
  match l with
  | [] => []
  | w :: l =>
      match w with
      | "if" :: c => shell true (holds c) dir l
      | "then" :: w => snd (one_if cond dir w) ++ shell cond cond (fst (one_if cond dir w)) l
      | "else" :: w => snd (one_if (negb cond) dir w) ++ shell (negb cond) cond (fst (one_if (negb cond) dir w)) l
      | ["fi"] => shell true cond dir l
      | _ => snd (one_if active dir w) ++ shell active cond (fst (one_if active dir w)) l
      end
  end.

(** One line of a recipe, by a shell of its own *)
Definition run_line (v : settings) (s : string) : list program :=
  let s := match s with String c r => if Ascii.eqb c "@" then r else s | EmptyString => s end in
  shell true true "." (commands [] (tokens Between (expand v None s))).

(** The programs the recipe of [target] runs, with the variables of config.make *)
Definition make (lines : list string) (v : settings) (target : string) : option (list program) :=
  match rule target lines with
  | Some l => Some (flat_map (run_line (conditionals None v (flat_map directive_of lines))) l)
  | None => None
  end.
