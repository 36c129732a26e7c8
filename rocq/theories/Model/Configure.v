(** The shell script /repo/configure: its options, its defaults, when it asks
    for sudo, and what /repo/Makefile 49 reads from the config.make it writes.

    Simplified:
    - No value holds a character a pattern is made of, a backslash, a dollar
      sign or a newline, and none begins with a dash where it is given to echo;
      field splitting is at blanks (space and tab).
    - The submodule (53-55), the directory of the prefix (162-165) and the
      messages are left out; the list of the sources (226) is in
      Model/Stamps.v. *)
From Coq Require Import ZArith List Bool String Ascii.
Import ListNotations.
Open Scope string_scope.
Open Scope list_scope.

(** What the script finds: the answer of uname, the programs that are there,
    and its environment (an unset variable is empty). *)
Record surroundings := {
  uname : string;
  has_cmake : bool;
  has_dpkg : bool; has_rpm : bool; has_debtap : bool;
  env_home : string;
  env_prefix : string; env_compiler : string; env_version : string; env_second : string }.

(** sed 's/\(.....\).*/\1/': the first n characters, if there are that many *)
Fixpoint first_chars (n : nat) (s : string) : string :=
  match n, s with
  | O, _ => ""
  | S n, String c s => String c (first_chars n s)
  | S _, EmptyString => ""
  end.

Inductive system := Darwin | Windows | Other.

(** configure 60, 65 and 69 *)
Definition system_of (w : surroundings) : system :=
  if String.eqb (uname w) "Darwin" then Darwin
  else if String.eqb (first_chars 5 (uname w)) "MINGW" || String.eqb (first_chars 6 (uname w)) "CYGWIN"
       then Windows
       else Other.

(** configure 61, 66, 79 and 62, 67, 80 and 84 *)
Definition def_prefix (w : surroundings) : string :=
  match system_of w with Darwin => env_home w | Windows => "/usr/local" | Other => "/usr" end.

Definition def_cxx (w : surroundings) : string :=
  match system_of w with Darwin => "clang++" | Windows => "g++" | Other => "g++" end.

Definition def_unicode : string := "16".

(** configure 63, 68, 81 *)
Definition sudo_if_priv (w : surroundings) : bool :=
  match system_of w with Windows => false | _ => true end.

Definition apple (w : surroundings) : bool :=
  match system_of w with Darwin => true | _ => false end.

Record values := { prefix : string; compiler : string; unicode_version : string }.

Inductive parsed :=
  | Usage (code : Z)
  | Go (v : values).

(** configure 107-140: the variables begin as the environment has them *)
Fixpoint options (args : list string) (v : values) : parsed :=
  match args with
  | [] => Go v
  | a :: rest =>
      if String.eqb a "-h" || String.eqb a "--help" then Usage 0
      else if String.eqb a "--prefix" then
        match rest with
        | [] => Usage 1
        | x :: rest => if String.eqb x "" then Usage 1
            else options rest {| prefix := x; compiler := compiler v; unicode_version := unicode_version v |}
        end
      else if String.eqb a "--compiler" then
        match rest with
        | [] => Usage 1
        | x :: rest => if String.eqb x "" then Usage 1
            else options rest {| prefix := prefix v; compiler := x; unicode_version := unicode_version v |}
        end
      else if String.eqb a "--unicode-version" then
        match rest with
        | [] => Usage 1
        | x :: rest => if String.eqb x "" then Usage 1
            else options rest {| prefix := prefix v; compiler := compiler v; unicode_version := x |}
        end
      else if String.eqb a "-v" || String.eqb a "--verbose" then options rest v
      else Usage 1
  end.

(** configure 142-177: without cmake nothing, then the defaults *)
Definition or_else (s default : string) : string := if String.eqb s "" then default else s.

Definition settle (w : surroundings) (args : list string) : parsed :=
  match options args {| prefix := env_prefix w; compiler := env_compiler w; unicode_version := env_version w |} with
  | Usage c => Usage c
  | Go v =>
      if has_cmake w then
        Go {| prefix := or_else (prefix v) (def_prefix w);
              compiler := or_else (compiler v) (def_cxx w);
              unicode_version := or_else (unicode_version v) def_unicode |}
      else Usage 1
  end.

(** * Text *)

Definition blank (c : ascii) : bool := Ascii.eqb c " " || Ascii.eqb c (ascii_of_nat 9).

(** Field splitting *)
Fixpoint fields (s : string) : list string :=
  match s with
  | EmptyString => []
  | String c s =>
      if blank c then fields s
      else match s with
           | EmptyString => [String c ""]
           | String c' _ =>
               if blank c' then String c "" :: fields s
               else match fields s with
                    | [] => [String c ""]
                    | f :: l => String c f :: l
                    end
           end
  end.

(** echo *)
Definition echo (ws : list string) : string := String.concat " " ws.

(** cut -d/ -f 1 and -f 2: a line without the delimiter comes out whole *)
Fixpoint has (x : ascii) (s : string) : bool :=
  match s with EmptyString => false | String c s => Ascii.eqb c x || has x s end.

Fixpoint upto (x : ascii) (s : string) : string :=
  match s with
  | EmptyString => ""
  | String c s => if Ascii.eqb c x then "" else String c (upto x s)
  end.

Fixpoint behind (x : ascii) (s : string) : string :=
  match s with
  | EmptyString => ""
  | String c s => if Ascii.eqb c x then s else behind x s
  end.

Definition cut1 (s : string) : string := upto "/" s.
Definition cut2 (s : string) : string := if has "/" s then upto "/" (behind "/" s) else s.

(** configure 177-191; [$second] (184) is not set anywhere in the script *)
Definition wants_sudo (w : surroundings) (p : string) : bool :=
  sudo_if_priv w &&
  String.eqb (cut1 (echo (fields p))) "" && negb (String.eqb (cut2 (echo (fields p))) "0") &&
  ((apple w && String.eqb (cut2 (echo (fields p))) "Applications") || String.eqb (env_second w) "usr" ||
   negb (String.eqb p (env_home w))).

(** configure 193-199 *)
Definition config_of (w : surroundings) : string := if apple w then "Release" else "".
Definition generator_of (w : surroundings) : string := if apple w then "Xcode" else "Unix Makefiles".

Definition digit (b : bool) : string := if b then "1" else "0".

(** configure 57-59, 70-78 *)
Definition builds (w : surroundings) (there : bool) : string :=
  digit match system_of w with Other => there | _ => false end.

(** configure 215-223: "echo KEY = $value" *)
Definition line (key value : string) : string := echo ([key; "="] ++ fields value).

Definition config_make (w : surroundings) (v : values) : list string :=
  [line "SUDO" (if wants_sudo w (prefix v) then "sudo" else "");
   line "PREFIX" (prefix v);
   line "CXX" (compiler v);
   line "CONFIG" (config_of w);
   line "GENERATOR" (generator_of w);
   line "UNICODE_VERSION" (unicode_version v);
   line "BUILDS_DEB" (builds w (has_dpkg w));
   line "BUILDS_RPM" (builds w (has_rpm w));
   line "BUILDS_ARCH" (builds w (has_debtap w))].

(** * make reads it *)

Fixpoint skip (s : string) : string :=
  match s with
  | EmptyString => ""
  | String c s' => if blank c then skip s' else s
  end.

(** A definition: the name is the text before the sign without blanks, the
    value that behind it from its first character that is not blank, as far as
    a comment begins. *)
Definition defines (key : string) (l : string) : option string :=
  let l := upto "#" l in
  if has "=" l && String.eqb (String.concat "" (fields (upto "=" l))) key
  then Some (skip (behind "=" l))
  else None.

(** The last definition counts. *)
Fixpoint value_of (key : string) (ls : list string) : string :=
  match ls with
  | [] => ""
  | l :: ls =>
      if existsb (fun l => match defines key l with Some _ => true | None => false end) ls
      then value_of key ls
      else match defines key l with Some v => v | None => value_of key ls end
  end.
