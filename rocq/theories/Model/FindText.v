(** /repo/FindANSAK.cmake as text: its lines are those of Gen/TextScripts.v, read
    and run by Model/Cmake.v.  Here is what its variables have to do with
    Model/Find.v. *)
From Coq Require Import ZArith List Bool String Ascii.
From Verif Require Import Model.Make Model.Find Model.Cmake.
Import ListNotations.
Open Scope string_scope.
Open Scope list_scope.

Definition find_kind (k : Cmake.kind) : Find.kind :=
  match k with Cmake.Library => Find.Library | Cmake.Header => Find.Header end.

(** Nothing calls a function from within a function. *)
Definition run_text (lines : list string) (s : settings) (d : disk) (vs : string -> option string) (env : string -> string) : outcome :=
  match read_cmake lines with
  | None => Stuck
  | Some b => Cmake.run env (fun k => earlier s (find_kind k)) (fun k => later s (find_kind k)) d 1 b (start vs)
  end.

(** A variable that may hold a path: [p] if it does *)
Definition holds_path (v : string) (p : path) : Prop :=
  path_of v = p /\ truth v = true /\ split_at ";" "" v = [v].

Definition may_hold (v : string) (o : option path) : Prop :=
  match o with Some p => holds_path v p | None => truth v = false end.

(** The variables set before *)
Definition inputs : list string :=
  ["UNIX"; "MINGW"; "CYGWIN"; "APPLE"; "CMAKE_GENERATOR_PLATFORM"; "CMAKE_GENERATOR"; "ANSAK_DIR"; "PROGRAM_DATA";
   "ANSAK_ISOLATE"; "ANSAK_DEBUG"; "SQLite3_FOUND"; "ANSAK_NO_GENERATOR_LIBS"].

Record stands_for (s : settings) (vs : string -> option string) (env : string -> string) : Prop := {
  sf_unix : truth (text (vs "UNIX")) || truth (text (vs "MINGW")) || truth (text (vs "CYGWIN")) = unix s;
  sf_platform : text (vs "CMAKE_GENERATOR_PLATFORM") = platform s;
  sf_generator : vs "CMAKE_GENERATOR" = Some (generator s);
  sf_ansak_dir : may_hold (text (vs "ANSAK_DIR")) (ansak_dir s);
  sf_env_ansak_dir : match env_ansak_dir s with
                     | Some p => holds_path (env "ANSAK_DIR") p
                     | None => env "ANSAK_DIR" = ""
                     end;
  sf_program_data : may_hold (text (vs "PROGRAM_DATA")) (program_data s);
  sf_env_program_data : may_hold (env "PROGRAM_DATA") (env_program_data s);
  sf_isolate : truth (text (vs "ANSAK_ISOLATE")) = isolate s;
  sf_sqlite3 : truth (text (vs "SQLite3_FOUND")) = sqlite3 s;
  sf_no_generator_libs :
    negb (String.eqb (env "ANSAK_NO_GENERATOR_LIBS") "") || truth (text (vs "ANSAK_NO_GENERATOR_LIBS")) = no_generator_libs s;
  sf_only : forall x, vs x <> None -> In x inputs }.

(** [x] is not in [s]. *)
Fixpoint free (x : ascii) (s : string) : bool :=
  match s with EmptyString => true | String a s => negb (Ascii.eqb a x) && free x s end.

(** A name of a path *)
Definition proper (c : string) : Prop :=
  c <> "" /\ free "/" c = true /\ free ";" c = true /\ ends_with "-NOTFOUND" (upper c) = false.

(** A drive and nothing else: cmake writes the slash after it. *)
Definition lone (p : path) : Prop := match p with [c] => drive c = true | _ => False end.

(** A directory with libraries: going up from it does not go beyond a drive or, from
    one called Debug, beyond the root. *)
Definition library_dir (x : path) : Prop :=
  ~ lone x /\
  (last x "" = "Debug" -> removelast x <> [] /\ ~ lone (removelast x) /\ ~ lone (removelast (removelast x))).

(** The names and directories meant by the settings are ordinary ones. *)
Record ordinary (s : settings) : Prop := {
  or_dirs : forall k x, In x (earlier s k ++ later s k) -> Forall proper x;
  or_given : forall c, In (Some c) [ansak_dir s; env_ansak_dir s; program_data s; env_program_data s] -> Forall proper c;
  or_headers : forall x, In x (earlier s Find.Header ++ later s Find.Header) -> ~ lone x;
  or_libraries : forall x, In x (earlier s Find.Library ++ later s Find.Library) -> library_dir x;
  or_generator : generator s <> "" /\ free ";" (generator s) = true }.

(** A library as the variables give it; where none was found, nothing *)
Definition spell_lib (l : lib) : string :=
  match l with
  | Exactly [] => ""
  | Exactly p => spell p
  | ByConfig dir name => (spell dir ++ "/$<CONFIG>/" ++ name)%string
  end.

Definition given_lib (st : state) (flag var : string) (o : option lib) : Prop :=
  match o with
  | Some l => value st flag = Some "True" /\ value st var = Some (spell_lib l)
  | None => value st flag <> Some "True" /\ value st var = None
  end.

(** The run ended in this way. *)
Definition reports (o : outcome) (r : result) : Prop :=
  match r with
  | Find.Fatal => o = Cmake.Fatal
  | SendError => exists st, o = Left st /\ failed st = true /\ value st "ANSAK_FOUND" = Some "False"
  | Found f => exists st, o = Went st /\ failed st = false /\ value st "ANSAK_FOUND" = Some "True" /\
      value st "ANSAK_STRING_LIB" = Some (spell_lib (string_lib f)) /\
      value st "ANSAK_INCLUDE" = option_map spell (include_path f) /\
      given_lib st "ANSAK_LIB_FOUND" "ANSAK_LIB" (ansak_lib f) /\
      given_lib st "ANSAK_SQLITE_FOUND" "ANSAK_SQLITE_LIB" (sqlite_lib f) /\
      value st "ANSAK_LIB_BY_GENERATOR" = (if by_generator f then Some "True" else None) /\
      incs st = included f
  end.
