(** /repo/FindANSAK.cmake: where another project finds the installed library.

    Simplified:
    - The disk is that of Model/Make.v.  On Windows a path starts with the drive;
      names are compared exactly.
    - The module is run with an empty cache, so that nothing is found but what it
      finds itself.
    - A variable with a path in it is set or not; paths cmake takes for false,
      such as OFF, are left out.
    - find_library and find_file look into the directories of CMAKE_PREFIX_PATH
      and the like ([earlier]), then into those given by HINTS, then into those of
      the system ([later]), in this order, and there for the very name given.
      The variants lib64 and lib/<architecture> cmake tries beside lib are left
      out.
    - find_library ... REQUIRED that finds nothing ends everything with an error.
    - Messages are left out, and the variables that only choose between messages. *)
From Coq Require Import ZArith List Bool String Ascii.
From Verif Require Import Model.Make.
Import ListNotations.
Open Scope string_scope.
Open Scope list_scope.

(** What is searched for: the directories of cmake and of the system differ. *)
Inductive kind := Library | Header.

Record settings := {
  unix : bool;                        (* UNIX OR MINGW OR CYGWIN *)
  platform : string;                  (* CMAKE_GENERATOR_PLATFORM *)
  generator : string;                 (* CMAKE_GENERATOR *)
  ansak_dir : option path;            (* ANSAK_DIR *)
  env_ansak_dir : option path;        (* $ENV{ANSAK_DIR} *)
  program_data : option path;         (* PROGRAM_DATA *)
  env_program_data : option path;     (* $ENV{PROGRAM_DATA} *)
  isolate : bool;                     (* ANSAK_ISOLATE *)
  sqlite3 : bool;                     (* SQLite3_FOUND *)
  no_generator_libs : bool;           (* ANSAK_NO_GENERATOR_LIBS, either of them *)
  earlier : kind -> list path;
  later : kind -> list path }.

(** A file to link with: one, or by configuration <dir>/$<CONFIG>/<name>. *)
Inductive lib :=
  | Exactly (p : path)
  | ByConfig (dir : path) (name : string).

(** What cmake makes of $<CONFIG> when building configuration [c]. *)
Definition expand (l : lib) (c : string) : path :=
  match l with
  | Exactly p => p
  | ByConfig dir name => dir ++ [c; name]
  end.

Record found := {
  string_lib : lib;                   (* ANSAK_STRING_LIB *)
  include_path : option path;         (* ANSAK_INCLUDE *)
  ansak_lib : option lib;             (* ANSAK_LIB, if ANSAK_LIB_FOUND *)
  sqlite_lib : option lib;            (* ANSAK_SQLITE_LIB, if ANSAK_SQLITE_FOUND *)
  by_generator : bool;                (* ANSAK_LIB_BY_GENERATOR *)
  included : list string }.           (* the arguments of include_directories *)

Inductive result :=
  | Fatal                             (* a library that is REQUIRED is not found *)
  | SendError                         (* message( SEND_ERROR ) and return() *)
  | Found (f : found).

Section Find.
Variables (s : settings) (d : disk).

Fixpoint first (dirs : list path) (name : string) : option path :=
  match dirs with
  | [] => None
  | x :: dirs => if is_file d (x ++ [name]) then Some (x ++ [name]) else first dirs name
  end.

(** NO_DEFAULT_PATH or not *)
Definition search (k : kind) (default : bool) (hints : list path) (name : string) : option path :=
  first (if default then earlier s k ++ hints ++ later s k else hints) name.

(** find_library( var name HINTS ... REQUIRED ); [None] is Fatal.  A variable
    that has been found is left alone. *)
Definition required (default : bool) (hints : list path) (name : string) (var : option path)
    : option (option path) :=
  match var with
  | Some p => Some (Some p)
  | None => match search Library default hints name with
            | Some p => Some (Some p)
            | None => None
            end
  end.

(** 161-164 *)
Definition win32_dirs := ["Win32"; "x86"; "i386"; "X86"].
Definition win64_dirs := ["x64"; "Win64"; "x86-64"; "x86_64"; "X64"; "X86_64"; "X86-64"; "amd64"].
Definition arm_dirs := ["ARM"; "Arm"; "arm"].
Definition arm64_dirs := ["ARM64"; "Arm64"; "arm64"].

(** 165-185 *)
Definition platform_matches (dirname : string) : bool :=
  let the_list :=
    if String.eqb (platform s) "ARM" then arm_dirs
    else if String.eqb (platform s) "ARM64" then arm64_dirs
    else if String.eqb (platform s) "Win32" then win32_dirs
    else if String.eqb (platform s) "x64" then win64_dirs
    else [] in
  existsb (String.eqb dirname) the_list.

(** 199-223: the hints of the four branches; none for any other platform *)
Definition platform_hints (cand : path) : option (list path) :=
  let at_ (l : list string) := Some (map (fun a => cand ++ ["lib"; a; "Debug"]) l) in
  if String.eqb (platform s) "ARM" then at_ ["ARM"]
  else if String.eqb (platform s) "ARM64" then at_ ["ARM64"]
  else if String.eqb (platform s) "Win32" then at_ ["Win32"; "x86"; "i386"]
  else if String.eqb (platform s) "x64" then at_ ["x64"; "Win64"; "x86_64"; "x86-64"; "amd64"]
  else None.

(** 192-234 *)
Definition find_win_lib (name : string) (cand : option path) (var : option path) : option (option path) :=
  match cand with
  | None => Some var
  | Some cand =>
      match match platform_hints cand with
            | Some hints => required false hints name var
            | None => Some var
            end with
      | None => None
      | Some var => required false [cand ++ ["lib"]] name var
      end
  end.

(** 262-266 *)
Fixpoint try_all (cands : list (option path)) (var : option path) : option (option path) :=
  match cands with
  | [] => Some var
  | c :: cands => match find_win_lib "ansakString.lib" c var with
                  | None => None
                  | Some var => try_all cands var
                  end
  end.

Definition windows_locator : option (option path) :=
  try_all [ansak_dir s; env_ansak_dir s; program_data s; env_program_data s; Some ["C:"; "ProgramData"]] None.

(** 243-254: with ANSAK_DIR in the environment the variable set is another one,
    _loctaor *)
Definition unix_locator : option (option path) :=
  match ansak_dir s with
  | Some r => required true [r ++ ["lib"]] "libansakString.a" None
  | None =>
      match env_ansak_dir s with
      | Some r => match required true [r ++ ["lib"]] "libansakString.a" None with
                  | Some _ => Some None
                  | None => None
                  end
      | None => required true [] "libansakString.a" None
      end
  end.

(** get_filename_component( ... DIRECTORY ) and NAME; the empty string has
    neither *)
Definition directory (p : path) : path := removelast p.
Definition name (p : path) : string := last p "".

Fixpoint starts (a t : string) : bool :=
  match a, t with
  | EmptyString, _ => true
  | String x a, String y t => Ascii.eqb x y && starts a t
  | _, _ => false
  end.

(** 316 *)
Definition visual_studio : bool := starts "Visual Studio" (generator s).

(** 286-380: ANSAK_STRING_LIB, _ansak_root, and where the libraries are split by
    configuration in a way cmake can follow, the directory above *)
Definition locate (locator : path) : lib * path * option path :=
  let dir := directory locator in
  if negb (String.eqb (name dir) "Debug") then (Exactly locator, directory dir, None)
  else
    let parent := directory dir in
    let root :=
      if String.eqb (name parent) "lib" then directory parent
      else if platform_matches (name parent) then directory (directory parent)
      else parent in
    if visual_studio then (ByConfig parent "ansakString.lib", root, Some parent)
    else (Exactly locator, root, None).

(** 437-455, 457-487: another library, if its header is there *)
Definition component (there : bool) (root dir : path) (split : option path) (header file file_by_config : string) : option lib :=
  if there then
    match search Header true [root ++ ["include"; "ansak"]] header with
    | None => None
    | Some _ =>
        match search Library true [dir] file with
        | None => None
        | Some p => Some (match split with Some parent => ByConfig parent file_by_config | None => Exactly p end)
        end
    end
  else None.

(** 422 *)
Definition standard (p : path) : bool :=
  Make.same p ["usr"; "include"] || Make.same p ["usr"; "local"; "include"].

(** 276-498 *)
Definition conclude (locator : option path) : result :=
  let locator := match locator with Some p => p | None => [] end in
  let '(sl, root, split) := locate locator in
  match search Header true [root ++ ["include"; "ansak"]] "string.hxx" with
  | None => SendError
  | Some header =>
      let include := directory (directory header) in
      let ansak_include := if standard include then None else Some include in
      Found {| string_lib := sl;
               include_path := ansak_include;
               ansak_lib := component true root (directory locator) split "runtime_exception.hxx"
                              (if unix s then "libansak.a" else "ansak.lib") "ansak.lib";
               sqlite_lib := component (sqlite3 s) root (directory locator) split "sqlite_exception.hxx"
                              (if unix s then "libansakSqlite.a" else "ansakSqlite.lib") "ansakSqlite.lib";
               by_generator := match split with Some _ => negb (no_generator_libs s) | None => false end;
               included := match ansak_include with
                           | Some _ => if isolate s then [] else ["ANSAK_INCLUDE"]
                           | None => []
                           end |}
  end.

Definition find_ansak : result :=
  match (if unix s then unix_locator else windows_locator) with
  | None => Fatal
  | Some locator => conclude locator
  end.

End Find.
