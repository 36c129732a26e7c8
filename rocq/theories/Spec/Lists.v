(** What is expected of the build that CMakeLists.txt and packaging.cmake describe. *)
From Coq Require Import List Bool String Ascii ZArith.
From Verif Require Import Gen.Files Model.Lists.
Import ListNotations.
Open Scope string_scope.
Open Scope list_scope.

(** [t] compiles [f] into the library or a program. *)
Definition compiles (t : state) (f : string) : Prop :=
  exists r, In r (asked t) /\ (fst r = "add_library" \/ fst r = "add_executable") /\ In (false, f) (snd r).

(** The Unicode versions, and the one taken if [a] is asked for *)
Definition versions : list string := ["7"; "8"; "9"; "10"; "11"; "12"; "13"; "14"; "15"; "16"].
Definition chosen (a v : string) : Prop := In a versions /\ v = a \/ ~ In a versions /\ v = "16".

(** The files of the project a request needs *)
Fixpoint up_to (x : string) (l : list string) : list string :=
  match l with [] => [] | y :: l => if String.eqb y x then [] else y :: up_to x l end.

Definition needs (r : request) : list string :=
  let (c, a) := r in
  let a := map snd a in
  if String.eqb c "add_library" then skipn 2 a
  else if String.eqb c "add_executable" then skipn 1 a
  else if String.eqb c "add_subdirectory" then map (fun d => d ++ "/CMakeLists.txt")%string a
  else if String.eqb c "install" && String.eqb (hd "" a) "FILES" then up_to "DESTINATION" (tl a)
  else if String.eqb c "include" && negb (existsb (String.eqb (hd "" a)) ["CTest"; "CPack"]) then map (fun m => "cmake/modules/" ++ m ++ ".cmake")%string a
  else [].

(** [t] makes [f] itself, from files of the project. *)
Definition makes (dir : string) (t : state) (f : string) : Prop :=
  exists p e c, In ("add_custom_command", [(false, "OUTPUT"); (true, f); (false, "COMMAND"); (true, p); (true, (dir ++ "/" ++ e)%string); (true, f)] ++ c) (asked t) /\
    In e repo_files /\ compiles t (p ++ "/" ++ p ++ ".cxx")%string.

Definition complete (dir : string) (t : state) : Prop :=
  forall r f, In r (asked t) -> In f (needs r) -> In f repo_files \/ makes dir t f.

(** There are unit tests. *)
Definition tests (t : state) : Prop := exists a, In ("add_test", a) (asked t).

(** The Visual Studios cmake knows *)
Definition studios : list (string * Z) :=
  [("Visual Studio 8 2005", 2005); ("Visual Studio 9 2008", 2008); ("Visual Studio 10 2010", 2010); ("Visual Studio 11 2012", 2012);
   ("Visual Studio 12 2013", 2013); ("Visual Studio 14 2015", 2015); ("Visual Studio 15 2017", 2017); ("Visual Studio 16 2019", 2019);
   ("Visual Studio 17 2022", 2022)]%Z.
Definition of_year (g : string) (y : Z) : Prop := exists n rest, In (n, y) studios /\ g = (n ++ rest)%string.

(** The headers a request installs, without their directories, and the ones a text includes by name *)
Fixpoint base (acc s : string) : string :=
  match s with
  | EmptyString => acc
  | String c s => if Ascii.eqb c "/"%char then base "" s else base (acc ++ String c "") s
  end.

Definition installed (t : state) (h : string) : Prop :=
  exists l, In ("install", map (pair false) (["FILES"] ++ l ++ ["DESTINATION"; "include/ansak"])) (asked t) /\ In h l.

Fixpoint until_quote (s : string) : string :=
  match s with EmptyString => "" | String c s => if Ascii.eqb c """"%char then "" else String c (until_quote s) end.

Definition included (line : string) : option string :=
  if String.prefix "#include """ line then Some (until_quote (substring 10 (String.length line) line)) else None.

Definition public_headers : list string := ["interface/string.hxx"; "interface/string_splitjoin.hxx"; "interface/string_trim.hxx"].

(** The files of a Unicode version *)
Definition lower_file (v : string) : string := ("source/bits" ++ v ++ "/char_to_lower.cxx")%string.
Definition assigned_file (v : string) : string := ("source/bits" ++ v ++ "/char_is_unicode.cxx")%string.
Definition lower_test (v : string) : string := ("test/unit/string_tolower_test" ++ v ++ ".cxx")%string.

Definition sets_up_coverage (t : state) : Prop :=
  In ("setup_target_for_coverage", map (pair false) ["ansak-string-coverage"; "ansakStringTest"; "ansakStringCoverage"]) (asked t).
