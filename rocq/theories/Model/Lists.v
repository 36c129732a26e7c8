(** As much of the language of cmake as /repo/CMakeLists.txt and
    /repo/packaging.cmake are written in: what they ask cmake for.  The reading of
    arguments and blocks is that of Model/Cmake.v; here parentheses within those of a
    command are arguments, and if() knows them.

    Simplified:
    - What a command asks for (a library, a test, options, ...) is written down with
      its arguments and not looked into, except that install( TARGETS ) of a static
      library without a destination for archives is an error before cmake 3.14.
    - include() of a file of the project runs it; of a module it is written down, and
      the module changes no variable.  CodeCoverage defines
      SETUP_TARGET_FOR_COVERAGE (/repo/cmake/modules/CodeCoverage.cmake:124).
    - project() finds nothing out about the compiler: its variables are given.
    - MATCHES knows plain words; the parts of a version are numbers.
    - execute_process gives what lsb_release writes, or nothing.
    - Messages are left out; FATAL_ERROR ends the run. *)
From Coq Require Import ZArith List Bool String Ascii.
From Verif Require Import Model.Make Model.Cmake.
Import ListNotations.
Open Scope string_scope.
Open Scope list_scope.

(** * Reading *)

(** As [lex], [depth] parentheses within those of the command *)
Fixpoint lex_deep (m : mode) (depth : nat) (name : string) (args : list (bool * string)) (s : string) : option (list raw) :=
  match s with
  | EmptyString => match m with Top | Remark false => Some [] | _ => None end
  | String c rest =>
      match m with
      | Top =>
          if white c then lex_deep Top 0 "" [] rest
          else if Ascii.eqb c "#" then lex_deep (Remark false) 0 "" [] rest
          else lex_deep (Name (String c "")) 0 "" [] rest
      | Name w =>
          if Ascii.eqb c "(" then lex_deep Inside 0 w [] rest
          else if white c then lex_deep (Name w) 0 "" [] rest
          else lex_deep (Name (snoc w c)) 0 "" [] rest
      | Inside =>
          if white c then lex_deep Inside depth name args rest
          else if Ascii.eqb c ")" then
            match depth with
            | O => option_map (cons (lower name, rev args)) (lex_deep Top 0 "" [] rest)
            | S n => lex_deep Inside n name ((false, ")") :: args) rest
            end
          else if Ascii.eqb c "(" then lex_deep Inside (S depth) name ((false, "(") :: args) rest
          else if Ascii.eqb c "#" then lex_deep (Remark true) depth name args rest
          else if Ascii.eqb c quotes then lex_deep (InQuotes "") depth name args rest
          else lex_deep (Word (String c "")) depth name args rest
      | Word w =>
          if white c then lex_deep Inside depth name ((false, w) :: args) rest
          else if Ascii.eqb c ")" then
            match depth with
            | O => option_map (cons (lower name, rev ((false, w) :: args))) (lex_deep Top 0 "" [] rest)
            | S n => lex_deep Inside n name ((false, ")") :: (false, w) :: args) rest
            end
          else if Ascii.eqb c "(" || Ascii.eqb c quotes then None
          else if Ascii.eqb c "#" then lex_deep (Remark true) depth name ((false, w) :: args) rest
          else lex_deep (Word (snoc w c)) depth name args rest
      | InQuotes w =>
          if Ascii.eqb c quotes then lex_deep Inside depth name ((true, w) :: args) rest
          else if Ascii.eqb c escape then None
          else lex_deep (InQuotes (snoc w c)) depth name args rest
      | Remark inside =>
          if Ascii.eqb c newline then (if inside then lex_deep Inside depth name args rest else lex_deep Top 0 "" [] rest)
          else lex_deep (Remark inside) depth name args rest
      | Block => None
      end
  end.

Definition read_lists (lines : list string) : option block :=
  match lex_deep Top 0 "" [] (joined lines) with
  | None => None
  | Some raws =>
      match all_some (map cut_command raws) with
      | None => None
      | Some cs =>
          match parse (2 * S (List.length cs)) cs with
          | Some (b, AtEnd, _) => Some b
          | _ => None
          end
      end
  end.

(** * Running *)

Definition request := (string * list (bool * string))%type.

(** What is there before the run *)
Record world := {
  outer : string -> option string;    (* variables, such as those of a project this one is part of *)
  stored : string -> option string;   (* the cache: what is given as -D *)
  release : nat * nat;                (* the version of cmake *)
  distro : string;                    (* what lsb_release -is writes *)
  defined : string -> bool }.         (* the functions defined by others, in lower case *)

Record state := {
  mine : list (string * option string);   (* what the run has set, or unset *)
  asked : list request }.

Inductive outcome := Went (s : state) | Fatal | Stuck.

Fixpoint assoc (n : string) (l : list (string * option string)) : option (option string) :=
  match l with
  | [] => None
  | (x, v) :: l => if String.eqb n x then Some v else assoc n l
  end.

Fixpoint assign (n : string) (v : option string) (l : list (string * option string)) : list (string * option string) :=
  match l with
  | [] => [(n, v)]
  | (x, u) :: l => if String.eqb n x then (x, v) :: l else (x, u) :: assign n v l
  end.

Definition put (n v : string) (s : state) : state := {| mine := assign n (Some v) (mine s); asked := asked s |}.
Definition unset (n : string) (s : state) : state := {| mine := assign n None (mine s); asked := asked s |}.
Definition ask (r : request) (s : state) : state := {| mine := mine s; asked := asked s ++ [r] |}.

Fixpoint contains (w s : string) : bool :=
  begins w s || match s with EmptyString => false | String _ s => contains w s end.

Definition strless (a b : string) : bool := match String.compare a b with Lt => true | _ => false end.

(** Versions: numbers and dots *)
Definition parts (v : string) : list Z :=
  map (fun s => match to_number s with Some z => z | None => 0%Z end) (split_at "." "" v).

Fixpoint zeros_less (l : list Z) : bool :=
  match l with [] => false | y :: l => Z.ltb 0 y || zeros_less l end.

Fixpoint parts_less (a b : list Z) : bool :=
  match a, b with
  | _, [] => false
  | [], b => zeros_less b
  | x :: a, y :: b => Z.ltb x y || Z.eqb x y && parts_less a b
  end.

Definition version_less (a b : string) : bool := parts_less (parts a) (parts b).

Definition before_release (a b : nat * nat) : bool :=
  Nat.ltb (fst a) (fst b) || Nat.eqb (fst a) (fst b) && Nat.ltb (snd a) (snd b).

Section Run.
Variable w : world.

(** Variables set before *)
Definition given (n : string) : option string :=
  match outer w n with Some v => Some v | None => stored w n end.

Definition value (s : state) (n : string) : option string :=
  match assoc n (mine s) with
  | Some (Some v) => Some v
  | Some None => stored w n
  | None => given n
  end.

Definition piece_value (s : state) (p : piece) : option string :=
  match p with
  | Lit x => Some x
  | Var n => Some (text (value s n))
  | Deref _ | Env _ => None
  end.

Fixpoint pieces_value (s : state) (ps : list piece) : option string :=
  match ps with
  | [] => Some ""
  | [p] => piece_value s p
  | p :: ps =>
      match piece_value s p, pieces_value s ps with
      | Some x, Some y => Some (x ++ y)%string
      | _, _ => None
      end
  end.

Definition expand_arg (s : state) (a : arg) : option (list (bool * string)) :=
  match quoted a, pieces a with
  | true, ps => option_map (fun v => [(true, v)]) (pieces_value s ps)
  | false, [Lit x] => Some [(false, x)]
  | false, ps => option_map (fun v => map (pair false) (elements v)) (pieces_value s ps)
  end.

Fixpoint expand_args (s : state) (l : list arg) : option (list (bool * string)) :=
  match l with
  | [] => Some []
  | a :: l =>
      match expand_arg s a, expand_args s l with
      | Some x, Some y => Some (x ++ y)
      | _, _ => None
      end
  end.

(** ** if() *)

Inductive item := Arg (a : bool * string) | Judged (b : bool).

Inductive verdict := Holds (b : bool) | Error | Unknown.

Definition operators : list string :=
  ["NOT"; "AND"; "OR"; "COMMAND"; "POLICY"; "TARGET"; "TEST"; "EXISTS"; "DEFINED"; "IS_DIRECTORY"; "IS_SYMLINK"; "IS_ABSOLUTE";
   "IS_NEWER_THAN"; "IN_LIST"; "MATCHES"; "LESS"; "GREATER"; "EQUAL"; "LESS_EQUAL"; "GREATER_EQUAL"; "STRLESS"; "STRGREATER"; "STREQUAL";
   "STRLESS_EQUAL"; "STRGREATER_EQUAL"; "VERSION_LESS"; "VERSION_GREATER"; "VERSION_EQUAL"; "VERSION_LESS_EQUAL"; "VERSION_GREATER_EQUAL";
   "("; ")"].

Definition unary : list string :=
  ["NOT"; "COMMAND"; "POLICY"; "TARGET"; "TEST"; "EXISTS"; "DEFINED"; "IS_DIRECTORY"; "IS_SYMLINK"; "IS_ABSOLUTE"].

Definition operator (a : bool * string) : bool := negb (fst a) && existsb (String.eqb (snd a)) operators.

Definition is_word (x : string) (i : item) : bool := match i with Arg a => keyword x a | Judged _ => false end.

Fixpoint split_items (x : string) (cur l : list item) : list (list item) :=
  match l with
  | [] => [rev cur]
  | i :: l => if is_word x i then rev cur :: split_items x [] l else split_items x (i :: cur) l
  end.

Definition side (s : state) (a : bool * string) : string :=
  if fst a then snd a else match value s (snd a) with Some v => v | None => snd a end.

Definition constants : list string := ["1"; "ON"; "YES"; "TRUE"; "Y"].

Definition atom (s : state) (l : list item) : verdict :=
  match l with
  | [Judged b] => Holds b
  | [Arg a] =>
      if operator a then Unknown
      else Holds (negb (fst a) && (existsb (String.eqb (upper (snd a))) constants || truth (text (value s (snd a)))))
  | [Arg a; Arg b] => if negb (fst a) && existsb (String.eqb (snd a)) unary then Unknown else Error
  | [Arg a; Arg o; Arg b] =>
      if operator a || operator b then Unknown
      else if keyword "STREQUAL" o then Holds (String.eqb (side s a) (side s b))
      else if keyword "STRLESS" o then Holds (strless (side s a) (side s b))
      else if keyword "VERSION_LESS" o then Holds (version_less (side s a) (side s b))
      else if keyword "MATCHES" o then Holds (contains (snd b) (side s a))
      else Unknown
  | _ => Unknown
  end.

Definition negated (s : state) (l : list item) : verdict :=
  match l with
  | i :: l' =>
      if is_word "NOT" i then match atom s l' with Holds b => Holds (negb b) | v => v end
      else atom s l
  | [] => Unknown
  end.

Definition both (f : bool -> bool -> bool) (v u : verdict) : verdict :=
  match v, u with
  | Holds a, Holds b => Holds (f a b)
  | Error, _ => Error
  | Unknown, _ => Unknown
  | _, u => u
  end.

Fixpoint all_hold (s : state) (l : list (list item)) : verdict :=
  match l with
  | [] => Unknown
  | [a] => negated s a
  | a :: l => both andb (negated s a) (all_hold s l)
  end.

Fixpoint one_holds (s : state) (l : list (list item)) : verdict :=
  match l with
  | [] => Unknown
  | [a] => all_hold s (split_items "AND" [] a)
  | a :: l => both orb (all_hold s (split_items "AND" [] a)) (one_holds s l)
  end.

Definition judged (s : state) (l : list item) : verdict := one_holds s (split_items "OR" [] l).

(** From the innermost parentheses outwards *)
Fixpoint judge (s : state) (stack : list (list item)) (cur : list item) (l : list (bool * string)) : verdict :=
  match l with
  | [] => match stack with [] => judged s (rev cur) | _ => Unknown end
  | a :: l =>
      if keyword "(" a then judge s (cur :: stack) [] l
      else if keyword ")" a then
        match stack with
        | [] => Unknown
        | up :: stack =>
            match judged s (rev cur) with
            | Holds b => judge s stack (Judged b :: up) l
            | v => v
            end
        end
      else judge s stack (Arg a :: cur) l
  end.

Definition condition (s : state) (l : list arg) : verdict :=
  match expand_args s l with Some l => judge s [] [] l | None => Unknown end.

(** ** The commands *)

Definition listed (s : state) (n : string) : list string :=
  match value s n with
  | None => []
  | Some v => if String.eqb v "" then [] else split_at ";" "" v
  end.

(** install( TARGETS t ... ): a static library is an archive *)
Definition archives_go (l : list (bool * string)) : bool :=
  match l with
  | a :: b :: _ => keyword "DESTINATION" a || keyword "ARCHIVE" a && keyword "DESTINATION" b
  | _ => false
  end.

Definition is_static (n : string) (r : request) : bool :=
  String.eqb (fst r) "add_library" &&
  match snd r with a :: b :: _ => String.eqb (snd a) n && keyword "STATIC" b | _ => false end.

Definition installs (l : list (bool * string)) (s : state) : bool :=
  match l with
  | a :: t :: l =>
      negb (keyword "TARGETS" a) || negb (existsb (is_static (snd t)) (asked s)) || archives_go l
      || negb (before_release (release w) (3, 14))
  | _ => false
  end.

(** project( name VERSION a.b.c ) *)
Definition the_project (v : string) (s : state) : state :=
  let s := put "PROJECT_SOURCE_DIR" (text (value s "CMAKE_CURRENT_SOURCE_DIR")) s in
  let s := put "PROJECT_BINARY_DIR" (text (value s "CMAKE_CURRENT_BINARY_DIR")) s in
  let s := put "PROJECT_VERSION" v s in
  if before_release (release w) (3, 12) then s
  else if String.eqb (text (value s "CMAKE_CURRENT_SOURCE_DIR")) (text (value s "CMAKE_SOURCE_DIR")) then
    match split_at "." "" v with
    | [a; b; c] => put "CMAKE_PROJECT_VERSION_PATCH" c (put "CMAKE_PROJECT_VERSION_MINOR" b (put "CMAKE_PROJECT_VERSION_MAJOR" a s))
    | _ => s
    end
  else s.

Fixpoint output_of (l : list (bool * string)) : option string :=
  match l with
  | [] => None
  | a :: l =>
      if keyword "OUTPUT_VARIABLE" a then match l with (_, x) :: _ => Some x | [] => None end
      else output_of l
  end.

(** What is only written down *)
Definition requests : list string :=
  ["add_compile_options"; "add_library"; "target_compile_options"; "target_include_directories"; "add_executable"; "target_link_libraries";
   "add_custom_command"; "add_test"; "add_subdirectory"; "find_program"].

Definition includes_coverage (r : request) : bool :=
  String.eqb (fst r) "include" && match snd r with [(_, x)] => String.eqb x "CodeCoverage" | _ => false end.

(** Other files of the project *)
Variable files : string -> option (state -> outcome).

Definition command (n : string) (l : list (bool * string)) (s : state) : outcome :=
  if String.eqb n "set" then
    match l with
    | [(_, x)] => Went (unset x s)
    | (_, x) :: l => if existsb (fun a => keyword "CACHE" a || keyword "PARENT_SCOPE" a) l then Stuck else Went (put x (values_of l) s)
    | [] => Stuck
    end
  else if String.eqb n "list" then
    match l with
    | a :: (_, x) :: l =>
        if keyword "APPEND" a then Went (put x (String.concat ";" (listed s x ++ map snd l)) s)
        else if keyword "INSERT" a then
          match l with
          | (_, i) :: l => if String.eqb i "0" then Went (put x (String.concat ";" (map snd l ++ listed s x)) s) else Stuck
          | [] => Stuck
          end
        else Stuck
    | _ => Stuck
    end
  else if String.eqb n "string" then
    match l with
    | [a; (_, t); (_, x)] => if keyword "TOLOWER" a then Went (put x (lower t) s) else Stuck
    | _ => Stuck
    end
  else if String.eqb n "message" then
    match l with a :: _ => if keyword "FATAL_ERROR" a then Fatal else Went s | [] => Stuck end
  else if String.eqb n "cmake_minimum_required" then
    match l with
    | [a; (_, v)] =>
        match parts v with
        | [x; y] => if before_release (release w) (Z.to_nat x, Z.to_nat y) then Fatal else Went s
        | _ => Stuck
        end
    | _ => Stuck
    end
  else if String.eqb n "project" then
    match l with [_; a; (_, v)] => if keyword "VERSION" a then Went (the_project v s) else Stuck | _ => Stuck end
  else if String.eqb n "include" then
    match l with
    | [(_, x)] => match files x with Some f => f s | None => Went (ask (n, l) s) end
    | _ => Stuck
    end
  else if String.eqb n "execute_process" then
    match output_of l with Some x => Went (ask (n, l) (put x (distro w) s)) | None => Stuck end
  else if String.eqb n "install" then
    if installs l s then Went (ask (n, l) s) else Fatal
  else if existsb (String.eqb n) requests then Went (ask (n, l) s)
  else if String.eqb n "setup_target_for_coverage" then
    if defined w n || existsb includes_coverage (asked s) then Went (ask (n, l) s) else Fatal
  else Stuck.

Definition bind (o : outcome) (k : state -> outcome) : outcome := match o with Went s => k s | Fatal => Fatal | Stuck => Stuck end.

Fixpoint run (b : block) (s : state) : outcome :=
  match b with
  | Nil => Went s
  | Do n args rest => match expand_args s args with Some l => bind (command n l s) (run rest) | None => Stuck end
  | If c x y rest =>
      match condition s c with
      | Holds b => bind (run (if b then x else y) s) (run rest)
      | Error => Fatal
      | Unknown => Stuck
      end
  | Fun _ _ _ _ => Stuck
  end.

End Run.

(** CMakeLists.txt and the file it includes *)
Definition run_lists (lists packaging : list string) (w : world) : outcome :=
  match read_lists lists, read_lists packaging with
  | Some b, Some p =>
      run w (fun x => if String.eqb x "packaging.cmake" then Some (run w (fun _ => None) p) else None) b {| mine := []; asked := [] |}
  | _, _ => Stuck
  end.
