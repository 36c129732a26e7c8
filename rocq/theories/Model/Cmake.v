(** As much of the language of cmake as /repo/FindANSAK.cmake is written in: from
    the lines of a file to its commands, and what they do.

    Simplified:
    - An argument is in double quotes or goes up to a blank, a parenthesis or #;
      there are no brackets but in comments.  A reference is ${name}, ${${name}}
      or $ENV{name}.
    - An argument in quotes is never a keyword nor the name of a variable
      (policy CMP0054).
    - if() knows NOT, AND, OR, STREQUAL, GREATER_EQUAL and the value of a
      variable, in this order of precedence, and no parentheses.
    - set( ... CACHE ) leaves a variable of the same name that is not in the cache
      alone; string( REGEX MATCH ) knows "^" and a plain word after it.
    - find_library and find_file look into the directories of CMAKE_PREFIX_PATH and
      the like ([before]), those after HINTS, then those of the system ([after]),
      for the very name given.
    - Messages are left out, except that SEND_ERROR is remembered.  A command or an
      argument that is not known makes the run end as [Stuck].  return() and
      message() cannot be redefined. *)
From Coq Require Import ZArith List Bool String Ascii.
From Coq Require Import Numbers.DecimalString Numbers.DecimalNat.
From Verif Require Import Model.Make.
Import ListNotations.
Open Scope string_scope.
Open Scope list_scope.

(** * Text *)

Definition quotes : ascii := "034"%char.
Definition escape : ascii := "092"%char.
Definition newline : ascii := "010"%char.
Definition white (c : ascii) : bool := Ascii.eqb c " " || Ascii.eqb c "009"%char || Ascii.eqb c newline.

Definition joined (lines : list string) : string := String.concat (String newline "") lines.

Definition snoc (w : string) (c : ascii) : string := (w ++ String c "")%string.

Definition upper_letter (c : ascii) : ascii :=
  let n := nat_of_ascii c in
  if Nat.leb 97 n && Nat.leb n 122 then ascii_of_nat (n - 32) else c.

Fixpoint upper (s : string) : string :=
  match s with EmptyString => "" | String c s => String (upper_letter c) (upper s) end.

Definition lower_letter (c : ascii) : ascii :=
  let n := nat_of_ascii c in
  if Nat.leb 65 n && Nat.leb n 90 then ascii_of_nat (n + 32) else c.

Fixpoint lower (s : string) : string :=
  match s with EmptyString => "" | String c s => String (lower_letter c) (lower s) end.

Fixpoint split_at (c : ascii) (cur s : string) : list string :=
  match s with
  | EmptyString => [cur]
  | String a s => if Ascii.eqb a c then cur :: split_at c "" s else split_at c (snoc cur a) s
  end.

(** The elements of a list; empty ones are not arguments *)
Definition elements (s : string) : list string :=
  filter (fun x => negb (String.eqb x "")) (split_at ";" "" s).

(** * Commands *)

Inductive piece := Lit (s : string) | Var (n : string) | Deref (n : string) | Env (n : string).

Record arg := { quoted : bool; pieces : list piece }.

Definition lit (w : string) (rest : list piece) : list piece :=
  match w with EmptyString => rest | _ => Lit w :: rest end.

Inductive spot := Plain (w : string) | InVar (n : string) | InDeref (n : string) | InEnv (n : string).

Fixpoint cut (at_ : spot) (s : string) : option (list piece) :=
  match s, at_ with
  | EmptyString, Plain w => Some (lit w [])
  | EmptyString, _ => None
  | String "$" (String "{" (String "$" (String "{" s))), Plain w => option_map (lit w) (cut (InDeref "") s)
  | String "$" (String "{" s), Plain w => option_map (lit w) (cut (InVar "") s)
  | String "$" (String "E" (String "N" (String "V" (String "{" s)))), Plain w => option_map (lit w) (cut (InEnv "") s)
  | String c s, Plain w => cut (Plain (snoc w c)) s
  | String "}" s, InVar n => option_map (cons (Var n)) (cut (Plain "") s)
  | String c s, InVar n => cut (InVar (snoc n c)) s
  | String "}" (String "}" s), InDeref n => option_map (cons (Deref n)) (cut (Plain "") s)
  | String c s, InDeref n => cut (InDeref (snoc n c)) s
  | String "}" s, InEnv n => option_map (cons (Env n)) (cut (Plain "") s)
  | String c s, InEnv n => cut (InEnv (snoc n c)) s
  end.

Definition raw := (string * list (bool * string))%type.

Inductive mode :=
  | Top                               (* between commands *)
  | Name (w : string)                 (* in the name of one *)
  | Inside                            (* between its arguments *)
  | Word (w : string)
  | InQuotes (w : string)
  | Remark (inside : bool)            (* up to the end of the line *)
  | Block.                            (* up to two closing brackets *)

Fixpoint lex (m : mode) (name : string) (args : list (bool * string)) (s : string) : option (list raw) :=
  match s with
  | EmptyString => match m with Top | Remark false => Some [] | _ => None end
  | String c rest =>
      match m with
      | Top =>
          if white c then lex Top "" [] rest
          else if Ascii.eqb c "#" then
            match rest with
            | String "[" (String "[" rest) => lex Block "" [] rest
            | _ => lex (Remark false) "" [] rest
            end
          else lex (Name (String c "")) "" [] rest
      | Name w =>
          if Ascii.eqb c "(" then lex Inside w [] rest
          else if white c then lex (Name w) "" [] rest
          else lex (Name (snoc w c)) "" [] rest
      | Inside =>
          if white c then lex Inside name args rest
          else if Ascii.eqb c ")" then option_map (cons (lower name, rev args)) (lex Top "" [] rest)
          else if Ascii.eqb c "(" then None
          else if Ascii.eqb c "#" then lex (Remark true) name args rest
          else if Ascii.eqb c quotes then lex (InQuotes "") name args rest
          else lex (Word (String c "")) name args rest
      | Word w =>
          if white c then lex Inside name ((false, w) :: args) rest
          else if Ascii.eqb c ")" then option_map (cons (lower name, rev ((false, w) :: args))) (lex Top "" [] rest)
          else if Ascii.eqb c "(" || Ascii.eqb c quotes then None
          else if Ascii.eqb c "#" then lex (Remark true) name ((false, w) :: args) rest
          else lex (Word (snoc w c)) name args rest
      | InQuotes w =>
          if Ascii.eqb c quotes then lex Inside name ((true, w) :: args) rest
          else if Ascii.eqb c escape then
            match rest with
            | String c rest => lex (InQuotes (snoc w c)) name args rest
            | EmptyString => None
            end
          else lex (InQuotes (snoc w c)) name args rest
      | Remark inside =>
          if Ascii.eqb c newline then (if inside then lex Inside name args rest else lex Top "" [] rest)
          else lex (Remark inside) name args rest
      | Block =>
          match c, rest with
          | "]"%char, String "]" rest => lex Top "" [] rest
          | _, _ => lex Block "" [] rest
          end
      end
  end.

Definition cut_arg (a : bool * string) : option arg :=
  option_map (fun ps => {| quoted := fst a; pieces := ps |}) (cut (Plain "") (snd a)).

Fixpoint all_some {A} (l : list (option A)) : option (list A) :=
  match l with
  | [] => Some []
  | Some a :: l => option_map (cons a) (all_some l)
  | None :: _ => None
  end.

Definition call := (string * list arg)%type.

Definition cut_command (c : raw) : option call :=
  option_map (fun l => (fst c, l)) (all_some (map cut_arg (snd c))).

(** A list of commands, with what belongs to if() and function() inside *)
Inductive block :=
  | Nil
  | Do (name : string) (args : list arg) (rest : block)
  | If (cond : list arg) (a b : block) (rest : block)
  | Fun (name : string) (params : list string) (body rest : block).

(** What a parameter of function() is *)
Definition plain_word (a : arg) : string :=
  match pieces a with [Lit w] => w | _ => "" end.

Inductive stop := AtEnd | AtElse | AtElseif (cond : list arg) | AtEndif | AtEndfunction.

Fixpoint parse (fuel : nat) (cs : list call) : option (block * stop * list call) :=
  match fuel with
  | O => None
  | S fuel =>
      match cs with
      | [] => Some (Nil, AtEnd, [])
      | (n, args) :: cs =>
          if String.eqb n "else" then Some (Nil, AtElse, cs)
          else if String.eqb n "elseif" then Some (Nil, AtElseif args, cs)
          else if String.eqb n "endif" then Some (Nil, AtEndif, cs)
          else if String.eqb n "endfunction" then Some (Nil, AtEndfunction, cs)
          else if String.eqb n "if" then
            match parse_if fuel args cs with
            | Some (a, b, cs) =>
                match parse fuel cs with
                | Some (rest, st, cs) => Some (If args a b rest, st, cs)
                | None => None
                end
            | None => None
            end
          else if String.eqb n "function" then
            match parse fuel cs with
            | Some (body, AtEndfunction, cs) =>
                match map plain_word args, parse fuel cs with
                | f :: ps, Some (rest, st, cs) => Some (Fun (lower f) ps body rest, st, cs)
                | _, _ => None
                end
            | _ => None
            end
          else
            match parse fuel cs with
            | Some (rest, st, cs) => Some (Do n args rest, st, cs)
            | None => None
            end
      end
  end
with parse_if (fuel : nat) (args : list arg) (cs : list call) : option (block * block * list call) :=
  match fuel with
  | O => None
  | S fuel =>
      match parse fuel cs with
      | Some (a, AtEndif, cs) => Some (a, Nil, cs)
      | Some (a, AtElse, cs) =>
          match parse fuel cs with
          | Some (b, AtEndif, cs) => Some (a, b, cs)
          | _ => None
          end
      | Some (a, AtElseif cond, cs) =>
          match parse_if fuel cond cs with
          | Some (a', b', cs) => Some (a, If cond a' b' Nil, cs)
          | None => None
          end
      | _ => None
      end
  end.

Definition read_cmake (lines : list string) : option block :=
  match lex Top "" [] (joined lines) with
  | None => None
  | Some raws =>
      match all_some (map cut_command raws) with
      | None => None
      | Some cs =>
          match parse (2 * S (List.length cs)) cs with
          | Some (b, AtEnd, _) => Some b
          | _ => None
          end
      end
  end.

(** * Paths *)

(** A path as cmake writes it: with a drive, such as C:, or from the root. *)
Definition letter (c : ascii) : bool :=
  let n := nat_of_ascii c in Nat.leb 65 n && Nat.leb n 90 || Nat.leb 97 n && Nat.leb n 122.

Definition drive (c : string) : bool :=
  match c with String a (String ":" EmptyString) => letter a | _ => false end.

Fixpoint slashed (p : path) : string :=
  match p with
  | [] => ""
  | c :: p => String "/" (c ++ slashed p)
  end.

Definition spell (p : path) : string :=
  match p with
  | [] => "/"
  | c :: rest =>
      if drive c then (c ++ match rest with [] => "/" | _ => slashed rest end)%string else slashed p
  end.

Definition path_of (s : string) : path :=
  filter (fun x => negb (String.eqb x "")) (split_at "/" "" s).

(** What comes before the last slash, if there is one, and after it *)
Fixpoint last_slash (before cur s : string) (seen : bool) : bool * string * string :=
  match s with
  | EmptyString => (seen, before, cur)
  | String c s =>
      if Ascii.eqb c "/" then
        last_slash (if seen then before ++ String "/" cur else cur)%string "" s true
      else last_slash before (snoc cur c) s seen
  end.

(** get_filename_component( ... DIRECTORY ): the slash of the root and the one
    after a drive stay. *)
Definition directory_of (s : string) : string :=
  let '(seen, before, _) := last_slash "" "" s false in
  if seen then
    if String.eqb before "" then "/" else if drive before then (before ++ "/")%string else before
  else "".

Definition name_of (s : string) : string := snd (last_slash "" "" s false).

(** * Running *)

Record state := {
  vars : string -> option string;
  cache : string -> option string;
  funs : list (string * (list string * block));
  up : list (string * string);        (* for the caller: set( ... PARENT_SCOPE ) *)
  incs : list string;                 (* include_directories *)
  failed : bool }.                    (* message( SEND_ERROR ) *)

Definition upd (f : string -> option string) (n v : string) : string -> option string :=
  fun x => if String.eqb n x then Some v else f x.

Definition with_var (n v : string) (s : state) : state :=
  {| vars := upd (vars s) n v; cache := cache s; funs := funs s; up := up s; incs := incs s; failed := failed s |}.
Definition with_cache (n v : string) (s : state) : state :=
  {| vars := vars s; cache := upd (cache s) n v; funs := funs s; up := up s; incs := incs s; failed := failed s |}.
Definition with_fun (n : string) (f : list string * block) (s : state) : state :=
  {| vars := vars s; cache := cache s; funs := (n, f) :: funs s; up := up s; incs := incs s; failed := failed s |}.
Definition with_up (n v : string) (s : state) : state :=
  {| vars := vars s; cache := cache s; funs := funs s; up := (n, v) :: up s; incs := incs s; failed := failed s |}.
Definition with_incs (l : list string) (s : state) : state :=
  {| vars := vars s; cache := cache s; funs := funs s; up := up s; incs := incs s ++ l; failed := failed s |}.
Definition with_failure (s : state) : state :=
  {| vars := vars s; cache := cache s; funs := funs s; up := up s; incs := incs s; failed := true |}.

Definition value (s : state) (n : string) : option string :=
  match vars s n with Some v => Some v | None => cache s n end.

Definition text (o : option string) : string := match o with Some v => v | None => "" end.

Inductive outcome :=
  | Went (s : state)
  | Left (s : state)                  (* return() *)
  | Fatal                             (* something REQUIRED is not found *)
  | Stuck.

Inductive kind := Library | Header.

Fixpoint ends_with (e s : string) : bool :=
  String.eqb e s || match s with EmptyString => false | String _ s => ends_with e s end.

(** What if() takes for true *)
Definition truth (s : string) : bool :=
  let u := upper s in
  negb (existsb (String.eqb u) [""; "0"; "OFF"; "NO"; "FALSE"; "N"; "IGNORE"; "NOTFOUND"] || ends_with "-NOTFOUND" u).

(** A number as list( FIND ) writes it *)
Definition number (n : nat) : string := NilEmpty.string_of_uint (Nat.to_uint n).
Definition to_number (s : string) : option Z :=
  match s with
  | String "-" s => option_map (fun u => Z.opp (Z.of_uint u)) (NilEmpty.uint_of_string s)
  | _ => option_map Z.of_uint (NilEmpty.uint_of_string s)
  end.

Fixpoint position (x : string) (l : list string) (n : nat) : string :=
  match l with
  | [] => "-1"
  | y :: l => if String.eqb y x then number n else position x l (S n)
  end.

Section Run.
Variables (env : string -> string) (before after : kind -> list path) (d : disk).

Definition piece_value (s : state) (p : piece) : string :=
  match p with
  | Lit w => w
  | Var n => text (value s n)
  | Deref n => text (value s (text (value s n)))
  | Env n => env n
  end.

Fixpoint pieces_value (s : state) (ps : list piece) : string :=
  match ps with
  | [] => ""
  | [p] => piece_value s p
  | p :: ps => (piece_value s p ++ pieces_value s ps)%string
  end.

(** The arguments a command gets: an unquoted one with references is a list. *)
Definition expand_arg (s : state) (a : arg) : list (bool * string) :=
  if quoted a then [(true, pieces_value s (pieces a))]
  else match pieces a with
       | [Lit w] => [(false, w)]
       | ps => map (pair false) (elements (pieces_value s ps))
       end.

Fixpoint expand_args (s : state) (l : list arg) : list (bool * string) :=
  match l with [] => [] | a :: l => expand_arg s a ++ expand_args s l end.

(** ** if() *)

Definition keyword (w : string) (a : bool * string) : bool := negb (fst a) && String.eqb (snd a) w.

Fixpoint split_on (w : string) (cur : list (bool * string)) (l : list (bool * string)) : list (list (bool * string)) :=
  match l with
  | [] => [rev cur]
  | a :: l => if keyword w a then rev cur :: split_on w [] l else split_on w (a :: cur) l
  end.

(** A side of a comparison: the value of a variable of that name, or itself *)
Definition side (s : state) (a : bool * string) : string :=
  if fst a then snd a else match value s (snd a) with Some v => v | None => snd a end.

Definition atom (s : state) (l : list (bool * string)) : option bool :=
  match l with
  | [a] => Some (if fst a then false else truth (text (value s (snd a))))
  | [a; o; b] =>
      if keyword "STREQUAL" o then Some (String.eqb (side s a) (side s b))
      else if keyword "GREATER_EQUAL" o then
        match to_number (side s a), to_number (side s b) with
        | Some x, Some y => Some (Z.leb y x)
        | _, _ => Some false
        end
      else None
  | _ => None
  end.

Definition negated (s : state) (l : list (bool * string)) : option bool :=
  match l with
  | a :: l' => if keyword "NOT" a then option_map negb (atom s l') else atom s l
  | [] => None
  end.

Fixpoint all_hold (s : state) (l : list (list (bool * string))) : option bool :=
  match l with
  | [] => Some true
  | a :: l =>
      match negated s a, all_hold s l with
      | Some x, Some y => Some (x && y)
      | _, _ => None
      end
  end.

Fixpoint one_holds (s : state) (l : list (list (bool * string))) : option bool :=
  match l with
  | [] => Some false
  | a :: l =>
      match all_hold s (split_on "AND" [] a), one_holds s l with
      | Some x, Some y => Some (x || y)
      | _, _ => None
      end
  end.

Definition condition (s : state) (l : list arg) : option bool := one_holds s (split_on "OR" [] (expand_args s l)).

(** ** The commands *)

Definition values_of (l : list (bool * string)) : string := String.concat ";" (map snd l).

(** set() *)
Definition store_cache (force : bool) (n v : string) (s : state) : state :=
  if force then with_cache n v s
  else match cache s n with Some _ => s | None => with_cache n v s end.

Definition do_set (n : string) (l : list (bool * string)) (s : state) : outcome :=
  match rev l with
  | f :: doc :: ty :: c :: vs =>
      if keyword "FORCE" f && keyword "CACHE" c then Went (store_cache true n (values_of (rev vs)) s)
      else if keyword "CACHE" ty then Went (store_cache false n (values_of (rev (c :: vs))) s)
      else if keyword "PARENT_SCOPE" f then Went (with_up n (values_of (rev (doc :: ty :: c :: vs))) s)
      else Went (with_var n (values_of l) s)
  | a :: vs =>
      if keyword "PARENT_SCOPE" a then Went (with_up n (values_of (rev vs)) s) else Went (with_var n (values_of l) s)
  | [] => Stuck
  end.

(** find_library and find_file *)
Record request := { hints : list string; needed : bool; default : bool }.

Inductive slot := Nowhere | Hints | Doc.

Fixpoint requests (at_ : slot) (l : list (bool * string)) (r : request) : option request :=
  match l with
  | [] => Some r
  | a :: l =>
      if keyword "HINTS" a then requests Hints l r
      else if keyword "DOC" a then requests Doc l r
      else if keyword "REQUIRED" a then requests Nowhere l {| hints := hints r; needed := true; default := default r |}
      else if keyword "NO_DEFAULT_PATH" a then requests Nowhere l {| hints := hints r; needed := needed r; default := false |}
      else match at_ with
           | Nowhere => None
           | Hints => requests Hints l {| hints := hints r ++ [snd a]; needed := needed r; default := default r |}
           | Doc => requests Nowhere l r
           end
  end.

Fixpoint first_file (dirs : list path) (name : string) : option path :=
  match dirs with
  | [] => None
  | x :: dirs => if is_file d (x ++ [name]) then Some (x ++ [name]) else first_file dirs name
  end.

Definition not_found (n : string) : string := (n ++ "-NOTFOUND")%string.

(** A variable in the cache that has been found is left alone. *)
Definition already (n : string) (s : state) : bool :=
  match cache s n with Some v => negb (String.eqb v (not_found n)) | None => false end.

Definition do_find (k : kind) (n name : string) (l : list (bool * string)) (s : state) : outcome :=
  match requests Nowhere l {| hints := []; needed := false; default := true |} with
  | None => Stuck
  | Some r =>
      if already n s then Went s
      else
        let given := map path_of (hints r) in
        match first_file (if default r then before k ++ given ++ after k else given) name with
        | Some p => Went (with_cache n (spell p) s)
        | None => if needed r then Fatal else Went (with_cache n (not_found n) s)
        end
  end.

(** string( REGEX MATCH "^word" n s ) *)
Fixpoint begins (a t : string) : bool :=
  match a, t with
  | EmptyString, _ => true
  | String x a, String y t => Ascii.eqb x y && begins a t
  | _, _ => false
  end.

Definition listed (s : state) (n : string) : list string :=
  match value s n with
  | None | Some "" => []
  | Some v => split_at ";" "" v
  end.

Definition built_in (n : string) (l : list (bool * string)) (s : state) : outcome :=
  if String.eqb n "set" then
    match l with (_, x) :: l => do_set x l s | [] => Stuck end
  else if String.eqb n "find_library" then
    match l with (_, x) :: (_, y) :: l => do_find Library x y l s | _ => Stuck end
  else if String.eqb n "find_file" then
    match l with (_, x) :: (_, y) :: l => do_find Header x y l s | _ => Stuck end
  else if String.eqb n "get_filename_component" then
    match l with
    | [(_, x); (_, y); w] =>
        if keyword "DIRECTORY" w then Went (with_var x (directory_of y) s)
        else if keyword "NAME" w then Went (with_var x (name_of y) s)
        else Stuck
    | _ => Stuck
    end
  else if String.eqb n "string" then
    match l with
    | [a; b; (_, String "^" w); (_, x); (_, t)] =>
        if keyword "REGEX" a && keyword "MATCH" b then Went (with_var x (if begins w t then w else "") s) else Stuck
    | _ => Stuck
    end
  else if String.eqb n "list" then
    match l with
    | a :: (_, x) :: l =>
        if keyword "FIND" a then
          match l with [(_, y); (_, i)] => Went (with_var i (position y (listed s x) 0) s) | _ => Stuck end
        else if keyword "GET" a then
          match l with
          | [(_, i); (_, y)] =>
              match to_number i with
              | Some i => Went (with_var y (nth (Z.to_nat i) (listed s x) "") s)
              | None => Stuck
              end
          | _ => Stuck
          end
        else if keyword "APPEND" a then Went (with_var x (String.concat ";" (listed s x ++ map snd l)) s)
        else Stuck
    | _ => Stuck
    end
  else if String.eqb n "include_directories" then Went (with_incs (map snd l) s)
  else Stuck.

Fixpoint find_fun (n : string) (l : list (string * (list string * block))) : option (list string * block) :=
  match l with
  | [] => None
  | (m, f) :: l => if String.eqb m n then Some f else find_fun n l
  end.

(** The parameters, and ARGN for what is left; [None]: too few *)
Fixpoint bind (ps : list string) (l : list (bool * string)) (s : state) : option state :=
  match ps, l with
  | [], l => Some (with_var "ARGN" (values_of l) s)
  | p :: ps, (_, v) :: l => bind ps l (with_var p v s)
  | _ :: _, [] => None
  end.

(** A function sees the variables of its caller; what it sets is gone when it
    returns, but for PARENT_SCOPE. *)
Definition enter (s : state) : state :=
  {| vars := vars s; cache := cache s; funs := funs s; up := []; incs := incs s; failed := failed s |}.

Fixpoint raise_vars (l : list (string * string)) (f : string -> option string) : string -> option string :=
  match l with
  | [] => f
  | (n, v) :: l => upd (raise_vars l f) n v
  end.

Definition leave (caller s : state) : state :=
  {| vars := raise_vars (up s) (vars caller); cache := cache s; funs := funs s; up := up caller; incs := incs s; failed := failed s |}.

Section Calls.
Variable call_fun : block -> state -> outcome.

Definition command (n : string) (args : list arg) (s : state) : outcome :=
  if String.eqb n "return" then Left s
  else if String.eqb n "message" then
    Went (match expand_args s args with a :: _ => if keyword "SEND_ERROR" a then with_failure s else s | [] => s end)
  else
    match find_fun n (funs s) with
    | Some (ps, body) =>
        match bind ps (expand_args s args) (enter s) with
        | None => Stuck
        | Some s' =>
            match call_fun body s' with
            | Went s' | Left s' => Went (leave s s')
            | other => other
            end
        end
    | None => built_in n (expand_args s args) s
    end.

Fixpoint run_with (b : block) (s : state) : outcome :=
  match b with
  | Nil => Went s
  | Do n args rest =>
      match command n args s with
      | Went s => run_with rest s
      | other => other
      end
  | If c a b rest =>
      match condition s c with
      | None => Stuck
      | Some t =>
          match (if t then run_with a s else run_with b s) with
          | Went s => run_with rest s
          | other => other
          end
      end
  | Fun n ps body rest => run_with rest (with_fun n (ps, body) s)
  end.
End Calls.

(** [depth]: of calls *)
Fixpoint run (depth : nat) (b : block) (s : state) : outcome :=
  match depth with
  | O => run_with (fun _ _ => Stuck) b s
  | S depth => run_with (run depth) b s
  end.

End Run.

(** At the beginning only the variables given are there. *)
Definition start (vs : string -> option string) : state :=
  {| vars := vs; cache := fun _ => None; funs := []; up := []; incs := []; failed := false |}.
