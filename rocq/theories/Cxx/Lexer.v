(* From the lines of a file to the tokens the parser sees: [lex.phases], as far as the library needs it.  There are no
   macros to replace (no #define), no line ends with a backslash, and #include is not followed: the files are given in
   the order in which they are included. *)
From Coq Require Import ZArith List Bool String Ascii.
From Verif.Cxx Require Import Syntax Semantics.
Import ListNotations.
Local Open Scope string_scope.
Local Open Scope list_scope.
Local Open Scope Z_scope.

(* a literal stands for its characters, an identifier, keyword, operator or punctuator for itself; what is none of these
   is [KBad] *)
Inductive token :=
| KWord (s : string)
| KMark (s : string)
| KNumber (hex : bool) (z : Z)
| KCharacter (l : list Z)
| KText (t : ity) (l : list Z)
| KBad.

Definition code (a : ascii) : Z := Z.of_N (N_of_ascii a).

Definition within (a b : Z) (c : Z) : bool := (a <=? c) && (c <=? b).
Definition is_digit (a : ascii) : bool := within 48 57 (code a).
Definition is_letter (a : ascii) : bool := let c := code a in within 97 122 c || within 65 90 c || (c =? 95).
Definition is_space (a : ascii) : bool := let c := code a in (c =? 32) || within 9 13 c.

Definition hex_value (a : ascii) : option Z :=
  let c := code a in
  if within 48 57 c then Some (c - 48)
  else if within 97 102 c then Some (c - 87)
  else if within 65 70 c then Some (c - 55)
  else None.

(* the longest beginning of such characters, and the rest *)
Fixpoint longest (p : ascii -> bool) (s : string) : string * string :=
  match s with
  | EmptyString => ("", "")
  | String a s' => if p a then let (u, v) := longest p s' in (String a u, v) else ("", s)
  end.

Fixpoint decimal (s : string) (z : Z) : Z :=
  match s with EmptyString => z | String a s' => decimal s' (10 * z + (code a - 48)) end.

(* hexadecimal digits, at most [n] of them if there is such an n *)
Fixpoint hexadecimal (n : option nat) (s : string) (z : Z) : Z * string :=
  match s with
  | EmptyString => (z, s)
  | String a s' =>
    match n, hex_value a with
    | Some O, _ | _, None => (z, s)
    | _, Some d => hexadecimal (option_map pred n) s' (16 * z + d)
    end
  end.

(* [lex.icon]: no suffixes, no octal numbers *)
Definition number (s : string) : token * string :=
  match s with
  | String "0" (String ("x" | "X") s') => let (z, r) := hexadecimal None s' 0 in (KNumber true z, r)
  | _ =>
    let (u, r) := longest is_digit s in
    (match u with String "0" (String _ _) => KBad | _ => KNumber false (decimal u 0) end, r)
  end.

(* [lex.ccon], [lex.string]: the characters up to the quote that ends the literal, and the rest *)
Fixpoint literal (n : nat) (quote : ascii) (s : string) : option (list Z * string) :=
  match n, s with
  | S n, String a s' =>
    if Ascii.eqb a quote then Some ([], s')
    else
      let more z r := match literal n quote r with Some (l, r) => Some (z :: l, r) | None => None end in
      if Ascii.eqb a "\" then
        match s' with
        | String "0" r => match r with String b _ => if is_digit b then None else more 0 r | _ => None end
        | String "x" r => let (z, r) := hexadecimal None r 0 in more z r
        | String "u" r => let (z, r) := hexadecimal (Some 4%nat) r 0 in more z r
        | String "U" r => let (z, r) := hexadecimal (Some 8%nat) r 0 in more z r
        | _ => None
        end
      else more (code a) s'
  | _, _ => None
  end.

Definition quote : ascii := "034".
Definition apostrophe : ascii := "039".

(* [lex.operators]; the longest one counts *)
Definition marks2 : list string :=
  ["::"; "++"; "--"; "<<"; ">>"; "<="; ">="; "=="; "!="; "&&"; "||"; "+="; "-="; "&="; "|="; "->"].
Definition marks1 : list string :=
  ["-"; "+"; "*"; "/"; "%"; "&"; "|"; "^"; "~"; "!"; "<"; ">"; "="; "?"; ":"; ";"; ","; "."; "("; ")"; "{"; "}"; "["; "]"; "#"].
Definition mark (s : string) : option (token * string) :=
  match s with
  | String a r =>
    let one := if existsb (String.eqb (String a "")) marks1 then Some (KMark (String a ""), r) else None in
    match r with
    | String b r' => let m := String a (String b "") in if existsb (String.eqb m) marks2 then Some (KMark m, r') else one
    | _ => one
    end
  | _ => None
  end.

(* the tokens of a line; [inside]: the line begins, ends in a comment *)
Fixpoint tokens (n : nat) (inside : bool) (s : string) : list token * bool :=
  match n, s with
  | S n, String a s' =>
    let more t r := let (l, b) := tokens n false r in (t :: l, b) in
    let text t r := match literal n quote r with Some (l, r) => more (KText t l) r | None => ([KBad], false) end in
    if inside then
      match s with
      | String "*" (String "/" r) => tokens n false r
      | _ => tokens n true s'
      end
    else if is_space a then tokens n false s'
    else if is_digit a then let (t, r) := number s in more t r
    else if is_letter a then
      let (w, r) := longest (fun a => is_letter a || is_digit a) s in
      match r with
      | String b r' =>
        if Ascii.eqb b quote && (String.eqb w "u" || String.eqb w "U")
        then text (if String.eqb w "u" then Char16 else Char32) r'
        else more (KWord w) r
      | _ => more (KWord w) r
      end
    else if Ascii.eqb a quote then text Char s'
    else if Ascii.eqb a apostrophe then
      match literal n apostrophe s' with Some (l, r) => more (KCharacter l) r | None => ([KBad], false) end
    else
      match s with
      | String "/" (String "/" _) => ([], false)
      | String "/" (String "*" r) => tokens n true r
      | _ => match mark s with Some (t, r) => more t r | None => more KBad s' end
      end
  | _, _ => ([], inside)
  end.

Fixpoint lines (inside : bool) (ls : list string) : list (list token) :=
  match ls with
  | [] => []
  | s :: ls' => let (l, b) := tokens (S (String.length s)) inside s in l :: lines b ls'
  end.

(* ---------------------------------------------------------------- conditional compilation, [cpp.cond] *)

(* which macros are defined in each configuration, and WCHAR_MAX *)
Definition defined (c : configuration) (m : string) : bool :=
  existsb (String.eqb m)
    match c with
    | Wchar32 | Wchar16 => []
    | Win32 => ["WIN32"]
    | Win32_mbcs => ["WIN32"; "_MBCS"]
    | Win32_unicode => ["WIN32"; "_UNICODE"]
    end.
Definition wchar_max (c : configuration) : Z := match c with Wchar32 => 0x7fffffff | _ => 0xffff end.

Definition condition (c : configuration) (l : list token) : option bool :=
  match l with
  | [KWord w; KMark m; KNumber _ z] =>
    if String.eqb w "WCHAR_MAX" then
      if String.eqb m "<" then Some (wchar_max c <? z) else if String.eqb m ">" then Some (wchar_max c >? z) else None
    else None
  | [KWord w; KMark _; KWord m; KMark _] => if String.eqb w "defined" then Some (defined c m) else None
  | _ => None
  end.

(* for each #if we are in: is this group taken, has one of its groups been taken *)
Definition directive (c : configuration) (open : list (bool * bool)) (w : string) (arg : list token) : option (list (bool * bool)) :=
  let start b := Some ((b, b) :: open) in
  if String.eqb w "include" || String.eqb w "pragma" then Some open
  else if String.eqb w "if" then match condition c arg with Some b => start b | None => None end
  else if String.eqb w "ifdef" then match arg with [KWord m] => start (defined c m) | _ => None end
  else if String.eqb w "ifndef" then match arg with [KWord m] => start (negb (defined c m)) | _ => None end
  else
    match open with
    | (_, taken) :: open' =>
      if String.eqb w "elif" then
        match condition c arg with Some b => Some ((negb taken && b, taken || b) :: open') | None => None end
      else if String.eqb w "else" then match arg with [] => Some ((negb taken, true) :: open') | _ => None end
      else if String.eqb w "endif" then match arg with [] => Some open' | _ => None end
      else None
    | [] => None
    end.

Fixpoint preprocess (c : configuration) (open : list (bool * bool)) (ls : list (list token)) : option (list token) :=
  match ls with
  | [] => match open with [] => Some [] | _ => None end
  | (KMark m :: KWord w :: arg) as l :: ls' =>
    if String.eqb m "#" then
      match directive c open w arg with Some open => preprocess c open ls' | None => None end
    else
      match preprocess c open ls' with Some r => Some (if forallb fst open then l ++ r else r) | None => None end
  | l :: ls' =>
    match preprocess c open ls' with Some r => Some (if forallb fst open then l ++ r else r) | None => None end
  end.

Definition file_tokens (c : configuration) (file : list string) : option (list token) := preprocess c [] (lines false file).
