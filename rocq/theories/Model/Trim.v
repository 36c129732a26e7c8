(* interface/string_trim.hxx *)
From Coq Require Import ZArith List Bool.
From Verif Require Import Machine.
From Verif.Model Require Import SplitJoin Str.
Import ListNotations.
Local Open Scope Z_scope.

(* the two while loops of trim (interface/string_trim.hxx:56-59 and :71-75), with the test
   applied to victim[victim.size() - 1] as a parameter; erase(size() - 1) drops the last one *)
Fixpoint trim_back (blank : Z -> bool) (fuel : nat) (victim : list Z) : outcome (list Z) :=
  match fuel with
  | O => OutOfFuel
  | S fuel =>
    match victim with
    | [] => Done victim
    | _ => if blank (last victim 0) then trim_back blank fuel (removelast victim) else Done victim
    end
  end.

(* interface/string_trim.hxx:60-63 and :76-79; erase(0, 1) drops the first one *)
Fixpoint trim_front (blank : Z -> bool) (victim : list Z) : list Z :=
  match victim with
  | [] => []
  | x :: victim' => if blank x then trim_front blank victim' else victim
  end.

(* interface/string_trim.hxx:51-64 -- trim(victim) *)
Definition trim (victim : list Z) : outcome (list Z) :=
  let blank x := x =? 0x20 in
  do v <- trim_back blank (S (length victim)) victim;
  Done (trim_front blank v).

(* interface/string_trim.hxx:66-80 -- trim(victim, spaces) *)
Definition trim_set (victim spaces : list Z) : outcome (list Z) :=
  let blank x := match find spaces x with Some _ => true | None => false end in
  do v <- trim_back blank (S (length victim)) victim;
  Done (trim_front blank v).

(* interface/string_trim.hxx:82-85 *)
Definition trimAscii7WhiteSpace (victim : list Z) : outcome (list Z) :=
  trim_set victim [0x09; 0x0a; 0x0d; 0x20].

(* the literals of interface/string_trim.hxx:89-92 (char32_t) and :97-99 (char16_t): the same values *)
Definition whiteSpaces : list Z :=
  [0x09; 0x0a; 0x0d; 0x20; 0xa0; 0x2000; 0x2001; 0x2002; 0x2003;
   0x2004; 0x2005; 0x2006; 0x2007; 0x2008; 0x2009; 0x200a; 0x202f; 0x205f; 0x3000].

(* interface/string_trim.hxx:87-93 *)
Definition trimWhiteSpace_32 (victim : list Z) : outcome (list Z) := trim_set victim whiteSpaces.

(* interface/string_trim.hxx:95-100 *)
Definition trimWhiteSpace_16 (victim : list Z) : outcome (list Z) := trim_set victim whiteSpaces.

(* interface/string_trim.hxx:102-107 *)
Definition trimWhiteSpace_8 (victim : list Z) : outcome (list Z) :=
  do v16 <- toUtf16_8_string victim;
  do v16 <- trimWhiteSpace_16 v16;
  toUtf8_16_string v16.
