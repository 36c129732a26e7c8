(* The version number each build option stands for, and how it is written *)
From Coq Require Import ZArith String.
From Verif.Model Require Import Tables.
Local Open Scope Z_scope.

Definition number (v : version) : Z :=
  match v with V7 => 7 | V8 => 8 | V9 => 9 | V10 => 10 | V11 => 11 | V12 => 12 | V13 => 13 | V14 => 14 | V15 => 15 | V16 => 16 end.

(* decimal notation of 0 .. 99 *)
Definition digit (n : Z) : string := String (Ascii.ascii_of_nat (48 + Z.to_nat n)) EmptyString.
Definition decimal (n : Z) : string := if n <? 10 then digit n else append (digit (n / 10)) (digit (n mod 10)).
