(* Vocabulary of the laws relating several calls. *)
From Coq Require Import ZArith List.
From Verif Require Import Machine.
From Verif.Spec Require Import Utf.
Import ListNotations.
Local Open Scope Z_scope.

(* the count of the whole is the sum of the counts of the parts, as unsigned 32-bit numbers *)
Definition adds_up (f : list Z -> outcome Z) (a b : list Z) : Prop :=
  exists m n, f a = Done m /\ f b = Done n /\ f (a ++ b) = Done ((m + n) mod 0x100000000).

(* values that never are characters: surrogates, the 66 noncharacters, everything above 0x10FFFF *)
Definition never_character (c : Z) : Prop :=
  surrogate c \/ 0xFDD0 <= c <= 0xFDEF \/ 0xFFFE <= c mod 0x10000 \/ 0x10FFFF < c.

(* s with every d replaced by e *)
Definition replaced (d e : Z) (s : list Z) : list Z := map (fun c => if c =? d then e else c) s.
