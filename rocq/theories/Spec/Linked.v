(* As Spec/Source.v, for the library linked with source/bits<N>. *)
From Coq Require Import ZArith List String.
From Verif Require Import Machine.
From Verif.Model Require Import Tables.
From Verif.Cxx Require Import Syntax Semantics Linked.
Import ListNotations.
Local Open Scope string_scope.
Local Open Scope list_scope.
Local Open Scope Z_scope.

(* f(args) returns, whatever room, the encoding of what the input [reads] as, if it reads as anything,
   and the empty string otherwise *)
Definition linked_converts (I : implementation) (v : version) (f : string) (args : list value) (t : ity)
  (reads : list Z -> Prop) (enc : list Z -> list Z) : Prop :=
  (forall cs, reads cs -> linked_runs_to I v f args (Done (VS t (enc cs)))) /\
  ((forall cs, ~ reads cs) -> linked_runs_to I v f args (Done (VS t []))).

(* f(args) returns true if P holds and false if not *)
Definition linked_answers (I : implementation) (v : version) (f : string) (args : list value) (P : Prop) : Prop :=
  exists b, linked_runs_to I v f args (Done (VB b)) /\ (b = true <-> P).

(* the calls validIf(t).andIf(t')...: (true, t) stands for validIf(t) or andIf(t), (false, t) for the Not variant *)
Inductive makes (I : implementation) (v : version) : list (bool * Z) -> value -> Prop :=
| makes_first (b : bool) t p : linked_runs_to I v (if b then "validIf" else "validIfNot") [VI Enum t] (Done p) -> makes I v [(b, t)] p
| makes_next l p (b : bool) t q : makes I v l p ->
    linked_runs_to I v (if b then "EncodingCheckPredicate::andIf" else "EncodingCheckPredicate::andIfNot") [p; VI Enum t] (Done q) ->
    makes I v (l ++ [(b, t)]) q.

(* for the examples: char is signed, and a pointer outside its array is undefined *)
Definition strict : implementation := {| char_signed := true; pointer_checks := true; configured := Wchar32 |}.
