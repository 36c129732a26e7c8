(* What a call of a function of the parsed source is to do, said with the specification of the encodings. *)
From Coq Require Import ZArith List String.
From Verif Require Import Machine.
From Verif.Model Require Import Tables.
From Verif.Cxx Require Import Syntax Semantics Program Values.
Import ListNotations.
Local Open Scope Z_scope.

(* f(args) returns, whatever room, the encoding of what the input [reads] as, if it reads as anything,
   and the empty string otherwise *)
Definition call_converts (I : implementation) (T : UnicodeTables) (f : string) (args : list value) (t : ity)
  (reads : list Z -> Prop) (enc : list Z -> list Z) : Prop :=
  (forall cs, reads cs -> runs_to I T f args (Done (VS t (enc cs)))) /\
  ((forall cs, ~ reads cs) -> runs_to I T f args (Done (VS t []))).

(* f(args) returns true if P holds and false if not *)
Definition call_answers (I : implementation) (T : UnicodeTables) (f : string) (args : list value) (P : Prop) : Prop :=
  exists b, runs_to I T f args (Done (VB b)) /\ (b = true <-> P).

(* f(args) returns: it ends, and nothing undefined happens on the way *)
Definition call_returns (I : implementation) (T : UnicodeTables) (f : string) (args : list value) : Prop :=
  exists v, runs_to I T f args (Done v).

(* f(args), where f takes its first argument by reference: it ends, whatever room, and leaves r there *)
Definition leaves (I : implementation) (T : UnicodeTables) (f : string) (args : list value) (r : outcome value) : Prop :=
  exists n, forall fuel depth, (n <= fuel)%nat -> (n <= depth)%nat ->
  (do a <- call I T fuel depth f args; match snd a with Some v :: _ => Done v | _ => Undefined end) = r.

(* the vector of strings a function of the model gives *)
Definition strings_of (t : ity) (m : outcome (list (list Z))) : outcome value := do ss <- m; Done (VVec t ss).

(* what an object of the machine can hold at most: PTRDIFF_MAX elements of one byte *)
Definition holds (s : list Z) : Prop := size s < 0x8000000000000000.

(* the tables map char32_t to char32_t *)
Definition units_to_units (T : UnicodeTables) : Prop :=
  (forall c, 0 <= c < 0x100000000 -> 0 <= t_lower T c < 0x100000000) /\
  (forall c, 0 <= c < 0x100000000 -> 0 <= t_turkic T c < 0x100000000).

(* the character types of the strings, and their values as unsigned numbers *)
Inductive string_type : ity -> (Z -> Prop) -> Prop :=
| of_char : string_type Char (fun c => 0 <= c < 0x100)
| of_char16 : string_type Char16 (fun c => 0 <= c < 0x10000)
| of_char32 : string_type Char32 (fun c => 0 <= c < 0x100000000).

(* a machine on which forming a pointer outside an array is harmless; char signed or not; any configuration *)
Definition machine (b : bool) (c : configuration) : implementation := {| char_signed := b; pointer_checks := false; configured := c |}.
