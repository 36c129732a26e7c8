(* What a chain validIf(a).andIfNot(b)... is meant to say. *)
From Coq Require Import ZArith List.
From Verif.Model Require Import Tables.
From Verif.Spec Require Import Ucd.
Import ListNotations.
Local Open Scope Z_scope.

Inductive class := Assigned | Private | Control | Whitespace.

(* the value of the enumerator (interface/string.hxx:94-101) *)
Definition class_code (k : class) : Z :=
  match k with Assigned => 1 | Private => 2 | Control => 3 | Whitespace => 4 end.

(* the code points of the class, from UnicodeData.txt *)
Definition member (v : version) (k : class) (c : Z) : Prop :=
  match k with
  | Assigned => in_ranges (ucd_assigned v) c
  | Private => in_ranges (ucd_private v) c
  | Control => in_ranges (ucd_control v) c
  | Whitespace => in_ranges (ucd_space v) c \/ in_ranges white_space_controls c
  end.

(* a chain lists its calls: (true, t) for validIf(t) / andIf(t), (false, t) for validIfNot / andIfNot *)
Definition requires (chain : list (bool * Z)) (k : class) : Prop := In (true, class_code k) chain.
Definition forbids (chain : list (bool * Z)) (k : class) : Prop := In (false, class_code k) chain.
Definition consistent (chain : list (bool * Z)) : Prop := forall k, ~ (requires chain k /\ forbids chain k).

(* the character meets every condition of the chain *)
Definition meets (v : version) (chain : list (bool * Z)) (c : Z) : Prop :=
  (forall k, requires chain k -> member v k c) /\ (forall k, forbids chain k -> ~ member v k c).

(* as implemented: a class both required and forbidden counts as required *)
Definition meets_implemented (v : version) (chain : list (bool * Z)) (c : Z) : Prop :=
  (forall k, requires chain k -> member v k c) /\ (forall k, forbids chain k -> requires chain k \/ ~ member v k c).

(* two chains check the same classes with the same polarity *)
Definition same_checks (a b : list (bool * Z)) : Prop :=
  forall k, (requires a k <-> requires b k) /\ (requires a k \/ forbids a k <-> requires b k \/ forbids b k).

(* a chain that checks nothing *)
Definition checks_nothing (chain : list (bool * Z)) : Prop := forall k, ~ requires chain k /\ ~ forbids chain k.
