(* Arguments of the functions of the parsed source, written as the model writes them. *)
From Coq Require Import ZArith List String.
From Verif Require Import Machine.
From Verif.Model Require Import Tables Predicate.
From Verif.Cxx Require Import Syntax Semantics Program.
Import ListNotations.
Local Open Scope Z_scope.

Definition suffix (rest arr : list Z) : Prop := exists pre, arr = pre ++ rest.

(* the pointer to the first element of [rest], the end of the array [arr] *)
Definition into (arr rest : list Z) : pointer := PAt arr (size arr - size rest).

(* the model's pointer [p] (what is left of the array from there on) as a pointer into [arr] *)
Definition vptr (t : ity) (arr : list Z) (p : ptr) : value :=
  match p with Null => VP t PNull | At rest => VP t (into arr rest) end.

(* null, or a pointer into (or to the end of) an array of such units *)
Definition points_into (P : Z -> Prop) (arr : list Z) (p : ptr) : Prop :=
  match p with Null => True | At rest => suffix rest arr /\ Forall P arr end.

(* isUtf8 forms the pointer [test - 1]: there must be something before [test], by the letter of the standard *)
Definition may_step_back (I : implementation) (arr : list Z) (p : ptr) : Prop :=
  pointer_checks I = false \/ match p with Null => True | At rest => size rest < size arr end.

(* the 32-bit unicodeLength forms [src + testLength]: by the letter of the standard that must lie in the array *)
Definition may_step_to (I : implementation) (n : Z) (p : ptr) : Prop :=
  pointer_checks I = false \/ match p with Null => True | At rest => n <= size rest end.

(* an EncodingCheckPredicate *)
Definition vpred (p : EncodingCheckPredicate) : value := VPred (m_mask p) (m_value p).
Definition pred_ok (p : EncodingCheckPredicate) : Prop := 0 <= m_mask p < 0x100000000 /\ 0 <= m_value p < 0x100000000.

(* a value of type int or of an enumeration *)
Definition int32 (t : Z) : Prop := -0x80000000 <= t < 0x80000000.
Definition uint32 (n : Z) : Prop := 0 <= n < 0x100000000.

(* The call f(args) gives r: whatever room beyond some bound loops and nested calls are given, it ends,
   and ends so. *)
Definition runs_to (I : implementation) (T : UnicodeTables) (f : string) (args : list value) (r : outcome value) : Prop :=
  exists n, forall fuel depth, (n <= fuel)%nat -> (n <= depth)%nat ->
  (do a <- call I T fuel depth f args; Done (fst a)) = r.

(* what the model's result is as a value *)
Definition boolean (m : outcome bool) : outcome value := do b <- m; Done (VB b).
Definition integer (t : ity) (m : outcome Z) : outcome value := do z <- m; Done (VI t z).
Definition string_of (t : ity) (m : outcome (list Z)) : outcome value := do s <- m; Done (VS t s).
