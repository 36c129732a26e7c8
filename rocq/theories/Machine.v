(* The C++ abstract machine fragment the models are written in: outcomes with an
   explicit "undefined behaviour" result, pointers into an allocated array, and the
   fixed-width conversions of char / char16_t / char32_t / unsigned int. *)
From Coq Require Import ZArith List Bool Lia.
Import ListNotations.
Local Open Scope Z_scope.

(* ---- integer conversions (C++ [conv.integral]: modulo 2^n for unsigned targets) ---- *)
Definition wrap8 (x : Z) : Z := x mod 0x100.
Definition wrap16 (x : Z) : Z := x mod 0x10000.
Definition wrap32 (x : Z) : Z := x mod 0x100000000.

(* ---- outcomes ---- *)
(* Done v    : the call returns v.
   Undefined : the execution performed an operation the C++ standard leaves undefined
               (here: reading through a null pointer or outside the allocated array,
               signed overflow, std::basic_string(nullptr)).
   OutOfFuel : artefact of writing loops in Gallina; the theorems show it never occurs. *)
Inductive outcome (A : Type) : Type :=
| Done (a : A)
| Undefined
| OutOfFuel.
Arguments Done {A} a.
Arguments Undefined {A}.
Arguments OutOfFuel {A}.

Definition bind {A B} (m : outcome A) (f : A -> outcome B) : outcome B :=
  match m with Done a => f a | Undefined => Undefined | OutOfFuel => OutOfFuel end.

Notation "'do' x <- m ; k" := (bind m (fun x => k))
  (at level 200, x pattern, m at level 100, k at level 200, right associativity).

(* ---- pointers ---- *)
(* A `const C*` is null, or points into an allocated array.  [At rest] is the pointer
   together with what can be reached by incrementing it: [rest] lists the elements from
   the pointee to the end of the array, so [At []] is the one-past-the-end pointer. *)
Inductive ptr : Type :=
| Null
| At (rest : list Z).

(* *p *)
Definition deref (rest : list Z) : outcome Z :=
  match rest with [] => Undefined | u :: _ => Done u end.

(* ++p : forming a pointer beyond one-past-the-end is undefined *)
Definition incr (rest : list Z) : outcome (list Z) :=
  match rest with [] => Undefined | _ :: t => Done t end.

(* p[i] *)
Definition index (rest : list Z) (i : nat) : outcome Z :=
  match nth_error rest i with None => Undefined | Some u => Done u end.

(* The number of elements from p to the end of its array; the pointer difference
   q - p of two pointers into the same array is [remaining p - remaining q]. *)
Definition remaining (rest : list Z) : Z := Z.of_nat (length rest).

(* std::basic_string<C>::c_str(): the characters followed by a terminating zero *)
Definition c_str (s : list Z) : ptr := At (s ++ [0]).

(* Range of each character type *)
Definition is_char8 (u : Z) : bool := (0 <=? u) && (u <? 0x100).
Definition is_char16 (u : Z) : bool := (0 <=? u) && (u <? 0x10000).
Definition is_char32 (u : Z) : bool := (0 <=? u) && (u <? 0x100000000).
