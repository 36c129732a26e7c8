(* What the translated unit tests (tools/tests2v.py) compare with: strcmp, memcmp, == on
   strings and pointers, and "every EXPECT_ of this test holds". *)
From Coq Require Import ZArith List Bool.
From Verif Require Import Machine.
Import ListNotations.
Local Open Scope Z_scope.

Definition all_true (o : outcome (list bool)) : bool :=
  match o with Done l => forallb (fun b => b) l | _ => false end.

Fixpoint list_eqb (a b : list Z) : bool :=
  match a, b with
  | [], [] => true
  | x :: a', y :: b' => (x =? y) && list_eqb a' b'
  | _, _ => false
  end.

(* memcmp(a, b, n elements) == 0, with n elements readable on both sides *)
Fixpoint mem_eqb (n : nat) (a b : list Z) : bool :=
  match n, a, b with
  | O, _, _ => true
  | S n', x :: a', y :: b' => (x =? y) && mem_eqb n' a' b'
  | _, _, _ => false
  end.

(* pointers of one array are equal when the same elements remain to be read *)
Definition ptr_eqb (p q : ptr) : bool :=
  match p, q with
  | Null, Null => true
  | At a, At b => list_eqb a b
  | _, _ => false
  end.

(* the elements before the first zero *)
Fixpoint upto0 (l : list Z) : list Z :=
  match l with
  | [] => []
  | x :: l' => if x =? 0 then [] else x :: upto0 l'
  end.

(* [do] for a step that yields a string in a test *)
Notation "'dos' x <- m ; k" := (@bind (list Z) (list bool) m (fun x : list Z => k))
  (at level 200, x ident, m at level 100, k at level 200, right associativity).
