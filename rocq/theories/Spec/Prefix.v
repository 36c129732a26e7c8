(* Vocabulary of the properties about texts that arrive piece by piece. *)
From Coq Require Import ZArith List.
From Verif Require Import Machine.
From Verif.Spec Require Import Result.
Import ListNotations.
Local Open Scope Z_scope.

Definition prefix (a b : list Z) : Prop := exists c, b = a ++ c.

(* [cuts_to_true text f]: a text that passes keeps passing when its end is cut off, wherever the cut
   falls; put the other way round, what fails cannot be mended by appending *)
Definition cuts_to_true (text : list Z -> Prop) (f : ptr -> outcome bool) : Prop :=
  forall a b, text (a ++ b) -> returns f (a ++ b) true -> returns f a true.

(* [cuts_to_prefix text f]: unless it is empty, the result for a longer text starts with the result
   for the shorter one *)
Definition cuts_to_prefix (text : list Z -> Prop) (f : ptr -> outcome (list Z)) : Prop :=
  forall a b r, text (a ++ b) -> returns f (a ++ b) r -> r <> [] ->
    exists r1, returns f a r1 /\ prefix r1 r.

(* [sized text hi k slack f]: the result for n elements has at most hi * n elements, and if it is not
   empty then n is at most k times its size plus slack *)
Definition sized (text : list Z -> Prop) (hi k slack : Z) (f : ptr -> outcome (list Z)) : Prop :=
  forall us r, text us -> returns f us r -> len r <= hi * len us /\ (r <> [] -> len us <= k * len r + slack).
