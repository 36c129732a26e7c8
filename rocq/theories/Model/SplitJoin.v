(* interface/string_splitjoin.hxx *)
From Coq Require Import ZArith List Bool Arith.
From Verif Require Import Machine.
From Verif.Model Require Import CodePage.
Import ListNotations.
Local Open Scope Z_scope.

(* std::basic_string::find(c): position of the first c, None for npos *)
Fixpoint find (s : list Z) (c : Z) : option nat :=
  match s with
  | [] => None
  | x :: s' => if x =? c then Some O else match find s' c with Some n => Some (S n) | None => None end
  end.

(* std::basic_string::find(c, pos): first position >= pos holding c *)
Definition find_from (s : list Z) (c : Z) (pos : nat) : option nat :=
  match find (skipn pos s) c with Some n => Some (pos + n)%nat | None => None end.

(* std::basic_string::substr(pos, n) / substr(pos): throws std::out_of_range for pos > size;
   the exception is folded into Undefined (the theorems show it never occurs) *)
Definition substr (s : list Z) (pos n : nat) : outcome (list Z) :=
  if (length s <? pos)%nat then Undefined else Done (firstn n (skipn pos s)).
Definition substr_to_end (s : list Z) (pos : nat) : outcome (list Z) :=
  if (length s <? pos)%nat then Undefined else Done (skipn pos s).

(* vector operator[] used as an lvalue: undefined outside the vector *)
Fixpoint vector_set (v : list (list Z)) (i : nat) (x : list Z) : outcome (list (list Z)) :=
  match v, i with
  | [], _ => Undefined
  | _ :: v', O => Done (x :: v')
  | y :: v', S i' => do r <- vector_set v' i' x; Done (y :: r)
  end.

(* iResX++ on a (32-bit) int: undefined at INT_MAX *)
Definition int_incr (i : Z) : outcome Z := if i <? 0x7fffffff then Done (i + 1) else Undefined.

(* interface/string_splitjoin.hxx:84-88 -- the do/while collecting the break positions *)
Fixpoint split_breaks (fuel : nat) (src : list Z) (delim : Z) (n : nat) (breaks : list nat)
  : outcome (list nat) :=
  match fuel with
  | O => OutOfFuel
  | S fuel =>
    let breaks := breaks ++ [n] in
    match find_from src delim (n + 1) with
    | None => Done breaks
    | Some n => split_breaks fuel src delim n breaks
    end
  end.

(* interface/string_splitjoin.hxx:93-105 -- the for loop over the breaks; [breaks] are the
   breaks from iBreak to the end *)
Fixpoint split_fill (src : list Z) (breaks : list nat) (iResX : Z) (result : list (list Z))
  : outcome (list (list Z)) :=
  match breaks with
  | [] => Done result
  | b :: rest =>
    let nStart := (b + 1)%nat in
    match rest with
    | [] =>
      do piece <- substr_to_end src nStart;
      vector_set result (Z.to_nat iResX) piece
    | nextBreak :: _ =>
      do piece <- substr src nStart (nextBreak - nStart)%nat;
      do result <- vector_set result (Z.to_nat iResX) piece;
      do iResX <- int_incr iResX;
      split_fill src rest iResX result
    end
  end.

(* interface/string_splitjoin.hxx:59-109 -- split *)
Definition split (src : list Z) (delim : Z) : outcome (list (list Z)) :=
  match src with
  | [] => Done []
  | _ =>
    match find src delim with
    | None => Done [src]
    | Some n =>
      do breaks <- split_breaks (S (length src)) src delim n [];
      let result := repeat ([] : list Z) (length breaks + 1)%nat in
      do first <- substr src 0 (hd O breaks);
      do result <- vector_set result 0 first;
      do iResX <- int_incr 0;
      split_fill src breaks iResX result
    end
  end.

(* interface/string_splitjoin.hxx:133-141 -- the for loop; r.append(const C* ) copies up to
   the first zero of delimStr = { delim, 0 } *)
Fixpoint join_loop (src : list (list Z)) (delimStr : list Z) (first : bool) (r : list Z)
  : outcome (list Z) :=
  match src with
  | [] => Done r
  | s :: src' =>
    do r <- (if negb first then (do d <- basic_string (At delimStr); Done (r ++ d)) else Done r);
    join_loop src' delimStr false (r ++ s)
  end.

(* interface/string_splitjoin.hxx:116-145 -- join *)
Definition join (src : list (list Z)) (delim : Z) : outcome (list Z) :=
  match src with
  | [] => Done []
  | _ => join_loop src [delim; 0] true []
  end.
