(* Vocabulary of the property statements: what it means for a call to be exact, to be settled by
   the text before the terminating zero, and so on.  Only the machine types (Machine.v) and the
   specification of the encodings are used. *)
From Coq Require Import ZArith List Bool.
From Verif Require Import Machine.
From Verif.Spec Require Import Utf Target.
Import ListNotations.
Local Open Scope Z_scope.

(* [exact_conversion reads enc r]: r is the encoding of the code points the input [reads] as, if it
   reads as any, and the empty string otherwise *)
Definition exact_conversion (reads : list Z -> Prop) (enc : list Z -> list Z) (r : outcome (list Z)) : Prop :=
  (forall cs, reads cs -> r = Done (enc cs)) /\ ((forall cs, ~ reads cs) -> r = Done []).

(* what a conversion from a fixed-width encoding does: encode if all elements qualify, else empty *)
Definition encodes_or_empty (P : Z -> Prop) (enc : Z -> list Z) (us : list Z) (r : outcome (list Z)) : Prop :=
  (Forall P us -> r = Done (flat_map enc us)) /\ (~ Forall P us -> r = Done []).

(* [returns f us v]: the call gives v, whatever follows the terminating zero *)
Definition returns {A} (f : ptr -> outcome A) (us : list Z) (v : A) : Prop :=
  forall junk, f (At (us ++ 0 :: junk)) = Done v.

(* [settled f us]: the call on us followed by a zero returns, and what it returns does not depend
   on anything after that zero *)
Definition settled {A} (f : ptr -> outcome A) (us : list Z) : Prop := exists v, returns f us v.

(* [valid_output f check us]: the result of f on us passes check *)
Definition valid_output (f : ptr -> outcome (list Z)) (check : list Z -> outcome bool) (us : list Z) : Prop :=
  exists r, returns f us r /\ check r = Done true.

(* the order in which the targets nest *)
Inductive narrower : target -> target -> Prop :=
| nest_refl t : narrower t t
| nest_ascii : narrower Ascii Ucs2
| nest_ucs2 : narrower Ucs2 Unicode
| nest_unicode : narrower Unicode Utf16
| nest_utf16 : narrower Utf16 Utf8
| nest_utf8 : narrower Utf8 Ucs4
| nest_trans a b c : narrower a b -> narrower b c -> narrower a c.

(* two calls return, and the third returns the conjunction of their answers *)
Definition conj_of (r r1 r2 : outcome bool) : Prop := exists b1 b2, r1 = Done b1 /\ r2 = Done b2 /\ r = Done (b1 && b2).

(* ASCII values other than NUL *)
Definition ascii (c : Z) : Prop := 0 < c <= 0x7F.

(* the range of code points isUtf8 really accepts: the documented one except for kUtf16 *)
Definition range_isUtf8 (t : target) (c : Z) : Prop :=
  match t with Utf16 => 0 < c <= 0x13FFFF /\ ~ surrogate c | _ => documented t c end.

(* the range of code points isUcs4 really accepts: the documented one except for kUtf16 *)
Definition range_isUcs4 (t : target) (c : Z) : Prop :=
  match t with Utf16 => 0 < c <= 0x1FFFFF /\ ~ surrogate c | _ => documented t c end.

(* length as an integer *)
Definition len (l : list Z) : Z := Z.of_nat (length l).

(* at most the last Unicode code point *)
Definition upto (c : Z) : Prop := c <= 0x10FFFF.
