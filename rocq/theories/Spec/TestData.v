(* What the array written by mkUnicodeTestData is meant to hold.  A line of UnicodeData.txt is
   code;name;... *)
From Coq Require Import ZArith List String Ascii.
From Verif.Spec Require Import Text.
Import ListNotations.
Local Open Scope Z_scope.

(* the characters of a string literal *)
Definition chars (s : string) : list Z := map (fun a => Z.of_nat (nat_of_ascii a)) (list_ascii_of_string s).

Record entry := { code : list Z; name : list Z; more : list Z }.

(* the line: code, semicolon, name, and then nothing or a semicolon and the other fields *)
Definition line (e : entry) : list Z := code e ++ 59 :: name e ++ more e.

Definition entry_ok (e : entry) : Prop :=
  ~ In 59 (code e) /\ ~ In 59 (name e) /\ (more e = [] \/ exists m, more e = 59 :: m) /\
  ~ In 10 (line e) /\ 10 < Z.of_nat (List.length (line e)) /\ occurrences 59 (line e) < 0x80000000.

(* a file made of these lines *)
Definition file (es : list entry) : list Z := flat_map (fun e => line e ++ [10]) es.

Definition contains (needle s : list Z) : Prop := exists a b, s = a ++ needle ++ b.

(* surrogates and private characters stay out of the array *)
Definition listed (e : entry) : Prop :=
  ~ contains (chars "Surrogate") (name e) /\ ~ contains (chars "Private") (name e).

(* the codes of the listed lines, in the order of the file *)
Inductive listing : list entry -> list (list Z) -> Prop :=
| listing_nil : listing [] []
| listing_keep e es cs : listed e -> listing es cs -> listing (e :: es) (code e :: cs)
| listing_drop e es cs : ~ listed e -> listing es cs -> listing (e :: es) cs.

(* the text without spaces and newlines *)
Definition visible (l : list Z) : list Z := filter (fun c => negb ((c =? 32) || (c =? 10))) l.

(* the array, spaces and newlines aside *)
Definition array_of (cs : list (list Z)) : list Z :=
  visible (chars "char32_t validUnicodeCodePoints[] = {" ++ flat_map (fun c => chars "0x" ++ c ++ chars ",") cs
           ++ chars "0xFFFFFFFF };").

(* what stops the reading: the end of the file or a line of at most ten characters *)
Definition stop (rest : list Z) : Prop :=
  rest = [] \/ exists short junk, rest = short ++ 10 :: junk /\ ~ In 10 short /\ Z.of_nat (List.length short) <= 10.

(* every line, the last one too, ends in a newline *)
Definition newline_terminated (f : list Z) : Prop := f = [] \/ exists g, f = g ++ [10].
