(* Vocabulary for the calls that take a length: the text is exactly the first n elements, a zero
   is an element like any other, and whatever lies behind the n elements must not matter. *)
From Coq Require Import ZArith List Bool.
From Verif Require Import Machine.
From Verif.Spec Require Import Utf Target Result.
Import ListNotations.
Local Open Scope Z_scope.

(* how many bytes the sequence starting here announces: its lead byte says, except that the three
   bytes of a high surrogate (told by bits 4 and 5 of the second byte) announce three more *)
Definition announced (bs : list Z) : Z :=
  match bs with
  | [] => 0
  | b :: r =>
    if b <=? 0xBF then 1
    else if b <=? 0xDF then 2
    else if b <=? 0xEF then
      match r with
      | x :: _ :: _ => if (b =? 0xED) && ((x / 16) mod 4 =? 2) then 6 else 3
      | _ => 3
      end
    else if b <=? 0xF7 then 4
    else if b <=? 0xFB then 5
    else if b <=? 0xFD then 6
    else 1
  end.

(* starts like the three bytes of a low surrogate, as far as lead byte and bits 4 and 5 of the
   second byte tell *)
Definition low_start (bs : list Z) : Prop :=
  match bs with b :: x :: _ => b = 0xED /\ (x / 16) mod 4 = 3 | _ => False end.

(* announces more than there is; nothing is asked of the bytes after the first *)
Definition runs_out (bs : list Z) : Prop := len bs < announced bs /\ ~ low_start bs.

(* a sequence interrupted by a zero *)
Definition zero_inside (bs : list Z) : Prop :=
  exists t more, bs = t ++ 0 :: more /\ cut_short t /\ ~ low_start bs.

(* what the bounded isUtf8 says yes to (n > 0 bytes, the first not a zero) *)
Definition bounded8 (ok : Z -> Prop) (bs : list Z) : Prop :=
  exists cs body tail, bs = body ++ tail /\ utf8_text cs body /\ Forall ok cs /\
    (tail = [] \/ runs_out tail \/ zero_inside tail).

(* the text reaches a point where exactly two bytes are left and the first announces three *)
Definition two_of_three (ok : Z -> Prop) (bs : list Z) : Prop :=
  exists cs body b x, bs = body ++ [b; x] /\ utf8_text cs body /\ Forall ok cs /\ 0xE0 <= b <= 0xEF.

(* a list of bytes, zeros allowed *)
Definition bytes (bs : list Z) : Prop := Forall byte bs.

(* begins with a byte that starts no sequence *)
Definition starts_nothing (bs : list Z) : Prop :=
  match bs with b :: _ => 0x80 <= b <= 0xBF \/ 0xFE <= b | [] => False end.

(* the bounded unicodeLength of n > 0 bytes, told by how far they spell code points up to 0x10FFFF *)
Definition bounded_count8 (bs : list Z) (res : Z -> Prop) : Prop :=
  (exists v, res v) /\
  (forall cs body tail, bs = body ++ tail -> utf8_text cs body -> Forall upto cs ->
     tail = [] \/ runs_out tail \/ starts_nothing tail -> res (len cs)) /\
  (forall cs body tail, bs = body ++ tail -> utf8_text cs body -> Forall upto cs ->
     zero_inside tail -> announced tail <= len tail -> res (wrap32 (len cs - 1))) /\
  ((forall cs body tail, bs = body ++ tail -> utf8_text cs body -> Forall upto cs ->
     ~ (tail = [] \/ runs_out tail \/ starts_nothing tail \/ zero_inside tail)) -> res 0).

(* the bounded unicodeLength of n > 0 UTF-16 units *)
Definition bounded_count16 (us : list Z) (res : Z -> Prop) : Prop :=
  (exists v, res v) /\
  (forall cs body tail, us = body ++ tail -> utf16_text cs body ->
     tail = [] \/ (exists h, tail = [h] /\ high_surrogate h) -> res (len cs)) /\
  (forall cs body h more, us = body ++ h :: 0 :: more -> utf16_text cs body -> high_surrogate h ->
     res (wrap32 (len cs - 1))) /\
  ((forall cs body tail, us = body ++ tail -> utf16_text cs body ->
     ~ (tail = [] \/ (exists h, tail = [h] /\ high_surrogate h) \/
        exists h more, tail = h :: 0 :: more /\ high_surrogate h)) -> res 0).

(* well-formed UTF-16 whose last code point is a single unit *)
Definition ends_single (us : list Z) : Prop :=
  exists cs body c, us = body ++ [c] /\ utf16_text cs body /\ bmp c.

(* the bounded unicodeLength of n > 0 UCS-4 units *)
Definition bounded_count32 (us : list Z) (res : Z -> Prop) : Prop :=
  (Forall (fun c => c <> 0 /\ ~ surrogate c) us -> res (len us)) /\
  (~ Forall (fun c => c <> 0 /\ ~ surrogate c) us -> res 0).
