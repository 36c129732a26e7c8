(* Specification of the target ranges of the is-functions (interface/string.hxx:75-84, the
   comments of enum RangeType) and of what it means for a text to be acceptable. *)
From Coq Require Import ZArith List Bool.
From Verif.Spec Require Import Utf.
Import ListNotations.
Local Open Scope Z_scope.

Inductive target := Ascii | Utf8 | Ucs2 | Utf16 | Ucs4 | Unicode.

(* the value of the enumerator *)
Definition code (t : target) : Z :=
  match t with Ascii => 0 | Utf8 => 1 | Ucs2 => 2 | Utf16 => 3 | Ucs4 => 4 | Unicode => 5 end.

(* the documented range of each target (0 cannot occur inside a NUL-terminated string) *)
Definition documented (t : target) (c : Z) : Prop :=
  match t with
  | Ascii => 0 < c <= 0x7F
  | Utf8 => 0 < c < 0x80000000 /\ ~ surrogate c
  | Ucs2 => bmp c
  | Utf16 => scalar c
  | Ucs4 => 0 < c < 0x100000000 /\ ~ surrogate c
  | Unicode => scalar c
  end.

(* lead bytes that can start a character of the target's range *)
Definition possible_lead (t : target) (b : Z) : Prop :=
  match t with
  | Ascii => b < 0x80
  | Ucs2 => b <= 0xEF
  | Utf16 | Unicode => b <= 0xF4
  | Utf8 | Ucs4 => b <= 0xFD
  end.

(* "well-formed UTF-8, all characters of which satisfy [ok], optionally followed by one
   sequence cut short whose lead byte satisfies [tail_ok]" *)
Definition acceptable8 (ok tail_ok : Z -> Prop) (bs : list Z) : Prop :=
  exists cs body tail, bs = body ++ tail /\ utf8_text cs body /\ Forall ok cs /\
    (tail = [] \/ cut_short tail /\ tail_ok (hd 0 tail)).

(* "well-formed UTF-16, all characters of which satisfy [ok], optionally followed by a lone
   high surrogate (allowed if [tail_ok])" *)
Definition acceptable16 (ok : Z -> Prop) (tail_ok : Prop) (us : list Z) : Prop :=
  exists cs body tail, us = body ++ tail /\ utf16_text cs body /\ Forall ok cs /\
    (tail = [] \/ tail_ok /\ exists h, tail = [h] /\ high_surrogate h).

(* targets with characters that need a surrogate pair *)
Definition supplementary_target (t : target) : Prop := t <> Ascii /\ t <> Ucs2.

(* a boolean answer that is right: the call returns, and says yes exactly when P holds *)
Definition answers {O : Type} (done : bool -> O) (r : O) (P : Prop) : Prop :=
  exists b, r = done b /\ (b = true <-> P).

(* "could have been completed for the intended target range" (interface/string.hxx:236-238):
   a proper, non-empty beginning of the bytes of a character satisfying [ok] *)
Definition completable_in (ok : Z -> Prop) (t : list Z) : Prop :=
  t <> [] /\ exists c s rest, utf8_seq c s /\ ok c /\ s = t ++ rest /\ rest <> [].

(* what the documentation promises isUtf8 accepts *)
Definition documented8 (t : target) (bs : list Z) : Prop :=
  exists cs body tail, bs = body ++ tail /\ utf8_text cs body /\ Forall (documented t) cs /\
    (tail = [] \/ completable_in (documented t) tail).
