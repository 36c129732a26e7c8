(* Specification of the encodings, written from the definitions of UTF-8 (with the historic
   5- and 6-byte forms), UTF-16, UCS-2 and UCS-4; nothing here mentions the model. *)
From Coq Require Import ZArith List Bool.
Import ListNotations.
Local Open Scope Z_scope.

Definition byte (b : Z) : Prop := 0 <= b < 0x100.
Definition unit16 (u : Z) : Prop := 0 <= u < 0x10000.
Definition unit32 (u : Z) : Prop := 0 <= u < 0x100000000.

Definition surrogate (c : Z) : Prop := 0xD800 <= c <= 0xDFFF.
Definition high_surrogate (c : Z) : Prop := 0xD800 <= c <= 0xDBFF.
Definition low_surrogate (c : Z) : Prop := 0xDC00 <= c <= 0xDFFF.

(* ---------------------------------------------------------------- UTF-8 *)

(* the k-th 6-bit group of c, as a continuation byte *)
Definition group (k : Z) (c : Z) : Z := 0x80 + (c / 64 ^ k) mod 64.

(* shortest form *)
Definition utf8_bytes (c : Z) : list Z :=
  if c <? 0x80 then [c]
  else if c <? 0x800 then [0xC0 + c / 64 ^ 1; group 0 c]
  else if c <? 0x10000 then [0xE0 + c / 64 ^ 2; group 1 c; group 0 c]
  else if c <? 0x200000 then [0xF0 + c / 64 ^ 3; group 2 c; group 1 c; group 0 c]
  else if c <? 0x4000000 then [0xF8 + c / 64 ^ 4; group 3 c; group 2 c; group 1 c; group 0 c]
  else [0xFC + c / 64 ^ 5; group 4 c; group 3 c; group 2 c; group 1 c; group 0 c].

(* values UTF-8 can carry in a NUL-terminated string *)
Definition encodable8 (c : Z) : Prop := 0 < c < 0x80000000 /\ ~ surrogate c.

(* ---------------------------------------------------------------- UTF-16 *)

Definition utf16_units (c : Z) : list Z :=
  if c <? 0x10000 then [c]
  else [0xD800 + (c - 0x10000) / 0x400; 0xDC00 + (c - 0x10000) mod 0x400].

Definition scalar (c : Z) : Prop := 0 < c <= 0x10FFFF /\ ~ surrogate c.
Definition bmp (c : Z) : Prop := 0 < c <= 0xFFFF /\ ~ surrogate c.

(* ---------------------------------------------------------------- texts *)

(* "these bytes are one character": the shortest form, or a surrogate pair whose halves are
   each written in three bytes *)
Inductive utf8_seq : Z -> list Z -> Prop :=
| seq_plain c : encodable8 c -> utf8_seq c (utf8_bytes c)
| seq_pair c : 0x10000 <= c <= 0x10FFFF -> utf8_seq c (flat_map utf8_bytes (utf16_units c)).

(* "these bytes spell these code points" *)
Inductive utf8_text : list Z -> list Z -> Prop :=
| text_nil : utf8_text [] []
| text_cons c s cs bs : utf8_seq c s -> utf8_text cs bs -> utf8_text (c :: cs) (s ++ bs).

(* "these UTF-16 units spell these code points" *)
Definition utf16_text (cs us : list Z) : Prop := Forall scalar cs /\ us = flat_map utf16_units cs.

(* UTF-16 read with a lone high surrogate at the very end ignored *)
Definition reads_as16 (cs us : list Z) : Prop :=
  exists body tail, us = body ++ tail /\ utf16_text cs body /\
    (tail = [] \/ exists h, tail = [h] /\ high_surrogate h).

(* ---------------------------------------------------------------- incomplete tails *)

(* byte b announces a sequence of n bytes *)
Definition lead (b n : Z) : Prop :=
  0xC0 <= b <= 0xDF /\ n = 2 \/ 0xE0 <= b <= 0xEF /\ n = 3 \/ 0xF0 <= b <= 0xF7 /\ n = 4 \/
  0xF8 <= b <= 0xFB /\ n = 5 \/ 0xFC <= b <= 0xFD /\ n = 6.
Definition continuation (b : Z) : Prop := 0x80 <= b <= 0xBF.

(* "a sequence cut short": a lead byte with fewer continuation bytes than it announces, or
   the three-byte form of a high surrogate followed by the cut-short three bytes of the
   other half.  This is a purely structural notion. *)
Inductive cut_short : list Z -> Prop :=
| cut_plain b n conts : lead b n -> 1 + Z.of_nat (length conts) < n ->
    Forall continuation conts -> cut_short (b :: conts)
| cut_pair0 a b : 0xA0 <= a <= 0xAF -> continuation b -> cut_short [0xED; a; b]
| cut_pair1 a b x conts : 0xA0 <= a <= 0xAF -> continuation b -> lead x 3 ->
    (length conts < 2)%nat -> Forall continuation conts -> cut_short (0xED :: a :: b :: x :: conts).

(* "read as": well-formed bytes, except that a sequence cut short at the very end is ignored *)
Definition reads_as (cs bs : list Z) : Prop :=
  exists body tail, bs = body ++ tail /\ utf8_text cs body /\ (tail = [] \/ cut_short tail).

(* "a sequence that could have been completed": a proper, non-empty prefix of a valid one *)
Definition completable (t : list Z) : Prop :=
  t <> [] /\ exists c s rest, utf8_seq c s /\ s = t ++ rest /\ rest <> [].

(* strings with nothing but non-zero elements: what a NUL-terminated string can hold *)
Definition nonzero (u : Z) : Prop := u <> 0.
Definition text8 (bs : list Z) : Prop := Forall (fun b => 0 < b < 0x100) bs.
Definition text16 (us : list Z) : Prop := Forall (fun u => 0 < u < 0x10000) us.
Definition text32 (us : list Z) : Prop := Forall (fun u => 0 < u < 0x100000000) us.

(* UTF-16 read leniently: low surrogates may also stand alone *)
Definition lenient_as16 (cs us : list Z) : Prop :=
  exists tail, us = flat_map utf16_units cs ++ tail /\
    Forall (fun c => scalar c \/ low_surrogate c) cs /\
    (tail = [] \/ exists h, tail = [h] /\ high_surrogate h).
