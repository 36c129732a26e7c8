(* Specification of the character classes and of the lower-case mapping: membership in the lists
   extracted from the UnicodeData.txt files (theories/Gen/Ucd*.v, data only). *)
From Coq Require Import ZArith List.
From Verif.Model Require Import Tables.
From Verif.Gen Require Ucd7 Ucd8 Ucd9 Ucd10 Ucd11 Ucd12 Ucd13 Ucd14 Ucd15 Ucd16.
Import ListNotations.
Local Open Scope Z_scope.

(* c lies in one of the ranges *)
Definition in_ranges (l : list (Z * Z)) (c : Z) : Prop := exists a b, In (a, b) l /\ a <= c <= b.

(* code points listed in UnicodeData.txt, other than surrogates (Cs) and private use (Co) *)
Definition ucd_assigned (v : version) : list (Z * Z) :=
  match v with
  | V7 => Ucd7.ucd_assigned | V8 => Ucd8.ucd_assigned | V9 => Ucd9.ucd_assigned | V10 => Ucd10.ucd_assigned
  | V11 => Ucd11.ucd_assigned | V12 => Ucd12.ucd_assigned | V13 => Ucd13.ucd_assigned | V14 => Ucd14.ucd_assigned
  | V15 => Ucd15.ucd_assigned | V16 => Ucd16.ucd_assigned
  end.
(* category Co *)
Definition ucd_private (v : version) : list (Z * Z) :=
  match v with
  | V7 => Ucd7.ucd_private | V8 => Ucd8.ucd_private | V9 => Ucd9.ucd_private | V10 => Ucd10.ucd_private
  | V11 => Ucd11.ucd_private | V12 => Ucd12.ucd_private | V13 => Ucd13.ucd_private | V14 => Ucd14.ucd_private
  | V15 => Ucd15.ucd_private | V16 => Ucd16.ucd_private
  end.
(* category Cc *)
Definition ucd_control (v : version) : list (Z * Z) :=
  match v with
  | V7 => Ucd7.ucd_control | V8 => Ucd8.ucd_control | V9 => Ucd9.ucd_control | V10 => Ucd10.ucd_control
  | V11 => Ucd11.ucd_control | V12 => Ucd12.ucd_control | V13 => Ucd13.ucd_control | V14 => Ucd14.ucd_control
  | V15 => Ucd15.ucd_control | V16 => Ucd16.ucd_control
  end.
(* categories Zs, Zl, Zp *)
Definition ucd_space (v : version) : list (Z * Z) :=
  match v with
  | V7 => Ucd7.ucd_space | V8 => Ucd8.ucd_space | V9 => Ucd9.ucd_space | V10 => Ucd10.ucd_space
  | V11 => Ucd11.ucd_space | V12 => Ucd12.ucd_space | V13 => Ucd13.ucd_space | V14 => Ucd14.ucd_space
  | V15 => Ucd15.ucd_space | V16 => Ucd16.ucd_space
  end.
(* (code point, simple lower-case mapping), field 13 *)
Definition ucd_lower (v : version) : list (Z * Z) :=
  match v with
  | V7 => Ucd7.ucd_lower | V8 => Ucd8.ucd_lower | V9 => Ucd9.ucd_lower | V10 => Ucd10.ucd_lower
  | V11 => Ucd11.ucd_lower | V12 => Ucd12.ucd_lower | V13 => Ucd13.ucd_lower | V14 => Ucd14.ucd_lower
  | V15 => Ucd15.ucd_lower | V16 => Ucd16.ucd_lower
  end.

(* the 25 code points with the White_Space property: the separators (Zs, Zl, Zp) and six controls *)
Definition white_space_controls : list (Z * Z) := [(0x9, 0xD); (0x85, 0x85)].

(* the simple lower-case mapping: the listed value, or the code point itself *)
Definition lowers_to (v : version) (c d : Z) : Prop :=
  In (c, d) (ucd_lower v) \/ (forall d', ~ In (c, d') (ucd_lower v)) /\ d = c.
