(* source/encoding_check_predicate.cxx and class EncodingCheckPredicate of
   interface/string.hxx:111-200 *)
From Coq Require Import ZArith List Bool.
From Verif Require Import Machine.
From Verif.Model Require Import Internal Tables.
Import ListNotations.
Local Open Scope Z_scope.

(* interface/string.hxx:155-159 -- data members *)
Record EncodingCheckPredicate := { m_mask : Z; m_value : Z }.

(* source/encoding_check_predicate.cxx:55-56 -- encodingTypeToEncodingFlag[] *)
Definition encodingTypeToEncodingFlag : list Z :=
  [kNoneFlag; kIsAssignedFlag; kIsPrivateFlag; kIsControlFlag; kIsWhiteSpaceFlag].

(* interface/string.hxx:123 -- default constructor *)
Definition nullPredicate : EncodingCheckPredicate := {| m_mask := 0; m_value := 0 |}.

(* source/encoding_check_predicate.cxx:66-81 -- private constructor.
   `m_value &= ~m_value` is computed as written. *)
Definition makePredicate (t : Z) (checkForIt : bool) : EncodingCheckPredicate :=
  if (t >? kIsNone) && (t <? kFirstInvalidEncoding) then
    let flag := nth (Z.to_nat t) encodingTypeToEncodingFlag 0 in
    {| m_mask := flag;
       m_value := if negb checkForIt then Z.land flag (Z.lnot flag) else flag |}
  else nullPredicate.

(* interface/string.hxx:126-134 -- checkIf / checkIfNot; 192-200 -- validIf / validIfNot *)
Definition validIf (t : Z) : EncodingCheckPredicate := makePredicate t true.
Definition validIfNot (t : Z) : EncodingCheckPredicate := makePredicate t false.

(* source/encoding_check_predicate.cxx:86-95 -- andIf *)
Definition andIf (this : EncodingCheckPredicate) (t : Z) : EncodingCheckPredicate :=
  let other := makePredicate t true in
  {| m_value := Z.lor (m_value this) (m_value other);
     m_mask := Z.lor (m_mask this) (m_mask other) |}.

(* source/encoding_check_predicate.cxx:100-109 -- andIfNot *)
Definition andIfNot (this : EncodingCheckPredicate) (t : Z) : EncodingCheckPredicate :=
  let other := makePredicate t false in
  {| m_value := Z.lor (m_value this) (m_value other);
     m_mask := Z.lor (m_mask this) (m_mask other) |}.

(* source/encoding_check_predicate.cxx:114-122 -- operator== (the identity shortcut for
   the same object gives the same answer as comparing the members) *)
Definition predicateEq (this other : EncodingCheckPredicate) : bool :=
  (m_mask this =? m_mask other) && (m_value this =? m_value other).

(* source/string_internal.hxx:245-254 -- charToEncodingTypeMask<C> for C = char,
   char16_t and char32_t *)
Definition charToEncodingTypeMask8 (T : UnicodeTables) (c : Z) : Z :=
  Z.lor (Z.lor (Z.lor (if t_assigned8 T c then kIsAssignedFlag else 0)
                      (if t_private8 T c then kIsPrivateFlag else 0))
               (if t_control8 T c then kIsControlFlag else 0))
        (if t_space8 T c then kIsWhiteSpaceFlag else 0).
Definition charToEncodingTypeMask16 (T : UnicodeTables) (c : Z) : Z :=
  Z.lor (Z.lor (Z.lor (if t_assigned16 T c then kIsAssignedFlag else 0)
                      (if t_private16 T c then kIsPrivateFlag else 0))
               (if t_control16 T c then kIsControlFlag else 0))
        (if t_space16 T c then kIsWhiteSpaceFlag else 0).
Definition charToEncodingTypeMask32 (T : UnicodeTables) (c : Z) : Z :=
  Z.lor (Z.lor (Z.lor (if t_assigned32 T c then kIsAssignedFlag else 0)
                      (if t_private32 T c then kIsPrivateFlag else 0))
               (if t_control32 T c then kIsControlFlag else 0))
        (if t_space32 T c then kIsWhiteSpaceFlag else 0).

(* source/encoding_check_predicate.cxx:127-135 -- operator()(char) *)
Definition pred8 (T : UnicodeTables) (this : EncodingCheckPredicate) (c : Z) : bool :=
  if m_mask this =? 0 then true
  else Z.land (charToEncodingTypeMask8 T c) (m_mask this) =? m_value this.

(* source/encoding_check_predicate.cxx:140-148 -- operator()(char16_t) *)
Definition pred16 (T : UnicodeTables) (this : EncodingCheckPredicate) (c : Z) : bool :=
  if m_mask this =? 0 then true
  else Z.land (charToEncodingTypeMask16 T c) (m_mask this) =? m_value this.

(* source/encoding_check_predicate.cxx:153-161 -- operator()(char32_t) *)
Definition pred32 (T : UnicodeTables) (this : EncodingCheckPredicate) (c : Z) : bool :=
  if m_mask this =? 0 then true
  else Z.land (charToEncodingTypeMask32 T c) (m_mask this) =? m_value this.
