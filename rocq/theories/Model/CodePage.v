(* source/string_toutf8.cxx *)
From Coq Require Import ZArith List Bool.
From Verif Require Import Machine.
From Verif.Model Require Import Internal.
Import ListNotations.
Local Open Scope Z_scope.

(* interface/string.hxx:209-213 -- enum SourceEncoding : int *)
Definition kSrcUnicode : Z := 0.
Definition kSrcCP1252 : Z := 1.
Definition kSrcCP1250 : Z := 2.

(* source/string_toutf8.cxx:75-79 *)
Definition cp125280_9F : list Z := [
  0x20ac; 0; 0x201a; 0x0192; 0x201e; 0x2026; 0x2020; 0x2021;
  0x02c6; 0x2030; 0x0160; 0x2039; 0x0152; 0; 0x017d; 0;
  0; 0x2018; 0x2019; 0x201c; 0x201d; 0x2022; 0x2013; 0x2014;
  0x02dc; 0x2122; 0x0161; 0x203a; 0x0153; 0; 0x017e; 0x0178 ].

(* source/string_toutf8.cxx:111-128 *)
Definition cp125080_FF : list Z := [
  0x20ac; 0; 0x201a; 0; 0x201e; 0x2026; 0x2020; 0x2021;
  0; 0x2030; 0x0160; 0x2039; 0x015a; 0x0164; 0x017d; 0x0179;
  0; 0x2018; 0x2019; 0x201c; 0x201d; 0x2022; 0x2013; 0x2014;
  0; 0x2122; 0x0161; 0x203a; 0x015b; 0x0165; 0x017e; 0x017a;
  0xa0; 0x02c7; 0x02d8; 0x0141; 0xa4; 0x0104; 0xa6; 0xa7;
  0xa8; 0xa9; 0x015e; 0xab; 0xac; 0xad; 0xae; 0x017b;
  0xb0; 0xb1; 0x02db; 0x0142; 0xb4; 0xb5; 0xb6; 0xb7;
  0xb8; 0x0105; 0x015f; 0xbb; 0x013d; 0x02dd; 0x013e; 0x017c;
  0x0154; 0xc1; 0xc2; 0x0102; 0xc4; 0x0139; 0x0106; 0xc7;
  0x010c; 0xc9; 0x0118; 0xcb; 0x011a; 0xcd; 0xce; 0x010e;
  0x0110; 0x0143; 0x0147; 0xd3; 0xd4; 0x0150; 0xd6; 0xd7;
  0x0158; 0x016e; 0xda; 0x0170; 0xdc; 0xdd; 0x0162; 0xdf;
  0x0155; 0xe1; 0xe2; 0x0103; 0xe4; 0x013a; 0x0107; 0xe7;
  0x010d; 0xe9; 0x0119; 0xeb; 0x011b; 0xed; 0xee; 0x010f;
  0x0111; 0x0144; 0x0148; 0xf3; 0xf4; 0x0151; 0xf6; 0xf7;
  0x0159; 0x016f; 0xfa; 0x0171; 0xfc; 0xfd; 0x0163; 0x02d9 ].

(* array[uc - 0x80]; reading past the table is undefined *)
Definition tableRead (table : list Z) (uc : Z) : outcome Z := index table (Z.to_nat (uc - 0x80)).

(* source/string_toutf8.cxx:66-96 -- the CP1252 loop *)
Fixpoint cp1252_loop (p : list Z) (result : list Z) : outcome (list Z) :=
  match p with
  | [] => Undefined
  | uc :: p' =>
    if uc =? 0 then Done result
    else if uc <=? 0x7f then cp1252_loop p' (result ++ [uc])
    else if uc <=? 0x9f then
      do uniP <- tableRead cp125280_9F uc;
      if uniP =? 0 then Done [] else cp1252_loop p' (result ++ encodeUtf8 uniP)
    else cp1252_loop p' (result ++ encodeUtf8 uc)
  end.

(* source/string_toutf8.cxx:102-138 -- the CP1250 loop *)
Fixpoint cp1250_loop (p : list Z) (result : list Z) : outcome (list Z) :=
  match p with
  | [] => Undefined
  | uc :: p' =>
    if uc =? 0 then Done result
    else if uc <=? 0x7f then cp1250_loop p' (result ++ [uc])
    else
      do uniP <- tableRead cp125080_FF uc;
      if uniP =? 0 then Done [] else cp1250_loop p' (result ++ encodeUtf8 uniP)
  end.

(* std::basic_string(const C* ): copies up to the first zero; undefined for null *)
Fixpoint cstring_copy (p : list Z) : outcome (list Z) :=
  match p with
  | [] => Undefined
  | u :: p' => if u =? 0 then Done [] else do r <- cstring_copy p'; Done (u :: r)
  end.
Definition basic_string (src : ptr) : outcome (list Z) :=
  match src with Null => Undefined | At p => cstring_copy p end.

(* source/string_toutf8.cxx:51-146 -- toUtf8(const char*, SourceEncoding) *)
Definition toUtf8_cp (src : ptr) (srcType : Z) : outcome (list Z) :=
  match src with
  | Null => Done []
  | At p =>
    do u <- deref p;
    if u =? 0 then Done []
    else if srcType =? kSrcUnicode then basic_string src
    else if srcType =? kSrcCP1252 then cp1252_loop p []
    else if srcType =? kSrcCP1250 then cp1250_loop p []
    else Done []
  end.
