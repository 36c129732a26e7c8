(* Vocabulary of the statements about toLower: language codes and departures from the data. *)
From Coq Require Import ZArith List.
From Verif Require Import Machine.
From Verif.Model Require Import Tables.
From Verif.Spec Require Import Ucd Lowercase.
Import ListNotations.
Local Open Scope Z_scope.

(* the ISO 639 codes of Azeri (az, aze, azj, azb), Kazakh (kk, kaz), Tatar (tt, tat) and Turkish
   (tr, tur), in ASCII *)
Definition turkic_codes : list (list Z) :=
  [[0x61; 0x7a]; [0x61; 0x7a; 0x65]; [0x61; 0x7a; 0x6a]; [0x61; 0x7a; 0x62]; [0x6b; 0x6b]; [0x6b; 0x61; 0x7a];
   [0x74; 0x74]; [0x74; 0x61; 0x74]; [0x74; 0x72]; [0x74; 0x75; 0x72]].

(* what may be passed as lang: a null pointer, or a pointer to a NUL-terminated string *)
Definition language (lang : ptr) : Prop := lang = Null \/ exists l junk, lang = At (l ++ 0 :: junk) /\ ~ In 0 l.
Definition turkic (lang : ptr) : Prop := exists l junk, lang = At (l ++ 0 :: junk) /\ In l turkic_codes.

(* code points whose mapping departs from UnicodeData.txt *)
Definition departs (v : version) (c : Z) : Prop :=
  in_ranges (lower_missing v) c \/ exists d, In (c, d) (lower_extra v).
