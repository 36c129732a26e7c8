(* Where toLower is known to depart from field 13 of UnicodeData.txt (found by comparing the two;
   the theorems of Props/Case.v show that these lists are exact). *)
From Coq Require Import ZArith List.
From Verif.Model Require Import Tables.
Import ListNotations.
Local Open Scope Z_scope.

(* code points without a lower-case mapping that are mapped all the same, with the value given *)
Definition run (first last shift : Z) : list (Z * Z) :=
  map (fun i => (first + Z.of_nat i, first + Z.of_nat i + shift)) (seq 0 (Z.to_nat (last - first + 1))).
Definition extra_everywhere : list (Z * Z) :=
  [(0xD7, 0xF7); (0x1E96, 0x1E97); (0x1E98, 0x1E99); (0x1E9A, 0x1E9B); (0x1E9C, 0x1E9D)].
Definition lower_extra (v : version) : list (Z * Z) :=
  match v with
  | V7 => extra_everywhere ++ run 0x10C80 0x10CB2 0x40
  | V16 => extra_everywhere ++ [(0x1057B, 0x105A2); (0x1058B, 0x105B2); (0x10593, 0x105BA)]
  | _ => extra_everywhere
  end.

(* ranges of upper-case code points (Georgian Mtavruli, U+A7B8, Medefaidrin, Vithkuqi) left unchanged *)
Definition missing_from_11 : list (Z * Z) :=
  [(0x1C90, 0x1CBA); (0x1CBD, 0x1CBF); (0xA7B8, 0xA7B8); (0x16E40, 0x16E5F)].
Definition vithkuqi : list (Z * Z) :=
  [(0x10570, 0x1057A); (0x1057C, 0x1058A); (0x1058C, 0x10592); (0x10594, 0x10595)].
Definition lower_missing (v : version) : list (Z * Z) :=
  match v with
  | V7 | V8 | V9 | V10 => []
  | V14 | V15 => missing_from_11 ++ vithkuqi
  | V11 | V12 | V13 | V16 => missing_from_11
  end.
