(* Generated by tools/cxx2ast.py from the files of /repo named below; do not edit. *)
From Coq Require Import ZArith List String.
From Verif.Cxx Require Import Syntax.
Import ListNotations.
Local Open Scope string_scope.
Local Open Scope Z_scope.

(* source/bits10/char_is_unicode.cxx:61-72 *)
Definition c_isInTheGap0003 : fundef := {|
  f_name := "isInTheGap0003";
  f_params := [{| p_ty := TI Char16; p_ref := false; p_name := "c"; p_default := None |}];
  f_ret := TI Bool;
  f_body :=
  SSeq (SDecl (TAuto) "column" (Some (EBin BAnd (EBin Shr (EVar "c") (ELit false 4)) (ELit true 15))))
  (SSeq (SDecl (TAuto) "row" (Some (EBin BAnd (EVar "c") (ELit true 15))))
  (SSwitch (EVar "column")
  (SCase [None] (SReturn (Some (EBool false)))
  (SCase [Some 7] (SReturn (Some (EOr (EBin Eq (EVar "row") (ELit false 8)) (EBin Eq (EVar "row") (ELit false 9)))))
  (SCase [Some 8] (SReturn (Some (EOr (EOr (EBin Lt (EVar "row") (ELit false 4)) (EBin Eq (EVar "row") (ELit false 11))) (EBin Eq (EVar "row") (ELit false 13)))))
  (SCase [Some 10] (SReturn (Some (EBin Eq (EVar "row") (ELit false 2))))
  (SSkip))))))) |}.

(* source/bits10/char_is_unicode.cxx:74-92 *)
Definition c_isInTheGap0005 : fundef := {|
  f_name := "isInTheGap0005";
  f_params := [{| p_ty := TI Char16; p_ref := false; p_name := "c"; p_default := None |}];
  f_ret := TI Bool;
  f_body :=
  SSeq (SDecl (TAuto) "column" (Some (EBin BAnd (EBin Shr (EVar "c") (ELit false 4)) (ELit true 15))))
  (SSeq (SDecl (TAuto) "row" (Some (EBin BAnd (EVar "c") (ELit true 15))))
  (SSwitch (EVar "column")
  (SCase [None] (SReturn (Some (EBool false)))
  (SCase [Some 3; Some 6; Some 9] (SReturn (Some (EBin Eq (EVar "row") (ELit false 0))))
  (SCase [Some 5] (SReturn (Some (EOr (EBin Eq (EVar "row") (ELit false 7)) (EBin Eq (EVar "row") (ELit false 8)))))
  (SCase [Some 8] (SReturn (Some (EOr (EOr (EBin Eq (EVar "row") (ELit false 8)) (EBin Eq (EVar "row") (ELit false 11))) (EBin Eq (EVar "row") (ELit false 12)))))
  (SCase [Some 12] (SReturn (Some (EBin Ge (EVar "row") (ELit false 8))))
  (SCase [Some 14] (SReturn (Some (EBin Ge (EVar "row") (ELit false 11))))
  (SCase [Some 15] (SReturn (Some (EBin Ge (EVar "row") (ELit false 5))))
  (SSkip)))))))))) |}.

(* source/bits10/char_is_unicode.cxx:94-97 *)
Definition c_isInTheGap0006 : fundef := {|
  f_name := "isInTheGap0006";
  f_params := [{| p_ty := TI Char16; p_ref := false; p_name := "c"; p_default := None |}];
  f_ret := TI Bool;
  f_body :=
  SReturn (Some (EBin Eq (EVar "c") (ELit true 1565))) |}.

(* source/bits10/char_is_unicode.cxx:99-111 *)
Definition c_isInTheGap0007 : fundef := {|
  f_name := "isInTheGap0007";
  f_params := [{| p_ty := TI Char16; p_ref := false; p_name := "c"; p_default := None |}];
  f_ret := TI Bool;
  f_body :=
  SSeq (SDecl (TAuto) "column" (Some (EBin BAnd (EBin Shr (EVar "c") (ELit false 4)) (ELit true 15))))
  (SSeq (SDecl (TAuto) "row" (Some (EBin BAnd (EVar "c") (ELit true 15))))
  (SSwitch (EVar "column")
  (SCase [None] (SReturn (Some (EBool false)))
  (SCase [Some 0] (SReturn (Some (EBin Eq (EVar "row") (ELit false 14))))
  (SCase [Some 4] (SReturn (Some (EOr (EBin Eq (EVar "row") (ELit false 11)) (EBin Eq (EVar "row") (ELit false 12)))))
  (SCase [Some 11] (SReturn (Some (EBin Ge (EVar "row") (ELit false 2))))
  (SCase [Some 15] (SReturn (Some (EBin Ge (EVar "row") (ELit false 11))))
  (SSkip)))))))) |}.

(* source/bits10/char_is_unicode.cxx:113-133 *)
Definition c_isInTheGap0008 : fundef := {|
  f_name := "isInTheGap0008";
  f_params := [{| p_ty := TI Char16; p_ref := false; p_name := "c"; p_default := None |}];
  f_ret := TI Bool;
  f_body :=
  SSeq (SDecl (TAuto) "column" (Some (EBin BAnd (EBin Shr (EVar "c") (ELit false 4)) (ELit true 15))))
  (SSeq (SDecl (TAuto) "row" (Some (EBin BAnd (EVar "c") (ELit true 15))))
  (SSwitch (EVar "column")
  (SCase [None] (SReturn (Some (EBool false)))
  (SCase [Some 2] (SReturn (Some (EBin Ge (EVar "row") (ELit false 14))))
  (SCase [Some 3] (SReturn (Some (EBin Eq (EVar "row") (ELit false 15))))
  (SCase [Some 5] (SReturn (Some (EAnd (EBin Ge (EVar "row") (ELit false 12)) (EBin Ne (EVar "row") (ELit false 14)))))
  (SCase [Some 6] (SReturn (Some (EBin Ge (EVar "row") (ELit false 11))))
  (SCase [Some 7; Some 8; Some 9; Some 12] (SReturn (Some (EBool true)))
  (SCase [Some 13] (SReturn (Some (EBin Le (EVar "row") (ELit false 3))))
  (SCase [Some 11] (SReturn (Some (EOr (EBin Eq (EVar "row") (ELit false 5)) (EBin Ge (EVar "row") (ELit false 14)))))
  (SSkip))))))))))) |}.

(* source/bits10/char_is_unicode.cxx:135-178 *)
Definition c_isInTheGap0009 : fundef := {|
  f_name := "isInTheGap0009";
  f_params := [{| p_ty := TI Char16; p_ref := false; p_name := "c"; p_default := None |}];
  f_ret := TI Bool;
  f_body :=
  SSeq (SDecl (TAuto) "column" (Some (EBin BAnd (EBin Shr (EVar "c") (ELit false 4)) (ELit true 15))))
  (SSeq (SDecl (TAuto) "row" (Some (EBin BAnd (EVar "c") (ELit true 15))))
  (SSwitch (EVar "column")
  (SCase [None] (SReturn (Some (EBool false)))
  (SCase [Some 8] (SReturn (Some (EOr (EOr (EBin Eq (EVar "row") (ELit false 4)) (EBin Eq (EVar "row") (ELit false 13))) (EBin Eq (EVar "row") (ELit false 14)))))
  (SCase [Some 9] (SReturn (Some (EOr (EBin Eq (EVar "row") (ELit false 1)) (EBin Eq (EVar "row") (ELit false 2)))))
  (SCase [Some 10] (SReturn (Some (EBin Eq (EVar "row") (ELit false 9))))
  (SCase [Some 11] (SSwitch (EVar "row")
  (SCase [None] (SReturn (Some (EBool false)))
  (SCase [Some 1; Some 3; Some 4; Some 5; Some 10; Some 11] (SReturn (Some (EBool true)))
  (SSkip))))
  (SCase [Some 12] (SSwitch (EVar "row")
  (SCase [None] (SReturn (Some (EBool false)))
  (SCase [Some 5; Some 6; Some 9; Some 10; Some 15] (SReturn (Some (EBool true)))
  (SSkip))))
  (SCase [Some 13] (SSwitch (EVar "row")
  (SCase [None] (SReturn (Some (EBool true)))
  (SCase [Some 7; Some 12; Some 13; Some 15] (SReturn (Some (EBool false)))
  (SSkip))))
  (SCase [Some 14] (SReturn (Some (EOr (EBin Eq (EVar "row") (ELit false 4)) (EBin Eq (EVar "row") (ELit false 5)))))
  (SCase [Some 15] (SReturn (Some (EBin Ge (EVar "row") (ELit false 14))))
  (SSkip)))))))))))) |}.

(* source/bits10/char_is_unicode.cxx:180-255 *)
Definition c_isInTheGap000A : fundef := {|
  f_name := "isInTheGap000A";
  f_params := [{| p_ty := TI Char16; p_ref := false; p_name := "c"; p_default := None |}];
  f_ret := TI Bool;
  f_body :=
  SSeq (SDecl (TAuto) "column" (Some (EBin BAnd (EBin Shr (EVar "c") (ELit false 4)) (ELit true 15))))
  (SSeq (SDecl (TAuto) "row" (Some (EBin BAnd (EVar "c") (ELit true 15))))
  (SSwitch (EVar "column")
  (SCase [None] (SReturn (Some (EBool true)))
  (SCase [Some 0] (SReturn (Some (EOr (EOr (EBin Eq (EVar "row") (ELit false 0)) (EBin Eq (EVar "row") (ELit false 4))) (EAnd (EBin Ge (EVar "row") (ELit false 11)) (EBin Lt (EVar "row") (ELit false 15))))))
  (SCase [Some 1] (SReturn (Some (EOr (EBin Eq (EVar "row") (ELit false 1)) (EBin Eq (EVar "row") (ELit false 2)))))
  (SCase [Some 2] (SReturn (Some (EBin Eq (EVar "row") (ELit false 9))))
  (SCase [Some 3] (SSwitch (EVar "row")
  (SCase [None] (SReturn (Some (EBool false)))
  (SCase [Some 1; Some 4; Some 7; Some 10; Some 11; Some 13] (SReturn (Some (EBool true)))
  (SSkip))))
  (SCase [Some 4] (SSwitch (EVar "row")
  (SCase [None] (SReturn (Some (EBool false)))
  (SCase [Some 3; Some 4; Some 5; Some 6; Some 9; Some 10; Some 14; Some 15] (SReturn (Some (EBool true)))
  (SSkip))))
  (SCase [Some 5] (SSwitch (EVar "row")
  (SCase [None] (SReturn (Some (EBool false)))
  (SCase [Some 0; Some 2; Some 3; Some 4; Some 5; Some 6; Some 7; Some 8; Some 13; Some 15] (SReturn (Some (EBool true)))
  (SSkip))))
  (SCase [Some 6] (SReturn (Some (EBin Le (EVar "row") (ELit false 5))))
  (SCase [Some 7] (SReturn (Some (EBin Ge (EVar "row") (ELit false 6))))
  (SCase [Some 8] (SSwitch (EVar "row")
  (SCase [None] (SReturn (Some (EBool false)))
  (SCase [Some 0; Some 4; Some 14] (SReturn (Some (EBool true)))
  (SSkip))))
  (SCase [Some 9] (SReturn (Some (EBin Eq (EVar "row") (ELit false 2))))
  (SCase [Some 10] (SReturn (Some (EBin Eq (EVar "row") (ELit false 9))))
  (SCase [Some 11] (SSwitch (EVar "row")
  (SCase [None] (SReturn (Some (EBool false)))
  (SCase [Some 1; Some 4; Some 10; Some 11] (SReturn (Some (EBool true)))
  (SSkip))))
  (SCase [Some 12] (SReturn (Some (EOr (EOr (EBin Eq (EVar "row") (ELit false 6)) (EBin Eq (EVar "row") (ELit false 10))) (EBin Ge (EVar "row") (ELit false 14)))))
  (SCase [Some 13] (SReturn (Some (EBin Ge (EVar "row") (ELit false 1))))
  (SCase [Some 14] (SReturn (Some (EOr (EBin Eq (EVar "row") (ELit false 4)) (EBin Eq (EVar "row") (ELit false 5)))))
  (SCase [Some 15] (SReturn (Some (EAnd (EBin Ge (EVar "row") (ELit false 2)) (EBin Le (EVar "row") (ELit false 8)))))
  (SSkip)))))))))))))))))))) |}.

(* source/bits10/char_is_unicode.cxx:257-338 *)
Definition c_isInTheGap000B : fundef := {|
  f_name := "isInTheGap000B";
  f_params := [{| p_ty := TI Char16; p_ref := false; p_name := "c"; p_default := None |}];
  f_ret := TI Bool;
  f_body :=
  SSeq (SDecl (TAuto) "column" (Some (EBin BAnd (EBin Shr (EVar "c") (ELit false 4)) (ELit true 15))))
  (SSeq (SDecl (TAuto) "row" (Some (EBin BAnd (EVar "c") (ELit true 15))))
  (SSwitch (EVar "column")
  (SCase [None] (SReturn (Some (EBool true)))
  (SCase [Some 0] (SReturn (Some (EOr (EOr (EOr (EBin Eq (EVar "row") (ELit false 0)) (EBin Eq (EVar "row") (ELit false 4))) (EBin Eq (EVar "row") (ELit false 13))) (EBin Eq (EVar "row") (ELit false 14)))))
  (SCase [Some 1] (SReturn (Some (EOr (EBin Eq (EVar "row") (ELit false 1)) (EBin Eq (EVar "row") (ELit false 2)))))
  (SCase [Some 2] (SReturn (Some (EBin Eq (EVar "row") (ELit false 9))))
  (SCase [Some 3] (SReturn (Some (EOr (EOr (EOr (EBin Eq (EVar "row") (ELit false 1)) (EBin Eq (EVar "row") (ELit false 4))) (EBin Eq (EVar "row") (ELit false 10))) (EBin Eq (EVar "row") (ELit false 11)))))
  (SCase [Some 4] (SSwitch (EVar "row")
  (SCase [None] (SReturn (Some (EBool false)))
  (SCase [Some 5; Some 6; Some 9; Some 10; Some 14; Some 15] (SReturn (Some (EBool true)))
  (SSkip))))
  (SCase [Some 5] (SReturn (Some (EOr (EOr (EBin Le (EVar "row") (ELit false 5)) (EAnd (EBin Ge (EVar "row") (ELit false 8)) (EBin Le (EVar "row") (ELit false 11)))) (EBin Eq (EVar "row") (ELit false 14)))))
  (SCase [Some 6] (SReturn (Some (EOr (EBin Eq (EVar "row") (ELit false 4)) (EBin Eq (EVar "row") (ELit false 5)))))
  (SCase [Some 7] (SReturn (Some (EBin Ge (EVar "row") (ELit false 8))))
  (SCase [Some 8] (SSwitch (EVar "row")
  (SCase [None] (SReturn (Some (EBool false)))
  (SCase [Some 0; Some 1; Some 4; Some 11; Some 12; Some 13] (SReturn (Some (EBool true)))
  (SSkip))))
  (SCase [Some 9] (SSwitch (EVar "row")
  (SCase [None] (SReturn (Some (EBool false)))
  (SCase [Some 1; Some 6; Some 7; Some 8; Some 11; Some 13] (SReturn (Some (EBool true)))
  (SSkip))))
  (SCase [Some 10] (SSwitch (EVar "row")
  (SCase [None] (SReturn (Some (EBool true)))
  (SCase [Some 3; Some 4; Some 8; Some 9; Some 10; Some 14; Some 15] (SReturn (Some (EBool false)))
  (SSkip))))
  (SCase [Some 11] (SReturn (Some (EAnd (EBin Ge (EVar "row") (ELit false 10)) (EBin Le (EVar "row") (ELit false 13)))))
  (SCase [Some 12] (SSwitch (EVar "row")
  (SCase [None] (SReturn (Some (EBool false)))
  (SCase [Some 3; Some 4; Some 5; Some 9; Some 14; Some 15] (SReturn (Some (EBool true)))
  (SSkip))))
  (SCase [Some 13] (SSwitch (EVar "row")
  (SCase [None] (SReturn (Some (EBool true)))
  (SCase [Some 0; Some 7] (SReturn (Some (EBool false)))
  (SSkip))))
  (SCase [Some 14] (SReturn (Some (EBin Le (EVar "row") (ELit false 5))))
  (SCase [Some 15] (SReturn (Some (EBin Ge (EVar "row") (ELit false 11))))
  (SSkip)))))))))))))))))))) |}.

(* source/bits10/char_is_unicode.cxx:340-364 *)
Definition c_isInTheGap000C : fundef := {|
  f_name := "isInTheGap000C";
  f_params := [{| p_ty := TI Char16; p_ref := false; p_name := "c"; p_default := None |}];
  f_ret := TI Bool;
  f_body :=
  SSeq (SDecl (TAuto) "column" (Some (EBin BAnd (EBin Shr (EVar "c") (ELit false 4)) (ELit true 15))))
  (SSeq (SDecl (TAuto) "row" (Some (EBin BAnd (EVar "c") (ELit true 15))))
  (SSwitch (EVar "column")
  (SCase [None] (SReturn (Some (EBool true)))
  (SCase [Some 0] (SReturn (Some (EOr (EBin Eq (EVar "row") (ELit false 4)) (EBin Eq (EVar "row") (ELit false 13)))))
  (SCase [Some 1] (SReturn (Some (EBin Eq (EVar "row") (ELit false 1))))
  (SCase [Some 2] (SReturn (Some (EBin Eq (EVar "row") (ELit false 9))))
  (SCase [Some 3] (SReturn (Some (EAnd (EBin Ge (EVar "row") (ELit false 10)) (EBin Le (EVar "row") (ELit false 12)))))
  (SCase [Some 4] (SReturn (Some (EOr (EOr (EBin Eq (EVar "row") (ELit false 5)) (EBin Eq (EVar "row") (ELit false 9))) (EBin Ge (EVar "row") (ELit false 14)))))
  (SCase [Some 5] (SReturn (Some (EOr (EOr (EBin Le (EVar "row") (ELit false 4)) (EBin Eq (EVar "row") (ELit false 7))) (EBin Ge (EVar "row") (ELit false 11)))))
  (SCase [Some 6] (SReturn (Some (EOr (EBin Eq (EVar "row") (ELit false 4)) (EBin Eq (EVar "row") (ELit false 5)))))
  (SCase [Some 7] (SReturn (Some (EBin Le (EVar "row") (ELit false 7))))
  (SCase [Some 8] (SReturn (Some (EOr (EBin Eq (EVar "row") (ELit false 4)) (EBin Eq (EVar "row") (ELit false 13)))))
  (SCase [Some 9] (SReturn (Some (EBin Eq (EVar "row") (ELit false 1))))
  (SCase [Some 10] (SReturn (Some (EBin Eq (EVar "row") (ELit false 9))))
  (SCase [Some 11] (SReturn (Some (EOr (EOr (EBin Eq (EVar "row") (ELit false 4)) (EBin Eq (EVar "row") (ELit false 10))) (EBin Eq (EVar "row") (ELit false 11)))))
  (SCase [Some 12] (SReturn (Some (EOr (EOr (EBin Eq (EVar "row") (ELit false 5)) (EBin Eq (EVar "row") (ELit false 9))) (EBin Ge (EVar "row") (ELit false 14)))))
  (SCase [Some 13] (SReturn (Some (EOr (EBin Le (EVar "row") (ELit false 4)) (EAnd (EBin Ge (EVar "row") (ELit false 7)) (EBin Ne (EVar "row") (ELit false 14))))))
  (SCase [Some 14] (SReturn (Some (EOr (EBin Eq (EVar "row") (ELit false 4)) (EBin Eq (EVar "row") (ELit false 5)))))
  (SCase [Some 15] (SReturn (Some (EOr (EBin Eq (EVar "row") (ELit false 0)) (EBin Ge (EVar "row") (ELit false 3)))))
  (SSkip)))))))))))))))))))) |}.

(* source/bits10/char_is_unicode.cxx:366-386 *)
Definition c_isInTheGap000D : fundef := {|
  f_name := "isInTheGap000D";
  f_params := [{| p_ty := TI Char16; p_ref := false; p_name := "c"; p_default := None |}];
  f_ret := TI Bool;
  f_body :=
  SSeq (SDecl (TAuto) "column" (Some (EBin BAnd (EBin Shr (EVar "c") (ELit false 4)) (ELit true 15))))
  (SSeq (SDecl (TAuto) "row" (Some (EBin BAnd (EVar "c") (ELit true 15))))
  (SSwitch (EVar "column")
  (SCase [None] (SReturn (Some (EBool false)))
  (SCase [Some 0] (SReturn (Some (EOr (EBin Eq (EVar "row") (ELit false 4)) (EBin Eq (EVar "row") (ELit false 13)))))
  (SCase [Some 1] (SReturn (Some (EBin Eq (EVar "row") (ELit false 1))))
  (SCase [Some 4] (SReturn (Some (EOr (EBin Eq (EVar "row") (ELit false 5)) (EBin Eq (EVar "row") (ELit false 9)))))
  (SCase [Some 5] (SReturn (Some (EBin Le (EVar "row") (ELit false 3))))
  (SCase [Some 6] (SReturn (Some (EOr (EBin Eq (EVar "row") (ELit false 4)) (EBin Eq (EVar "row") (ELit false 5)))))
  (SCase [Some 8] (SReturn (Some (EOr (EBin Lt (EVar "row") (ELit false 2)) (EBin Eq (EVar "row") (ELit false 4)))))
  (SCase [Some 9] (SReturn (Some (EAnd (EBin Ge (EVar "row") (ELit false 7)) (EBin Le (EVar "row") (ELit false 9)))))
  (SCase [Some 11] (SReturn (Some (EOr (EBin Eq (EVar "row") (ELit false 2)) (EAnd (EBin Ge (EVar "row") (ELit false 12)) (EBin Ne (EVar "row") (ELit false 13))))))
  (SCase [Some 12] (SReturn (Some (EAnd (EAnd (EBin Ge (EVar "row") (ELit false 7)) (EBin Ne (EVar "row") (ELit false 10))) (EBin Le (EVar "row") (ELit false 14)))))
  (SCase [Some 13] (SReturn (Some (EOr (EBin Eq (EVar "row") (ELit false 5)) (EBin Eq (EVar "row") (ELit false 7)))))
  (SCase [Some 14] (SReturn (Some (EBin Le (EVar "row") (ELit false 5))))
  (SCase [Some 15] (SReturn (Some (EOr (EBin Lt (EVar "row") (ELit false 2)) (EBin Ge (EVar "row") (ELit false 5)))))
  (SSkip)))))))))))))))) |}.

(* source/bits10/char_is_unicode.cxx:388-430 *)
Definition c_isInTheGap000E : fundef := {|
  f_name := "isInTheGap000E";
  f_params := [{| p_ty := TI Char16; p_ref := false; p_name := "c"; p_default := None |}];
  f_ret := TI Bool;
  f_body :=
  SSeq (SDecl (TAuto) "column" (Some (EBin BAnd (EBin Shr (EVar "c") (ELit false 4)) (ELit true 15))))
  (SSeq (SDecl (TAuto) "row" (Some (EBin BAnd (EVar "c") (ELit true 15))))
  (SSwitch (EVar "column")
  (SCase [None] (SReturn (Some (EBool false)))
  (SCase [Some 0] (SReturn (Some (EBin Eq (EVar "row") (ELit false 0))))
  (SCase [Some 3] (SReturn (Some (EAnd (EBin Ge (EVar "row") (ELit false 11)) (EBin Le (EVar "row") (ELit false 14)))))
  (SCase [Some 5] (SReturn (Some (EBin Ge (EVar "row") (ELit false 12))))
  (SCase [Some 6; Some 7; Some 14; Some 15] (SReturn (Some (EBool true)))
  (SCase [Some 8] (SSwitch (EVar "row")
  (SCase [None] (SReturn (Some (EBool true)))
  (SCase [Some 1; Some 2; Some 4; Some 7; Some 8; Some 10; Some 13] (SReturn (Some (EBool false)))
  (SSkip))))
  (SCase [Some 9] (SReturn (Some (EOr (EBin Le (EVar "row") (ELit false 3)) (EBin Eq (EVar "row") (ELit false 8)))))
  (SCase [Some 10] (SSwitch (EVar "row")
  (SCase [None] (SReturn (Some (EBool false)))
  (SCase [Some 0; Some 4; Some 6; Some 8; Some 9; Some 12] (SReturn (Some (EBool true)))
  (SSkip))))
  (SCase [Some 11] (SReturn (Some (EOr (EBin Eq (EVar "row") (ELit false 10)) (EBin Ge (EVar "row") (ELit false 14)))))
  (SCase [Some 12] (SReturn (Some (EOr (EOr (EBin Eq (EVar "row") (ELit false 5)) (EBin Eq (EVar "row") (ELit false 7))) (EBin Ge (EVar "row") (ELit false 14)))))
  (SCase [Some 13] (SReturn (Some (EOr (EBin Eq (EVar "row") (ELit false 10)) (EBin Eq (EVar "row") (ELit false 11)))))
  (SSkip)))))))))))))) |}.

(* source/bits10/char_is_unicode.cxx:432-449 *)
Definition c_isInTheGap000F : fundef := {|
  f_name := "isInTheGap000F";
  f_params := [{| p_ty := TI Char16; p_ref := false; p_name := "c"; p_default := None |}];
  f_ret := TI Bool;
  f_body :=
  SSeq (SDecl (TAuto) "column" (Some (EBin BAnd (EBin Shr (EVar "c") (ELit false 4)) (ELit true 15))))
  (SSeq (SDecl (TAuto) "row" (Some (EBin BAnd (EVar "c") (ELit true 15))))
  (SSwitch (EVar "column")
  (SCase [None] (SReturn (Some (EBool false)))
  (SCase [Some 4] (SReturn (Some (EBin Eq (EVar "row") (ELit false 8))))
  (SCase [Some 6] (SReturn (Some (EBin Ge (EVar "row") (ELit false 13))))
  (SCase [Some 7] (SReturn (Some (EBin Eq (EVar "row") (ELit false 0))))
  (SCase [Some 9] (SReturn (Some (EBin Eq (EVar "row") (ELit false 8))))
  (SCase [Some 11; Some 12] (SReturn (Some (EBin Eq (EVar "row") (ELit false 13))))
  (SCase [Some 13] (SReturn (Some (EBin Ge (EVar "row") (ELit false 11))))
  (SCase [Some 14; Some 15] (SReturn (Some (EBool true)))
  (SSkip))))))))))) |}.

(* source/bits10/char_is_unicode.cxx:451-460 *)
Definition c_isInTheGap0010 : fundef := {|
  f_name := "isInTheGap0010";
  f_params := [{| p_ty := TI Char16; p_ref := false; p_name := "c"; p_default := None |}];
  f_ret := TI Bool;
  f_body :=
  SSeq (SDecl (TAuto) "column" (Some (EBin BAnd (EBin Shr (EVar "c") (ELit false 4)) (ELit true 15))))
  (SSeq (SDecl (TAuto) "row" (Some (EBin BAnd (EVar "c") (ELit true 15))))
  (SSwitch (EVar "column")
  (SCase [None] (SReturn (Some (EBool false)))
  (SCase [Some 12] (SReturn (Some (EOr (EBin Eq (EVar "row") (ELit false 6)) (EAnd (EBin Ge (EVar "row") (ELit false 8)) (EBin Ne (EVar "row") (ELit false 13))))))
  (SSkip))))) |}.

(* source/bits10/char_is_unicode.cxx:462-476 *)
Definition c_isInTheGap0012 : fundef := {|
  f_name := "isInTheGap0012";
  f_params := [{| p_ty := TI Char16; p_ref := false; p_name := "c"; p_default := None |}];
  f_ret := TI Bool;
  f_body :=
  SSeq (SDecl (TAuto) "column" (Some (EBin BAnd (EBin Shr (EVar "c") (ELit false 4)) (ELit true 15))))
  (SSeq (SDecl (TAuto) "row" (Some (EBin BAnd (EVar "c") (ELit true 15))))
  (SSwitch (EVar "column")
  (SCase [None] (SReturn (Some (EBool false)))
  (SCase [Some 4] (SReturn (Some (EOr (EBin Eq (EVar "row") (ELit false 9)) (EBin Ge (EVar "row") (ELit false 14)))))
  (SCase [Some 5] (SReturn (Some (EOr (EOr (EBin Eq (EVar "row") (ELit false 7)) (EBin Eq (EVar "row") (ELit false 9))) (EBin Ge (EVar "row") (ELit false 14)))))
  (SCase [Some 8] (SReturn (Some (EOr (EBin Eq (EVar "row") (ELit false 9)) (EBin Ge (EVar "row") (ELit false 14)))))
  (SCase [Some 11] (SReturn (Some (EOr (EOr (EOr (EBin Eq (EVar "row") (ELit false 1)) (EBin Eq (EVar "row") (ELit false 6))) (EBin Eq (EVar "row") (ELit false 7))) (EBin Eq (EVar "row") (ELit false 15)))))
  (SCase [Some 12] (SReturn (Some (EOr (EOr (EBin Eq (EVar "row") (ELit false 1)) (EBin Eq (EVar "row") (ELit false 6))) (EBin Eq (EVar "row") (ELit false 7)))))
  (SCase [Some 13] (SReturn (Some (EBin Eq (EVar "row") (ELit false 7))))
  (SSkip)))))))))) |}.

(* source/bits10/char_is_unicode.cxx:478-491 *)
Definition c_isInTheGap0013 : fundef := {|
  f_name := "isInTheGap0013";
  f_params := [{| p_ty := TI Char16; p_ref := false; p_name := "c"; p_default := None |}];
  f_ret := TI Bool;
  f_body :=
  SSeq (SDecl (TAuto) "column" (Some (EBin BAnd (EBin Shr (EVar "c") (ELit false 4)) (ELit true 15))))
  (SSeq (SDecl (TAuto) "row" (Some (EBin BAnd (EVar "c") (ELit true 15))))
  (SSwitch (EVar "column")
  (SCase [None] (SReturn (Some (EBool false)))
  (SCase [Some 1] (SReturn (Some (EOr (EOr (EBin Eq (EVar "row") (ELit false 1)) (EBin Eq (EVar "row") (ELit false 6))) (EBin Eq (EVar "row") (ELit false 7)))))
  (SCase [Some 5] (SReturn (Some (EOr (EBin Eq (EVar "row") (ELit false 11)) (EBin Eq (EVar "row") (ELit false 12)))))
  (SCase [Some 7] (SReturn (Some (EBin Ge (EVar "row") (ELit false 13))))
  (SCase [Some 9] (SReturn (Some (EBin Ge (EVar "row") (ELit false 10))))
  (SCase [Some 15] (SReturn (Some (EBin Ge (EBin BAnd (EVar "row") (ELit false 7)) (ELit false 6))))
  (SSkip))))))))) |}.

(* source/bits10/char_is_unicode.cxx:493-503 *)
Definition c_isInTheGap0016 : fundef := {|
  f_name := "isInTheGap0016";
  f_params := [{| p_ty := TI Char16; p_ref := false; p_name := "c"; p_default := None |}];
  f_ret := TI Bool;
  f_body :=
  SSeq (SDecl (TAuto) "column" (Some (EBin BAnd (EBin Shr (EVar "c") (ELit false 4)) (ELit true 15))))
  (SSeq (SDecl (TAuto) "row" (Some (EBin BAnd (EVar "c") (ELit true 15))))
  (SSwitch (EVar "column")
  (SCase [None] (SReturn (Some (EBool false)))
  (SCase [Some 9] (SReturn (Some (EBin Ge (EVar "row") (ELit false 13))))
  (SCase [Some 15] (SReturn (Some (EBin Ge (EVar "row") (ELit false 9))))
  (SSkip)))))) |}.

(* source/bits10/char_is_unicode.cxx:505-522 *)
Definition c_isInTheGap0017 : fundef := {|
  f_name := "isInTheGap0017";
  f_params := [{| p_ty := TI Char16; p_ref := false; p_name := "c"; p_default := None |}];
  f_ret := TI Bool;
  f_body :=
  SSeq (SDecl (TAuto) "column" (Some (EBin BAnd (EBin Shr (EVar "c") (ELit false 4)) (ELit true 15))))
  (SSeq (SDecl (TAuto) "row" (Some (EBin BAnd (EVar "c") (ELit true 15))))
  (SSwitch (EVar "column")
  (SCase [None] (SReturn (Some (EBool false)))
  (SCase [Some 0] (SReturn (Some (EBin Eq (EVar "row") (ELit false 13))))
  (SCase [Some 1] (SReturn (Some (EBin Ge (EVar "row") (ELit false 5))))
  (SCase [Some 3] (SReturn (Some (EBin Ge (EVar "row") (ELit false 7))))
  (SCase [Some 5] (SReturn (Some (EBin Ge (EVar "row") (ELit false 4))))
  (SCase [Some 6] (SReturn (Some (EBin Eq (EVar "row") (ELit false 13))))
  (SCase [Some 7] (SReturn (Some (EOr (EBin Eq (EVar "row") (ELit false 1)) (EBin Ge (EVar "row") (ELit false 4)))))
  (SCase [Some 13] (SReturn (Some (EBin Ge (EVar "row") (ELit false 14))))
  (SCase [Some 14; Some 15] (SReturn (Some (EBin Ge (EVar "row") (ELit false 10))))
  (SSkip)))))))))))) |}.

(* source/bits10/char_is_unicode.cxx:524-537 *)
Definition c_isInTheGap0018 : fundef := {|
  f_name := "isInTheGap0018";
  f_params := [{| p_ty := TI Char16; p_ref := false; p_name := "c"; p_default := None |}];
  f_ret := TI Bool;
  f_body :=
  SSeq (SDecl (TAuto) "column" (Some (EBin BAnd (EBin Shr (EVar "c") (ELit false 4)) (ELit true 15))))
  (SSeq (SDecl (TAuto) "row" (Some (EBin BAnd (EVar "c") (ELit true 15))))
  (SSwitch (EVar "column")
  (SCase [None] (SReturn (Some (EBool false)))
  (SCase [Some 0] (SReturn (Some (EBin Eq (EVar "row") (ELit false 15))))
  (SCase [Some 1] (SReturn (Some (EBin Ge (EVar "row") (ELit false 10))))
  (SCase [Some 7] (SReturn (Some (EBin Ge (EVar "row") (ELit false 8))))
  (SCase [Some 10] (SReturn (Some (EBin Ge (EVar "row") (ELit false 11))))
  (SCase [Some 15] (SReturn (Some (EBin Ge (EVar "row") (ELit false 6))))
  (SSkip))))))))) |}.

(* source/bits10/char_is_unicode.cxx:539-556 *)
Definition c_isInTheGap0019 : fundef := {|
  f_name := "isInTheGap0019";
  f_params := [{| p_ty := TI Char16; p_ref := false; p_name := "c"; p_default := None |}];
  f_ret := TI Bool;
  f_body :=
  SSeq (SDecl (TAuto) "column" (Some (EBin BAnd (EBin Shr (EVar "c") (ELit false 4)) (ELit true 15))))
  (SSeq (SDecl (TAuto) "row" (Some (EBin BAnd (EVar "c") (ELit true 15))))
  (SSwitch (EVar "column")
  (SCase [None] (SReturn (Some (EBool false)))
  (SCase [Some 1] (SReturn (Some (EBin Eq (EVar "row") (ELit false 15))))
  (SCase [Some 2; Some 3] (SReturn (Some (EBin Ge (EVar "row") (ELit false 12))))
  (SCase [Some 4] (SReturn (Some (EAnd (EBin Ge (EVar "row") (ELit false 1)) (EBin Le (EVar "row") (ELit false 3)))))
  (SCase [Some 6] (SReturn (Some (EBin Ge (EVar "row") (ELit false 14))))
  (SCase [Some 7] (SReturn (Some (EBin Ge (EVar "row") (ELit false 5))))
  (SCase [Some 10] (SReturn (Some (EBin Ge (EVar "row") (ELit false 12))))
  (SCase [Some 12] (SReturn (Some (EBin Ge (EVar "row") (ELit false 10))))
  (SCase [Some 13] (SReturn (Some (EAnd (EBin Ge (EVar "row") (ELit false 11)) (EBin Le (EVar "row") (ELit false 13)))))
  (SSkip)))))))))))) |}.

(* source/bits10/char_is_unicode.cxx:558-577 *)
Definition c_isInTheGap001A : fundef := {|
  f_name := "isInTheGap001A";
  f_params := [{| p_ty := TI Char16; p_ref := false; p_name := "c"; p_default := None |}];
  f_ret := TI Bool;
  f_body :=
  SSeq (SDecl (TAuto) "column" (Some (EBin BAnd (EBin Shr (EVar "c") (ELit false 4)) (ELit true 15))))
  (SSeq (SDecl (TAuto) "row" (Some (EBin BAnd (EVar "c") (ELit true 15))))
  (SSwitch (EVar "column")
  (SCase [None] (SReturn (Some (EBool false)))
  (SCase [Some 1] (SReturn (Some (EOr (EBin Eq (EVar "row") (ELit false 12)) (EBin Eq (EVar "row") (ELit false 13)))))
  (SCase [Some 5] (SReturn (Some (EBin Eq (EVar "row") (ELit false 15))))
  (SCase [Some 7] (SReturn (Some (EOr (EBin Eq (EVar "row") (ELit false 13)) (EBin Eq (EVar "row") (ELit false 14)))))
  (SCase [Some 8; Some 9] (SReturn (Some (EBin Ge (EVar "row") (ELit false 10))))
  (SCase [Some 10] (SReturn (Some (EBin Ge (EVar "row") (ELit false 14))))
  (SCase [Some 11] (SReturn (Some (EBin Eq (EVar "row") (ELit false 15))))
  (SCase [Some 12; Some 13; Some 14; Some 15] (SReturn (Some (EBool true)))
  (SSkip))))))))))) |}.

(* source/bits10/char_is_unicode.cxx:579-590 *)
Definition c_isInTheGap001B : fundef := {|
  f_name := "isInTheGap001B";
  f_params := [{| p_ty := TI Char16; p_ref := false; p_name := "c"; p_default := None |}];
  f_ret := TI Bool;
  f_body :=
  SSeq (SDecl (TAuto) "column" (Some (EBin BAnd (EBin Shr (EVar "c") (ELit false 4)) (ELit true 15))))
  (SSeq (SDecl (TAuto) "row" (Some (EBin BAnd (EVar "c") (ELit true 15))))
  (SSwitch (EVar "column")
  (SCase [None] (SReturn (Some (EBool false)))
  (SCase [Some 4] (SReturn (Some (EBin Ge (EVar "row") (ELit false 12))))
  (SCase [Some 7] (SReturn (Some (EBin Ge (EVar "row") (ELit false 13))))
  (SCase [Some 15] (SReturn (Some (EAnd (EBin Ge (EVar "row") (ELit false 4)) (EBin Le (EVar "row") (ELit false 11)))))
  (SSkip))))))) |}.

(* source/bits10/char_is_unicode.cxx:592-608 *)
Definition c_isInTheGap001C : fundef := {|
  f_name := "isInTheGap001C";
  f_params := [{| p_ty := TI Char16; p_ref := false; p_name := "c"; p_default := None |}];
  f_ret := TI Bool;
  f_body :=
  SSeq (SDecl (TAuto) "column" (Some (EBin BAnd (EBin Shr (EVar "c") (ELit false 4)) (ELit true 15))))
  (SSeq (SDecl (TAuto) "row" (Some (EBin BAnd (EVar "c") (ELit true 15))))
  (SSwitch (EVar "column")
  (SCase [None] (SReturn (Some (EBool false)))
  (SCase [Some 3] (SReturn (Some (EAnd (EBin Ge (EVar "row") (ELit false 8)) (EBin Le (EVar "row") (ELit false 10)))))
  (SCase [Some 4] (SReturn (Some (EAnd (EBin Ge (EVar "row") (ELit false 10)) (EBin Le (EVar "row") (ELit false 12)))))
  (SCase [Some 8] (SReturn (Some (EBin Ge (EVar "row") (ELit false 9))))
  (SCase [Some 9; Some 10; Some 11] (SReturn (Some (EBool true)))
  (SCase [Some 12] (SReturn (Some (EBin Ge (EVar "row") (ELit false 8))))
  (SCase [Some 15] (SReturn (Some (EBin Ge (EVar "row") (ELit false 10))))
  (SSkip)))))))))) |}.

(* source/bits10/char_is_unicode.cxx:610-626 *)
Definition c_isInTheGap001F : fundef := {|
  f_name := "isInTheGap001F";
  f_params := [{| p_ty := TI Char16; p_ref := false; p_name := "c"; p_default := None |}];
  f_ret := TI Bool;
  f_body :=
  SSeq (SDecl (TAuto) "column" (Some (EBin BAnd (EBin Shr (EVar "c") (ELit false 4)) (ELit true 15))))
  (SSeq (SDecl (TAuto) "row" (Some (EBin BAnd (EVar "c") (ELit true 15))))
  (SSwitch (EVar "column")
  (SCase [None] (SReturn (Some (EBool false)))
  (SCase [Some 1; Some 4] (SReturn (Some (EOr (EOr (EOr (EBin Eq (EVar "row") (ELit false 6)) (EBin Eq (EVar "row") (ELit false 7))) (EBin Eq (EVar "row") (ELit false 14))) (EBin Eq (EVar "row") (ELit false 15)))))
  (SCase [Some 5] (SReturn (Some (EOr (EOr (EOr (EBin Eq (EVar "row") (ELit false 8)) (EBin Eq (EVar "row") (ELit false 10))) (EBin Eq (EVar "row") (ELit false 12))) (EBin Eq (EVar "row") (ELit false 14)))))
  (SCase [Some 7] (SReturn (Some (EBin Ge (EVar "row") (ELit false 14))))
  (SCase [Some 11; Some 12] (SReturn (Some (EBin Eq (EVar "row") (ELit false 5))))
  (SCase [Some 13] (SReturn (Some (EOr (EOr (EBin Eq (EVar "row") (ELit false 4)) (EBin Eq (EVar "row") (ELit false 5))) (EBin Eq (EVar "row") (ELit false 12)))))
  (SCase [Some 15] (SReturn (Some (EOr (EOr (EBin Lt (EVar "row") (ELit false 2)) (EBin Eq (EVar "row") (ELit false 5))) (EBin Eq (EVar "row") (ELit false 15)))))
  (SSkip)))))))))) |}.

(* source/bits10/char_is_unicode.cxx:628-642 *)
Definition c_isInTheGap0020 : fundef := {|
  f_name := "isInTheGap0020";
  f_params := [{| p_ty := TI Char16; p_ref := false; p_name := "c"; p_default := None |}];
  f_ret := TI Bool;
  f_body :=
  SSeq (SDecl (TAuto) "column" (Some (EBin BAnd (EBin Shr (EVar "c") (ELit false 4)) (ELit true 15))))
  (SSeq (SDecl (TAuto) "row" (Some (EBin BAnd (EVar "c") (ELit true 15))))
  (SSwitch (EVar "column")
  (SCase [None] (SReturn (Some (EBool false)))
  (SCase [Some 6] (SReturn (Some (EBin Eq (EVar "row") (ELit false 5))))
  (SCase [Some 7] (SReturn (Some (EOr (EBin Eq (EVar "row") (ELit false 2)) (EBin Eq (EVar "row") (ELit false 3)))))
  (SCase [Some 8] (SReturn (Some (EBin Eq (EVar "row") (ELit false 15))))
  (SCase [Some 9] (SReturn (Some (EBin Ge (EVar "row") (ELit false 13))))
  (SCase [Some 12] (SReturn (Some (EBool true)))
  (SCase [Some 15] (SReturn (Some (EBin Ne (EVar "row") (ELit false 0))))
  (SSkip)))))))))) |}.

(* source/bits10/char_is_unicode.cxx:644-652 *)
Definition c_isInTheGap0021 : fundef := {|
  f_name := "isInTheGap0021";
  f_params := [{| p_ty := TI Char16; p_ref := false; p_name := "c"; p_default := None |}];
  f_ret := TI Bool;
  f_body :=
  SSeq (SDecl (TAuto) "column" (Some (EBin BAnd (EBin Shr (EVar "c") (ELit false 4)) (ELit true 15))))
  (SSeq (SIf (EBin Eq (EVar "column") (ELit false 8))
  (SReturn (Some (EBin Ge (EBin BAnd (EVar "c") (ELit true 15)) (ELit false 12))))
  (SSkip))
  (SReturn (Some (EBool false)))) |}.

(* source/bits10/char_is_unicode.cxx:654-666 *)
Definition c_isInTheGap0024 : fundef := {|
  f_name := "isInTheGap0024";
  f_params := [{| p_ty := TI Char16; p_ref := false; p_name := "c"; p_default := None |}];
  f_ret := TI Bool;
  f_body :=
  SSeq (SDecl (TAuto) "column" (Some (EBin BAnd (EBin Shr (EVar "c") (ELit false 4)) (ELit true 15))))
  (SSeq (SDecl (TAuto) "row" (Some (EBin BAnd (EVar "c") (ELit true 15))))
  (SSwitch (EVar "column")
  (SCase [None] (SReturn (Some (EBool false)))
  (SCase [Some 2] (SReturn (Some (EBin Ge (EVar "row") (ELit false 7))))
  (SCase [Some 3; Some 5] (SReturn (Some (EBool true)))
  (SCase [Some 4] (SReturn (Some (EBin Ge (EVar "row") (ELit false 11))))
  (SSkip))))))) |}.

(* source/bits10/char_is_unicode.cxx:668-683 *)
Definition c_isInTheGap002B : fundef := {|
  f_name := "isInTheGap002B";
  f_params := [{| p_ty := TI Char16; p_ref := false; p_name := "c"; p_default := None |}];
  f_ret := TI Bool;
  f_body :=
  SSeq (SDecl (TAuto) "column" (Some (EBin BAnd (EBin Shr (EVar "c") (ELit false 4)) (ELit true 15))))
  (SSeq (SDecl (TAuto) "row" (Some (EBin BAnd (EVar "c") (ELit true 15))))
  (SSwitch (EVar "column")
  (SCase [None] (SReturn (Some (EBool false)))
  (SCase [Some 7] (SReturn (Some (EOr (EBin Eq (EVar "row") (ELit false 4)) (EBin Eq (EVar "row") (ELit false 5)))))
  (SCase [Some 9] (SReturn (Some (EOr (EBin Eq (EVar "row") (ELit false 6)) (EBin Eq (EVar "row") (ELit false 7)))))
  (SCase [Some 11] (SReturn (Some (EOr (EOr (EBin Eq (EVar "row") (ELit false 10)) (EBin Eq (EVar "row") (ELit false 11))) (EBin Eq (EVar "row") (ELit false 12)))))
  (SCase [Some 12] (SReturn (Some (EBin Eq (EVar "row") (ELit false 9))))
  (SCase [Some 13] (SReturn (Some (EBin Ge (EVar "row") (ELit false 3))))
  (SCase [Some 14] (SReturn (Some (EBin Le (EVar "row") (ELit false 11))))
  (SCase [Some 15] (SReturn (Some (EBool true)))
  (SSkip))))))))))) |}.

(* source/bits10/char_is_unicode.cxx:685-696 *)
Definition c_isInTheGap002C : fundef := {|
  f_name := "isInTheGap002C";
  f_params := [{| p_ty := TI Char16; p_ref := false; p_name := "c"; p_default := None |}];
  f_ret := TI Bool;
  f_body :=
  SSeq (SDecl (TAuto) "column" (Some (EBin BAnd (EBin Shr (EVar "c") (ELit false 4)) (ELit true 15))))
  (SSeq (SDecl (TAuto) "row" (Some (EBin BAnd (EVar "c") (ELit true 15))))
  (SSwitch (EVar "column")
  (SCase [None] (SReturn (Some (EBool false)))
  (SCase [Some 2; Some 5] (SReturn (Some (EBin Eq (EVar "row") (ELit false 15))))
  (SCase [Some 15] (SReturn (Some (EAnd (EBin Ge (EVar "row") (ELit false 4)) (EBin Le (EVar "row") (ELit false 8)))))
  (SSkip)))))) |}.

(* source/bits10/char_is_unicode.cxx:698-726 *)
Definition c_isInTheGap002D : fundef := {|
  f_name := "isInTheGap002D";
  f_params := [{| p_ty := TI Char16; p_ref := false; p_name := "c"; p_default := None |}];
  f_ret := TI Bool;
  f_body :=
  SSeq (SDecl (TAuto) "column" (Some (EBin BAnd (EBin Shr (EVar "c") (ELit false 4)) (ELit true 15))))
  (SSeq (SDecl (TAuto) "row" (Some (EBin BAnd (EVar "c") (ELit true 15))))
  (SSwitch (EVar "column")
  (SCase [None] (SReturn (Some (EBool false)))
  (SCase [Some 2] (SSwitch (EVar "row")
  (SCase [None] (SReturn (Some (EBool true)))
  (SCase [Some 0; Some 1; Some 2; Some 3; Some 4; Some 5; Some 7; Some 13] (SReturn (Some (EBool false)))
  (SSkip))))
  (SCase [Some 6] (SReturn (Some (EAnd (EBin Ge (EVar "row") (ELit false 8)) (EBin Le (EVar "row") (ELit false 14)))))
  (SCase [Some 7] (SReturn (Some (EAnd (EBin Ne (EVar "row") (ELit false 0)) (EBin Ne (EVar "row") (ELit false 15)))))
  (SCase [Some 9] (SReturn (Some (EBin Ge (EVar "row") (ELit false 7))))
  (SCase [Some 10; Some 11; Some 12; Some 13] (SReturn (Some (EOr (EBin Eq (EVar "row") (ELit false 7)) (EBin Eq (EVar "row") (ELit false 15)))))
  (SSkip))))))))) |}.

(* source/bits10/char_is_unicode.cxx:728-742 *)
Definition c_isInTheGap002E : fundef := {|
  f_name := "isInTheGap002E";
  f_params := [{| p_ty := TI Char16; p_ref := false; p_name := "c"; p_default := None |}];
  f_ret := TI Bool;
  f_body :=
  SSeq (SDecl (TAuto) "column" (Some (EBin BAnd (EBin Shr (EVar "c") (ELit false 4)) (ELit true 15))))
  (SSeq (SDecl (TAuto) "row" (Some (EBin BAnd (EVar "c") (ELit true 15))))
  (SSwitch (EVar "column")
  (SCase [None] (SReturn (Some (EBool false)))
  (SCase [Some 4] (SReturn (Some (EBin Ge (EVar "row") (ELit false 10))))
  (SCase [Some 5; Some 6; Some 7] (SReturn (Some (EBool true)))
  (SCase [Some 9] (SReturn (Some (EBin Eq (EVar "row") (ELit false 10))))
  (SCase [Some 15] (SReturn (Some (EBin Ge (EVar "row") (ELit false 4))))
  (SSkip)))))))) |}.

(* source/bits10/char_is_unicode.cxx:744-755 *)
Definition c_isInTheGap002F : fundef := {|
  f_name := "isInTheGap002F";
  f_params := [{| p_ty := TI Char16; p_ref := false; p_name := "c"; p_default := None |}];
  f_ret := TI Bool;
  f_body :=
  SSeq (SDecl (TAuto) "column" (Some (EBin BAnd (EBin Shr (EVar "c") (ELit false 4)) (ELit true 15))))
  (SSeq (SDecl (TAuto) "row" (Some (EBin BAnd (EVar "c") (ELit true 15))))
  (SSwitch (EVar "column")
  (SCase [None] (SReturn (Some (EBool false)))
  (SCase [Some 13] (SReturn (Some (EBin Ge (EVar "row") (ELit false 6))))
  (SCase [Some 14] (SReturn (Some (EBool true)))
  (SCase [Some 15] (SReturn (Some (EBin Ge (EVar "row") (ELit false 12))))
  (SSkip))))))) |}.

(* source/bits10/char_is_unicode.cxx:757-767 *)
Definition c_isInTheGap0030 : fundef := {|
  f_name := "isInTheGap0030";
  f_params := [{| p_ty := TI Char16; p_ref := false; p_name := "c"; p_default := None |}];
  f_ret := TI Bool;
  f_body :=
  SSeq (SDecl (TAuto) "column" (Some (EBin BAnd (EBin Shr (EVar "c") (ELit false 4)) (ELit true 15))))
  (SSeq (SDecl (TAuto) "row" (Some (EBin BAnd (EVar "c") (ELit true 15))))
  (SSwitch (EVar "column")
  (SCase [None] (SReturn (Some (EBool false)))
  (SCase [Some 4] (SReturn (Some (EBin Eq (EVar "row") (ELit false 0))))
  (SCase [Some 9] (SReturn (Some (EOr (EBin Eq (EVar "row") (ELit false 7)) (EBin Eq (EVar "row") (ELit false 8)))))
  (SSkip)))))) |}.

(* source/bits10/char_is_unicode.cxx:769-783 *)
Definition c_isInTheGap0031 : fundef := {|
  f_name := "isInTheGap0031";
  f_params := [{| p_ty := TI Char16; p_ref := false; p_name := "c"; p_default := None |}];
  f_ret := TI Bool;
  f_body :=
  SSeq (SDecl (TAuto) "column" (Some (EBin BAnd (EBin Shr (EVar "c") (ELit false 4)) (ELit true 15))))
  (SSeq (SDecl (TAuto) "row" (Some (EBin BAnd (EVar "c") (ELit true 15))))
  (SSwitch (EVar "column")
  (SCase [None] (SReturn (Some (EBool false)))
  (SCase [Some 0] (SReturn (Some (EBin Le (EVar "row") (ELit false 4))))
  (SCase [Some 2] (SReturn (Some (EBin Eq (EVar "row") (ELit false 15))))
  (SCase [Some 3] (SReturn (Some (EBin Eq (EVar "row") (ELit false 0))))
  (SCase [Some 8] (SReturn (Some (EBin Eq (EVar "row") (ELit false 15))))
  (SCase [Some 11] (SReturn (Some (EBin Ge (EVar "row") (ELit false 11))))
  (SCase [Some 14] (SReturn (Some (EBin Ge (EVar "row") (ELit false 4))))
  (SSkip)))))))))) |}.

(* source/bits10/char_is_unicode.cxx:785-793 *)
Definition c_isInTheGap0032 : fundef := {|
  f_name := "isInTheGap0032";
  f_params := [{| p_ty := TI Char16; p_ref := false; p_name := "c"; p_default := None |}];
  f_ret := TI Bool;
  f_body :=
  SSeq (SDecl (TAuto) "column" (Some (EBin BAnd (EBin Shr (EVar "c") (ELit false 4)) (ELit true 15))))
  (SSeq (SIf (EOr (EBin Eq (EVar "column") (ELit false 1)) (EBin Eq (EVar "column") (ELit false 15)))
  (SReturn (Some (EBin Eq (EBin BAnd (EVar "c") (ELit true 15)) (ELit false 15))))
  (SSkip))
  (SReturn (Some (EBool false)))) |}.

(* source/bits10/char_is_unicode.cxx:795-803 *)
Definition c_isInTheGap004D : fundef := {|
  f_name := "isInTheGap004D";
  f_params := [{| p_ty := TI Char16; p_ref := false; p_name := "c"; p_default := None |}];
  f_ret := TI Bool;
  f_body :=
  SSeq (SDecl (TAuto) "column" (Some (EBin BAnd (EBin Shr (EVar "c") (ELit false 4)) (ELit true 15))))
  (SSeq (SIf (EBin Eq (EVar "column") (ELit false 11))
  (SReturn (Some (EBin Ge (EBin BAnd (EVar "c") (ELit true 15)) (ELit false 6))))
  (SSkip))
  (SReturn (Some (EBool false)))) |}.

(* source/bits10/char_is_unicode.cxx:805-817 *)
Definition c_isInTheGap009F : fundef := {|
  f_name := "isInTheGap009F";
  f_params := [{| p_ty := TI Char16; p_ref := false; p_name := "c"; p_default := None |}];
  f_ret := TI Bool;
  f_body :=
  SSeq (SDecl (TAuto) "column" (Some (EBin BAnd (EBin Shr (EVar "c") (ELit false 4)) (ELit true 15))))
  (SSeq (SIf (EBin Eq (EVar "column") (ELit false 14))
  (SReturn (Some (EBin Ge (EBin BAnd (EVar "c") (ELit true 15)) (ELit false 11))))
  (SIf (EBin Eq (EVar "column") (ELit false 15))
  (SReturn (Some (EBool true)))
  (SSkip)))
  (SReturn (Some (EBool false)))) |}.

(* source/bits10/char_is_unicode.cxx:819-829 *)
Definition c_isInTheGap00A4 : fundef := {|
  f_name := "isInTheGap00A4";
  f_params := [{| p_ty := TI Char16; p_ref := false; p_name := "c"; p_default := None |}];
  f_ret := TI Bool;
  f_body :=
  SSeq (SDecl (TAuto) "column" (Some (EBin BAnd (EBin Shr (EVar "c") (ELit false 4)) (ELit true 15))))
  (SSeq (SDecl (TAuto) "row" (Some (EBin BAnd (EVar "c") (ELit true 15))))
  (SSwitch (EVar "column")
  (SCase [None] (SReturn (Some (EBool false)))
  (SCase [Some 8] (SReturn (Some (EBin Ge (EVar "row") (ELit false 13))))
  (SCase [Some 12] (SReturn (Some (EBin Ge (EVar "row") (ELit false 7))))
  (SSkip)))))) |}.

(* source/bits10/char_is_unicode.cxx:831-842 *)
Definition c_isInTheGap00A6 : fundef := {|
  f_name := "isInTheGap00A6";
  f_params := [{| p_ty := TI Char16; p_ref := false; p_name := "c"; p_default := None |}];
  f_ret := TI Bool;
  f_body :=
  SSeq (SDecl (TAuto) "column" (Some (EBin BAnd (EBin Shr (EVar "c") (ELit false 4)) (ELit true 15))))
  (SSeq (SDecl (TAuto) "row" (Some (EBin BAnd (EVar "c") (ELit true 15))))
  (SSwitch (EVar "column")
  (SCase [None] (SReturn (Some (EBool false)))
  (SCase [Some 2] (SReturn (Some (EBin Ge (EVar "row") (ELit false 12))))
  (SCase [Some 3] (SReturn (Some (EBool true)))
  (SCase [Some 15] (SReturn (Some (EBin Ge (EVar "row") (ELit false 8))))
  (SSkip))))))) |}.

(* source/bits10/char_is_unicode.cxx:844-858 *)
Definition c_isInTheGap00A7 : fundef := {|
  f_name := "isInTheGap00A7";
  f_params := [{| p_ty := TI Char16; p_ref := false; p_name := "c"; p_default := None |}];
  f_ret := TI Bool;
  f_body :=
  SSeq (SDecl (TAuto) "column" (Some (EBin BAnd (EBin Shr (EVar "c") (ELit false 4)) (ELit true 15))))
  (SSeq (SDecl (TAuto) "row" (Some (EBin BAnd (EVar "c") (ELit true 15))))
  (SSwitch (EVar "column")
  (SCase [None] (SReturn (Some (EBool false)))
  (SCase [Some 10] (SReturn (Some (EBin Eq (EVar "row") (ELit false 15))))
  (SCase [Some 11] (SReturn (Some (EBin Ge (EVar "row") (ELit false 8))))
  (SCase [Some 12; Some 13; Some 14] (SReturn (Some (EBool true)))
  (SCase [Some 15] (SReturn (Some (EBin Le (EVar "row") (ELit false 6))))
  (SSkip)))))))) |}.

(* source/bits10/char_is_unicode.cxx:860-874 *)
Definition c_isInTheGap00A8 : fundef := {|
  f_name := "isInTheGap00A8";
  f_params := [{| p_ty := TI Char16; p_ref := false; p_name := "c"; p_default := None |}];
  f_ret := TI Bool;
  f_body :=
  SSeq (SDecl (TAuto) "column" (Some (EBin BAnd (EBin Shr (EVar "c") (ELit false 4)) (ELit true 15))))
  (SSeq (SDecl (TAuto) "row" (Some (EBin BAnd (EVar "c") (ELit true 15))))
  (SSwitch (EVar "column")
  (SCase [None] (SReturn (Some (EBool false)))
  (SCase [Some 2] (SReturn (Some (EBin Ge (EVar "row") (ELit false 12))))
  (SCase [Some 3] (SReturn (Some (EBin Ge (EVar "row") (ELit false 10))))
  (SCase [Some 7] (SReturn (Some (EBin Ge (EVar "row") (ELit false 8))))
  (SCase [Some 12] (SReturn (Some (EAnd (EBin Ge (EVar "row") (ELit false 6)) (EBin Le (EVar "row") (ELit false 13)))))
  (SCase [Some 13] (SReturn (Some (EBin Ge (EVar "row") (ELit false 10))))
  (SCase [Some 15] (SReturn (Some (EBin Ge (EVar "row") (ELit false 14))))
  (SSkip)))))))))) |}.

(* source/bits10/char_is_unicode.cxx:876-889 *)
Definition c_isInTheGap00A9 : fundef := {|
  f_name := "isInTheGap00A9";
  f_params := [{| p_ty := TI Char16; p_ref := false; p_name := "c"; p_default := None |}];
  f_ret := TI Bool;
  f_body :=
  SSeq (SDecl (TAuto) "column" (Some (EBin BAnd (EBin Shr (EVar "c") (ELit false 4)) (ELit true 15))))
  (SSeq (SDecl (TAuto) "row" (Some (EBin BAnd (EVar "c") (ELit true 15))))
  (SSwitch (EVar "column")
  (SCase [None] (SReturn (Some (EBool false)))
  (SCase [Some 5] (SReturn (Some (EAnd (EBin Ge (EVar "row") (ELit false 4)) (EBin Le (EVar "row") (ELit false 14)))))
  (SCase [Some 7] (SReturn (Some (EBin Ge (EVar "row") (ELit false 13))))
  (SCase [Some 12] (SReturn (Some (EBin Eq (EVar "row") (ELit false 14))))
  (SCase [Some 13] (SReturn (Some (EAnd (EBin Ge (EVar "row") (ELit false 10)) (EBin Le (EVar "row") (ELit false 13)))))
  (SCase [Some 15] (SReturn (Some (EBin Eq (EVar "row") (ELit false 15))))
  (SSkip))))))))) |}.

(* source/bits10/char_is_unicode.cxx:891-905 *)
Definition c_isInTheGap00AA : fundef := {|
  f_name := "isInTheGap00AA";
  f_params := [{| p_ty := TI Char16; p_ref := false; p_name := "c"; p_default := None |}];
  f_ret := TI Bool;
  f_body :=
  SSeq (SDecl (TAuto) "column" (Some (EBin BAnd (EBin Shr (EVar "c") (ELit false 4)) (ELit true 15))))
  (SSeq (SDecl (TAuto) "row" (Some (EBin BAnd (EVar "c") (ELit true 15))))
  (SSwitch (EVar "column")
  (SCase [None] (SReturn (Some (EBool false)))
  (SCase [Some 3] (SReturn (Some (EBin Ge (EVar "row") (ELit false 7))))
  (SCase [Some 4] (SReturn (Some (EBin Ge (EVar "row") (ELit false 14))))
  (SCase [Some 5] (SReturn (Some (EOr (EBin Eq (EVar "row") (ELit false 10)) (EBin Eq (EVar "row") (ELit false 11)))))
  (SCase [Some 12] (SReturn (Some (EBin Ge (EVar "row") (ELit false 3))))
  (SCase [Some 13] (SReturn (Some (EBin Le (EVar "row") (ELit false 10))))
  (SCase [Some 15] (SReturn (Some (EBin Ge (EVar "row") (ELit false 7))))
  (SSkip)))))))))) |}.

(* source/bits10/char_is_unicode.cxx:907-921 *)
Definition c_isInTheGap00AB : fundef := {|
  f_name := "isInTheGap00AB";
  f_params := [{| p_ty := TI Char16; p_ref := false; p_name := "c"; p_default := None |}];
  f_ret := TI Bool;
  f_body :=
  SSeq (SDecl (TAuto) "column" (Some (EBin BAnd (EBin Shr (EVar "c") (ELit false 4)) (ELit true 15))))
  (SSeq (SDecl (TAuto) "row" (Some (EBin BAnd (EVar "c") (ELit true 15))))
  (SSwitch (EVar "column")
  (SCase [None] (SReturn (Some (EBool false)))
  (SCase [Some 0] (SReturn (Some (EOr (EOr (EOr (EBin Eq (EVar "row") (ELit false 0)) (EBin Eq (EVar "row") (ELit false 7))) (EBin Eq (EVar "row") (ELit false 8))) (EBin Eq (EVar "row") (ELit false 15)))))
  (SCase [Some 1] (SReturn (Some (EOr (EBin Eq (EVar "row") (ELit false 0)) (EBin Ge (EVar "row") (ELit false 7)))))
  (SCase [Some 2] (SReturn (Some (EOr (EBin Eq (EVar "row") (ELit false 7)) (EBin Eq (EVar "row") (ELit false 15)))))
  (SCase [Some 6] (SReturn (Some (EBin Ge (EVar "row") (ELit false 6))))
  (SCase [Some 14] (SReturn (Some (EBin Ge (EVar "row") (ELit false 14))))
  (SCase [Some 15] (SReturn (Some (EBin Ge (EVar "row") (ELit false 10))))
  (SSkip)))))))))) |}.

(* source/bits10/char_is_unicode.cxx:923-939 *)
Definition c_isInTheGap00D7_DF : fundef := {|
  f_name := "isInTheGap00D7_DF";
  f_params := [{| p_ty := TI Char16; p_ref := false; p_name := "c"; p_default := None |}];
  f_ret := TI Bool;
  f_body :=
  SSeq (SDecl (TAuto) "page" (Some (EBin BAnd (EBin Shr (EVar "c") (ELit false 8)) (ELit true 15))))
  (SSeq (SIf (EBin Eq (EVar "page") (ELit false 7))
  (SSeq (SDecl (TAuto) "column" (Some (EBin BAnd (EBin Shr (EVar "c") (ELit false 4)) (ELit true 15))))
  (SSeq (SDecl (TAuto) "row" (Some (EBin BAnd (EVar "c") (ELit true 15))))
  (SSwitch (EVar "column")
  (SCase [None] (SReturn (Some (EBool false)))
  (SCase [Some 10] (SReturn (Some (EBin Ge (EVar "row") (ELit false 4))))
  (SCase [Some 12] (SReturn (Some (EAnd (EBin Ge (EVar "row") (ELit false 7)) (EBin Le (EVar "row") (ELit false 10)))))
  (SCase [Some 15] (SReturn (Some (EBin Ge (EVar "row") (ELit false 12))))
  (SSkip))))))))
  (SSkip))
  (SReturn (Some (EBool true)))) |}.

(* source/bits10/char_is_unicode.cxx:941-953 *)
Definition c_isInTheGap00FA : fundef := {|
  f_name := "isInTheGap00FA";
  f_params := [{| p_ty := TI Char16; p_ref := false; p_name := "c"; p_default := None |}];
  f_ret := TI Bool;
  f_body :=
  SSeq (SDecl (TAuto) "column" (Some (EBin BAnd (EBin Shr (EVar "c") (ELit false 4)) (ELit true 15))))
  (SSeq (SDecl (TAuto) "row" (Some (EBin BAnd (EVar "c") (ELit true 15))))
  (SSwitch (EVar "column")
  (SCase [None] (SReturn (Some (EBool false)))
  (SCase [Some 6] (SReturn (Some (EBin Ge (EVar "row") (ELit false 14))))
  (SCase [Some 13] (SReturn (Some (EBin Ge (EVar "row") (ELit false 10))))
  (SCase [Some 14; Some 15] (SReturn (Some (EBool true)))
  (SSkip))))))) |}.

(* source/bits10/char_is_unicode.cxx:955-969 *)
Definition c_isInTheGap00FB : fundef := {|
  f_name := "isInTheGap00FB";
  f_params := [{| p_ty := TI Char16; p_ref := false; p_name := "c"; p_default := None |}];
  f_ret := TI Bool;
  f_body :=
  SSeq (SDecl (TAuto) "column" (Some (EBin BAnd (EBin Shr (EVar "c") (ELit false 4)) (ELit true 15))))
  (SSeq (SDecl (TAuto) "row" (Some (EBin BAnd (EVar "c") (ELit true 15))))
  (SSwitch (EVar "column")
  (SCase [None] (SReturn (Some (EBool false)))
  (SCase [Some 0] (SReturn (Some (EBin Ge (EVar "row") (ELit false 7))))
  (SCase [Some 1] (SReturn (Some (EOr (EBin Le (EVar "row") (ELit false 2)) (EAnd (EBin Ge (EVar "row") (ELit false 8)) (EBin Le (EVar "row") (ELit false 12))))))
  (SCase [Some 3] (SReturn (Some (EOr (EOr (EBin Eq (EVar "row") (ELit false 7)) (EBin Eq (EVar "row") (ELit false 13))) (EBin Eq (EVar "row") (ELit false 15)))))
  (SCase [Some 4] (SReturn (Some (EOr (EBin Eq (EVar "row") (ELit false 2)) (EBin Eq (EVar "row") (ELit false 5)))))
  (SCase [Some 12] (SReturn (Some (EBin Ge (EVar "row") (ELit false 2))))
  (SCase [Some 13] (SReturn (Some (EBin Le (EVar "row") (ELit false 2))))
  (SSkip)))))))))) |}.

(* source/bits10/char_is_unicode.cxx:971-985 *)
Definition c_isInTheGap00FD : fundef := {|
  f_name := "isInTheGap00FD";
  f_params := [{| p_ty := TI Char16; p_ref := false; p_name := "c"; p_default := None |}];
  f_ret := TI Bool;
  f_body :=
  SSeq (SDecl (TAuto) "column" (Some (EBin BAnd (EBin Shr (EVar "c") (ELit false 4)) (ELit true 15))))
  (SSeq (SDecl (TAuto) "row" (Some (EBin BAnd (EVar "c") (ELit true 15))))
  (SSwitch (EVar "column")
  (SCase [None] (SReturn (Some (EBool false)))
  (SCase [Some 4] (SReturn (Some (EBool true)))
  (SCase [Some 9] (SReturn (Some (EBin Le (EVar "row") (ELit false 1))))
  (SCase [Some 12] (SReturn (Some (EBin Ge (EVar "row") (ELit false 8))))
  (SCase [Some 13; Some 14] (SReturn (Some (EBool true)))
  (SCase [Some 15] (SReturn (Some (EBin Ge (EVar "row") (ELit false 14))))
  (SSkip))))))))) |}.

(* source/bits10/char_is_unicode.cxx:987-1000 *)
Definition c_isInTheGap00FE : fundef := {|
  f_name := "isInTheGap00FE";
  f_params := [{| p_ty := TI Char16; p_ref := false; p_name := "c"; p_default := None |}];
  f_ret := TI Bool;
  f_body :=
  SSeq (SDecl (TAuto) "column" (Some (EBin BAnd (EBin Shr (EVar "c") (ELit false 4)) (ELit true 15))))
  (SSeq (SDecl (TAuto) "row" (Some (EBin BAnd (EVar "c") (ELit true 15))))
  (SSwitch (EVar "column")
  (SCase [None] (SReturn (Some (EBool false)))
  (SCase [Some 1] (SReturn (Some (EBin Ge (EVar "row") (ELit false 10))))
  (SCase [Some 5] (SReturn (Some (EBin Eq (EVar "row") (ELit false 3))))
  (SCase [Some 6] (SReturn (Some (EOr (EBin Eq (EVar "row") (ELit false 7)) (EBin Ge (EVar "row") (ELit false 12)))))
  (SCase [Some 7] (SReturn (Some (EBin Eq (EVar "row") (ELit false 5))))
  (SCase [Some 15] (SReturn (Some (EOr (EBin Eq (EVar "row") (ELit false 13)) (EBin Eq (EVar "row") (ELit false 14)))))
  (SSkip))))))))) |}.

(* source/bits10/char_is_unicode.cxx:1002-1016 *)
Definition c_isInTheGap00FF : fundef := {|
  f_name := "isInTheGap00FF";
  f_params := [{| p_ty := TI Char16; p_ref := false; p_name := "c"; p_default := None |}];
  f_ret := TI Bool;
  f_body :=
  SSeq (SDecl (TAuto) "column" (Some (EBin BAnd (EBin Shr (EVar "c") (ELit false 4)) (ELit true 15))))
  (SSeq (SDecl (TAuto) "row" (Some (EBin BAnd (EVar "c") (ELit true 15))))
  (SSwitch (EVar "column")
  (SCase [None] (SReturn (Some (EBool false)))
  (SCase [Some 0] (SReturn (Some (EBin Eq (EVar "row") (ELit false 0))))
  (SCase [Some 11] (SReturn (Some (EBin Eq (EVar "row") (ELit false 15))))
  (SCase [Some 12] (SReturn (Some (EOr (EOr (EOr (EBin Eq (EVar "row") (ELit false 0)) (EBin Eq (EVar "row") (ELit false 1))) (EBin Eq (EVar "row") (ELit false 8))) (EBin Eq (EVar "row") (ELit false 9)))))
  (SCase [Some 13] (SReturn (Some (EOr (EOr (EOr (EBin Le (EVar "row") (ELit false 1)) (EBin Eq (EVar "row") (ELit false 8))) (EBin Eq (EVar "row") (ELit false 9))) (EBin Ge (EVar "row") (ELit false 13)))))
  (SCase [Some 14] (SReturn (Some (EOr (EBin Eq (EVar "row") (ELit false 7)) (EBin Eq (EVar "row") (ELit false 15)))))
  (SCase [Some 15] (SReturn (Some (EOr (EBin Le (EVar "row") (ELit false 8)) (EBin Ge (EVar "row") (ELit false 14)))))
  (SSkip)))))))))) |}.

(* source/bits10/char_is_unicode.cxx:1018-1034 *)
Definition c_isInTheGap0100 : fundef := {|
  f_name := "isInTheGap0100";
  f_params := [{| p_ty := TI Char32; p_ref := false; p_name := "c"; p_default := None |}];
  f_ret := TI Bool;
  f_body :=
  SSeq (SDecl (TAuto) "column" (Some (EBin BAnd (EBin Shr (EVar "c") (ELit false 4)) (ELit true 15))))
  (SSeq (SDecl (TAuto) "row" (Some (EBin BAnd (EVar "c") (ELit true 15))))
  (SSwitch (EVar "column")
  (SCase [None] (SReturn (Some (EBool false)))
  (SCase [Some 0] (SReturn (Some (EBin Eq (EVar "row") (ELit false 12))))
  (SCase [Some 2] (SReturn (Some (EBin Eq (EVar "row") (ELit false 7))))
  (SCase [Some 3] (SReturn (Some (EOr (EBin Eq (EVar "row") (ELit false 11)) (EBin Eq (EVar "row") (ELit false 14)))))
  (SCase [Some 4; Some 5] (SReturn (Some (EBin Ge (EVar "row") (ELit false 14))))
  (SCase [Some 6; Some 7] (SReturn (Some (EBool true)))
  (SCase [Some 15] (SReturn (Some (EBin Ge (EVar "row") (ELit false 11))))
  (SSkip)))))))))) |}.

(* source/bits10/char_is_unicode.cxx:1036-1052 *)
Definition c_isInTheGap0101 : fundef := {|
  f_name := "isInTheGap0101";
  f_params := [{| p_ty := TI Char32; p_ref := false; p_name := "c"; p_default := None |}];
  f_ret := TI Bool;
  f_body :=
  SSeq (SDecl (TAuto) "column" (Some (EBin BAnd (EBin Shr (EVar "c") (ELit false 4)) (ELit true 15))))
  (SSeq (SDecl (TAuto) "row" (Some (EBin BAnd (EVar "c") (ELit true 15))))
  (SSwitch (EVar "column")
  (SCase [None] (SReturn (Some (EBool false)))
  (SCase [Some 0] (SReturn (Some (EAnd (EBin Ge (EVar "row") (ELit false 3)) (EBin Le (EVar "row") (ELit false 6)))))
  (SCase [Some 3] (SReturn (Some (EAnd (EBin Ge (EVar "row") (ELit false 4)) (EBin Le (EVar "row") (ELit false 6)))))
  (SCase [Some 8] (SReturn (Some (EBin Eq (EVar "row") (ELit false 15))))
  (SCase [Some 9] (SReturn (Some (EBin Ge (EVar "row") (ELit false 12))))
  (SCase [Some 10] (SReturn (Some (EBin Ne (EVar "row") (ELit false 0))))
  (SCase [Some 11; Some 12] (SReturn (Some (EBool true)))
  (SCase [Some 15] (SReturn (Some (EBin Ge (EVar "row") (ELit false 14))))
  (SSkip))))))))))) |}.

(* source/bits10/char_is_unicode.cxx:1054-1070 *)
Definition c_isInTheGap0102 : fundef := {|
  f_name := "isInTheGap0102";
  f_params := [{| p_ty := TI Char32; p_ref := false; p_name := "c"; p_default := None |}];
  f_ret := TI Bool;
  f_body :=
  SSeq (SDecl (TAuto) "column" (Some (EBin BAnd (EBin Shr (EVar "c") (ELit false 4)) (ELit true 15))))
  (SSeq (SDecl (TAuto) "row" (Some (EBin BAnd (EVar "c") (ELit true 15))))
  (SSwitch (EVar "column")
  (SCase [None] (SReturn (Some (EBool true)))
  (SCase [Some 8; Some 10; Some 11; Some 12; Some 14] (SReturn (Some (EBool false)))
  (SCase [Some 9] (SReturn (Some (EBin Ge (EVar "row") (ELit false 13))))
  (SCase [Some 13] (SReturn (Some (EBin Ne (EVar "row") (ELit false 0))))
  (SCase [Some 15] (SReturn (Some (EBin Ge (EVar "row") (ELit false 12))))
  (SSkip)))))))) |}.

(* source/bits10/char_is_unicode.cxx:1072-1088 *)
Definition c_isInTheGap0103 : fundef := {|
  f_name := "isInTheGap0103";
  f_params := [{| p_ty := TI Char32; p_ref := false; p_name := "c"; p_default := None |}];
  f_ret := TI Bool;
  f_body :=
  SSeq (SDecl (TAuto) "column" (Some (EBin BAnd (EBin Shr (EVar "c") (ELit false 4)) (ELit true 15))))
  (SSeq (SDecl (TAuto) "row" (Some (EBin BAnd (EVar "c") (ELit true 15))))
  (SSwitch (EVar "column")
  (SCase [None] (SReturn (Some (EBool false)))
  (SCase [Some 2] (SReturn (Some (EAnd (EBin Ge (EVar "row") (ELit false 4)) (EBin Le (EVar "row") (ELit false 12)))))
  (SCase [Some 4; Some 7] (SReturn (Some (EBin Ge (EVar "row") (ELit false 11))))
  (SCase [Some 9] (SReturn (Some (EBin Eq (EVar "row") (ELit false 14))))
  (SCase [Some 12] (SReturn (Some (EAnd (EBin Ge (EVar "row") (ELit false 4)) (EBin Le (EVar "row") (ELit false 7)))))
  (SCase [Some 13] (SReturn (Some (EBin Ge (EVar "row") (ELit false 6))))
  (SCase [Some 14; Some 15] (SReturn (Some (EBool true)))
  (SSkip)))))))))) |}.

(* source/bits10/char_is_unicode.cxx:1090-1102 *)
Definition c_isInTheGap0104 : fundef := {|
  f_name := "isInTheGap0104";
  f_params := [{| p_ty := TI Char32; p_ref := false; p_name := "c"; p_default := None |}];
  f_ret := TI Bool;
  f_body :=
  SSeq (SDecl (TAuto) "column" (Some (EBin BAnd (EBin Shr (EVar "c") (ELit false 4)) (ELit true 15))))
  (SSeq (SDecl (TAuto) "row" (Some (EBin BAnd (EVar "c") (ELit true 15))))
  (SSwitch (EVar "column")
  (SCase [None] (SReturn (Some (EBool false)))
  (SCase [Some 9] (SReturn (Some (EBin Ge (EVar "row") (ELit false 14))))
  (SCase [Some 10] (SReturn (Some (EBin Ge (EVar "row") (ELit false 10))))
  (SCase [Some 13] (SReturn (Some (EAnd (EBin Ge (EVar "row") (ELit false 4)) (EBin Le (EVar "row") (ELit false 7)))))
  (SCase [Some 15] (SReturn (Some (EBin Ge (EVar "row") (ELit false 12))))
  (SSkip)))))))) |}.

(* source/bits10/char_is_unicode.cxx:1104-1118 *)
Definition c_isInTheGap0105 : fundef := {|
  f_name := "isInTheGap0105";
  f_params := [{| p_ty := TI Char32; p_ref := false; p_name := "c"; p_default := None |}];
  f_ret := TI Bool;
  f_body :=
  SSeq (SDecl (TAuto) "column" (Some (EBin BAnd (EBin Shr (EVar "c") (ELit false 4)) (ELit true 15))))
  (SSeq (SIf (EBin Ge (EVar "column") (ELit false 7))
  (SReturn (Some (EBool true)))
  (SSkip))
  (SSeq (SDecl (TAuto) "row" (Some (EBin BAnd (EVar "c") (ELit true 15))))
  (SSwitch (EVar "column")
  (SCase [None] (SReturn (Some (EBool false)))
  (SCase [Some 2] (SReturn (Some (EBin Ge (EVar "row") (ELit false 8))))
  (SCase [Some 6] (SReturn (Some (EAnd (EBin Ge (EVar "row") (ELit false 4)) (EBin Le (EVar "row") (ELit false 14)))))
  (SSkip))))))) |}.

(* source/bits10/char_is_unicode.cxx:1120-1135 *)
Definition c_isInTheGap0107 : fundef := {|
  f_name := "isInTheGap0107";
  f_params := [{| p_ty := TI Char32; p_ref := false; p_name := "c"; p_default := None |}];
  f_ret := TI Bool;
  f_body :=
  SSeq (SDecl (TAuto) "column" (Some (EBin BAnd (EBin Shr (EVar "c") (ELit false 4)) (ELit true 15))))
  (SSeq (SDecl (TAuto) "row" (Some (EBin BAnd (EVar "c") (ELit true 15))))
  (SSwitch (EVar "column")
  (SCase [None] (SReturn (Some (EBool true)))
  (SCase [Some 0; Some 1; Some 2; Some 4] (SReturn (Some (EBool false)))
  (SCase [Some 3] (SReturn (Some (EBin Ge (EVar "row") (ELit false 7))))
  (SCase [Some 5] (SReturn (Some (EBin Ge (EVar "row") (ELit false 6))))
  (SCase [Some 6] (SReturn (Some (EBin Ge (EVar "row") (ELit false 8))))
  (SSkip)))))))) |}.

(* source/bits10/char_is_unicode.cxx:1137-1154 *)
Definition c_isInTheGap0108 : fundef := {|
  f_name := "isInTheGap0108";
  f_params := [{| p_ty := TI Char32; p_ref := false; p_name := "c"; p_default := None |}];
  f_ret := TI Bool;
  f_body :=
  SSeq (SDecl (TAuto) "column" (Some (EBin BAnd (EBin Shr (EVar "c") (ELit false 4)) (ELit true 15))))
  (SSeq (SDecl (TAuto) "row" (Some (EBin BAnd (EVar "c") (ELit true 15))))
  (SSwitch (EVar "column")
  (SCase [None] (SReturn (Some (EBool false)))
  (SCase [Some 0] (SReturn (Some (EOr (EOr (EBin Eq (EVar "row") (ELit false 6)) (EBin Eq (EVar "row") (ELit false 7))) (EBin Eq (EVar "row") (ELit false 9)))))
  (SCase [Some 3] (SReturn (Some (EOr (EBin Eq (EVar "row") (ELit false 6)) (EAnd (EAnd (EBin Ge (EVar "row") (ELit false 9)) (EBin Le (EVar "row") (ELit false 14))) (EBin Ne (EVar "row") (ELit false 12))))))
  (SCase [Some 5] (SReturn (Some (EBin Eq (EVar "row") (ELit false 6))))
  (SCase [Some 9] (SReturn (Some (EBin Eq (EVar "row") (ELit false 15))))
  (SCase [Some 10] (SReturn (Some (EBin Le (EVar "row") (ELit false 6))))
  (SCase [Some 11; Some 12; Some 13] (SReturn (Some (EBool true)))
  (SCase [Some 15] (SReturn (Some (EOr (EBin Eq (EVar "row") (ELit false 3)) (EAnd (EBin Ge (EVar "row") (ELit false 6)) (EBin Le (EVar "row") (ELit false 10))))))
  (SSkip))))))))))) |}.

(* source/bits10/char_is_unicode.cxx:1156-1172 *)
Definition c_isInTheGap0109 : fundef := {|
  f_name := "isInTheGap0109";
  f_params := [{| p_ty := TI Char32; p_ref := false; p_name := "c"; p_default := None |}];
  f_ret := TI Bool;
  f_body :=
  SSeq (SDecl (TAuto) "column" (Some (EBin BAnd (EBin Shr (EVar "c") (ELit false 4)) (ELit true 15))))
  (SSeq (SDecl (TAuto) "row" (Some (EBin BAnd (EVar "c") (ELit true 15))))
  (SSwitch (EVar "column")
  (SCase [None] (SReturn (Some (EBool false)))
  (SCase [Some 1] (SReturn (Some (EAnd (EBin Ge (EVar "row") (ELit false 12)) (EBin Le (EVar "row") (ELit false 14)))))
  (SCase [Some 3] (SReturn (Some (EAnd (EBin Ge (EVar "row") (ELit false 10)) (EBin Le (EVar "row") (ELit false 14)))))
  (SCase [Some 4; Some 5; Some 6; Some 7] (SReturn (Some (EBool true)))
  (SCase [Some 11] (SReturn (Some (EAnd (EBin Ge (EVar "row") (ELit false 8)) (EBin Le (EVar "row") (ELit false 11)))))
  (SCase [Some 13] (SReturn (Some (EBin Le (EVar "row") (ELit false 1))))
  (SSkip))))))))) |}.

(* source/bits10/char_is_unicode.cxx:1174-1191 *)
Definition c_isInTheGap010A : fundef := {|
  f_name := "isInTheGap010A";
  f_params := [{| p_ty := TI Char32; p_ref := false; p_name := "c"; p_default := None |}];
  f_ret := TI Bool;
  f_body :=
  SSeq (SDecl (TAuto) "column" (Some (EBin BAnd (EBin Shr (EVar "c") (ELit false 4)) (ELit true 15))))
  (SSeq (SDecl (TAuto) "row" (Some (EBin BAnd (EVar "c") (ELit true 15))))
  (SSwitch (EVar "column")
  (SCase [None] (SReturn (Some (EBool false)))
  (SCase [Some 0] (SReturn (Some (EOr (EBin Eq (EVar "row") (ELit false 4)) (EAnd (EBin Ge (EVar "row") (ELit false 7)) (EBin Le (EVar "row") (ELit false 11))))))
  (SCase [Some 1] (SReturn (Some (EOr (EBin Eq (EVar "row") (ELit false 4)) (EBin Eq (EVar "row") (ELit false 8)))))
  (SCase [Some 3] (SReturn (Some (EOr (EAnd (EBin Ge (EVar "row") (ELit false 4)) (EBin Le (EVar "row") (ELit false 7))) (EAnd (EBin Ge (EVar "row") (ELit false 11)) (EBin Le (EVar "row") (ELit false 14))))))
  (SCase [Some 4] (SReturn (Some (EBin Ge (EVar "row") (ELit false 8))))
  (SCase [Some 5] (SReturn (Some (EBin Ge (EVar "row") (ELit false 9))))
  (SCase [Some 10; Some 11] (SReturn (Some (EBool true)))
  (SCase [Some 14] (SReturn (Some (EAnd (EBin Ge (EVar "row") (ELit false 7)) (EBin Le (EVar "row") (ELit false 10)))))
  (SCase [Some 15] (SReturn (Some (EBin Ge (EVar "row") (ELit false 7))))
  (SSkip)))))))))))) |}.

(* source/bits10/char_is_unicode.cxx:1193-1211 *)
Definition c_isInTheGap010B : fundef := {|
  f_name := "isInTheGap010B";
  f_params := [{| p_ty := TI Char32; p_ref := false; p_name := "c"; p_default := None |}];
  f_ret := TI Bool;
  f_body :=
  SSeq (SDecl (TAuto) "column" (Some (EBin BAnd (EBin Shr (EVar "c") (ELit false 4)) (ELit true 15))))
  (SSeq (SDecl (TAuto) "row" (Some (EBin BAnd (EVar "c") (ELit true 15))))
  (SSwitch (EVar "column")
  (SCase [None] (SReturn (Some (EBool false)))
  (SCase [Some 3] (SReturn (Some (EAnd (EBin Ge (EVar "row") (ELit false 6)) (EBin Le (EVar "row") (ELit false 8)))))
  (SCase [Some 5] (SReturn (Some (EOr (EBin Eq (EVar "row") (ELit false 6)) (EBin Eq (EVar "row") (ELit false 7)))))
  (SCase [Some 7] (SReturn (Some (EAnd (EBin Ge (EVar "row") (ELit false 3)) (EBin Le (EVar "row") (ELit false 7)))))
  (SCase [Some 9] (SReturn (Some (EOr (EAnd (EBin Ge (EVar "row") (ELit false 2)) (EBin Le (EVar "row") (ELit false 8))) (EBin Ge (EVar "row") (ELit false 13)))))
  (SCase [Some 10] (SReturn (Some (EBin Le (EVar "row") (ELit false 8))))
  (SCase [Some 11; Some 12; Some 13; Some 14; Some 15] (SReturn (Some (EBool true)))
  (SSkip)))))))))) |}.

(* source/bits10/char_is_unicode.cxx:1213-1227 *)
Definition c_isInTheGap010C : fundef := {|
  f_name := "isInTheGap010C";
  f_params := [{| p_ty := TI Char32; p_ref := false; p_name := "c"; p_default := None |}];
  f_ret := TI Bool;
  f_body :=
  SSeq (SDecl (TAuto) "column" (Some (EBin BAnd (EBin Shr (EVar "c") (ELit false 4)) (ELit true 15))))
  (SSeq (SDecl (TAuto) "row" (Some (EBin BAnd (EVar "c") (ELit true 15))))
  (SSwitch (EVar "column")
  (SCase [None] (SReturn (Some (EBool false)))
  (SCase [Some 4] (SReturn (Some (EBin Ge (EVar "row") (ELit false 9))))
  (SCase [Some 5; Some 6; Some 7] (SReturn (Some (EBool true)))
  (SCase [Some 11] (SReturn (Some (EBin Ge (EVar "row") (ELit false 3))))
  (SCase [Some 15] (SReturn (Some (EAnd (EBin Ge (EVar "row") (ELit false 3)) (EBin Le (EVar "row") (ELit false 9)))))
  (SSkip)))))))) |}.

(* source/bits10/char_is_unicode.cxx:1229-1233 *)
Definition c_isInTheGap010E : fundef := {|
  f_name := "isInTheGap010E";
  f_params := [{| p_ty := TI Char32; p_ref := false; p_name := "c"; p_default := None |}];
  f_ret := TI Bool;
  f_body :=
  SSeq (SDecl (TAuto) "offset" (Some (EBin BAnd (EVar "c") (ELit true 255))))
  (SReturn (Some (EOr (EBin Le (EVar "offset") (ELit true 95)) (EBin Ge (EVar "offset") (ELit true 127))))) |}.

(* source/bits10/char_is_unicode.cxx:1235-1249 *)
Definition c_isInTheGap0110 : fundef := {|
  f_name := "isInTheGap0110";
  f_params := [{| p_ty := TI Char32; p_ref := false; p_name := "c"; p_default := None |}];
  f_ret := TI Bool;
  f_body :=
  SSeq (SDecl (TAuto) "column" (Some (EBin BAnd (EBin Shr (EVar "c") (ELit false 4)) (ELit true 15))))
  (SSeq (SDecl (TAuto) "row" (Some (EBin BAnd (EVar "c") (ELit true 15))))
  (SSwitch (EVar "column")
  (SCase [None] (SReturn (Some (EBool false)))
  (SCase [Some 4] (SReturn (Some (EBin Ge (EVar "row") (ELit false 14))))
  (SCase [Some 5] (SReturn (Some (EBin Le (EVar "row") (ELit false 1))))
  (SCase [Some 7] (SReturn (Some (EBin Le (EVar "row") (ELit false 14))))
  (SCase [Some 12] (SReturn (Some (EBin Ge (EVar "row") (ELit false 2))))
  (SCase [Some 14] (SReturn (Some (EBin Ge (EVar "row") (ELit false 9))))
  (SCase [Some 15] (SReturn (Some (EBin Ge (EVar "row") (ELit false 10))))
  (SSkip)))))))))) |}.

(* source/bits10/char_is_unicode.cxx:1251-1265 *)
Definition c_isInTheGap0111 : fundef := {|
  f_name := "isInTheGap0111";
  f_params := [{| p_ty := TI Char32; p_ref := false; p_name := "c"; p_default := None |}];
  f_ret := TI Bool;
  f_body :=
  SSeq (SDecl (TAuto) "column" (Some (EBin BAnd (EBin Shr (EVar "c") (ELit false 4)) (ELit true 15))))
  (SSeq (SDecl (TAuto) "row" (Some (EBin BAnd (EVar "c") (ELit true 15))))
  (SSwitch (EVar "column")
  (SCase [None] (SReturn (Some (EBool false)))
  (SCase [Some 3] (SReturn (Some (EBin Eq (EVar "row") (ELit false 5))))
  (SCase [Some 4] (SReturn (Some (EBin Ge (EVar "row") (ELit false 4))))
  (SCase [Some 7] (SReturn (Some (EBin Ge (EVar "row") (ELit false 7))))
  (SCase [Some 12] (SReturn (Some (EBin Ge (EVar "row") (ELit false 14))))
  (SCase [Some 14] (SReturn (Some (EBin Eq (EVar "row") (ELit false 0))))
  (SCase [Some 15] (SReturn (Some (EBin Ge (EVar "row") (ELit false 5))))
  (SSkip)))))))))) |}.

(* source/bits10/char_is_unicode.cxx:1267-1286 *)
Definition c_isInTheGap0112 : fundef := {|
  f_name := "isInTheGap0112";
  f_params := [{| p_ty := TI Char32; p_ref := false; p_name := "c"; p_default := None |}];
  f_ret := TI Bool;
  f_body :=
  SSeq (SDecl (TAuto) "column" (Some (EBin BAnd (EBin Shr (EVar "c") (ELit false 4)) (ELit true 15))))
  (SSeq (SDecl (TAuto) "row" (Some (EBin BAnd (EVar "c") (ELit true 15))))
  (SSwitch (EVar "column")
  (SCase [None] (SReturn (Some (EBool false)))
  (SCase [Some 1] (SReturn (Some (EBin Eq (EVar "row") (ELit false 2))))
  (SCase [Some 3] (SReturn (Some (EBin Eq (EVar "row") (ELit false 15))))
  (SCase [Some 4; Some 5; Some 6; Some 7] (SReturn (Some (EBool true)))
  (SCase [Some 8] (SReturn (Some (EOr (EOr (EBin Eq (EVar "row") (ELit false 7)) (EBin Eq (EVar "row") (ELit false 9))) (EBin Eq (EVar "row") (ELit false 14)))))
  (SCase [Some 9] (SReturn (Some (EBin Eq (EVar "row") (ELit false 14))))
  (SCase [Some 10] (SReturn (Some (EBin Ge (EVar "row") (ELit false 10))))
  (SCase [Some 14] (SReturn (Some (EBin Ge (EVar "row") (ELit false 11))))
  (SCase [Some 15] (SReturn (Some (EBin Ge (EVar "row") (ELit false 10))))
  (SSkip)))))))))))) |}.

(* source/bits10/char_is_unicode.cxx:1288-1318 *)
Definition c_isInTheGap0113 : fundef := {|
  f_name := "isInTheGap0113";
  f_params := [{| p_ty := TI Char32; p_ref := false; p_name := "c"; p_default := None |}];
  f_ret := TI Bool;
  f_body :=
  SSeq (SDecl (TAuto) "column" (Some (EBin BAnd (EBin Shr (EVar "c") (ELit false 4)) (ELit true 15))))
  (SSeq (SIf (EBin Ge (EVar "column") (ELit false 8))
  (SReturn (Some (EBool true)))
  (SSkip))
  (SSeq (SDecl (TAuto) "row" (Some (EBin BAnd (EVar "c") (ELit true 15))))
  (SSwitch (EVar "column")
  (SCase [None] (SReturn (Some (EBool false)))
  (SCase [Some 0] (SReturn (Some (EOr (EOr (EBin Eq (EVar "row") (ELit false 4)) (EBin Eq (EVar "row") (ELit false 13))) (EBin Eq (EVar "row") (ELit false 14)))))
  (SCase [Some 1] (SReturn (Some (EOr (EBin Eq (EVar "row") (ELit false 1)) (EBin Eq (EVar "row") (ELit false 2)))))
  (SCase [Some 2] (SReturn (Some (EBin Eq (EVar "row") (ELit false 9))))
  (SCase [Some 3] (SReturn (Some (EOr (EOr (EOr (EBin Eq (EVar "row") (ELit false 1)) (EBin Eq (EVar "row") (ELit false 4))) (EBin Eq (EVar "row") (ELit false 10))) (EBin Eq (EVar "row") (ELit false 11)))))
  (SCase [Some 4] (SSwitch (EVar "row")
  (SCase [None] (SReturn (Some (EBool false)))
  (SCase [Some 5; Some 6; Some 9; Some 10; Some 14; Some 15] (SReturn (Some (EBool true)))
  (SSkip))))
  (SCase [Some 5] (SReturn (Some (EOr (EAnd (EBin Ge (EVar "row") (ELit false 1)) (EBin Le (EVar "row") (ELit false 6))) (EAnd (EBin Ge (EVar "row") (ELit false 8)) (EBin Le (EVar "row") (ELit false 12))))))
  (SCase [Some 6] (SReturn (Some (EOr (EOr (EBin Eq (EVar "row") (ELit false 4)) (EBin Eq (EVar "row") (ELit false 5))) (EBin Ge (EVar "row") (ELit false 13)))))
  (SCase [Some 7] (SReturn (Some (EBin Ge (EVar "row") (ELit false 5))))
  (SSkip))))))))))))) |}.

(* source/bits10/char_is_unicode.cxx:1320-1335 *)
Definition c_isInTheGap0114 : fundef := {|
  f_name := "isInTheGap0114";
  f_params := [{| p_ty := TI Char32; p_ref := false; p_name := "c"; p_default := None |}];
  f_ret := TI Bool;
  f_body :=
  SSeq (SDecl (TAuto) "column" (Some (EBin BAnd (EBin Shr (EVar "c") (ELit false 4)) (ELit true 15))))
  (SSeq (SDecl (TAuto) "row" (Some (EBin BAnd (EVar "c") (ELit true 15))))
  (SSwitch (EVar "column")
  (SCase [None] (SReturn (Some (EBool false)))
  (SCase [Some 5] (SReturn (Some (EOr (EOr (EBin Eq (EVar "row") (ELit false 10)) (EBin Eq (EVar "row") (ELit false 12))) (EBin Ge (EVar "row") (ELit false 14)))))
  (SCase [Some 12] (SReturn (Some (EBin Ge (EVar "row") (ELit false 8))))
  (SCase [Some 13] (SReturn (Some (EBin Ge (EVar "row") (ELit false 10))))
  (SCase [Some 6; Some 7; Some 14; Some 15] (SReturn (Some (EBool true)))
  (SSkip)))))))) |}.

(* source/bits10/char_is_unicode.cxx:1337-1351 *)
Definition c_isInTheGap0115 : fundef := {|
  f_name := "isInTheGap0115";
  f_params := [{| p_ty := TI Char32; p_ref := false; p_name := "c"; p_default := None |}];
  f_ret := TI Bool;
  f_body :=
  SSeq (SDecl (TAuto) "column" (Some (EBin BAnd (EBin Shr (EVar "c") (ELit false 4)) (ELit true 15))))
  (SSeq (SDecl (TAuto) "row" (Some (EBin BAnd (EVar "c") (ELit true 15))))
  (SSwitch (EVar "column")
  (SCase [None] (SReturn (Some (EBool true)))
  (SCase [Some 8; Some 9; Some 10; Some 12] (SReturn (Some (EBool false)))
  (SCase [Some 11] (SReturn (Some (EOr (EBin Eq (EVar "row") (ELit false 6)) (EBin Eq (EVar "row") (ELit false 7)))))
  (SCase [Some 13] (SReturn (Some (EBin Ge (EVar "row") (ELit false 14))))
  (SSkip))))))) |}.

(* source/bits10/char_is_unicode.cxx:1353-1370 *)
Definition c_isInTheGap0116 : fundef := {|
  f_name := "isInTheGap0116";
  f_params := [{| p_ty := TI Char32; p_ref := false; p_name := "c"; p_default := None |}];
  f_ret := TI Bool;
  f_body :=
  SSeq (SDecl (TAuto) "column" (Some (EBin BAnd (EBin Shr (EVar "c") (ELit false 4)) (ELit true 15))))
  (SSeq (SDecl (TAuto) "row" (Some (EBin BAnd (EVar "c") (ELit true 15))))
  (SSwitch (EVar "column")
  (SCase [None] (SReturn (Some (EBool false)))
  (SCase [Some 4] (SReturn (Some (EBin Ge (EVar "row") (ELit false 5))))
  (SCase [Some 5] (SReturn (Some (EBin Ge (EVar "row") (ELit false 10))))
  (SCase [Some 6] (SReturn (Some (EBin Ge (EVar "row") (ELit false 13))))
  (SCase [Some 7; Some 13; Some 14; Some 15] (SReturn (Some (EBool true)))
  (SCase [Some 11] (SReturn (Some (EBin Ge (EVar "row") (ELit false 8))))
  (SCase [Some 12] (SReturn (Some (EBin Ge (EVar "row") (ELit false 10))))
  (SSkip)))))))))) |}.

(* source/bits10/char_is_unicode.cxx:1372-1384 *)
Definition c_isInTheGap0117 : fundef := {|
  f_name := "isInTheGap0117";
  f_params := [{| p_ty := TI Char32; p_ref := false; p_name := "c"; p_default := None |}];
  f_ret := TI Bool;
  f_body :=
  SSeq (SDecl (TAuto) "column" (Some (EBin BAnd (EBin Shr (EVar "c") (ELit false 4)) (ELit true 15))))
  (SSeq (SDecl (TAuto) "row" (Some (EBin BAnd (EVar "c") (ELit true 15))))
  (SSwitch (EVar "column")
  (SCase [None] (SReturn (Some (EBool true)))
  (SCase [Some 0; Some 3] (SReturn (Some (EBool false)))
  (SCase [Some 1] (SReturn (Some (EAnd (EBin Ge (EVar "row") (ELit false 10)) (EBin Le (EVar "row") (ELit false 12)))))
  (SCase [Some 2] (SReturn (Some (EBin Ge (EVar "row") (ELit false 12))))
  (SSkip))))))) |}.

(* source/bits10/char_is_unicode.cxx:1386-1399 *)
Definition c_isInTheGap0118 : fundef := {|
  f_name := "isInTheGap0118";
  f_params := [{| p_ty := TI Char32; p_ref := false; p_name := "c"; p_default := None |}];
  f_ret := TI Bool;
  f_body :=
  SSeq (SDecl (TAuto) "column" (Some (EBin BAnd (EBin Shr (EVar "c") (ELit false 4)) (ELit true 15))))
  (SSeq (SIf (EBin Lt (EVar "column") (ELit false 10))
  (SReturn (Some (EBool true)))
  (SIf (EBin Eq (EVar "column") (ELit false 15))
  (SSeq (SDecl (TAuto) "row" (Some (EBin BAnd (EVar "c") (ELit true 15))))
  (SReturn (Some (EAnd (EBin Gt (EVar "row") (ELit false 2)) (EBin Lt (EVar "row") (ELit false 15))))))
  (SSkip)))
  (SReturn (Some (EBool false)))) |}.

(* source/bits10/char_is_unicode.cxx:1401-1415 *)
Definition c_isInTheGap011A : fundef := {|
  f_name := "isInTheGap011A";
  f_params := [{| p_ty := TI Char32; p_ref := false; p_name := "c"; p_default := None |}];
  f_ret := TI Bool;
  f_body :=
  SSeq (SDecl (TAuto) "column" (Some (EBin BAnd (EBin Shr (EVar "c") (ELit false 4)) (ELit true 15))))
  (SSeq (SDecl (TAuto) "row" (Some (EBin BAnd (EVar "c") (ELit true 15))))
  (SSwitch (EVar "column")
  (SCase [None] (SReturn (Some (EBool false)))
  (SCase [Some 4] (SReturn (Some (EBin Ge (EVar "row") (ELit false 8))))
  (SCase [Some 8] (SReturn (Some (EOr (EBin Eq (EVar "row") (ELit false 4)) (EBin Eq (EVar "row") (ELit false 5)))))
  (SCase [Some 9] (SReturn (Some (EBin Eq (EVar "row") (ELit false 13))))
  (SCase [Some 10] (SReturn (Some (EBin Ge (EVar "row") (ELit false 3))))
  (SCase [Some 11] (SReturn (Some (EBool true)))
  (SCase [Some 15] (SReturn (Some (EBin Ge (EVar "row") (ELit false 9))))
  (SSkip)))))))))) |}.

(* source/bits10/char_is_unicode.cxx:1417-1436 *)
Definition c_isInTheGap011C : fundef := {|
  f_name := "isInTheGap011C";
  f_params := [{| p_ty := TI Char32; p_ref := false; p_name := "c"; p_default := None |}];
  f_ret := TI Bool;
  f_body :=
  SSeq (SDecl (TAuto) "column" (Some (EBin BAnd (EBin Shr (EVar "c") (ELit false 4)) (ELit true 15))))
  (SSeq (SDecl (TAuto) "row" (Some (EBin BAnd (EVar "c") (ELit true 15))))
  (SSwitch (EVar "column")
  (SCase [None] (SReturn (Some (EBool false)))
  (SCase [Some 0] (SReturn (Some (EBin Eq (EVar "row") (ELit false 9))))
  (SCase [Some 3] (SReturn (Some (EBin Eq (EVar "row") (ELit false 7))))
  (SCase [Some 4] (SReturn (Some (EBin Ge (EVar "row") (ELit false 6))))
  (SCase [Some 6] (SReturn (Some (EBin Ge (EVar "row") (ELit false 13))))
  (SCase [Some 9] (SReturn (Some (EBin Le (EVar "row") (ELit false 1))))
  (SCase [Some 10] (SReturn (Some (EBin Eq (EVar "row") (ELit false 8))))
  (SCase [Some 11] (SReturn (Some (EBin Ge (EVar "row") (ELit false 7))))
  (SCase [Some 12; Some 13; Some 14; Some 15] (SReturn (Some (EBool true)))
  (SSkip)))))))))))) |}.

(* source/bits10/char_is_unicode.cxx:1438-1452 *)
Definition c_isInTheGap011D : fundef := {|
  f_name := "isInTheGap011D";
  f_params := [{| p_ty := TI Char32; p_ref := false; p_name := "c"; p_default := None |}];
  f_ret := TI Bool;
  f_body :=
  SSeq (SDecl (TAuto) "column" (Some (EBin BAnd (EBin Shr (EVar "c") (ELit false 4)) (ELit true 15))))
  (SSeq (SDecl (TAuto) "row" (Some (EBin BAnd (EVar "c") (ELit true 15))))
  (SSwitch (EVar "column")
  (SCase [Some 0] (SReturn (Some (EOr (EBin Eq (EVar "row") (ELit false 7)) (EBin Eq (EVar "row") (ELit false 10)))))
  (SCase [Some 1; Some 2] (SReturn (Some (EBool false)))
  (SCase [Some 3] (SReturn (Some (EOr (EOr (EAnd (EBin Ge (EVar "row") (ELit false 7)) (EBin Le (EVar "row") (ELit false 9))) (EBin Eq (EVar "row") (ELit false 11))) (EBin Eq (EVar "row") (ELit false 14)))))
  (SCase [Some 4] (SReturn (Some (EBin Ge (EVar "row") (ELit false 8))))
  (SCase [Some 5] (SReturn (Some (EBin Ge (EVar "row") (ELit false 10))))
  (SCase [None] (SReturn (Some (EBool true)))
  (SSkip))))))))) |}.

(* source/bits10/char_is_unicode.cxx:1454-1468 *)
Definition c_isInTheGap0123 : fundef := {|
  f_name := "isInTheGap0123";
  f_params := [{| p_ty := TI Char32; p_ref := false; p_name := "c"; p_default := None |}];
  f_ret := TI Bool;
  f_body :=
  SSeq (SDecl (TAuto) "column" (Some (EBin BAnd (EBin Shr (EVar "c") (ELit false 4)) (ELit true 15))))
  (SSeq (SIf (EBin Ge (EVar "column") (ELit false 10))
  (SReturn (Some (EBool true)))
  (SSkip))
  (SSeq (SDecl (TAuto) "row" (Some (EBin BAnd (EVar "c") (ELit true 15))))
  (SSwitch (EVar "column")
  (SCase [None] (SReturn (Some (EBool false)))
  (SCase [Some 9] (SReturn (Some (EBin Ge (EVar "row") (ELit false 10))))
  (SSkip)))))) |}.

(* source/bits10/char_is_unicode.cxx:1470-1480 *)
Definition c_isInTheGap0124 : fundef := {|
  f_name := "isInTheGap0124";
  f_params := [{| p_ty := TI Char32; p_ref := false; p_name := "c"; p_default := None |}];
  f_ret := TI Bool;
  f_body :=
  SSeq (SDecl (TAuto) "column" (Some (EBin BAnd (EBin Shr (EVar "c") (ELit false 4)) (ELit true 15))))
  (SSeq (SDecl (TAuto) "row" (Some (EBin BAnd (EVar "c") (ELit true 15))))
  (SSwitch (EVar "column")
  (SCase [None] (SReturn (Some (EBool false)))
  (SCase [Some 6] (SReturn (Some (EBin Eq (EVar "row") (ELit false 15))))
  (SCase [Some 7] (SReturn (Some (EBin Ge (EVar "row") (ELit false 5))))
  (SSkip)))))) |}.

(* source/bits10/char_is_unicode.cxx:1482-1494 *)
Definition c_isInTheGap0125 : fundef := {|
  f_name := "isInTheGap0125";
  f_params := [{| p_ty := TI Char32; p_ref := false; p_name := "c"; p_default := None |}];
  f_ret := TI Bool;
  f_body :=
  SSeq (SDecl (TAuto) "column" (Some (EBin BAnd (EBin Shr (EVar "c") (ELit false 4)) (ELit true 15))))
  (SSeq (SIf (EBin Lt (EVar "column") (ELit false 4))
  (SReturn (Some (EBool false)))
  (SSkip))
  (SSeq (SIf (EBin Gt (EVar "column") (ELit false 4))
  (SReturn (Some (EBool true)))
  (SSkip))
  (SReturn (Some (EBin Ge (EBin BAnd (EVar "c") (ELit true 15)) (ELit false 4)))))) |}.

(* source/bits10/char_is_unicode.cxx:1496-1508 *)
Definition c_isInTheGap0134 : fundef := {|
  f_name := "isInTheGap0134";
  f_params := [{| p_ty := TI Char32; p_ref := false; p_name := "c"; p_default := None |}];
  f_ret := TI Bool;
  f_body :=
  SSeq (SDecl (TAuto) "column" (Some (EBin BAnd (EBin Shr (EVar "c") (ELit false 4)) (ELit true 15))))
  (SSeq (SIf (EBin Lt (EVar "column") (ELit false 2))
  (SReturn (Some (EBool false)))
  (SSkip))
  (SSeq (SIf (EBin Gt (EVar "column") (ELit false 2))
  (SReturn (Some (EBool true)))
  (SSkip))
  (SReturn (Some (EBin Eq (EBin BAnd (EVar "c") (ELit true 15)) (ELit false 15)))))) |}.

(* source/bits10/char_is_unicode.cxx:1510-1522 *)
Definition c_isInTheGap0146 : fundef := {|
  f_name := "isInTheGap0146";
  f_params := [{| p_ty := TI Char32; p_ref := false; p_name := "c"; p_default := None |}];
  f_ret := TI Bool;
  f_body :=
  SSeq (SDecl (TAuto) "column" (Some (EBin BAnd (EBin Shr (EVar "c") (ELit false 4)) (ELit true 15))))
  (SSeq (SIf (EBin Lt (EVar "column") (ELit false 4))
  (SReturn (Some (EBool false)))
  (SSkip))
  (SSeq (SIf (EBin Gt (EVar "column") (ELit false 4))
  (SReturn (Some (EBool true)))
  (SSkip))
  (SReturn (Some (EBin Ge (EBin BAnd (EVar "c") (ELit true 15)) (ELit false 7)))))) |}.

(* source/bits10/char_is_unicode.cxx:1524-1541 *)
Definition c_isInTheGap016A : fundef := {|
  f_name := "isInTheGap016A";
  f_params := [{| p_ty := TI Char32; p_ref := false; p_name := "c"; p_default := None |}];
  f_ret := TI Bool;
  f_body :=
  SSeq (SDecl (TAuto) "column" (Some (EBin BAnd (EBin Shr (EVar "c") (ELit false 4)) (ELit true 15))))
  (SSeq (SIf (EAnd (EBin Ge (EVar "column") (ELit false 7)) (EBin Le (EVar "column") (ELit false 12)))
  (SReturn (Some (EBool true)))
  (SSkip))
  (SSeq (SDecl (TAuto) "row" (Some (EBin BAnd (EVar "c") (ELit true 15))))
  (SSwitch (EVar "column")
  (SCase [None] (SReturn (Some (EBool false)))
  (SCase [Some 3] (SReturn (Some (EBin Ge (EVar "row") (ELit false 9))))
  (SCase [Some 5] (SReturn (Some (EBin Eq (EVar "row") (ELit false 15))))
  (SCase [Some 6] (SReturn (Some (EAnd (EBin Ge (EVar "row") (ELit false 10)) (EBin Le (EVar "row") (ELit false 13)))))
  (SCase [Some 14] (SReturn (Some (EBin Ge (EVar "row") (ELit false 14))))
  (SCase [Some 15] (SReturn (Some (EBin Ge (EVar "row") (ELit false 6))))
  (SSkip)))))))))) |}.

(* source/bits10/char_is_unicode.cxx:1543-1560 *)
Definition c_isInTheGap016B : fundef := {|
  f_name := "isInTheGap016B";
  f_params := [{| p_ty := TI Char32; p_ref := false; p_name := "c"; p_default := None |}];
  f_ret := TI Bool;
  f_body :=
  SSeq (SDecl (TAuto) "column" (Some (EBin BAnd (EBin Shr (EVar "c") (ELit false 4)) (ELit true 15))))
  (SSeq (SIf (EBin Ge (EVar "column") (ELit false 9))
  (SReturn (Some (EBool true)))
  (SSkip))
  (SSeq (SDecl (TAuto) "row" (Some (EBin BAnd (EVar "c") (ELit true 15))))
  (SSwitch (EVar "column")
  (SCase [None] (SReturn (Some (EBool false)))
  (SCase [Some 4] (SReturn (Some (EBin Ge (EVar "row") (ELit false 6))))
  (SCase [Some 5] (SReturn (Some (EBin Eq (EVar "row") (ELit false 10))))
  (SCase [Some 6] (SReturn (Some (EBin Eq (EVar "row") (ELit false 2))))
  (SCase [Some 7] (SReturn (Some (EAnd (EBin Ge (EVar "row") (ELit false 8)) (EBin Le (EVar "row") (ELit false 12)))))
  (SSkip))))))))) |}.

(* source/bits10/char_is_unicode.cxx:1562-1578 *)
Definition c_isInTheGap016F : fundef := {|
  f_name := "isInTheGap016F";
  f_params := [{| p_ty := TI Char32; p_ref := false; p_name := "c"; p_default := None |}];
  f_ret := TI Bool;
  f_body :=
  SSeq (SDecl (TAuto) "column" (Some (EBin BAnd (EBin Shr (EVar "c") (ELit false 4)) (ELit true 15))))
  (SSeq (SIf (EBin Ge (EVar "column") (ELit false 10))
  (SReturn (Some (EAnd (EBin Ne (EVar "c") (ELit true 94176)) (EBin Ne (EVar "c") (ELit true 94177)))))
  (SSkip))
  (SSeq (SDecl (TAuto) "row" (Some (EBin BAnd (EVar "c") (ELit true 15))))
  (SSwitch (EVar "column")
  (SCase [None] (SReturn (Some (EBool false)))
  (SCase [Some 4] (SReturn (Some (EBin Ge (EVar "row") (ELit false 5))))
  (SCase [Some 7] (SReturn (Some (EBin Eq (EVar "row") (ELit false 15))))
  (SCase [Some 8] (SReturn (Some (EBin Le (EVar "row") (ELit false 14))))
  (SSkip)))))))) |}.

(* source/bits10/char_is_unicode.cxx:1580-1589 *)
Definition c_isInTheGap0187 : fundef := {|
  f_name := "isInTheGap0187";
  f_params := [{| p_ty := TI Char32; p_ref := false; p_name := "c"; p_default := None |}];
  f_ret := TI Bool;
  f_body :=
  SSeq (SDecl (TAuto) "column" (Some (EBin BAnd (EBin Shr (EVar "c") (ELit false 4)) (ELit true 15))))
  (SSwitch (EVar "column")
  (SCase [None] (SReturn (Some (EBool false)))
  (SCase [Some 14] (SReturn (Some (EBin Ge (EBin BAnd (EVar "c") (ELit true 15)) (ELit false 13))))
  (SCase [Some 15] (SReturn (Some (EBool true)))
  (SSkip))))) |}.

(* source/bits10/char_is_unicode.cxx:1591-1602 *)
Definition c_isInTheGap018A : fundef := {|
  f_name := "isInTheGap018A";
  f_params := [{| p_ty := TI Char32; p_ref := false; p_name := "c"; p_default := None |}];
  f_ret := TI Bool;
  f_body :=
  SSeq (SDecl (TAuto) "column" (Some (EBin BAnd (EBin Shr (EVar "c") (ELit false 4)) (ELit true 15))))
  (SIf (EBin Eq (EVar "column") (ELit false 15))
  (SReturn (Some (EBin Ge (EBin BAnd (EVar "c") (ELit true 15)) (ELit false 3))))
  (SReturn (Some (EBool false)))) |}.

(* source/bits10/char_is_unicode.cxx:1604-1608 *)
Definition c_isInTheGap01B1 : fundef := {|
  f_name := "isInTheGap01B1";
  f_params := [{| p_ty := TI Char32; p_ref := false; p_name := "c"; p_default := None |}];
  f_ret := TI Bool;
  f_body :=
  SSeq (SDecl (TAuto) "cell" (Some (EBin BAnd (EVar "c") (ELit true 255))))
  (SReturn (Some (EAnd (EBin Ge (EVar "cell") (ELit true 31)) (EBin Le (EVar "cell") (ELit true 111))))) |}.

(* source/bits10/char_is_unicode.cxx:1610-1613 *)
Definition c_isInTheGap01B2 : fundef := {|
  f_name := "isInTheGap01B2";
  f_params := [{| p_ty := TI Char32; p_ref := false; p_name := "c"; p_default := None |}];
  f_ret := TI Bool;
  f_body :=
  SReturn (Some (EBin Ge (EBin BAnd (EVar "c") (ELit true 255)) (ELit true 252))) |}.

(* source/bits10/char_is_unicode.cxx:1615-1633 *)
Definition c_isInTheGap01BC : fundef := {|
  f_name := "isInTheGap01BC";
  f_params := [{| p_ty := TI Char32; p_ref := false; p_name := "c"; p_default := None |}];
  f_ret := TI Bool;
  f_body :=
  SSeq (SDecl (TAuto) "column" (Some (EBin BAnd (EBin Shr (EVar "c") (ELit false 4)) (ELit true 15))))
  (SSeq (SIf (EBin Ge (EVar "column") (ELit false 11))
  (SReturn (Some (EBool true)))
  (SSkip))
  (SSeq (SDecl (TAuto) "row" (Some (EBin BAnd (EVar "c") (ELit true 15))))
  (SSwitch (EVar "column")
  (SCase [None] (SReturn (Some (EBool false)))
  (SCase [Some 6] (SReturn (Some (EBin Ge (EVar "row") (ELit false 11))))
  (SCase [Some 7] (SReturn (Some (EBin Ge (EVar "row") (ELit false 13))))
  (SCase [Some 8] (SReturn (Some (EBin Ge (EVar "row") (ELit false 9))))
  (SCase [Some 9] (SReturn (Some (EOr (EBin Eq (EVar "row") (ELit false 10)) (EBin Eq (EVar "row") (ELit false 11)))))
  (SCase [Some 10] (SReturn (Some (EBin Ge (EVar "row") (ELit false 4))))
  (SSkip)))))))))) |}.

(* source/bits10/char_is_unicode.cxx:1635-1638 *)
Definition c_isInTheGap01D0 : fundef := {|
  f_name := "isInTheGap01D0";
  f_params := [{| p_ty := TI Char32; p_ref := false; p_name := "c"; p_default := None |}];
  f_ret := TI Bool;
  f_body :=
  SReturn (Some (EBin Ge (EBin BAnd (EVar "c") (ELit true 255)) (ELit true 246))) |}.

(* source/bits10/char_is_unicode.cxx:1640-1651 *)
Definition c_isInTheGap01D1 : fundef := {|
  f_name := "isInTheGap01D1";
  f_params := [{| p_ty := TI Char32; p_ref := false; p_name := "c"; p_default := None |}];
  f_ret := TI Bool;
  f_body :=
  SSeq (SDecl (TAuto) "column" (Some (EBin BAnd (EBin Shr (EVar "c") (ELit false 4)) (ELit true 15))))
  (SSeq (SDecl (TAuto) "row" (Some (EBin BAnd (EVar "c") (ELit true 15))))
  (SSwitch (EVar "column")
  (SCase [None] (SReturn (Some (EBool false)))
  (SCase [Some 2] (SReturn (Some (EOr (EBin Eq (EVar "row") (ELit false 7)) (EBin Eq (EVar "row") (ELit false 8)))))
  (SCase [Some 14] (SReturn (Some (EBin Ge (EVar "row") (ELit false 9))))
  (SCase [Some 15] (SReturn (Some (EBool true)))
  (SSkip))))))) |}.

(* source/bits10/char_is_unicode.cxx:1653-1665 *)
Definition c_isInTheGap01D2 : fundef := {|
  f_name := "isInTheGap01D2";
  f_params := [{| p_ty := TI Char32; p_ref := false; p_name := "c"; p_default := None |}];
  f_ret := TI Bool;
  f_body :=
  SSeq (SDecl (TAuto) "column" (Some (EBin BAnd (EBin Shr (EVar "c") (ELit false 4)) (ELit true 15))))
  (SSeq (SIf (EBin Lt (EVar "column") (ELit false 4))
  (SReturn (Some (EBool false)))
  (SSkip))
  (SSeq (SIf (EBin Gt (EVar "column") (ELit false 4))
  (SReturn (Some (EBool true)))
  (SSkip))
  (SReturn (Some (EBin Ge (EBin BAnd (EVar "c") (ELit true 15)) (ELit false 6)))))) |}.

(* source/bits10/char_is_unicode.cxx:1667-1687 *)
Definition c_isInTheGap01D3 : fundef := {|
  f_name := "isInTheGap01D3";
  f_params := [{| p_ty := TI Char32; p_ref := false; p_name := "c"; p_default := None |}];
  f_ret := TI Bool;
  f_body :=
  SSeq (SDecl (TAuto) "column" (Some (EBin BAnd (EBin Shr (EVar "c") (ELit false 4)) (ELit true 15))))
  (SSeq (SIf (EOr (EBin Lt (EVar "column") (ELit false 5)) (EBin Eq (EVar "column") (ELit false 6)))
  (SReturn (Some (EBool false)))
  (SSkip))
  (SSeq (SIf (EBin Ge (EVar "column") (ELit false 8))
  (SReturn (Some (EBool true)))
  (SSkip))
  (SSeq (SDecl (TAuto) "row" (Some (EBin BAnd (EVar "c") (ELit true 15))))
  (SIf (EBin Eq (EVar "column") (ELit false 5))
  (SReturn (Some (EBin Ge (EVar "row") (ELit false 7))))
  (SReturn (Some (EBin Ge (EVar "row") (ELit false 2)))))))) |}.

(* source/bits10/char_is_unicode.cxx:1689-1713 *)
Definition c_isInTheGap01D4 : fundef := {|
  f_name := "isInTheGap01D4";
  f_params := [{| p_ty := TI Char32; p_ref := false; p_name := "c"; p_default := None |}];
  f_ret := TI Bool;
  f_body :=
  SSeq (SDecl (TAuto) "column" (Some (EBin BAnd (EBin Shr (EVar "c") (ELit false 4)) (ELit true 15))))
  (SSeq (SDecl (TAuto) "row" (Some (EBin BAnd (EVar "c") (ELit true 15))))
  (SSwitch (EVar "column")
  (SCase [None] (SReturn (Some (EBool false)))
  (SCase [Some 5] (SReturn (Some (EBin Eq (EVar "row") (ELit false 5))))
  (SCase [Some 9] (SReturn (Some (EBin Eq (EVar "row") (ELit false 13))))
  (SCase [Some 10] (SSwitch (EVar "row")
  (SCase [None] (SReturn (Some (EBool false)))
  (SCase [Some 0; Some 1; Some 3; Some 4; Some 7; Some 8; Some 13] (SReturn (Some (EBool true)))
  (SSkip))))
  (SCase [Some 11] (SReturn (Some (EOr (EBin Eq (EVar "row") (ELit false 10)) (EBin Eq (EVar "row") (ELit false 12)))))
  (SCase [Some 12] (SReturn (Some (EBin Eq (EVar "row") (ELit false 4))))
  (SSkip))))))))) |}.

(* source/bits10/char_is_unicode.cxx:1715-1728 *)
Definition c_isInTheGap01D5 : fundef := {|
  f_name := "isInTheGap01D5";
  f_params := [{| p_ty := TI Char32; p_ref := false; p_name := "c"; p_default := None |}];
  f_ret := TI Bool;
  f_body :=
  SSeq (SDecl (TAuto) "column" (Some (EBin BAnd (EBin Shr (EVar "c") (ELit false 4)) (ELit true 15))))
  (SSeq (SDecl (TAuto) "row" (Some (EBin BAnd (EVar "c") (ELit true 15))))
  (SSwitch (EVar "column")
  (SCase [None] (SReturn (Some (EBool false)))
  (SCase [Some 0] (SReturn (Some (EOr (EOr (EBin Eq (EVar "row") (ELit false 6)) (EBin Eq (EVar "row") (ELit false 11))) (EBin Eq (EVar "row") (ELit false 12)))))
  (SCase [Some 1] (SReturn (Some (EOr (EBin Eq (EVar "row") (ELit false 5)) (EBin Eq (EVar "row") (ELit false 13)))))
  (SCase [Some 3] (SReturn (Some (EOr (EBin Eq (EVar "row") (ELit false 10)) (EBin Eq (EVar "row") (ELit false 15)))))
  (SCase [Some 4] (SReturn (Some (EAnd (EAnd (EBin Ge (EVar "row") (ELit false 5)) (EBin Le (EVar "row") (ELit false 9))) (EBin Ne (EVar "row") (ELit false 6)))))
  (SCase [Some 5] (SReturn (Some (EBin Eq (EVar "row") (ELit false 1))))
  (SSkip))))))))) |}.

(* source/bits10/char_is_unicode.cxx:1730-1734 *)
Definition c_isInTheGap01D6 : fundef := {|
  f_name := "isInTheGap01D6";
  f_params := [{| p_ty := TI Char32; p_ref := false; p_name := "c"; p_default := None |}];
  f_ret := TI Bool;
  f_body :=
  SSeq (SDecl (TAuto) "offset" (Some (EBin BAnd (EVar "c") (ELit true 255))))
  (SReturn (Some (EOr (EBin Eq (EVar "offset") (ELit true 166)) (EBin Eq (EVar "offset") (ELit true 167))))) |}.

(* source/bits10/char_is_unicode.cxx:1736-1740 *)
Definition c_isInTheGap01D7 : fundef := {|
  f_name := "isInTheGap01D7";
  f_params := [{| p_ty := TI Char32; p_ref := false; p_name := "c"; p_default := None |}];
  f_ret := TI Bool;
  f_body :=
  SSeq (SDecl (TAuto) "offset" (Some (EBin BAnd (EVar "c") (ELit true 255))))
  (SReturn (Some (EOr (EBin Eq (EVar "offset") (ELit true 204)) (EBin Eq (EVar "offset") (ELit true 205))))) |}.

(* source/bits10/char_is_unicode.cxx:1742-1757 *)
Definition c_isInTheGap01DA : fundef := {|
  f_name := "isInTheGap01DA";
  f_params := [{| p_ty := TI Char32; p_ref := false; p_name := "c"; p_default := None |}];
  f_ret := TI Bool;
  f_body :=
  SSeq (SDecl (TAuto) "column" (Some (EBin BAnd (EBin Shr (EVar "c") (ELit false 4)) (ELit true 15))))
  (SSeq (SIf (EBin Ge (EVar "column") (ELit false 11))
  (SReturn (Some (EBool true)))
  (SSkip))
  (SSeq (SDecl (TAuto) "row" (Some (EBin BAnd (EVar "c") (ELit true 15))))
  (SSwitch (EVar "column")
  (SCase [None] (SReturn (Some (EBool false)))
  (SCase [Some 8] (SReturn (Some (EBin Ge (EVar "row") (ELit false 12))))
  (SCase [Some 9] (SReturn (Some (EBin Le (EVar "row") (ELit false 10))))
  (SCase [Some 10] (SReturn (Some (EBin Eq (EVar "row") (ELit false 0))))
  (SSkip)))))))) |}.

(* source/bits10/char_is_unicode.cxx:1759-1774 *)
Definition c_isInTheGap01E0 : fundef := {|
  f_name := "isInTheGap01E0";
  f_params := [{| p_ty := TI Char32; p_ref := false; p_name := "c"; p_default := None |}];
  f_ret := TI Bool;
  f_body :=
  SSeq (SDecl (TAuto) "column" (Some (EBin BAnd (EBin Shr (EVar "c") (ELit false 4)) (ELit true 15))))
  (SSeq (SIf (EBin Ge (EVar "column") (ELit false 3))
  (SReturn (Some (EBool true)))
  (SSkip))
  (SSeq (SDecl (TAuto) "row" (Some (EBin BAnd (EVar "c") (ELit true 15))))
  (SSwitch (EVar "column")
  (SCase [Some 0] (SReturn (Some (EBin Eq (EVar "row") (ELit false 7))))
  (SCase [Some 1] (SReturn (Some (EOr (EBin Eq (EVar "row") (ELit false 9)) (EBin Eq (EVar "row") (ELit false 10)))))
  (SCase [Some 2] (SReturn (Some (EOr (EOr (EBin Eq (EVar "row") (ELit false 2)) (EBin Eq (EVar "row") (ELit false 5))) (EBin Ge (EVar "row") (ELit false 11)))))
  (SCase [None] (SReturn (Some (EBool true)))
  (SSkip)))))))) |}.

(* source/bits10/char_is_unicode.cxx:1776-1790 *)
Definition c_isInTheGap01E8 : fundef := {|
  f_name := "isInTheGap01E8";
  f_params := [{| p_ty := TI Char32; p_ref := false; p_name := "c"; p_default := None |}];
  f_ret := TI Bool;
  f_body :=
  SSeq (SDecl (TAuto) "column" (Some (EBin BAnd (EBin Shr (EVar "c") (ELit false 4)) (ELit true 15))))
  (SSeq (SIf (EBin Ge (EVar "column") (ELit false 14))
  (SReturn (Some (EBool true)))
  (SSkip))
  (SSeq (SDecl (TAuto) "row" (Some (EBin BAnd (EVar "c") (ELit true 15))))
  (SSwitch (EVar "column")
  (SCase [None] (SReturn (Some (EBool false)))
  (SCase [Some 12] (SReturn (Some (EOr (EBin Eq (EVar "row") (ELit false 5)) (EBin Eq (EVar "row") (ELit false 6)))))
  (SCase [Some 13] (SReturn (Some (EBin Ge (EVar "row") (ELit false 7))))
  (SSkip))))))) |}.

(* source/bits10/char_is_unicode.cxx:1792-1812 *)
Definition c_isInTheGap01E9 : fundef := {|
  f_name := "isInTheGap01E9";
  f_params := [{| p_ty := TI Char32; p_ref := false; p_name := "c"; p_default := None |}];
  f_ret := TI Bool;
  f_body :=
  SSeq (SDecl (TAuto) "column" (Some (EBin BAnd (EBin Shr (EVar "c") (ELit false 4)) (ELit true 15))))
  (SSeq (SIf (EBin Ge (EVar "column") (ELit false 6))
  (SReturn (Some (EBool true)))
  (SIf (EBin Lt (EVar "column") (ELit false 4))
  (SReturn (Some (EBool false)))
  (SSkip)))
  (SSeq (SDecl (TAuto) "row" (Some (EBin BAnd (EVar "c") (ELit true 15))))
  (SIf (EBin Eq (EVar "column") (ELit false 4))
  (SReturn (Some (EBin Ge (EVar "row") (ELit false 11))))
  (SReturn (Some (EAnd (EBin Ge (EVar "row") (ELit false 10)) (EBin Le (EVar "row") (ELit false 13)))))))) |}.

(* source/bits10/char_is_unicode.cxx:1814-1882 *)
Definition c_isInTheGap01EE : fundef := {|
  f_name := "isInTheGap01EE";
  f_params := [{| p_ty := TI Char32; p_ref := false; p_name := "c"; p_default := None |}];
  f_ret := TI Bool;
  f_body :=
  SSeq (SDecl (TAuto) "column" (Some (EBin BAnd (EBin Shr (EVar "c") (ELit false 4)) (ELit true 15))))
  (SSeq (SDecl (TAuto) "row" (Some (EBin BAnd (EVar "c") (ELit true 15))))
  (SSwitch (EVar "column")
  (SCase [None] (SReturn (Some (EBool false)))
  (SCase [Some 0] (SReturn (Some (EBin Eq (EVar "row") (ELit false 4))))
  (SCase [Some 2] (SSwitch (EVar "row")
  (SCase [None] (SReturn (Some (EBool false)))
  (SCase [Some 0; Some 3; Some 5; Some 6; Some 8] (SReturn (Some (EBool true)))
  (SSkip))))
  (SCase [Some 3] (SSwitch (EVar "row")
  (SCase [None] (SReturn (Some (EBool false)))
  (SCase [Some 3; Some 8; Some 10; Some 12; Some 13; Some 14; Some 15] (SReturn (Some (EBool true)))
  (SSkip))))
  (SCase [Some 4] (SSwitch (EVar "row")
  (SCase [None] (SReturn (Some (EBool false)))
  (SCase [Some 0; Some 1; Some 3; Some 4; Some 5; Some 6; Some 8; Some 10; Some 12] (SReturn (Some (EBool true)))
  (SSkip))))
  (SCase [Some 5] (SSwitch (EVar "row")
  (SCase [None] (SReturn (Some (EBool false)))
  (SCase [Some 0; Some 3; Some 5; Some 6; Some 8; Some 10; Some 12; Some 14] (SReturn (Some (EBool true)))
  (SSkip))))
  (SCase [Some 6] (SReturn (Some (EOr (EOr (EOr (EOr (EBin Eq (EVar "row") (ELit false 0)) (EBin Eq (EVar "row") (ELit false 3))) (EBin Eq (EVar "row") (ELit false 5))) (EBin Eq (EVar "row") (ELit false 6))) (EBin Eq (EVar "row") (ELit false 11)))))
  (SCase [Some 7] (SReturn (Some (EOr (EOr (EOr (EBin Eq (EVar "row") (ELit false 3)) (EBin Eq (EVar "row") (ELit false 8))) (EBin Eq (EVar "row") (ELit false 13))) (EBin Eq (EVar "row") (ELit false 15)))))
  (SCase [Some 8] (SReturn (Some (EBin Eq (EVar "row") (ELit false 10))))
  (SCase [Some 9] (SReturn (Some (EBin Ge (EVar "row") (ELit false 12))))
  (SCase [Some 10] (SReturn (Some (EOr (EOr (EBin Eq (EVar "row") (ELit false 0)) (EBin Eq (EVar "row") (ELit false 4))) (EBin Eq (EVar "row") (ELit false 10)))))
  (SCase [Some 11] (SReturn (Some (EBin Ge (EVar "row") (ELit false 12))))
  (SCase [Some 12; Some 13; Some 14] (SReturn (Some (EBool true)))
  (SCase [Some 15] (SReturn (Some (EBin Ge (EVar "row") (ELit false 2))))
  (SSkip))))))))))))))))) |}.

(* source/bits10/char_is_unicode.cxx:1884-1899 *)
Definition c_isInTheGap01F0 : fundef := {|
  f_name := "isInTheGap01F0";
  f_params := [{| p_ty := TI Char32; p_ref := false; p_name := "c"; p_default := None |}];
  f_ret := TI Bool;
  f_body :=
  SSeq (SDecl (TAuto) "column" (Some (EBin BAnd (EBin Shr (EVar "c") (ELit false 4)) (ELit true 15))))
  (SSeq (SDecl (TAuto) "row" (Some (EBin BAnd (EVar "c") (ELit true 15))))
  (SSwitch (EVar "column")
  (SCase [None] (SReturn (Some (EBool false)))
  (SCase [Some 2] (SReturn (Some (EBin Ge (EVar "row") (ELit false 12))))
  (SCase [Some 9] (SReturn (Some (EBin Ge (EVar "row") (ELit false 4))))
  (SCase [Some 10] (SReturn (Some (EBin Eq (EVar "row") (ELit false 15))))
  (SCase [Some 11; Some 12; Some 13] (SReturn (Some (EBin Eq (EVar "row") (ELit false 0))))
  (SCase [Some 15] (SReturn (Some (EBin Ge (EVar "row") (ELit false 6))))
  (SSkip))))))))) |}.

(* source/bits10/char_is_unicode.cxx:1901-1917 *)
Definition c_isInTheGap01F1 : fundef := {|
  f_name := "isInTheGap01F1";
  f_params := [{| p_ty := TI Char32; p_ref := false; p_name := "c"; p_default := None |}];
  f_ret := TI Bool;
  f_body :=
  SSeq (SDecl (TAuto) "column" (Some (EBin BAnd (EBin Shr (EVar "c") (ELit false 4)) (ELit true 15))))
  (SSeq (SDecl (TAuto) "row" (Some (EBin BAnd (EVar "c") (ELit true 15))))
  (SSwitch (EVar "column")
  (SCase [None] (SReturn (Some (EBool false)))
  (SCase [Some 0] (SReturn (Some (EBin Ge (EVar "row") (ELit false 13))))
  (SCase [Some 2] (SReturn (Some (EBin Eq (EVar "row") (ELit false 15))))
  (SCase [Some 6] (SReturn (Some (EBin Ge (EVar "row") (ELit false 12))))
  (SCase [Some 10] (SReturn (Some (EBin Ge (EVar "row") (ELit false 13))))
  (SCase [Some 11; Some 12; Some 13] (SReturn (Some (EBool true)))
  (SCase [Some 14] (SReturn (Some (EBin Le (EVar "row") (ELit false 5))))
  (SSkip)))))))))) |}.

(* source/bits10/char_is_unicode.cxx:1919-1936 *)
Definition c_isInTheGap01F2 : fundef := {|
  f_name := "isInTheGap01F2";
  f_params := [{| p_ty := TI Char32; p_ref := false; p_name := "c"; p_default := None |}];
  f_ret := TI Bool;
  f_body :=
  SSeq (SDecl (TAuto) "column" (Some (EBin BAnd (EBin Shr (EVar "c") (ELit false 4)) (ELit true 15))))
  (SSeq (SIf (EBin Ge (EVar "column") (ELit false 7))
  (SReturn (Some (EBool true)))
  (SSkip))
  (SSeq (SDecl (TAuto) "row" (Some (EBin BAnd (EVar "c") (ELit true 15))))
  (SSwitch (EVar "column")
  (SCase [None] (SReturn (Some (EBool false)))
  (SCase [Some 0] (SReturn (Some (EBin Ge (EVar "row") (ELit false 3))))
  (SCase [Some 3] (SReturn (Some (EBin Ge (EVar "row") (ELit false 12))))
  (SCase [Some 4] (SReturn (Some (EBin Ge (EVar "row") (ELit false 9))))
  (SCase [Some 5] (SReturn (Some (EBin Ge (EVar "row") (ELit false 2))))
  (SCase [Some 6] (SReturn (Some (EBin Ge (EVar "row") (ELit false 6))))
  (SSkip)))))))))) |}.

(* source/bits10/char_is_unicode.cxx:1938-1954 *)
Definition c_isInTheGap01F6 : fundef := {|
  f_name := "isInTheGap01F6";
  f_params := [{| p_ty := TI Char32; p_ref := false; p_name := "c"; p_default := None |}];
  f_ret := TI Bool;
  f_body :=
  SSeq (SDecl (TAuto) "column" (Some (EBin BAnd (EBin Shr (EVar "c") (ELit false 4)) (ELit true 15))))
  (SSeq (SIf (EBin Lt (EVar "column") (ELit false 13))
  (SReturn (Some (EBool false)))
  (SSkip))
  (SSeq (SDecl (TAuto) "row" (Some (EBin BAnd (EVar "c") (ELit true 15))))
  (SSwitch (EVar "column")
  (SCase [None] (SReturn (Some (EBool false)))
  (SCase [Some 13] (SReturn (Some (EBin Ge (EVar "row") (ELit false 5))))
  (SCase [Some 14] (SReturn (Some (EBin Ge (EVar "row") (ELit false 13))))
  (SCase [Some 15] (SReturn (Some (EBin Ge (EVar "row") (ELit false 9))))
  (SSkip)))))))) |}.

(* source/bits10/char_is_unicode.cxx:1956-1973 *)
Definition c_isInTheGap01F7 : fundef := {|
  f_name := "isInTheGap01F7";
  f_params := [{| p_ty := TI Char32; p_ref := false; p_name := "c"; p_default := None |}];
  f_ret := TI Bool;
  f_body :=
  SSeq (SDecl (TAuto) "column" (Some (EBin BAnd (EBin Shr (EVar "c") (ELit false 4)) (ELit true 15))))
  (SSeq (SIf (EBin Lt (EVar "column") (ELit false 7))
  (SReturn (Some (EBool false)))
  (SSkip))
  (SSeq (SDecl (TAuto) "row" (Some (EBin BAnd (EVar "c") (ELit true 15))))
  (SSwitch (EVar "column")
  (SCase [None] (SReturn (Some (EBool false)))
  (SCase [Some 7] (SReturn (Some (EBin Ge (EVar "row") (ELit false 4))))
  (SCase [Some 13] (SReturn (Some (EBin Ge (EVar "row") (ELit false 5))))
  (SCase [Some 14; Some 15] (SReturn (Some (EBool true)))
  (SSkip)))))))) |}.

(* source/bits10/char_is_unicode.cxx:1975-1992 *)
Definition c_isInTheGap01F8 : fundef := {|
  f_name := "isInTheGap01F8";
  f_params := [{| p_ty := TI Char32; p_ref := false; p_name := "c"; p_default := None |}];
  f_ret := TI Bool;
  f_body :=
  SSeq (SDecl (TAuto) "column" (Some (EBin BAnd (EBin Shr (EVar "c") (ELit false 4)) (ELit true 15))))
  (SSeq (SIf (EBin Gt (EVar "column") (ELit false 10))
  (SReturn (Some (EBool true)))
  (SSkip))
  (SSeq (SDecl (TAuto) "row" (Some (EBin BAnd (EVar "c") (ELit true 15))))
  (SSwitch (EVar "column")
  (SCase [None] (SReturn (Some (EBool false)))
  (SCase [Some 0] (SReturn (Some (EBin Ge (EVar "row") (ELit false 12))))
  (SCase [Some 4] (SReturn (Some (EBin Ge (EVar "row") (ELit false 8))))
  (SCase [Some 5] (SReturn (Some (EBin Ge (EVar "row") (ELit false 10))))
  (SCase [Some 8] (SReturn (Some (EBin Ge (EVar "row") (ELit false 8))))
  (SCase [Some 10] (SReturn (Some (EBin Ge (EVar "row") (ELit false 14))))
  (SSkip)))))))))) |}.

(* source/bits10/char_is_unicode.cxx:1994-2017 *)
Definition c_isInTheGap01F9 : fundef := {|
  f_name := "isInTheGap01F9";
  f_params := [{| p_ty := TI Char32; p_ref := false; p_name := "c"; p_default := None |}];
  f_ret := TI Bool;
  f_body :=
  SSeq (SDecl (TAuto) "column" (Some (EBin BAnd (EBin Shr (EVar "c") (ELit false 4)) (ELit true 15))))
  (SSeq (SDecl (TAuto) "row" (Some (EBin BAnd (EVar "c") (ELit true 15))))
  (SSwitch (EVar "column")
  (SCase [None] (SReturn (Some (EBool true)))
  (SCase [Some 1; Some 2; Some 5; Some 8; Some 13] (SReturn (Some (EBool false)))
  (SCase [Some 0; Some 6] (SReturn (Some (EBin Ge (EVar "row") (ELit false 12))))
  (SCase [Some 3] (SReturn (Some (EBin Eq (EVar "row") (ELit false 15))))
  (SCase [Some 4] (SReturn (Some (EBin Ge (EVar "row") (ELit false 13))))
  (SCase [Some 9] (SReturn (Some (EBin Ge (EVar "row") (ELit false 8))))
  (SCase [Some 12] (SReturn (Some (EBin Ne (EVar "row") (ELit false 0))))
  (SCase [Some 14] (SReturn (Some (EBin Ge (EVar "row") (ELit false 7))))
  (SSkip))))))))))) |}.

(* source/bits10/char_is_unicode.cxx:2019-2182 *)
Definition c_isInTheGap01 : fundef := {|
  f_name := "isInTheGap01";
  f_params := [{| p_ty := TI Char32; p_ref := false; p_name := "c"; p_default := None |}];
  f_ret := TI Bool;
  f_body :=
  SSeq (SDecl (TAuto) "page" (Some (EBin BAnd (EBin Shr (EVar "c") (ELit false 8)) (ELit true 255))))
  (SSeq (SDecl (TAuto) "sheaf" (Some (EBin Shr (EVar "page") (ELit false 4))))
  (SSeq (SExpr (EOpAssign BAnd "page" (ELit true 15)))
  (SSwitch (EVar "sheaf")
  (SCase [None] (SReturn (Some (EBool true)))
  (SCase [Some 0] (SSwitch (EVar "page")
  (SCase [None] (SReturn (Some (EBool false)))
  (SCase [Some 0] (SReturn (Some (ECall "isInTheGap0100" [(EVar "c")])))
  (SCase [Some 1] (SReturn (Some (ECall "isInTheGap0101" [(EVar "c")])))
  (SCase [Some 2] (SReturn (Some (ECall "isInTheGap0102" [(EVar "c")])))
  (SCase [Some 3] (SReturn (Some (ECall "isInTheGap0103" [(EVar "c")])))
  (SCase [Some 4] (SReturn (Some (ECall "isInTheGap0104" [(EVar "c")])))
  (SCase [Some 5] (SReturn (Some (ECall "isInTheGap0105" [(EVar "c")])))
  (SCase [Some 7] (SReturn (Some (ECall "isInTheGap0107" [(EVar "c")])))
  (SCase [Some 8] (SReturn (Some (ECall "isInTheGap0108" [(EVar "c")])))
  (SCase [Some 9] (SReturn (Some (ECall "isInTheGap0109" [(EVar "c")])))
  (SCase [Some 10] (SReturn (Some (ECall "isInTheGap010A" [(EVar "c")])))
  (SCase [Some 11] (SReturn (Some (ECall "isInTheGap010B" [(EVar "c")])))
  (SCase [Some 12] (SReturn (Some (ECall "isInTheGap010C" [(EVar "c")])))
  (SCase [Some 13; Some 15] (SReturn (Some (EBool true)))
  (SCase [Some 14] (SReturn (Some (ECall "isInTheGap010E" [(EVar "c")])))
  (SSkip)))))))))))))))))
  (SCase [Some 1] (SSwitch (EVar "page")
  (SCase [None] (SReturn (Some (EBool true)))
  (SCase [Some 0] (SReturn (Some (ECall "isInTheGap0110" [(EVar "c")])))
  (SCase [Some 1] (SReturn (Some (ECall "isInTheGap0111" [(EVar "c")])))
  (SCase [Some 2] (SReturn (Some (ECall "isInTheGap0112" [(EVar "c")])))
  (SCase [Some 3] (SReturn (Some (ECall "isInTheGap0113" [(EVar "c")])))
  (SCase [Some 4] (SReturn (Some (ECall "isInTheGap0114" [(EVar "c")])))
  (SCase [Some 5] (SReturn (Some (ECall "isInTheGap0115" [(EVar "c")])))
  (SCase [Some 6] (SReturn (Some (ECall "isInTheGap0116" [(EVar "c")])))
  (SCase [Some 7] (SReturn (Some (ECall "isInTheGap0117" [(EVar "c")])))
  (SCase [Some 8] (SReturn (Some (ECall "isInTheGap0118" [(EVar "c")])))
  (SCase [Some 10] (SReturn (Some (ECall "isInTheGap011A" [(EVar "c")])))
  (SCase [Some 12] (SReturn (Some (ECall "isInTheGap011C" [(EVar "c")])))
  (SCase [Some 13] (SReturn (Some (ECall "isInTheGap011D" [(EVar "c")])))
  (SSkip)))))))))))))))
  (SCase [Some 2] (SSwitch (EVar "page")
  (SCase [None] (SReturn (Some (EBool true)))
  (SCase [Some 0; Some 1; Some 2] (SReturn (Some (EBool false)))
  (SCase [Some 3] (SReturn (Some (ECall "isInTheGap0123" [(EVar "c")])))
  (SCase [Some 4] (SReturn (Some (ECall "isInTheGap0124" [(EVar "c")])))
  (SCase [Some 5] (SReturn (Some (ECall "isInTheGap0125" [(EVar "c")])))
  (SSkip)))))))
  (SCase [Some 3] (SSwitch (EVar "page")
  (SCase [None] (SReturn (Some (EBool true)))
  (SCase [Some 0; Some 1; Some 2; Some 3] (SReturn (Some (EBool false)))
  (SCase [Some 4] (SReturn (Some (ECall "isInTheGap0134" [(EVar "c")])))
  (SSkip)))))
  (SCase [Some 4] (SSwitch (EVar "page")
  (SCase [None] (SReturn (Some (EBool true)))
  (SCase [Some 4; Some 5] (SReturn (Some (EBool false)))
  (SCase [Some 6] (SReturn (Some (ECall "isInTheGap0146" [(EVar "c")])))
  (SSkip)))))
  (SCase [Some 6] (SSwitch (EVar "page")
  (SCase [None] (SReturn (Some (EBool true)))
  (SCase [Some 8; Some 9] (SReturn (Some (EBool false)))
  (SCase [Some 10] (SReturn (Some (ECall "isInTheGap016A" [(EVar "c")])))
  (SCase [Some 11] (SReturn (Some (ECall "isInTheGap016B" [(EVar "c")])))
  (SCase [Some 15] (SReturn (Some (ECall "isInTheGap016F" [(EVar "c")])))
  (SSkip)))))))
  (SCase [Some 7] (SReturn (Some (EBool false)))
  (SCase [Some 8] (SSwitch (EVar "page")
  (SCase [None] (SReturn (Some (EBool false)))
  (SCase [Some 7] (SReturn (Some (ECall "isInTheGap0187" [(EVar "c")])))
  (SCase [Some 10] (SReturn (Some (ECall "isInTheGap018A" [(EVar "c")])))
  (SCase [Some 11; Some 12; Some 13; Some 14; Some 15] (SReturn (Some (EBool true)))
  (SSkip))))))
  (SCase [Some 11] (SSwitch (EVar "page")
  (SCase [None] (SReturn (Some (EBool true)))
  (SCase [Some 0] (SReturn (Some (EBool false)))
  (SCase [Some 1] (SReturn (Some (ECall "isInTheGap01B1" [(EVar "c")])))
  (SCase [Some 2] (SReturn (Some (ECall "isInTheGap01B2" [(EVar "c")])))
  (SCase [Some 12] (SReturn (Some (ECall "isInTheGap01BC" [(EVar "c")])))
  (SSkip)))))))
  (SCase [Some 13] (SSwitch (EVar "page")
  (SCase [None] (SReturn (Some (EBool true)))
  (SCase [Some 8; Some 9] (SReturn (Some (EBool false)))
  (SCase [Some 0] (SReturn (Some (ECall "isInTheGap01D0" [(EVar "c")])))
  (SCase [Some 1] (SReturn (Some (ECall "isInTheGap01D1" [(EVar "c")])))
  (SCase [Some 2] (SReturn (Some (ECall "isInTheGap01D2" [(EVar "c")])))
  (SCase [Some 3] (SReturn (Some (ECall "isInTheGap01D3" [(EVar "c")])))
  (SCase [Some 4] (SReturn (Some (ECall "isInTheGap01D4" [(EVar "c")])))
  (SCase [Some 5] (SReturn (Some (ECall "isInTheGap01D5" [(EVar "c")])))
  (SCase [Some 6] (SReturn (Some (ECall "isInTheGap01D6" [(EVar "c")])))
  (SCase [Some 7] (SReturn (Some (ECall "isInTheGap01D7" [(EVar "c")])))
  (SCase [Some 10] (SReturn (Some (ECall "isInTheGap01DA" [(EVar "c")])))
  (SSkip)))))))))))))
  (SCase [Some 14] (SSwitch (EVar "page")
  (SCase [None] (SReturn (Some (EBool true)))
  (SCase [Some 0] (SReturn (Some (ECall "isInTheGap01E0" [(EVar "c")])))
  (SCase [Some 8] (SReturn (Some (ECall "isInTheGap01E8" [(EVar "c")])))
  (SCase [Some 9] (SReturn (Some (ECall "isInTheGap01E9" [(EVar "c")])))
  (SCase [Some 14] (SReturn (Some (ECall "isInTheGap01EE" [(EVar "c")])))
  (SSkip)))))))
  (SCase [Some 15] (SSwitch (EVar "page")
  (SCase [None] (SReturn (Some (EBool true)))
  (SCase [Some 3; Some 4; Some 5] (SReturn (Some (EBool false)))
  (SCase [Some 0] (SReturn (Some (ECall "isInTheGap01F0" [(EVar "c")])))
  (SCase [Some 1] (SReturn (Some (ECall "isInTheGap01F1" [(EVar "c")])))
  (SCase [Some 2] (SReturn (Some (ECall "isInTheGap01F2" [(EVar "c")])))
  (SCase [Some 6] (SReturn (Some (ECall "isInTheGap01F6" [(EVar "c")])))
  (SCase [Some 7] (SReturn (Some (ECall "isInTheGap01F7" [(EVar "c")])))
  (SCase [Some 8] (SReturn (Some (ECall "isInTheGap01F8" [(EVar "c")])))
  (SCase [Some 9] (SReturn (Some (ECall "isInTheGap01F9" [(EVar "c")])))
  (SSkip)))))))))))
  (SSkip))))))))))))))))) |}.

(* source/bits10/char_is_unicode.cxx:2184-2196 *)
Definition c_isInTheGap02A6 : fundef := {|
  f_name := "isInTheGap02A6";
  f_params := [{| p_ty := TI Char32; p_ref := false; p_name := "c"; p_default := None |}];
  f_ret := TI Bool;
  f_body :=
  SSeq (SDecl (TAuto) "column" (Some (EBin BAnd (EBin Shr (EVar "c") (ELit false 4)) (ELit true 15))))
  (SSeq (SIf (EBin Lt (EVar "column") (ELit false 13))
  (SReturn (Some (EBool false)))
  (SSkip))
  (SSeq (SIf (EBin Gt (EVar "column") (ELit false 13))
  (SReturn (Some (EBool true)))
  (SSkip))
  (SReturn (Some (EBin Ge (EBin BAnd (EVar "c") (ELit true 15)) (ELit false 7)))))) |}.

(* source/bits10/char_is_unicode.cxx:2198-2208 *)
Definition c_isInTheGap02B7 : fundef := {|
  f_name := "isInTheGap02B7";
  f_params := [{| p_ty := TI Char32; p_ref := false; p_name := "c"; p_default := None |}];
  f_ret := TI Bool;
  f_body :=
  SIf (EBin Eq (EBin BAnd (EBin Shr (EVar "c") (ELit false 4)) (ELit true 15)) (ELit false 3))
  (SReturn (Some (EBin Ge (EBin BAnd (EVar "c") (ELit true 15)) (ELit false 5))))
  (SReturn (Some (EBool false))) |}.

(* source/bits10/char_is_unicode.cxx:2210-2220 *)
Definition c_isInTheGap02B8 : fundef := {|
  f_name := "isInTheGap02B8";
  f_params := [{| p_ty := TI Char32; p_ref := false; p_name := "c"; p_default := None |}];
  f_ret := TI Bool;
  f_body :=
  SIf (EBin Eq (EBin BAnd (EBin Shr (EVar "c") (ELit false 4)) (ELit true 15)) (ELit false 1))
  (SReturn (Some (EBin Ge (EBin BAnd (EVar "c") (ELit true 15)) (ELit false 14))))
  (SReturn (Some (EBool false))) |}.

(* source/bits10/char_is_unicode.cxx:2222-2234 *)
Definition c_isInTheGap02CE : fundef := {|
  f_name := "isInTheGap02CE";
  f_params := [{| p_ty := TI Char32; p_ref := false; p_name := "c"; p_default := None |}];
  f_ret := TI Bool;
  f_body :=
  SSeq (SDecl (TAuto) "column" (Some (EBin BAnd (EBin Shr (EVar "c") (ELit false 4)) (ELit true 15))))
  (SSeq (SDecl (TAuto) "row" (Some (EBin BAnd (EVar "c") (ELit true 15))))
  (SSwitch (EVar "column")
  (SCase [None] (SReturn (Some (EBool false)))
  (SCase [Some 10] (SReturn (Some (EBin Ge (EVar "row") (ELit false 2))))
  (SSkip))))) |}.

(* source/bits10/char_is_unicode.cxx:2236-2245 *)
Definition c_isInTheGap02EB : fundef := {|
  f_name := "isInTheGap02EB";
  f_params := [{| p_ty := TI Char32; p_ref := false; p_name := "c"; p_default := None |}];
  f_ret := TI Bool;
  f_body :=
  SSeq (SDecl (TAuto) "column" (Some (EBin BAnd (EBin Shr (EVar "c") (ELit false 4)) (ELit true 15))))
  (SSwitch (EVar "column")
  (SCase [None] (SReturn (Some (EBool false)))
  (SCase [Some 14] (SReturn (Some (EBin Gt (EBin BAnd (EVar "c") (ELit true 15)) (ELit false 0))))
  (SCase [Some 15] (SReturn (Some (EBool true)))
  (SSkip))))) |}.

(* source/bits10/char_is_unicode.cxx:2247-2259 *)
Definition c_isInTheGap02FA : fundef := {|
  f_name := "isInTheGap02FA";
  f_params := [{| p_ty := TI Char32; p_ref := false; p_name := "c"; p_default := None |}];
  f_ret := TI Bool;
  f_body :=
  SSeq (SDecl (TAuto) "column" (Some (EBin BAnd (EBin Shr (EVar "c") (ELit false 4)) (ELit true 15))))
  (SSeq (SIf (EBin Lt (EVar "column") (ELit false 1))
  (SReturn (Some (EBool false)))
  (SSkip))
  (SSeq (SIf (EBin Gt (EVar "column") (ELit false 1))
  (SReturn (Some (EBool true)))
  (SSkip))
  (SReturn (Some (EBin Ge (EBin BAnd (EVar "c") (ELit true 15)) (ELit false 14)))))) |}.

(* source/bits10/char_is_unicode.cxx:2261-2313 *)
Definition c_isInTheGap02 : fundef := {|
  f_name := "isInTheGap02";
  f_params := [{| p_ty := TI Char32; p_ref := false; p_name := "c"; p_default := None |}];
  f_ret := TI Bool;
  f_body :=
  SSeq (SDecl (TAuto) "page" (Some (EBin BAnd (EBin Shr (EVar "c") (ELit false 8)) (ELit true 255))))
  (SSeq (SDecl (TAuto) "sheaf" (Some (EBin Shr (EVar "page") (ELit false 4))))
  (SSeq (SExpr (EOpAssign BAnd "page" (ELit true 15)))
  (SSwitch (EVar "sheaf")
  (SCase [None] (SReturn (Some (EBool false)))
  (SCase [Some 10] (SIf (EBin Eq (EVar "page") (ELit false 6))
  (SReturn (Some (ECall "isInTheGap02A6" [(EVar "c")])))
  (SReturn (Some (EBool false))))
  (SCase [Some 11] (SSwitch (EVar "page")
  (SCase [None] (SReturn (Some (EBool false)))
  (SCase [Some 7] (SReturn (Some (ECall "isInTheGap02B7" [(EVar "c")])))
  (SCase [Some 8] (SReturn (Some (ECall "isInTheGap02B8" [(EVar "c")])))
  (SSkip)))))
  (SCase [Some 12] (SSwitch (EVar "page")
  (SCase [None] (SReturn (Some (EBool false)))
  (SCase [Some 14] (SReturn (Some (ECall "isInTheGap02CE" [(EVar "c")])))
  (SSkip))))
  (SCase [Some 14] (SSwitch (EVar "page")
  (SCase [None] (SReturn (Some (EBool false)))
  (SCase [Some 11] (SReturn (Some (ECall "isInTheGap02EB" [(EVar "c")])))
  (SCase [Some 12; Some 13; Some 14; Some 15] (SReturn (Some (EBool true)))
  (SSkip)))))
  (SCase [Some 15] (SSeq (SIf (EOr (EBin Lt (EVar "page") (ELit false 8)) (EBin Gt (EVar "page") (ELit false 10)))
  (SReturn (Some (EBool true)))
  (SSkip))
  (SSeq (SIf (EBin Lt (EVar "page") (ELit false 10))
  (SReturn (Some (EBool false)))
  (SSkip))
  (SReturn (Some (ECall "isInTheGap02FA" [(EVar "c")])))))
  (SSkip)))))))))) |}.

(* source/bits10/char_is_unicode.cxx:2315-2344 *)
Definition c_isInTheGap0E : fundef := {|
  f_name := "isInTheGap0E";
  f_params := [{| p_ty := TI Char32; p_ref := false; p_name := "c"; p_default := None |}];
  f_ret := TI Bool;
  f_body :=
  SSeq (SDecl (TAuto) "page" (Some (EBin BAnd (EBin Shr (EVar "c") (ELit false 8)) (ELit true 255))))
  (SSeq (SDecl (TAuto) "sheaf" (Some (EBin Shr (EVar "page") (ELit false 4))))
  (SSeq (SExpr (EOpAssign BAnd "page" (ELit true 15)))
  (SSeq (SIf (EOr (EBin Gt (EVar "sheaf") (ELit false 0)) (EBin Gt (EVar "page") (ELit false 1)))
  (SReturn (Some (EBool true)))
  (SSkip))
  (SSeq (SDecl (TAuto) "column" (Some (EBin BAnd (EBin Shr (EVar "c") (ELit false 4)) (ELit true 15))))
  (SSeq (SDecl (TAuto) "row" (Some (EBin BAnd (EVar "c") (ELit true 15))))
  (SIf (EBin Eq (EVar "page") (ELit false 0))
  (SSeq (SIf (EOr (EBin Ge (EVar "column") (ELit false 8)) (EBin Eq (EVar "column") (ELit false 1)))
  (SReturn (Some (EBool true)))
  (SIf (EBin Eq (EVar "column") (ELit false 0))
  (SReturn (Some (EBin Ne (EVar "row") (ELit false 1))))
  (SSkip)))
  (SReturn (Some (EBool false))))
  (SReturn (Some (EBin Gt (EVar "column") (ELit false 14)))))))))) |}.

(* source/bits10/char_is_unicode.cxx:2348-2457 *)
Definition c_isUnicodeAssigned_Char16 : fundef := {|
  f_name := "isUnicodeAssigned";
  f_params := [{| p_ty := TI Char16; p_ref := false; p_name := "c"; p_default := None |}];
  f_ret := TI Bool;
  f_body :=
  SSeq (SDecl (TAuto) "page" (Some (EBin BAnd (EBin Shr (EVar "c") (ELit false 8)) (ELit true 255))))
  (SSeq (SDecl (TAuto) "sheaf" (Some (EBin Shr (EVar "page") (ELit false 4))))
  (SSeq (SExpr (EOpAssign BAnd "page" (ELit true 15)))
  (SSeq (SSwitch (EVar "sheaf")
  (SCase [None] (SReturn (Some (EBool true)))
  (SCase [Some 0] (SSwitch (EVar "page")
  (SCase [None] (SReturn (Some (EBool true)))
  (SCase [Some 3] (SReturn (Some (ENot (ECall "isInTheGap0003" [(EVar "c")]))))
  (SCase [Some 5] (SReturn (Some (ENot (ECall "isInTheGap0005" [(EVar "c")]))))
  (SCase [Some 6] (SReturn (Some (ENot (ECall "isInTheGap0006" [(EVar "c")]))))
  (SCase [Some 7] (SReturn (Some (ENot (ECall "isInTheGap0007" [(EVar "c")]))))
  (SCase [Some 8] (SReturn (Some (ENot (ECall "isInTheGap0008" [(EVar "c")]))))
  (SCase [Some 9] (SReturn (Some (ENot (ECall "isInTheGap0009" [(EVar "c")]))))
  (SCase [Some 10] (SReturn (Some (ENot (ECall "isInTheGap000A" [(EVar "c")]))))
  (SCase [Some 11] (SReturn (Some (ENot (ECall "isInTheGap000B" [(EVar "c")]))))
  (SCase [Some 12] (SReturn (Some (ENot (ECall "isInTheGap000C" [(EVar "c")]))))
  (SCase [Some 13] (SReturn (Some (ENot (ECall "isInTheGap000D" [(EVar "c")]))))
  (SCase [Some 14] (SReturn (Some (ENot (ECall "isInTheGap000E" [(EVar "c")]))))
  (SCase [Some 15] (SReturn (Some (ENot (ECall "isInTheGap000F" [(EVar "c")]))))
  (SSkip)))))))))))))))
  (SCase [Some 1] (SSwitch (EVar "page")
  (SCase [None] (SReturn (Some (EBool true)))
  (SCase [Some 0] (SReturn (Some (ENot (ECall "isInTheGap0010" [(EVar "c")]))))
  (SCase [Some 2] (SReturn (Some (ENot (ECall "isInTheGap0012" [(EVar "c")]))))
  (SCase [Some 3] (SReturn (Some (ENot (ECall "isInTheGap0013" [(EVar "c")]))))
  (SCase [Some 6] (SReturn (Some (ENot (ECall "isInTheGap0016" [(EVar "c")]))))
  (SCase [Some 7] (SReturn (Some (ENot (ECall "isInTheGap0017" [(EVar "c")]))))
  (SCase [Some 8] (SReturn (Some (ENot (ECall "isInTheGap0018" [(EVar "c")]))))
  (SCase [Some 9] (SReturn (Some (ENot (ECall "isInTheGap0019" [(EVar "c")]))))
  (SCase [Some 10] (SReturn (Some (ENot (ECall "isInTheGap001A" [(EVar "c")]))))
  (SCase [Some 11] (SReturn (Some (ENot (ECall "isInTheGap001B" [(EVar "c")]))))
  (SCase [Some 12] (SReturn (Some (ENot (ECall "isInTheGap001C" [(EVar "c")]))))
  (SCase [Some 13] (SReturn (Some (EBin Ne (EVar "c") (ELit true 7674))))
  (SCase [Some 15] (SReturn (Some (ENot (ECall "isInTheGap001F" [(EVar "c")]))))
  (SSkip)))))))))))))))
  (SCase [Some 2] (SSwitch (EVar "page")
  (SCase [None] (SReturn (Some (EBool true)))
  (SCase [Some 0] (SReturn (Some (ENot (ECall "isInTheGap0020" [(EVar "c")]))))
  (SCase [Some 1] (SReturn (Some (ENot (ECall "isInTheGap0021" [(EVar "c")]))))
  (SCase [Some 4] (SReturn (Some (ENot (ECall "isInTheGap0024" [(EVar "c")]))))
  (SCase [Some 11] (SReturn (Some (ENot (ECall "isInTheGap002B" [(EVar "c")]))))
  (SCase [Some 12] (SReturn (Some (ENot (ECall "isInTheGap002C" [(EVar "c")]))))
  (SCase [Some 13] (SReturn (Some (ENot (ECall "isInTheGap002D" [(EVar "c")]))))
  (SCase [Some 14] (SReturn (Some (ENot (ECall "isInTheGap002E" [(EVar "c")]))))
  (SCase [Some 15] (SReturn (Some (ENot (ECall "isInTheGap002F" [(EVar "c")]))))
  (SSkip)))))))))))
  (SCase [Some 3] (SSwitch (EVar "page")
  (SCase [None] (SReturn (Some (EBool true)))
  (SCase [Some 0] (SReturn (Some (ENot (ECall "isInTheGap0030" [(EVar "c")]))))
  (SCase [Some 1] (SReturn (Some (ENot (ECall "isInTheGap0031" [(EVar "c")]))))
  (SCase [Some 2] (SReturn (Some (ENot (ECall "isInTheGap0032" [(EVar "c")]))))
  (SSkip))))))
  (SCase [Some 4] (SReturn (Some (ECond (EBin Eq (EVar "page") (ELit false 13)) (ENot (ECall "isInTheGap004D" [(EVar "c")])) (EBool true))))
  (SCase [Some 9] (SReturn (Some (ECond (EBin Eq (EVar "page") (ELit false 15)) (ENot (ECall "isInTheGap009F" [(EVar "c")])) (EBool true))))
  (SCase [Some 10] (SSwitch (EVar "page")
  (SCase [None] (SReturn (Some (EBool true)))
  (SCase [Some 4] (SReturn (Some (ENot (ECall "isInTheGap00A4" [(EVar "c")]))))
  (SCase [Some 6] (SReturn (Some (ENot (ECall "isInTheGap00A6" [(EVar "c")]))))
  (SCase [Some 7] (SReturn (Some (ENot (ECall "isInTheGap00A7" [(EVar "c")]))))
  (SCase [Some 8] (SReturn (Some (ENot (ECall "isInTheGap00A8" [(EVar "c")]))))
  (SCase [Some 9] (SReturn (Some (ENot (ECall "isInTheGap00A9" [(EVar "c")]))))
  (SCase [Some 10] (SReturn (Some (ENot (ECall "isInTheGap00AA" [(EVar "c")]))))
  (SCase [Some 11] (SReturn (Some (ENot (ECall "isInTheGap00AB" [(EVar "c")]))))
  (SSkip))))))))))
  (SCase [Some 13] (SReturn (Some (ECond (EBin Ge (EVar "page") (ELit false 7)) (ENot (ECall "isInTheGap00D7_DF" [(EVar "c")])) (EBool true))))
  (SCase [Some 14] (SReturn (Some (EBool false)))
  (SCase [Some 15] (SSwitch (EVar "page")
  (SCase [None] (SReturn (Some (EBool true)))
  (SCase [Some 0; Some 1; Some 2; Some 3; Some 4; Some 5; Some 6; Some 7; Some 8] (SReturn (Some (EBool false)))
  (SCase [Some 10] (SReturn (Some (ENot (ECall "isInTheGap00FA" [(EVar "c")]))))
  (SCase [Some 11] (SReturn (Some (ENot (ECall "isInTheGap00FB" [(EVar "c")]))))
  (SCase [Some 13] (SReturn (Some (ENot (ECall "isInTheGap00FD" [(EVar "c")]))))
  (SCase [Some 14] (SReturn (Some (ENot (ECall "isInTheGap00FE" [(EVar "c")]))))
  (SCase [Some 15] (SReturn (Some (ENot (ECall "isInTheGap00FF" [(EVar "c")]))))
  (SSkip)))))))))
  (SSkip)))))))))))))
  (SReturn (Some (EBool true)))))) |}.

(* source/bits10/char_is_unicode.cxx:2459-2469 *)
Definition c_isUnicodeAssigned_Char32 : fundef := {|
  f_name := "isUnicodeAssigned";
  f_params := [{| p_ty := TI Char32; p_ref := false; p_name := "c"; p_default := None |}];
  f_ret := TI Bool;
  f_body :=
  SSwitch (EBin Shr (EVar "c") (ELit false 16))
  (SCase [None] (SReturn (Some (EBool false)))
  (SCase [Some 0] (SReturn (Some (ECall "isUnicodeAssigned" [(ECast (TI Char16) (EBin BAnd (EVar "c") (ELit true 65535)))])))
  (SCase [Some 1] (SReturn (Some (ENot (ECall "isInTheGap01" [(EVar "c")]))))
  (SCase [Some 2] (SReturn (Some (ENot (ECall "isInTheGap02" [(EVar "c")]))))
  (SCase [Some 14] (SReturn (Some (ENot (ECall "isInTheGap0E" [(EVar "c")]))))
  (SSkip)))))) |}.

(* source/bits10/char_is_unicode.cxx:2471-2483 *)
Definition c_isUnicodePrivate_Char16 : fundef := {|
  f_name := "isUnicodePrivate";
  f_params := [{| p_ty := TI Char16; p_ref := false; p_name := "c"; p_default := None |}];
  f_ret := TI Bool;
  f_body :=
  SSeq (SDecl (TAuto) "page" (Some (EBin BAnd (EBin Shr (EVar "c") (ELit false 8)) (ELit true 255))))
  (SSeq (SDecl (TAuto) "sheaf" (Some (EBin Shr (EVar "page") (ELit false 4))))
  (SSeq (SExpr (EOpAssign BAnd "page" (ELit true 15)))
  (SSwitch (EVar "sheaf")
  (SCase [None] (SReturn (Some (EBool false)))
  (SCase [Some 14] (SReturn (Some (EBool true)))
  (SCase [Some 15] (SReturn (Some (EBin Lt (EVar "page") (ELit false 9))))
  (SSkip))))))) |}.

(* source/bits10/char_is_unicode.cxx:2485-2494 *)
Definition c_isUnicodePrivate_Char32 : fundef := {|
  f_name := "isUnicodePrivate";
  f_params := [{| p_ty := TI Char32; p_ref := false; p_name := "c"; p_default := None |}];
  f_ret := TI Bool;
  f_body :=
  SSwitch (EBin Shr (EVar "c") (ELit false 16))
  (SCase [None] (SReturn (Some (EBool false)))
  (SCase [Some 0] (SReturn (Some (ECall "isUnicodePrivate" [(ECast (TI Char16) (EBin BAnd (EVar "c") (ELit true 65535)))])))
  (SCase [Some 15; Some 16] (SReturn (Some (EBin Le (EBin BAnd (EVar "c") (ELit true 65535)) (ELit true 65533))))
  (SSkip)))) |}.

(* source/bits10/char_is_unicode.cxx:2496-2500 *)
Definition c_isControlChar_Char : fundef := {|
  f_name := "isControlChar";
  f_params := [{| p_ty := TI Char; p_ref := false; p_name := "c"; p_default := None |}];
  f_ret := TI Bool;
  f_body :=
  SSeq (SDecl (TI UInt) "u" (Some (ECast (TI UChar) (EVar "c"))))
  (SReturn (Some (EOr (EBin Lt (EVar "u") (ELit true 32)) (EAnd (EBin Ge (EVar "u") (ELit true 127)) (EBin Lt (EVar "u") (ELit true 160)))))) |}.

(* source/bits10/char_is_unicode.cxx:2502-2509 *)
Definition c_isControlChar_Char16 : fundef := {|
  f_name := "isControlChar";
  f_params := [{| p_ty := TI Char16; p_ref := false; p_name := "c"; p_default := None |}];
  f_ret := TI Bool;
  f_body :=
  SSeq (SIf (EBin Ne (EBin BAnd (EVar "c") (ECompl (ELit true 255))) (ELit false 0))
  (SReturn (Some (EBool false)))
  (SSkip))
  (SReturn (Some (ECall "isControlChar" [(ECast (TI Char) (EBin BAnd (EVar "c") (ELit true 255)))]))) |}.

(* source/bits10/char_is_unicode.cxx:2511-2518 *)
Definition c_isControlChar_Char32 : fundef := {|
  f_name := "isControlChar";
  f_params := [{| p_ty := TI Char32; p_ref := false; p_name := "c"; p_default := None |}];
  f_ret := TI Bool;
  f_body :=
  SSeq (SIf (EBin Ne (EBin BAnd (EVar "c") (ECompl (ELit true 255))) (ELit false 0))
  (SReturn (Some (EBool false)))
  (SSkip))
  (SReturn (Some (ECall "isControlChar" [(ECast (TI Char) (EBin BAnd (EVar "c") (ELit true 255)))]))) |}.

(* source/bits10/char_is_unicode.cxx:2520-2534 *)
Definition c_isWhitespaceChar_Char : fundef := {|
  f_name := "isWhitespaceChar";
  f_params := [{| p_ty := TI Char; p_ref := false; p_name := "c"; p_default := None |}];
  f_ret := TI Bool;
  f_body :=
  SSwitch (ECast (TI UChar) (EVar "c"))
  (SCase [None] (SReturn (Some (EBool false)))
  (SCase [Some 9; Some 10; Some 11; Some 12; Some 13; Some 32; Some 133; Some 160] (SReturn (Some (EBool true)))
  (SSkip))) |}.

(* source/bits10/char_is_unicode.cxx:2536-2563 *)
Definition c_isWhitespaceChar_Char16 : fundef := {|
  f_name := "isWhitespaceChar";
  f_params := [{| p_ty := TI Char16; p_ref := false; p_name := "c"; p_default := None |}];
  f_ret := TI Bool;
  f_body :=
  SSeq (SIf (EBin Eq (EBin BAnd (EVar "c") (ELit true 255)) (EVar "c"))
  (SReturn (Some (ECall "isWhitespaceChar" [(ECast (TI Char) (EVar "c"))])))
  (SSkip))
  (SSeq (SDecl (TAuto) "page" (Some (EBin BAnd (EBin Shr (EVar "c") (ELit false 8)) (ELit true 255))))
  (SSeq (SDecl (TAuto) "sheaf" (Some (EBin Shr (EVar "page") (ELit false 4))))
  (SSeq (SExpr (EOpAssign BAnd "page" (ELit true 15)))
  (SSeq (SDecl (TAuto) "byte" (Some (ECast (TI UChar) (EVar "c"))))
  (SSwitch (EVar "sheaf")
  (SCase [None] (SReturn (Some (EBool false)))
  (SCase [Some 1] (SReturn (Some (EAnd (EBin Eq (EVar "page") (ELit false 6)) (EBin Eq (EVar "byte") (ELit true 128)))))
  (SCase [Some 2] (SIf (EBin Ne (EVar "page") (ELit false 0))
  (SReturn (Some (EBool false)))
  (SReturn (Some (EOr (EOr (EOr (EOr (EBin Le (EVar "byte") (ELit false 10)) (EBin Eq (EVar "byte") (ELit true 40))) (EBin Eq (EVar "byte") (ELit true 41))) (EBin Eq (EVar "byte") (ELit true 47))) (EBin Eq (EVar "byte") (ELit true 95))))))
  (SCase [Some 3] (SReturn (Some (EAnd (EBin Eq (EVar "page") (ELit false 0)) (EBin Eq (EVar "byte") (ELit false 0)))))
  (SSkip)))))))))) |}.

(* source/bits10/char_is_unicode.cxx:2565-2575 *)
Definition c_isWhitespaceChar_Char32 : fundef := {|
  f_name := "isWhitespaceChar";
  f_params := [{| p_ty := TI Char32; p_ref := false; p_name := "c"; p_default := None |}];
  f_ret := TI Bool;
  f_body :=
  SIf (EBin Gt (EVar "c") (ELit true 12288))
  (SReturn (Some (EBool false)))
  (SReturn (Some (ECall "isWhitespaceChar" [(ECast (TI Char16) (EVar "c"))]))) |}.

(* source/bits10/char_to_lower.cxx:55-64 *)
Definition c_toLowerC : fundef := {|
  f_name := "toLowerC";
  f_params := [{| p_ty := TI Char; p_ref := false; p_name := "c"; p_default := None |}];
  f_ret := TI Char;
  f_body :=
  SSeq (SDecl (TI UChar) "uc" (Some (ECast (TI UChar) (EVar "c"))))
  (SSeq (SIf (EOr (EOr (EBin Lt (EVar "uc") (ELit true 65)) (EBin Gt (EVar "uc") (ELit true 222))) (EAnd (EBin Gt (EVar "uc") (ELit true 90)) (EBin Lt (EVar "uc") (ELit true 192))))
  (SReturn (Some (EVar "c")))
  (SSkip))
  (SReturn (Some (ECast (TI Char) (EBin Add (EVar "uc") (ELit true 32)))))) |}.

(* source/bits10/char_to_lower.cxx:69-138 *)
Definition c_toLower0100 : fundef := {|
  f_name := "toLower0100";
  f_params := [{| p_ty := TI Char16; p_ref := false; p_name := "c"; p_default := None |}];
  f_ret := TI Char16;
  f_body :=
  SSeq (SIf (EBin Eq (EVar "c") (ELit true 304))
  (SReturn (Some (ELit true 105)))
  (SSkip))
  (SSeq (SIf (EOr (EOr (EOr (EOr (EBin Lt (EVar "c") (ELit true 312)) (EAnd (EBin Ge (EVar "c") (ELit true 330)) (EBin Le (EVar "c") (ELit true 375)))) (EAnd (EBin Ge (EVar "c") (ELit true 416)) (EBin Le (EVar "c") (ELit true 421)))) (EAnd (EBin Ge (EVar "c") (ELit true 478)) (EBin Le (EVar "c") (ELit true 495)))) (EBin Ge (EVar "c") (ELit true 504)))
  (SReturn (Some (EBin BOr (EVar "c") (ELit false 1))))
  (SSkip))
  (SSeq (SIf (EOr (EOr (EOr (EAnd (EBin Ge (EVar "c") (ELit true 313)) (EBin Le (EVar "c") (ELit true 328))) (EAnd (EBin Ge (EVar "c") (ELit true 377)) (EBin Le (EVar "c") (ELit true 382)))) (EAnd (EBin Ge (EVar "c") (ELit true 435)) (EBin Le (EVar "c") (ELit true 438)))) (EAnd (EBin Ge (EVar "c") (ELit true 463)) (EBin Le (EVar "c") (ELit true 476))))
  (SReturn (Some (EBin BAnd (EBin Add (EVar "c") (ELit false 1)) (ECompl (ELit false 1)))))
  (SSkip))
  (SSwitch (EVar "c")
  (SCase [None] (SReturn (Some (EVar "c")))
  (SCase [Some 376] (SReturn (Some (ELit true 255)))
  (SCase [Some 385] (SReturn (Some (ELit true 595)))
  (SCase [Some 386] (SReturn (Some (ELit true 387)))
  (SCase [Some 388] (SReturn (Some (ELit true 389)))
  (SCase [Some 390] (SReturn (Some (ELit true 596)))
  (SCase [Some 391] (SReturn (Some (ELit true 392)))
  (SCase [Some 393] (SReturn (Some (ELit true 598)))
  (SCase [Some 394] (SReturn (Some (ELit true 599)))
  (SCase [Some 395] (SReturn (Some (ELit true 396)))
  (SCase [Some 398] (SReturn (Some (ELit true 477)))
  (SCase [Some 399] (SReturn (Some (ELit true 601)))
  (SCase [Some 400] (SReturn (Some (ELit true 603)))
  (SCase [Some 401] (SReturn (Some (ELit true 402)))
  (SCase [Some 403] (SReturn (Some (ELit true 608)))
  (SCase [Some 404] (SReturn (Some (ELit true 611)))
  (SCase [Some 406] (SReturn (Some (ELit true 617)))
  (SCase [Some 407] (SReturn (Some (ELit true 616)))
  (SCase [Some 408] (SReturn (Some (ELit true 409)))
  (SCase [Some 412] (SReturn (Some (ELit true 623)))
  (SCase [Some 413] (SReturn (Some (ELit true 626)))
  (SCase [Some 415] (SReturn (Some (ELit true 629)))
  (SCase [Some 422] (SReturn (Some (ELit true 640)))
  (SCase [Some 423] (SReturn (Some (ELit true 424)))
  (SCase [Some 425] (SReturn (Some (ELit true 643)))
  (SCase [Some 428] (SReturn (Some (ELit true 429)))
  (SCase [Some 430] (SReturn (Some (ELit true 648)))
  (SCase [Some 431] (SReturn (Some (ELit true 432)))
  (SCase [Some 433] (SReturn (Some (ELit true 650)))
  (SCase [Some 434] (SReturn (Some (ELit true 651)))
  (SCase [Some 439] (SReturn (Some (ELit true 658)))
  (SCase [Some 440] (SReturn (Some (ELit true 441)))
  (SCase [Some 444] (SReturn (Some (ELit true 445)))
  (SCase [Some 452; Some 453] (SReturn (Some (ELit true 454)))
  (SCase [Some 455; Some 456] (SReturn (Some (ELit true 457)))
  (SCase [Some 458; Some 459] (SReturn (Some (ELit true 460)))
  (SCase [Some 461] (SReturn (Some (ELit true 462)))
  (SCase [Some 497; Some 498] (SReturn (Some (ELit true 499)))
  (SCase [Some 500] (SReturn (Some (ELit true 501)))
  (SCase [Some 502] (SReturn (Some (ELit true 405)))
  (SCase [Some 503] (SReturn (Some (ELit true 447)))
  (SSkip))))))))))))))))))))))))))))))))))))))))))))) |}.

(* source/bits10/char_to_lower.cxx:141-162 *)
Definition c_toLower0200 : fundef := {|
  f_name := "toLower0200";
  f_params := [{| p_ty := TI Char16; p_ref := false; p_name := "c"; p_default := None |}];
  f_ret := TI Char16;
  f_body :=
  SSeq (SIf (EOr (EOr (EBin Lt (EVar "c") (ELit true 544)) (EAnd (EBin Ge (EVar "c") (ELit true 546)) (EBin Le (EVar "c") (ELit true 563)))) (EAnd (EBin Ge (EVar "c") (ELit true 582)) (EBin Le (EVar "c") (ELit true 591))))
  (SReturn (Some (EBin BOr (EVar "c") (ELit false 1))))
  (SSkip))
  (SSwitch (EVar "c")
  (SCase [None] (SReturn (Some (EVar "c")))
  (SCase [Some 544] (SReturn (Some (ELit true 414)))
  (SCase [Some 570] (SReturn (Some (ELit true 11365)))
  (SCase [Some 571] (SReturn (Some (ELit true 572)))
  (SCase [Some 573] (SReturn (Some (ELit true 410)))
  (SCase [Some 574] (SReturn (Some (ELit true 11366)))
  (SCase [Some 577] (SReturn (Some (ELit true 578)))
  (SCase [Some 579] (SReturn (Some (ELit true 384)))
  (SCase [Some 580] (SReturn (Some (ELit true 649)))
  (SCase [Some 581] (SReturn (Some (ELit true 652)))
  (SSkip)))))))))))) |}.

(* source/bits10/char_to_lower.cxx:165-202 *)
Definition c_toLower0300 : fundef := {|
  f_name := "toLower0300";
  f_params := [{| p_ty := TI Char16; p_ref := false; p_name := "c"; p_default := None |}];
  f_ret := TI Char16;
  f_body :=
  SSeq (SIf (EOr (EBin Lt (EVar "c") (ELit true 880)) (EBin Eq (EBin BAnd (EVar "c") (ELit true 240)) (ELit true 176)))
  (SReturn (Some (EVar "c")))
  (SSkip))
  (SSeq (SIf (EOr (EOr (EAnd (EBin Ge (EVar "c") (ELit true 880)) (EBin Le (EVar "c") (ELit true 883))) (EAnd (EBin Ge (EVar "c") (ELit true 886)) (EBin Le (EVar "c") (ELit true 887)))) (EAnd (EBin Ge (EVar "c") (ELit true 984)) (EBin Le (EVar "c") (ELit true 1007))))
  (SReturn (Some (EBin BOr (EVar "c") (ELit false 1))))
  (SSkip))
  (SSeq (SIf (EOr (EAnd (EBin Ge (EVar "c") (ELit true 913)) (EBin Le (EVar "c") (ELit true 929))) (EAnd (EBin Ge (EVar "c") (ELit true 931)) (EBin Le (EVar "c") (ELit true 939))))
  (SReturn (Some (EBin Add (EVar "c") (ELit true 32))))
  (SSkip))
  (SSwitch (EVar "c")
  (SCase [None] (SReturn (Some (EVar "c")))
  (SCase [Some 895] (SReturn (Some (ELit true 1011)))
  (SCase [Some 902] (SReturn (Some (ELit true 940)))
  (SCase [Some 904] (SReturn (Some (ELit true 941)))
  (SCase [Some 905] (SReturn (Some (ELit true 942)))
  (SCase [Some 906] (SReturn (Some (ELit true 943)))
  (SCase [Some 908] (SReturn (Some (ELit true 972)))
  (SCase [Some 910] (SReturn (Some (ELit true 973)))
  (SCase [Some 911] (SReturn (Some (ELit true 974)))
  (SCase [Some 975] (SReturn (Some (ELit true 983)))
  (SCase [Some 1012] (SReturn (Some (ELit true 952)))
  (SCase [Some 1015] (SReturn (Some (ELit true 1016)))
  (SCase [Some 1017] (SReturn (Some (ELit true 1010)))
  (SCase [Some 1018] (SReturn (Some (ELit true 1019)))
  (SCase [Some 1021] (SReturn (Some (ELit true 891)))
  (SCase [Some 1022] (SReturn (Some (ELit true 892)))
  (SCase [Some 1023] (SReturn (Some (ELit true 893)))
  (SSkip))))))))))))))))))))) |}.

(* source/bits10/char_to_lower.cxx:205-230 *)
Definition c_toLower0400 : fundef := {|
  f_name := "toLower0400";
  f_params := [{| p_ty := TI Char16; p_ref := false; p_name := "c"; p_default := None |}];
  f_ret := TI Char16;
  f_body :=
  SSeq (SIf (EBin Lt (EVar "c") (ELit true 1040))
  (SReturn (Some (EBin Add (EVar "c") (ELit true 80))))
  (SIf (EBin Lt (EVar "c") (ELit true 1072))
  (SReturn (Some (EBin Add (EVar "c") (ELit true 32))))
  (SIf (EOr (EOr (EAnd (EBin Ge (EVar "c") (ELit true 1120)) (EBin Le (EVar "c") (ELit true 1153))) (EAnd (EBin Ge (EVar "c") (ELit true 1162)) (EBin Le (EVar "c") (ELit true 1215)))) (EBin Ge (EVar "c") (ELit true 1232)))
  (SReturn (Some (EBin BOr (EVar "c") (ELit false 1))))
  (SIf (EBin Eq (EVar "c") (ELit true 1216))
  (SReturn (Some (ELit true 1231)))
  (SIf (EAnd (EBin Ge (EVar "c") (ELit true 1217)) (EBin Le (EVar "c") (ELit true 1230)))
  (SReturn (Some (EBin BAnd (EBin Add (EVar "c") (ELit false 1)) (ECompl (ELit false 1)))))
  (SSkip))))))
  (SReturn (Some (EVar "c"))) |}.

(* source/bits10/char_to_lower.cxx:233-245 *)
Definition c_toLower0500 : fundef := {|
  f_name := "toLower0500";
  f_params := [{| p_ty := TI Char16; p_ref := false; p_name := "c"; p_default := None |}];
  f_ret := TI Char16;
  f_body :=
  SSeq (SIf (EBin Lt (EVar "c") (ELit true 1328))
  (SReturn (Some (EBin BOr (EVar "c") (ELit false 1))))
  (SIf (EAnd (EBin Ge (EVar "c") (ELit true 1329)) (EBin Le (EVar "c") (ELit true 1366)))
  (SReturn (Some (EBin Add (EVar "c") (ELit true 48))))
  (SSkip)))
  (SReturn (Some (EVar "c"))) |}.

(* source/bits10/char_to_lower.cxx:248-340 *)
Definition c_toLower1000 : fundef := {|
  f_name := "toLower1000";
  f_params := [{| p_ty := TI Char16; p_ref := false; p_name := "c"; p_default := None |}];
  f_ret := TI Char16;
  f_body :=
  SSeq (SSwitch (EBin Shr (EVar "c") (ELit false 8))
  (SCase [None] (SBreak)
  (SCase [Some 16] (SSeq (SIf (EOr (EOr (EAnd (EBin Ge (EVar "c") (ELit true 4256)) (EBin Le (EVar "c") (ELit true 4293))) (EBin Eq (EVar "c") (ELit true 4295))) (EBin Eq (EVar "c") (ELit true 4301)))
  (SReturn (Some (EBin Add (EVar "c") (ELit true 7264))))
  (SSkip))
  (SBreak))
  (SCase [Some 19] (SSeq (SIf (EAnd (EBin Ge (EVar "c") (ELit true 5024)) (EBin Lt (EVar "c") (ELit true 5104)))
  (SReturn (Some (EBin Add (EVar "c") (ELit true 38864))))
  (SIf (EAnd (EBin Ge (EVar "c") (ELit true 5104)) (EBin Le (EVar "c") (ELit true 5109)))
  (SReturn (Some (EBin BOr (EVar "c") (ELit false 8))))
  (SSkip)))
  (SBreak))
  (SCase [Some 30] (SSeq (SIf (EBin Eq (EVar "c") (ELit true 7838))
  (SReturn (Some (ELit true 223)))
  (SReturn (Some (EBin BOr (EVar "c") (ELit false 1)))))
  (SBreak))
  (SCase [Some 31] (SSeq (SIf (EOr (EBin Lt (EVar "c") (ELit true 8048)) (EAnd (EBin Ge (EVar "c") (ELit true 8064)) (EBin Lt (EVar "c") (ELit true 8112))))
  (SSwitch (EVar "c")
  (SCase [None] (SReturn (Some (EBin BAnd (EVar "c") (ECompl (ELit false 8)))))
  (SCase [Some 7966; Some 7967; Some 8014; Some 8015; Some 8024; Some 8026; Some 8028; Some 8030] (SReturn (Some (EVar "c")))
  (SSkip))))
  (SSwitch (EVar "c")
  (SCase [None] (SReturn (Some (EVar "c")))
  (SCase [Some 8120] (SReturn (Some (ELit true 8112)))
  (SCase [Some 8121] (SReturn (Some (ELit true 8113)))
  (SCase [Some 8122] (SReturn (Some (ELit true 8048)))
  (SCase [Some 8123] (SReturn (Some (ELit true 8049)))
  (SCase [Some 8124] (SReturn (Some (ELit true 8115)))
  (SCase [Some 8136] (SReturn (Some (ELit true 8050)))
  (SCase [Some 8137] (SReturn (Some (ELit true 8051)))
  (SCase [Some 8138] (SReturn (Some (ELit true 8052)))
  (SCase [Some 8139] (SReturn (Some (ELit true 8053)))
  (SCase [Some 8140] (SReturn (Some (ELit true 8131)))
  (SCase [Some 8152] (SReturn (Some (ELit true 8144)))
  (SCase [Some 8153] (SReturn (Some (ELit true 8145)))
  (SCase [Some 8154] (SReturn (Some (ELit true 8054)))
  (SCase [Some 8155] (SReturn (Some (ELit true 8055)))
  (SCase [Some 8168] (SReturn (Some (ELit true 8160)))
  (SCase [Some 8169] (SReturn (Some (ELit true 8161)))
  (SCase [Some 8170] (SReturn (Some (ELit true 8058)))
  (SCase [Some 8171] (SReturn (Some (ELit true 8059)))
  (SCase [Some 8172] (SReturn (Some (ELit true 8165)))
  (SCase [Some 8184] (SReturn (Some (ELit true 8056)))
  (SCase [Some 8185] (SReturn (Some (ELit true 8057)))
  (SCase [Some 8186] (SReturn (Some (ELit true 8060)))
  (SCase [Some 8187] (SReturn (Some (ELit true 8061)))
  (SCase [Some 8188] (SReturn (Some (ELit true 8179)))
  (SSkip))))))))))))))))))))))))))))
  (SBreak))
  (SSkip)))))))
  (SReturn (Some (EVar "c"))) |}.

(* source/bits10/char_to_lower.cxx:343-399 *)
Definition c_toLower2000 : fundef := {|
  f_name := "toLower2000";
  f_params := [{| p_ty := TI Char16; p_ref := false; p_name := "c"; p_default := None |}];
  f_ret := TI Char16;
  f_body :=
  SSeq (SSwitch (EVar "c")
  (SCase [None] (SSeq (SIf (EBin Eq (EBin BAnd (EVar "c") (ELit true 65280)) (ELit true 11264))
  (SSeq (SIf (EBin Lt (EVar "c") (ELit true 11311))
  (SReturn (Some (EBin Add (EVar "c") (ELit true 48))))
  (SIf (EOr (EAnd (EBin Ge (EVar "c") (ELit true 11392)) (EBin Le (EVar "c") (ELit true 11491))) (EBin Eq (EVar "c") (ELit true 11506)))
  (SReturn (Some (EBin BOr (EVar "c") (ELit false 1))))
  (SIf (EOr (EAnd (EBin Ge (EVar "c") (ELit true 11367)) (EBin Le (EVar "c") (ELit true 11372))) (EAnd (EBin Ge (EVar "c") (ELit true 11499)) (EBin Le (EVar "c") (ELit true 11502))))
  (SReturn (Some (EBin BAnd (EBin Add (EVar "c") (ELit false 1)) (ECompl (ELit false 1)))))
  (SSkip))))
  (SSwitch (EVar "c")
  (SCase [None] (SBreak)
  (SCase [Some 11360; Some 11378] (SReturn (Some (EBin BOr (EVar "c") (ELit false 1))))
  (SCase [Some 11381] (SReturn (Some (EBin Add (EVar "c") (ELit false 1))))
  (SCase [Some 11362] (SReturn (Some (ELit true 619)))
  (SCase [Some 11363] (SReturn (Some (ELit true 7549)))
  (SCase [Some 11364] (SReturn (Some (ELit true 637)))
  (SCase [Some 11373] (SReturn (Some (ELit true 593)))
  (SCase [Some 11374] (SReturn (Some (ELit true 625)))
  (SCase [Some 11375] (SReturn (Some (ELit true 592)))
  (SCase [Some 11376] (SReturn (Some (ELit true 594)))
  (SCase [Some 11390] (SReturn (Some (ELit true 575)))
  (SCase [Some 11391] (SReturn (Some (ELit true 576)))
  (SSkip)))))))))))))))
  (SIf (EBin Eq (EBin BAnd (EVar "c") (ELit true 65520)) (ELit true 8544))
  (SReturn (Some (EBin BOr (EVar "c") (ELit true 16))))
  (SIf (EAnd (EBin Ge (EVar "c") (ELit true 9398)) (EBin Lt (EVar "c") (ELit true 9424)))
  (SReturn (Some (EBin Add (EVar "c") (ELit false 26))))
  (SSkip))))
  (SBreak))
  (SCase [Some 8486] (SReturn (Some (ELit true 969)))
  (SCase [Some 8490] (SReturn (Some (ELit true 107)))
  (SCase [Some 8491] (SReturn (Some (ELit true 229)))
  (SCase [Some 8498] (SReturn (Some (ELit true 8526)))
  (SCase [Some 8579] (SReturn (Some (ELit true 8580)))
  (SSkip))))))))
  (SReturn (Some (EVar "c"))) |}.

(* source/bits10/char_to_lower.cxx:402-452 *)
Definition c_toLowerA000 : fundef := {|
  f_name := "toLowerA000";
  f_params := [{| p_ty := TI Char16; p_ref := false; p_name := "c"; p_default := None |}];
  f_ret := TI Char16;
  f_body :=
  SSeq (SSwitch (EBin Shr (EBin BAnd (EVar "c") (ELit true 3840)) (ELit false 8))
  (SCase [None] (SBreak)
  (SCase [Some 6] (SSeq (SIf (EOr (EAnd (EBin Ge (EVar "c") (ELit true 42560)) (EBin Le (EVar "c") (ELit true 42605))) (EAnd (EBin Ge (EVar "c") (ELit true 42624)) (EBin Le (EVar "c") (ELit true 42651))))
  (SReturn (Some (EBin BOr (EVar "c") (ELit false 1))))
  (SSkip))
  (SBreak))
  (SCase [Some 7] (SSeq (SIf (EOr (EOr (EOr (EOr (EOr (EAnd (EBin Ge (EVar "c") (ELit true 42786)) (EBin Le (EVar "c") (ELit true 42799))) (EAnd (EBin Ge (EVar "c") (ELit true 42802)) (EBin Le (EVar "c") (ELit true 42863)))) (EAnd (EBin Ge (EVar "c") (ELit true 42878)) (EBin Le (EVar "c") (ELit true 42887)))) (EAnd (EBin Ge (EVar "c") (ELit true 42896)) (EBin Le (EVar "c") (ELit true 42899)))) (EAnd (EBin Ge (EVar "c") (ELit true 42902)) (EBin Le (EVar "c") (ELit true 42921)))) (EAnd (EBin Ge (EVar "c") (ELit true 42932)) (EBin Le (EVar "c") (ELit true 42935))))
  (SReturn (Some (EBin BOr (EVar "c") (ELit false 1))))
  (SIf (EAnd (EBin Ge (EVar "c") (ELit true 42873)) (EBin Le (EVar "c") (ELit true 42876)))
  (SReturn (Some (EBin BAnd (EBin Add (EVar "c") (ELit false 1)) (ECompl (ELit false 1)))))
  (SSwitch (EVar "c")
  (SCase [None] (SBreak)
  (SCase [Some 42877] (SReturn (Some (ELit true 7545)))
  (SCase [Some 42891] (SReturn (Some (ELit true 42892)))
  (SCase [Some 42893] (SReturn (Some (ELit true 613)))
  (SCase [Some 42922] (SReturn (Some (ELit true 614)))
  (SCase [Some 42923] (SReturn (Some (ELit true 604)))
  (SCase [Some 42924] (SReturn (Some (ELit true 609)))
  (SCase [Some 42925] (SReturn (Some (ELit true 620)))
  (SCase [Some 42926] (SReturn (Some (ELit true 618)))
  (SCase [Some 42928] (SReturn (Some (ELit true 670)))
  (SCase [Some 42929] (SReturn (Some (ELit true 647)))
  (SCase [Some 42930] (SReturn (Some (ELit true 669)))
  (SCase [Some 42931] (SReturn (Some (ELit true 43859)))
  (SSkip)))))))))))))))))
  (SBreak))
  (SSkip)))))
  (SReturn (Some (EVar "c"))) |}.

(* source/bits10/char_to_lower.cxx:455-469 *)
Definition c_toLowerF000 : fundef := {|
  f_name := "toLowerF000";
  f_params := [{| p_ty := TI Char16; p_ref := false; p_name := "c"; p_default := None |}];
  f_ret := TI Char16;
  f_body :=
  SSeq (SSwitch (EBin Shr (EBin BAnd (EVar "c") (ELit true 3840)) (ELit false 8))
  (SCase [None] (SBreak)
  (SCase [Some 15] (SSeq (SIf (EAnd (EBin Gt (EVar "c") (ELit true 65312)) (EBin Le (EVar "c") (ELit true 65338)))
  (SReturn (Some (EBin Add (EVar "c") (ELit true 32))))
  (SSkip))
  (SBreak))
  (SSkip))))
  (SReturn (Some (EVar "c"))) |}.

(* source/bits10/char_to_lower.cxx:473-510 *)
Definition c_toLower2 : fundef := {|
  f_name := "toLower2";
  f_params := [{| p_ty := TI Char16; p_ref := false; p_name := "c"; p_default := None |}];
  f_ret := TI Char16;
  f_body :=
  SSeq (SSwitch (EBin Shr (EVar "c") (ELit false 8))
  (SCase [Some 0] (SReturn (Some (ECast (TI Char16) (ECast (TI UChar) (ECall "toLowerC" [(ECast (TI Char) (EVar "c"))])))))
  (SCase [None] (SBreak)
  (SCase [Some 15; Some 14; Some 13; Some 12; Some 11; Some 10; Some 9; Some 8; Some 7; Some 6] (SReturn (Some (EVar "c")))
  (SCase [Some 5] (SReturn (Some (ECall "toLower0500" [(EVar "c")])))
  (SCase [Some 4] (SReturn (Some (ECall "toLower0400" [(EVar "c")])))
  (SCase [Some 3] (SReturn (Some (ECall "toLower0300" [(EVar "c")])))
  (SCase [Some 2] (SReturn (Some (ECall "toLower0200" [(EVar "c")])))
  (SCase [Some 1] (SReturn (Some (ECall "toLower0100" [(EVar "c")])))
  (SSkip))))))))))
  (SSwitch (EBin Shr (EVar "c") (ELit false 12))
  (SCase [None] (SReturn (Some (EVar "c")))
  (SCase [Some 1] (SReturn (Some (ECall "toLower1000" [(EVar "c")])))
  (SCase [Some 2] (SReturn (Some (ECall "toLower2000" [(EVar "c")])))
  (SCase [Some 10] (SReturn (Some (ECall "toLowerA000" [(EVar "c")])))
  (SCase [Some 15] (SReturn (Some (ECall "toLowerF000" [(EVar "c")])))
  (SSkip))))))) |}.

(* source/bits10/char_to_lower.cxx:516-547 *)
Definition c_internal_toLower : fundef := {|
  f_name := "internal::toLower";
  f_params := [{| p_ty := TI Char32; p_ref := false; p_name := "c"; p_default := None |}];
  f_ret := TI Char32;
  f_body :=
  SSeq (SIf (EBin Lt (EVar "c") (ELit true 65536))
  (SReturn (Some (ECast (TI Char32) (ECall "toLower2" [(ECast (TI Char16) (EVar "c"))]))))
  (SIf (EAnd (EBin Ge (EVar "c") (ELit true 66560)) (EBin Le (EVar "c") (ELit true 71871)))
  (SIf (EBin Lt (EVar "c") (ELit true 66600))
  (SReturn (Some (EBin Add (EVar "c") (ELit true 40))))
  (SIf (EAnd (EBin Ge (EVar "c") (ELit true 66736)) (EBin Le (EVar "c") (ELit true 66771)))
  (SReturn (Some (EBin Add (EVar "c") (ELit true 40))))
  (SIf (EAnd (EBin Ge (EVar "c") (ELit true 68736)) (EBin Le (EVar "c") (ELit true 68786)))
  (SReturn (Some (EBin BOr (EVar "c") (ELit true 64))))
  (SIf (EAnd (EBin Ge (EVar "c") (ELit true 71840)) (EBin Lt (EVar "c") (ELit true 71872)))
  (SReturn (Some (EBin Add (EVar "c") (ELit true 32))))
  (SSkip)))))
  (SIf (EAnd (EBin Ge (EVar "c") (ELit true 125184)) (EBin Le (EVar "c") (ELit true 125217)))
  (SReturn (Some (EBin Add (EVar "c") (ELit true 34))))
  (SSkip))))
  (SReturn (Some (EVar "c"))) |}.

(* source/bits10/char_to_lower.cxx:550-558 *)
Definition c_internal_turkicToLower : fundef := {|
  f_name := "internal::turkicToLower";
  f_params := [{| p_ty := TI Char32; p_ref := false; p_name := "c"; p_default := None |}];
  f_ret := TI Char32;
  f_body :=
  SSwitch (EVar "c")
  (SCase [None] (SReturn (Some (ECall "internal::toLower" [(EVar "c")])))
  (SCase [Some 304] (SReturn (Some (ELit true 105)))
  (SCase [Some 73] (SReturn (Some (ELit true 305)))
  (SSkip)))) |}.

Definition functions : list fundef := [c_isInTheGap0003;
    c_isInTheGap0005;
    c_isInTheGap0006;
    c_isInTheGap0007;
    c_isInTheGap0008;
    c_isInTheGap0009;
    c_isInTheGap000A;
    c_isInTheGap000B;
    c_isInTheGap000C;
    c_isInTheGap000D;
    c_isInTheGap000E;
    c_isInTheGap000F;
    c_isInTheGap0010;
    c_isInTheGap0012;
    c_isInTheGap0013;
    c_isInTheGap0016;
    c_isInTheGap0017;
    c_isInTheGap0018;
    c_isInTheGap0019;
    c_isInTheGap001A;
    c_isInTheGap001B;
    c_isInTheGap001C;
    c_isInTheGap001F;
    c_isInTheGap0020;
    c_isInTheGap0021;
    c_isInTheGap0024;
    c_isInTheGap002B;
    c_isInTheGap002C;
    c_isInTheGap002D;
    c_isInTheGap002E;
    c_isInTheGap002F;
    c_isInTheGap0030;
    c_isInTheGap0031;
    c_isInTheGap0032;
    c_isInTheGap004D;
    c_isInTheGap009F;
    c_isInTheGap00A4;
    c_isInTheGap00A6;
    c_isInTheGap00A7;
    c_isInTheGap00A8;
    c_isInTheGap00A9;
    c_isInTheGap00AA;
    c_isInTheGap00AB;
    c_isInTheGap00D7_DF;
    c_isInTheGap00FA;
    c_isInTheGap00FB;
    c_isInTheGap00FD;
    c_isInTheGap00FE;
    c_isInTheGap00FF;
    c_isInTheGap0100;
    c_isInTheGap0101;
    c_isInTheGap0102;
    c_isInTheGap0103;
    c_isInTheGap0104;
    c_isInTheGap0105;
    c_isInTheGap0107;
    c_isInTheGap0108;
    c_isInTheGap0109;
    c_isInTheGap010A;
    c_isInTheGap010B;
    c_isInTheGap010C;
    c_isInTheGap010E;
    c_isInTheGap0110;
    c_isInTheGap0111;
    c_isInTheGap0112;
    c_isInTheGap0113;
    c_isInTheGap0114;
    c_isInTheGap0115;
    c_isInTheGap0116;
    c_isInTheGap0117;
    c_isInTheGap0118;
    c_isInTheGap011A;
    c_isInTheGap011C;
    c_isInTheGap011D;
    c_isInTheGap0123;
    c_isInTheGap0124;
    c_isInTheGap0125;
    c_isInTheGap0134;
    c_isInTheGap0146;
    c_isInTheGap016A;
    c_isInTheGap016B;
    c_isInTheGap016F;
    c_isInTheGap0187;
    c_isInTheGap018A;
    c_isInTheGap01B1;
    c_isInTheGap01B2;
    c_isInTheGap01BC;
    c_isInTheGap01D0;
    c_isInTheGap01D1;
    c_isInTheGap01D2;
    c_isInTheGap01D3;
    c_isInTheGap01D4;
    c_isInTheGap01D5;
    c_isInTheGap01D6;
    c_isInTheGap01D7;
    c_isInTheGap01DA;
    c_isInTheGap01E0;
    c_isInTheGap01E8;
    c_isInTheGap01E9;
    c_isInTheGap01EE;
    c_isInTheGap01F0;
    c_isInTheGap01F1;
    c_isInTheGap01F2;
    c_isInTheGap01F6;
    c_isInTheGap01F7;
    c_isInTheGap01F8;
    c_isInTheGap01F9;
    c_isInTheGap01;
    c_isInTheGap02A6;
    c_isInTheGap02B7;
    c_isInTheGap02B8;
    c_isInTheGap02CE;
    c_isInTheGap02EB;
    c_isInTheGap02FA;
    c_isInTheGap02;
    c_isInTheGap0E;
    c_isUnicodeAssigned_Char16;
    c_isUnicodeAssigned_Char32;
    c_isUnicodePrivate_Char16;
    c_isUnicodePrivate_Char32;
    c_isControlChar_Char;
    c_isControlChar_Char16;
    c_isControlChar_Char32;
    c_isWhitespaceChar_Char;
    c_isWhitespaceChar_Char16;
    c_isWhitespaceChar_Char32;
    c_toLowerC;
    c_toLower0100;
    c_toLower0200;
    c_toLower0300;
    c_toLower0400;
    c_toLower0500;
    c_toLower1000;
    c_toLower2000;
    c_toLowerA000;
    c_toLowerF000;
    c_toLower2;
    c_internal_toLower;
    c_internal_turkicToLower].

Definition version : expr := (EText Char [49; 48; 46; 48; 46; 48]).
