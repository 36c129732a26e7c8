(* Generated by tools/cxx2ast.py from the files of /repo named below; do not edit. *)
From Coq Require Import ZArith List String.
From Verif.Cxx Require Import Syntax.
Import ListNotations.
Local Open Scope string_scope.
Local Open Scope Z_scope.

(* interface/string.hxx:126-129 *)
Definition c_Pred_checkIf : fundef := {|
  f_name := "EncodingCheckPredicate::checkIf";
  f_params := [{| p_ty := TI Enum; p_ref := false; p_name := "toCheckFor"; p_default := None |}];
  f_ret := TPred;
  f_body :=
  SReturn (Some (ENew (TPred) [(EVar "toCheckFor")])) |}.

(* interface/string.hxx:131-134 *)
Definition c_Pred_checkIfNot : fundef := {|
  f_name := "EncodingCheckPredicate::checkIfNot";
  f_params := [{| p_ty := TI Enum; p_ref := false; p_name := "toCheckFor"; p_default := None |}];
  f_ret := TPred;
  f_body :=
  SReturn (Some (ENew (TPred) [(EVar "toCheckFor"); (EBool false)])) |}.

(* interface/string.hxx:152-152 *)
Definition c_Pred_ne : fundef := {|
  f_name := "EncodingCheckPredicate::operator!=";
  f_params := [{| p_ty := TPred; p_ref := false; p_name := "this"; p_default := None |};
     {| p_ty := TPred; p_ref := false; p_name := "other"; p_default := None |}];
  f_ret := TI Bool;
  f_body :=
  SReturn (Some (ENot (ECall "EncodingCheckPredicate::operator==" [EVar "this"; (EVar "other")]))) |}.

(* interface/string.hxx:192-195 *)
Definition c_validIf : fundef := {|
  f_name := "validIf";
  f_params := [{| p_ty := TI Enum; p_ref := false; p_name := "toCheckFor"; p_default := None |}];
  f_ret := TPred;
  f_body :=
  SReturn (Some (ECall "EncodingCheckPredicate::checkIf" [(EVar "toCheckFor")])) |}.

(* interface/string.hxx:197-200 *)
Definition c_validIfNot : fundef := {|
  f_name := "validIfNot";
  f_params := [{| p_ty := TI Enum; p_ref := false; p_name := "toCheckFor"; p_default := None |}];
  f_ret := TPred;
  f_body :=
  SReturn (Some (ECall "EncodingCheckPredicate::checkIfNot" [(EVar "toCheckFor")])) |}.

(* interface/string.hxx:253-257 *)
Definition c_isUtf8_sChar_Pred : fundef := {|
  f_name := "isUtf8";
  f_params := [{| p_ty := TStr Char; p_ref := false; p_name := "test"; p_default := None |};
     {| p_ty := TPred; p_ref := false; p_name := "pred"; p_default := None |}];
  f_ret := TI Bool;
  f_body :=
  SReturn (Some (ECall "isUtf8" [(EVar "test"); (EVar "kUtf8"); (EVar "pred")])) |}.

(* interface/string.hxx:267-271 *)
Definition c_isUtf8_pChar_Pred : fundef := {|
  f_name := "isUtf8";
  f_params := [{| p_ty := TPtr Char; p_ref := false; p_name := "test"; p_default := None |};
     {| p_ty := TPred; p_ref := false; p_name := "pred"; p_default := None |}];
  f_ret := TI Bool;
  f_body :=
  SReturn (Some (ECall "isUtf8" [(EVar "test"); (EVar "kUtf8"); (EVar "pred")])) |}.

(* interface/string.hxx:292-293 *)
Definition c_isUtf16_sChar16_Pred : fundef := {|
  f_name := "isUtf16";
  f_params := [{| p_ty := TStr Char16; p_ref := false; p_name := "test"; p_default := None |};
     {| p_ty := TPred; p_ref := false; p_name := "pred"; p_default := None |}];
  f_ret := TI Bool;
  f_body :=
  SReturn (Some (ECall "isUtf16" [(EVar "test"); (EVar "kUtf16"); (EVar "pred")])) |}.

(* interface/string.hxx:294-295 *)
Definition c_isUtf16_pChar16_Pred : fundef := {|
  f_name := "isUtf16";
  f_params := [{| p_ty := TPtr Char16; p_ref := false; p_name := "test"; p_default := None |};
     {| p_ty := TPred; p_ref := false; p_name := "pred"; p_default := None |}];
  f_ret := TI Bool;
  f_body :=
  SReturn (Some (ECall "isUtf16" [(EVar "test"); (EVar "kUtf16"); (EVar "pred")])) |}.

(* interface/string.hxx:307-308 *)
Definition c_isUcs2_sChar16_Pred : fundef := {|
  f_name := "isUcs2";
  f_params := [{| p_ty := TStr Char16; p_ref := false; p_name := "test"; p_default := None |};
     {| p_ty := TPred; p_ref := false; p_name := "pred"; p_default := None |}];
  f_ret := TI Bool;
  f_body :=
  SReturn (Some (ECall "isUcs2" [(EVar "test"); (EVar "kUcs2"); (EVar "pred")])) |}.

(* interface/string.hxx:309-310 *)
Definition c_isUcs2_pChar16_Pred : fundef := {|
  f_name := "isUcs2";
  f_params := [{| p_ty := TPtr Char16; p_ref := false; p_name := "test"; p_default := None |};
     {| p_ty := TPred; p_ref := false; p_name := "pred"; p_default := None |}];
  f_ret := TI Bool;
  f_body :=
  SReturn (Some (ECall "isUcs2" [(EVar "test"); (EVar "kUcs2"); (EVar "pred")])) |}.

(* interface/string.hxx:322-323 *)
Definition c_isUcs4_sChar32_Pred : fundef := {|
  f_name := "isUcs4";
  f_params := [{| p_ty := TStr Char32; p_ref := false; p_name := "test"; p_default := None |};
     {| p_ty := TPred; p_ref := false; p_name := "pred"; p_default := None |}];
  f_ret := TI Bool;
  f_body :=
  SReturn (Some (ECall "isUcs4" [(EVar "test"); (EVar "kUcs4"); (EVar "pred")])) |}.

(* interface/string.hxx:324-325 *)
Definition c_isUcs4_pChar32_Pred : fundef := {|
  f_name := "isUcs4";
  f_params := [{| p_ty := TPtr Char32; p_ref := false; p_name := "test"; p_default := None |};
     {| p_ty := TPred; p_ref := false; p_name := "pred"; p_default := None |}];
  f_ret := TI Bool;
  f_body :=
  SReturn (Some (ECall "isUcs4" [(EVar "test"); (EVar "kUcs4"); (EVar "pred")])) |}.

(* interface/string.hxx:871-877 *)
Definition c_isUtf8_pWChar32 : fundef := {|
  f_name := "isUtf8";
  f_params := [{| p_ty := TPtr WChar32; p_ref := false; p_name := "test"; p_default := None |}];
  f_ret := TI Bool;
  f_body :=
  SReturn (Some (ECall "isUcs4" [(EReinterpret Char32 (EVar "test")); (EVar "kUtf16")])) |}.

(* interface/string.hxx:878-878 *)
Definition c_isUtf8_sWChar32 : fundef := {|
  f_name := "isUtf8";
  f_params := [{| p_ty := TStr WChar32; p_ref := false; p_name := "test"; p_default := None |}];
  f_ret := TI Bool;
  f_body :=
  SReturn (Some (ECall "isUtf8" [(EMeth (EVar "test") "c_str" [])])) |}.

(* interface/string.hxx:880-883 *)
Definition c_isUtf16_pWChar32 : fundef := {|
  f_name := "isUtf16";
  f_params := [{| p_ty := TPtr WChar32; p_ref := false; p_name := "test"; p_default := None |}];
  f_ret := TI Bool;
  f_body :=
  SReturn (Some (ECall "isUcs4" [(EReinterpret Char32 (EVar "test")); (EVar "kUtf16")])) |}.

(* interface/string.hxx:884-884 *)
Definition c_isUtf16_sWChar32 : fundef := {|
  f_name := "isUtf16";
  f_params := [{| p_ty := TStr WChar32; p_ref := false; p_name := "test"; p_default := None |}];
  f_ret := TI Bool;
  f_body :=
  SReturn (Some (ECall "isUtf16" [(EMeth (EVar "test") "c_str" [])])) |}.

(* interface/string.hxx:886-889 *)
Definition c_isUcs2_pWChar32 : fundef := {|
  f_name := "isUcs2";
  f_params := [{| p_ty := TPtr WChar32; p_ref := false; p_name := "test"; p_default := None |}];
  f_ret := TI Bool;
  f_body :=
  SReturn (Some (ECall "isUcs4" [(EReinterpret Char32 (EVar "test")); (EVar "kUcs2")])) |}.

(* interface/string.hxx:890-890 *)
Definition c_isUcs2_sWChar32 : fundef := {|
  f_name := "isUcs2";
  f_params := [{| p_ty := TStr WChar32; p_ref := false; p_name := "test"; p_default := None |}];
  f_ret := TI Bool;
  f_body :=
  SReturn (Some (ECall "isUcs2" [(EMeth (EVar "test") "c_str" [])])) |}.

(* interface/string.hxx:892-898 *)
Definition c_isUcs4_pWChar32 : fundef := {|
  f_name := "isUcs4";
  f_params := [{| p_ty := TPtr WChar32; p_ref := false; p_name := "test"; p_default := None |}];
  f_ret := TI Bool;
  f_body :=
  SReturn (Some (ECall "isUcs4" [(EReinterpret Char32 (EVar "test")); (EVar "kUtf16")])) |}.

(* interface/string.hxx:899-899 *)
Definition c_isUcs4_sWChar32 : fundef := {|
  f_name := "isUcs4";
  f_params := [{| p_ty := TStr WChar32; p_ref := false; p_name := "test"; p_default := None |}];
  f_ret := TI Bool;
  f_body :=
  SReturn (Some (ECall "isUcs4" [(EMeth (EVar "test") "c_str" [])])) |}.

(* interface/string.hxx:901-904 *)
Definition c_isWstring_sChar : fundef := {|
  f_name := "isWstring";
  f_params := [{| p_ty := TStr Char; p_ref := false; p_name := "test"; p_default := None |}];
  f_ret := TI Bool;
  f_body :=
  SReturn (Some (ECall "isUtf8" [(EVar "test"); (EVar "kUtf16")])) |}.

(* interface/string.hxx:906-909 *)
Definition c_isWstring_pChar : fundef := {|
  f_name := "isWstring";
  f_params := [{| p_ty := TPtr Char; p_ref := false; p_name := "test"; p_default := None |}];
  f_ret := TI Bool;
  f_body :=
  SReturn (Some (ECall "isUtf8" [(EVar "test"); (EVar "kUtf16")])) |}.

(* interface/string.hxx:911-914 *)
Definition c_isWstring_sChar16 : fundef := {|
  f_name := "isWstring";
  f_params := [{| p_ty := TStr Char16; p_ref := false; p_name := "test"; p_default := None |}];
  f_ret := TI Bool;
  f_body :=
  SReturn (Some (ECall "isUtf16" [(EVar "test"); (EVar "kUcs4")])) |}.

(* interface/string.hxx:923-926 *)
Definition c_isWstring_pChar16 : fundef := {|
  f_name := "isWstring";
  f_params := [{| p_ty := TPtr Char16; p_ref := false; p_name := "test"; p_default := None |}];
  f_ret := TI Bool;
  f_body :=
  SReturn (Some (ECall "isUtf16" [(EVar "test"); (EVar "kUcs4")])) |}.

(* interface/string.hxx:928-931 *)
Definition c_isWstring_sChar32 : fundef := {|
  f_name := "isWstring";
  f_params := [{| p_ty := TStr Char32; p_ref := false; p_name := "test"; p_default := None |}];
  f_ret := TI Bool;
  f_body :=
  SReturn (Some (ECall "isUcs4" [(EVar "test"); (EVar "kUtf16")])) |}.

(* interface/string.hxx:933-936 *)
Definition c_isWstring_pChar32 : fundef := {|
  f_name := "isWstring";
  f_params := [{| p_ty := TPtr Char32; p_ref := false; p_name := "test"; p_default := None |}];
  f_ret := TI Bool;
  f_body :=
  SReturn (Some (ECall "isUcs4" [(EVar "test"); (EVar "kUtf16")])) |}.

(* interface/string.hxx:941-942 *)
Definition c_toUtf8_pWChar32 : fundef := {|
  f_name := "toUtf8";
  f_params := [{| p_ty := TPtr WChar32; p_ref := false; p_name := "src"; p_default := None |}];
  f_ret := TStr Char;
  f_body :=
  SReturn (Some (ECall "toUtf8" [(EReinterpret Char32 (EVar "src"))])) |}.

(* interface/string.hxx:944-945 *)
Definition c_toUtf8_sWChar32 : fundef := {|
  f_name := "toUtf8";
  f_params := [{| p_ty := TStr WChar32; p_ref := false; p_name := "src"; p_default := None |}];
  f_ret := TStr Char;
  f_body :=
  SReturn (Some (ECall "toUtf8" [(EMeth (EVar "src") "c_str" [])])) |}.

(* interface/string.hxx:947-948 *)
Definition c_toUtf16_pWChar32 : fundef := {|
  f_name := "toUtf16";
  f_params := [{| p_ty := TPtr WChar32; p_ref := false; p_name := "src"; p_default := None |}];
  f_ret := TStr Char16;
  f_body :=
  SReturn (Some (ECall "toUtf16" [(EReinterpret Char32 (EVar "src"))])) |}.

(* interface/string.hxx:950-951 *)
Definition c_toUtf16_sWChar32 : fundef := {|
  f_name := "toUtf16";
  f_params := [{| p_ty := TStr WChar32; p_ref := false; p_name := "src"; p_default := None |}];
  f_ret := TStr Char16;
  f_body :=
  SReturn (Some (ECall "toUtf16" [(EMeth (EVar "src") "c_str" [])])) |}.

(* interface/string.hxx:953-954 *)
Definition c_toUcs2_pWChar32 : fundef := {|
  f_name := "toUcs2";
  f_params := [{| p_ty := TPtr WChar32; p_ref := false; p_name := "src"; p_default := None |}];
  f_ret := TStr Char16;
  f_body :=
  SReturn (Some (ECall "toUcs2" [(EReinterpret Char32 (EVar "src"))])) |}.

(* interface/string.hxx:956-957 *)
Definition c_toUcs2_sWChar32 : fundef := {|
  f_name := "toUcs2";
  f_params := [{| p_ty := TStr WChar32; p_ref := false; p_name := "src"; p_default := None |}];
  f_ret := TStr Char16;
  f_body :=
  SReturn (Some (ECall "toUcs2" [(EMeth (EVar "src") "c_str" [])])) |}.

(* interface/string.hxx:959-969 *)
Definition c_toUcs4_pWChar32 : fundef := {|
  f_name := "toUcs4";
  f_params := [{| p_ty := TPtr WChar32; p_ref := false; p_name := "src"; p_default := None |}];
  f_ret := TStr Char32;
  f_body :=
  SIf (ECall "isUcs4" [(EReinterpret Char32 (EVar "src")); (EVar "kUtf16")])
  (SReturn (Some (ENew (TStr Char32) [(EReinterpret Char32 (EVar "src"))])))
  (SReturn (Some (ENew (TStr Char32) []))) |}.

(* interface/string.hxx:971-972 *)
Definition c_toUcs4_sWChar32 : fundef := {|
  f_name := "toUcs4";
  f_params := [{| p_ty := TStr WChar32; p_ref := false; p_name := "src"; p_default := None |}];
  f_ret := TStr Char32;
  f_body :=
  SReturn (Some (ECall "toUcs4" [(EMeth (EVar "src") "c_str" [])])) |}.

(* interface/string.hxx:974-977 *)
Definition c_toWstring_pChar : fundef := {|
  f_name := "toWstring";
  f_params := [{| p_ty := TPtr Char; p_ref := false; p_name := "src"; p_default := None |}];
  f_ret := TStr WChar32;
  f_body :=
  SReturn (Some (ENew (TStr WChar32) [(EReinterpret WChar32 (EMeth (ECall "toUcs4" [(EVar "src")]) "c_str" []))])) |}.

(* interface/string.hxx:978-981 *)
Definition c_toWstring_sChar : fundef := {|
  f_name := "toWstring";
  f_params := [{| p_ty := TStr Char; p_ref := false; p_name := "src"; p_default := None |}];
  f_ret := TStr WChar32;
  f_body :=
  SReturn (Some (ECall "toWstring" [(EMeth (EVar "src") "c_str" [])])) |}.

(* interface/string.hxx:983-986 *)
Definition c_toWstring_pChar16 : fundef := {|
  f_name := "toWstring";
  f_params := [{| p_ty := TPtr Char16; p_ref := false; p_name := "src"; p_default := None |}];
  f_ret := TStr WChar32;
  f_body :=
  SReturn (Some (ENew (TStr WChar32) [(EReinterpret WChar32 (EMeth (ECall "toUcs4" [(EVar "src")]) "c_str" []))])) |}.

(* interface/string.hxx:987-990 *)
Definition c_toWstring_sChar16 : fundef := {|
  f_name := "toWstring";
  f_params := [{| p_ty := TStr Char16; p_ref := false; p_name := "src"; p_default := None |}];
  f_ret := TStr WChar32;
  f_body :=
  SReturn (Some (ECall "toWstring" [(EMeth (EVar "src") "c_str" [])])) |}.

(* interface/string.hxx:998-1008 *)
Definition c_toWstring_pChar32 : fundef := {|
  f_name := "toWstring";
  f_params := [{| p_ty := TPtr Char32; p_ref := false; p_name := "src"; p_default := None |}];
  f_ret := TStr WChar32;
  f_body :=
  SIf (ECall "isUcs4" [(EVar "src"); (EVar "kUtf16")])
  (SReturn (Some (ENew (TStr WChar32) [(EReinterpret WChar32 (EVar "src"))])))
  (SReturn (Some (ENew (TStr WChar32) []))) |}.

(* interface/string.hxx:1010-1013 *)
Definition c_toWstring_sChar32 : fundef := {|
  f_name := "toWstring";
  f_params := [{| p_ty := TStr Char32; p_ref := false; p_name := "src"; p_default := None |}];
  f_ret := TStr WChar32;
  f_body :=
  SReturn (Some (ECall "toWstring" [(EMeth (EVar "src") "c_str" [])])) |}.

(* source/string_internal.hxx:118-118 *)
Definition c_isUnicodeAssigned : fundef := {|
  f_name := "isUnicodeAssigned";
  f_params := [{| p_ty := TI Char; p_ref := false; p_name := "_"; p_default := None |}];
  f_ret := TI Bool;
  f_body :=
  SReturn (Some (EBool true)) |}.

(* source/string_internal.hxx:122-122 *)
Definition c_isUnicodePrivate : fundef := {|
  f_name := "isUnicodePrivate";
  f_params := [{| p_ty := TI Char; p_ref := false; p_name := "_"; p_default := None |}];
  f_ret := TI Bool;
  f_body :=
  SReturn (Some (EBool false)) |}.

(* source/string_internal.hxx:137-147 *)
Definition c_getUnicodeEncodableRangeFlag : fundef := {|
  f_name := "getUnicodeEncodableRangeFlag";
  f_params := [{| p_ty := TC; p_ref := false; p_name := "c"; p_default := None |}];
  f_ret := TI Enum;
  f_body :=
  SSeq (SIf (EOr (EBin Eq ESizeof (ELit false 1)) (EAnd (EAnd (EBin Ne (EVar "c") (ELit false 0)) (EOr (EBin Lt (EVar "c") (ELit true 55296)) (EBin Gt (EVar "c") (ELit true 57343)))) (EBin Lt (EVar "c") (ELit true 1114112))))
  (SReturn (Some (EVar "kUnicodeFlag")))
  (SSkip))
  (SReturn (Some (EVar "kNoFlag"))) |}.

(* source/string_internal.hxx:153-182 *)
Definition c_getCharEncodableRangeFlags : fundef := {|
  f_name := "getCharEncodableRangeFlags";
  f_params := [{| p_ty := TC; p_ref := false; p_name := "c"; p_default := None |}];
  f_ret := TI Enum;
  f_body :=
  SIf (EBin Eq ESizeof (ELit false 1))
  (SReturn (Some (ECond (EBin Eq (EBin BAnd (EVar "c") (ELit true 128)) (ELit false 0)) (EVar "k7BitFlags") (EVar "k16BitFlags"))))
  (SIf (EBin Le (EVar "c") (ELit true 127))
  (SReturn (Some (EVar "k7BitFlags")))
  (SIf (EAnd (EBin Ge (EVar "c") (ELit true 55296)) (EBin Le (EVar "c") (ELit true 57343)))
  (SReturn (Some (EVar "kInvalidRangeFlag")))
  (SIf (EBin Lt (EVar "c") (ELit true 65536))
  (SReturn (Some (EVar "k16BitFlags")))
  (SIf (EBin Lt (EVar "c") (ELit true 2097152))
  (SReturn (Some (ECast (TI Enum) (EBin BOr (EVar "k21BitFlags") (ECall "getUnicodeEncodableRangeFlag" [(EVar "c")])))))
  (SReturn (Some (ECond (EBin Eq (EBin BAnd (EVar "c") (ELit true 2147483648)) (ELit false 0)) (EVar "k31BitFlags") (EVar "k32BitFlags")))))))) |}.

(* source/string_internal.hxx:188-217 *)
Definition c_getRangeFlag_Char : fundef := {|
  f_name := "getRangeFlag";
  f_params := [{| p_ty := TI Char; p_ref := false; p_name := "firstChar"; p_default := None |}];
  f_ret := TI Enum;
  f_body :=
  SSeq (SDecl (TAuto) "f" (Some (ECast (TI UChar) (EVar "firstChar"))))
  (SSeq (SIf (EBin Le (EVar "f") (ELit true 127))
  (SReturn (Some (EVar "k7BitFlags")))
  (SIf (EBin Le (EVar "f") (ELit true 191))
  (SReturn (Some (EVar "kInvalidRangeFlag")))
  (SIf (EBin Le (EVar "f") (ELit true 239))
  (SReturn (Some (EVar "k16BitFlags")))
  (SIf (EAnd (EBin Ge (EVar "f") (ELit true 240)) (EBin Le (EVar "f") (ELit true 244)))
  (SReturn (Some (EVar "k21BitUnicodeFlags")))
  (SIf (EAnd (EBin Ge (EVar "f") (ELit true 245)) (EBin Le (EVar "f") (ELit true 253)))
  (SReturn (Some (EVar "k31BitFlags")))
  (SSkip))))))
  (SReturn (Some (EVar "kInvalidRangeFlag")))) |}.

(* source/string_internal.hxx:223-239 *)
Definition c_getRangeFlag_Char16 : fundef := {|
  f_name := "getRangeFlag";
  f_params := [{| p_ty := TI Char16; p_ref := false; p_name := "firstChar"; p_default := None |}];
  f_ret := TI Enum;
  f_body :=
  SSeq (SIf (EAnd (EBin Ge (EVar "firstChar") (ELit true 55296)) (EBin Le (EVar "firstChar") (ELit true 56319)))
  (SReturn (Some (EVar "k21BitUnicodeFlags")))
  (SIf (EAnd (EBin Ge (EVar "firstChar") (ELit true 56320)) (EBin Le (EVar "firstChar") (ELit true 57343)))
  (SReturn (Some (EVar "kInvalidRangeFlag")))
  (SIf (EBin Le (EVar "firstChar") (ELit true 127))
  (SReturn (Some (EVar "k7BitFlags")))
  (SSkip))))
  (SReturn (Some (EVar "k16BitFlags"))) |}.

(* source/string_internal.hxx:245-254 *)
Definition c_charToEncodingTypeMask : fundef := {|
  f_name := "charToEncodingTypeMask";
  f_params := [{| p_ty := TC; p_ref := false; p_name := "c"; p_default := None |}];
  f_ret := TI UInt;
  f_body :=
  SReturn (Some (EBin BOr (EBin BOr (EBin BOr (ECond (ECall "isUnicodeAssigned" [(EVar "c")]) (EVar "kIsAssignedFlag") (ELit false 0)) (ECond (ECall "isUnicodePrivate" [(EVar "c")]) (EVar "kIsPrivateFlag") (ELit false 0))) (ECond (ECall "isControlChar" [(EVar "c")]) (EVar "kIsControlFlag") (ELit false 0))) (ECond (ECall "isWhitespaceChar" [(EVar "c")]) (EVar "kIsWhiteSpaceFlag") (ELit false 0)))) |}.

(* source/string_internal.hxx:262-271 *)
Definition c_isFirstHalfUtf16 : fundef := {|
  f_name := "isFirstHalfUtf16";
  f_params := [{| p_ty := TC; p_ref := false; p_name := "c"; p_default := None |}];
  f_ret := TI Bool;
  f_body :=
  SReturn (Some (EAnd (EBin Ge (EVar "c") (ELit true 55296)) (EBin Le (EVar "c") (ELit true 56319)))) |}.

(* source/string_internal.hxx:279-288 *)
Definition c_isSecondHalfUtf16 : fundef := {|
  f_name := "isSecondHalfUtf16";
  f_params := [{| p_ty := TC; p_ref := false; p_name := "c"; p_default := None |}];
  f_ret := TI Bool;
  f_body :=
  SReturn (Some (EAnd (EBin Ge (EVar "c") (ELit true 56320)) (EBin Le (EVar "c") (ELit true 57343)))) |}.

(* source/string_internal.hxx:293-297 *)
Definition c_rawDecodeUtf8_Char_Char : fundef := {|
  f_name := "rawDecodeUtf8";
  f_params := [{| p_ty := TI Char; p_ref := false; p_name := "c0"; p_default := None |};
     {| p_ty := TI Char; p_ref := false; p_name := "c1"; p_default := None |}];
  f_ret := TI Char16;
  f_body :=
  SSeq (SSeq (SDecl (TI UChar) "uc0" (Some (EVar "c0")))
  (SDecl (TI UChar) "uc1" (Some (EVar "c1"))))
  (SReturn (Some (EBin Add (EBin Shl (EBin BAnd (EVar "uc0") (ELit true 31)) (ELit false 6)) (EBin BAnd (EVar "uc1") (ELit true 63))))) |}.

(* source/string_internal.hxx:303-307 *)
Definition c_rawDecodeUtf8_Char_Char_Char : fundef := {|
  f_name := "rawDecodeUtf8";
  f_params := [{| p_ty := TI Char; p_ref := false; p_name := "c0"; p_default := None |};
     {| p_ty := TI Char; p_ref := false; p_name := "c1"; p_default := None |};
     {| p_ty := TI Char; p_ref := false; p_name := "c2"; p_default := None |}];
  f_ret := TI Char16;
  f_body :=
  SSeq (SSeq (SDecl (TI UChar) "uc0" (Some (EVar "c0")))
  (SSeq (SDecl (TI UChar) "uc1" (Some (EVar "c1")))
  (SDecl (TI UChar) "uc2" (Some (EVar "c2")))))
  (SReturn (Some (EBin Add (EBin Add (EBin Shl (EBin BAnd (EVar "uc0") (ELit true 15)) (ELit false 12)) (EBin Shl (EBin BAnd (EVar "uc1") (ELit true 63)) (ELit false 6))) (EBin BAnd (EVar "uc2") (ELit true 63))))) |}.

(* source/string_internal.hxx:313-318 *)
Definition c_rawDecodeUtf8_Char_Char_Char_Char : fundef := {|
  f_name := "rawDecodeUtf8";
  f_params := [{| p_ty := TI Char; p_ref := false; p_name := "c0"; p_default := None |};
     {| p_ty := TI Char; p_ref := false; p_name := "c1"; p_default := None |};
     {| p_ty := TI Char; p_ref := false; p_name := "c2"; p_default := None |};
     {| p_ty := TI Char; p_ref := false; p_name := "c3"; p_default := None |}];
  f_ret := TI Char32;
  f_body :=
  SSeq (SSeq (SDecl (TI UChar) "uc0" (Some (EVar "c0")))
  (SSeq (SDecl (TI UChar) "uc1" (Some (EVar "c1")))
  (SSeq (SDecl (TI UChar) "uc2" (Some (EVar "c2")))
  (SDecl (TI UChar) "uc3" (Some (EVar "c3"))))))
  (SReturn (Some (EBin Add (EBin Add (EBin Add (EBin Shl (EBin BAnd (EVar "uc0") (ELit true 7)) (ELit false 18)) (EBin Shl (EBin BAnd (EVar "uc1") (ELit true 63)) (ELit false 12))) (EBin Shl (EBin BAnd (EVar "uc2") (ELit true 63)) (ELit false 6))) (EBin BAnd (EVar "uc3") (ELit true 63))))) |}.

(* source/string_internal.hxx:324-330 *)
Definition c_rawDecodeUtf8_Char_Char_Char_Char_Char : fundef := {|
  f_name := "rawDecodeUtf8";
  f_params := [{| p_ty := TI Char; p_ref := false; p_name := "c0"; p_default := None |};
     {| p_ty := TI Char; p_ref := false; p_name := "c1"; p_default := None |};
     {| p_ty := TI Char; p_ref := false; p_name := "c2"; p_default := None |};
     {| p_ty := TI Char; p_ref := false; p_name := "c3"; p_default := None |};
     {| p_ty := TI Char; p_ref := false; p_name := "c4"; p_default := None |}];
  f_ret := TI Char32;
  f_body :=
  SSeq (SSeq (SDecl (TI UChar) "uc0" (Some (EVar "c0")))
  (SSeq (SDecl (TI UChar) "uc1" (Some (EVar "c1")))
  (SSeq (SDecl (TI UChar) "uc2" (Some (EVar "c2")))
  (SSeq (SDecl (TI UChar) "uc3" (Some (EVar "c3")))
  (SDecl (TI UChar) "uc4" (Some (EVar "c4")))))))
  (SSeq (SSeq (SDecl (TI Char32) "wc0" (Some (EVar "uc0")))
  (SSeq (SDecl (TI Char32) "wc1" (Some (EVar "uc1")))
  (SSeq (SDecl (TI Char32) "wc2" (Some (EVar "uc2")))
  (SSeq (SDecl (TI Char32) "wc3" (Some (EVar "uc3")))
  (SDecl (TI Char32) "wc4" (Some (EVar "uc4")))))))
  (SReturn (Some (EBin Add (EBin Add (EBin Add (EBin Add (EBin Shl (EBin BAnd (EVar "wc0") (ELit true 3)) (ELit false 24)) (EBin Shl (EBin BAnd (EVar "wc1") (ELit true 63)) (ELit false 18))) (EBin Shl (EBin BAnd (EVar "wc2") (ELit true 63)) (ELit false 12))) (EBin Shl (EBin BAnd (EVar "wc3") (ELit true 63)) (ELit false 6))) (EBin BAnd (EVar "wc4") (ELit true 63)))))) |}.

(* source/string_internal.hxx:336-342 *)
Definition c_rawDecodeUtf8_Char_Char_Char_Char_Char_Char : fundef := {|
  f_name := "rawDecodeUtf8";
  f_params := [{| p_ty := TI Char; p_ref := false; p_name := "c0"; p_default := None |};
     {| p_ty := TI Char; p_ref := false; p_name := "c1"; p_default := None |};
     {| p_ty := TI Char; p_ref := false; p_name := "c2"; p_default := None |};
     {| p_ty := TI Char; p_ref := false; p_name := "c3"; p_default := None |};
     {| p_ty := TI Char; p_ref := false; p_name := "c4"; p_default := None |};
     {| p_ty := TI Char; p_ref := false; p_name := "c5"; p_default := None |}];
  f_ret := TI Char32;
  f_body :=
  SSeq (SSeq (SDecl (TI UChar) "uc0" (Some (EVar "c0")))
  (SSeq (SDecl (TI UChar) "uc1" (Some (EVar "c1")))
  (SSeq (SDecl (TI UChar) "uc2" (Some (EVar "c2")))
  (SSeq (SDecl (TI UChar) "uc3" (Some (EVar "c3")))
  (SSeq (SDecl (TI UChar) "uc4" (Some (EVar "c4")))
  (SDecl (TI UChar) "uc5" (Some (EVar "c5"))))))))
  (SSeq (SSeq (SDecl (TI Char32) "wc0" (Some (EVar "uc0")))
  (SSeq (SDecl (TI Char32) "wc1" (Some (EVar "uc1")))
  (SSeq (SDecl (TI Char32) "wc2" (Some (EVar "uc2")))
  (SSeq (SDecl (TI Char32) "wc3" (Some (EVar "uc3")))
  (SSeq (SDecl (TI Char32) "wc4" (Some (EVar "uc4")))
  (SDecl (TI Char32) "wc5" (Some (EVar "uc5"))))))))
  (SReturn (Some (EBin Add (EBin Add (EBin Add (EBin Add (EBin Add (EBin Shl (EBin BAnd (EVar "wc0") (ELit true 1)) (ELit false 30)) (EBin Shl (EBin BAnd (EVar "wc1") (ELit true 63)) (ELit false 24))) (EBin Shl (EBin BAnd (EVar "wc2") (ELit true 63)) (ELit false 18))) (EBin Shl (EBin BAnd (EVar "wc3") (ELit true 63)) (ELit false 12))) (EBin Shl (EBin BAnd (EVar "wc4") (ELit true 63)) (ELit false 6))) (EBin BAnd (EVar "wc5") (ELit true 63)))))) |}.

(* source/string_internal.hxx:354-402 *)
Definition c_encodeUtf8 : fundef := {|
  f_name := "encodeUtf8";
  f_params := [{| p_ty := TC; p_ref := false; p_name := "c"; p_default := None |};
     {| p_ty := TAdder Char; p_ref := true; p_name := "adder"; p_default := None |}];
  f_ret := TVoid;
  f_body :=
  SIf (EBin Eq (EBin BAnd (EVar "c") (ELit true 4294967168)) (ELit false 0))
  (SExpr (ECall "adder" [(ECast (TI Char) (EVar "c"))]))
  (SIf (EBin Le (EVar "c") (ELit true 2047))
  (SSeq (SExpr (ECall "adder" [(ECast (TI Char) (EBin BOr (EBin BAnd (EBin Shr (EVar "c") (ELit false 6)) (ELit true 31)) (ELit true 192)))]))
  (SExpr (ECall "adder" [(ECast (TI Char) (EBin BOr (EBin BAnd (EVar "c") (ELit true 63)) (ELit true 128)))])))
  (SIf (EBin Le (EVar "c") (ELit true 65535))
  (SSeq (SExpr (ECall "adder" [(ECast (TI Char) (EBin BOr (EBin BAnd (EBin Shr (EVar "c") (ELit false 12)) (ELit true 15)) (ELit true 224)))]))
  (SSeq (SExpr (ECall "adder" [(ECast (TI Char) (EBin BOr (EBin BAnd (EBin Shr (EVar "c") (ELit false 6)) (ELit true 63)) (ELit true 128)))]))
  (SExpr (ECall "adder" [(ECast (TI Char) (EBin BOr (EBin BAnd (EVar "c") (ELit true 63)) (ELit true 128)))]))))
  (SIf (EBin Le (EVar "c") (ELit true 2097151))
  (SSeq (SExpr (ECall "adder" [(ECast (TI Char) (EBin BOr (EBin BAnd (EBin Shr (EVar "c") (ELit false 18)) (ELit true 7)) (ELit true 240)))]))
  (SSeq (SExpr (ECall "adder" [(ECast (TI Char) (EBin BOr (EBin BAnd (EBin Shr (EVar "c") (ELit false 12)) (ELit true 63)) (ELit true 128)))]))
  (SSeq (SExpr (ECall "adder" [(ECast (TI Char) (EBin BOr (EBin BAnd (EBin Shr (EVar "c") (ELit false 6)) (ELit true 63)) (ELit true 128)))]))
  (SExpr (ECall "adder" [(ECast (TI Char) (EBin BOr (EBin BAnd (EVar "c") (ELit true 63)) (ELit true 128)))])))))
  (SIf (EBin Le (EVar "c") (ELit true 67108863))
  (SSeq (SExpr (ECall "adder" [(ECast (TI Char) (EBin BOr (EBin BAnd (EBin Shr (EVar "c") (ELit false 24)) (ELit true 3)) (ELit true 248)))]))
  (SSeq (SExpr (ECall "adder" [(ECast (TI Char) (EBin BOr (EBin BAnd (EBin Shr (EVar "c") (ELit false 18)) (ELit true 63)) (ELit true 128)))]))
  (SSeq (SExpr (ECall "adder" [(ECast (TI Char) (EBin BOr (EBin BAnd (EBin Shr (EVar "c") (ELit false 12)) (ELit true 63)) (ELit true 128)))]))
  (SSeq (SExpr (ECall "adder" [(ECast (TI Char) (EBin BOr (EBin BAnd (EBin Shr (EVar "c") (ELit false 6)) (ELit true 63)) (ELit true 128)))]))
  (SExpr (ECall "adder" [(ECast (TI Char) (EBin BOr (EBin BAnd (EVar "c") (ELit true 63)) (ELit true 128)))]))))))
  (SIf (EBin Le (EVar "c") (ELit true 2147483647))
  (SSeq (SExpr (ECall "adder" [(ECast (TI Char) (EBin BOr (EBin BAnd (EBin Shr (EVar "c") (ELit false 30)) (ELit true 1)) (ELit true 252)))]))
  (SSeq (SExpr (ECall "adder" [(ECast (TI Char) (EBin BOr (EBin BAnd (EBin Shr (EVar "c") (ELit false 24)) (ELit true 63)) (ELit true 128)))]))
  (SSeq (SExpr (ECall "adder" [(ECast (TI Char) (EBin BOr (EBin BAnd (EBin Shr (EVar "c") (ELit false 18)) (ELit true 63)) (ELit true 128)))]))
  (SSeq (SExpr (ECall "adder" [(ECast (TI Char) (EBin BOr (EBin BAnd (EBin Shr (EVar "c") (ELit false 12)) (ELit true 63)) (ELit true 128)))]))
  (SSeq (SExpr (ECall "adder" [(ECast (TI Char) (EBin BOr (EBin BAnd (EBin Shr (EVar "c") (ELit false 6)) (ELit true 63)) (ELit true 128)))]))
  (SExpr (ECall "adder" [(ECast (TI Char) (EBin BOr (EBin BAnd (EVar "c") (ELit true 63)) (ELit true 128)))])))))))
  (SSkip)))))) |}.

(* source/string_internal.hxx:412-420 *)
Definition c_rawDecodeUtf16 : fundef := {|
  f_name := "rawDecodeUtf16";
  f_params := [{| p_ty := TI Char16; p_ref := false; p_name := "c0"; p_default := None |};
     {| p_ty := TI Char16; p_ref := false; p_name := "c1"; p_default := None |}];
  f_ret := TI Char32;
  f_body :=
  SSeq (SSeq (SDecl (TI Char32) "wc0" (Some (EVar "c0")))
  (SDecl (TI Char32) "wc1" (Some (EVar "c1"))))
  (SReturn (Some (EBin Add (EBin Add (ELit true 65536) (EBin Shl (EBin BAnd (EVar "wc0") (ELit true 1023)) (ELit false 10))) (EBin BAnd (EVar "wc1") (ELit true 1023))))) |}.

(* source/string_internal.hxx:426-445 *)
Definition c_rawEncodeUtf16 : fundef := {|
  f_name := "rawEncodeUtf16";
  f_params := [{| p_ty := TC; p_ref := false; p_name := "c"; p_default := None |};
     {| p_ty := TAdder Char16; p_ref := true; p_name := "adder"; p_default := None |}];
  f_ret := TVoid;
  f_body :=
  SIf (EBin Lt (EVar "c") (ELit true 65536))
  (SExpr (ECall "adder" [(ECast (TI Char16) (EVar "c"))]))
  (SSeq (SExpr (EOpAssign Sub "c" (ELit true 65536)))
  (SSeq (SExpr (ECall "adder" [(ECast (TI Char16) (EBin Add (ELit true 55296) (EBin BAnd (EBin Shr (EVar "c") (ELit false 10)) (ELit true 1023))))]))
  (SExpr (ECall "adder" [(ECast (TI Char16) (EBin Add (ELit true 56320) (EBin BAnd (EVar "c") (ELit true 1023))))])))) |}.

(* source/string_decode_utf8.cxx:78-201 *)
Definition c_decodeUtf8 : fundef := {|
  f_name := "decodeUtf8";
  f_params := [{| p_ty := TPtr Char; p_ref := true; p_name := "p"; p_default := None |}];
  f_ret := TI Char32;
  f_body :=
  SSeq (SDecl (TAuto) "uc" (Some (ECast (TI UChar) (EDeref (EVar "p")))))
  (SIf (EBin Le (EVar "uc") (ELit true 127))
  (SReturn (Some (EVar "uc")))
  (SIf (EBin Le (EVar "uc") (ELit true 191))
  (SSeq (SExpr (EAssign "p" ENull))
  (SReturn (Some (ELit false 0))))
  (SIf (EBin Le (EVar "uc") (ELit true 223))
  (SSeq (SDecl (TAuto) "uc1" (Some (ECast (TI UChar) (EDeref (EPreInc "p")))))
  (SSeq (SIf (EBin Eq (EVar "uc1") (ELit false 0))
  (SReturn (Some (ELit false 0)))
  (SSkip))
  (SSeq (SIf (EOr (EBin Lt (EVar "uc1") (ELit true 128)) (EBin Gt (EVar "uc1") (ELit true 191)))
  (SSeq (SExpr (EAssign "p" ENull))
  (SReturn (Some (ELit false 0))))
  (SSkip))
  (SSeq (SDecl (TAuto) "r" (Some (ECall "rawDecodeUtf8" [(EVar "uc"); (EVar "uc1")])))
  (SSeq (SIf (EBin Lt (EVar "r") (ELit true 128))
  (SSeq (SExpr (EAssign "p" ENull))
  (SReturn (Some (ELit false 0))))
  (SSkip))
  (SReturn (Some (EVar "r"))))))))
  (SIf (EBin Le (EVar "uc") (ELit true 239))
  (SSeq (SDecl (TAuto) "uc1" (Some (ECast (TI UChar) (EDeref (EPreInc "p")))))
  (SSeq (SIf (EBin Eq (EVar "uc1") (ELit false 0))
  (SReturn (Some (ELit false 0)))
  (SSkip))
  (SSeq (SIf (EOr (EBin Lt (EVar "uc1") (ELit true 128)) (EBin Gt (EVar "uc1") (ELit true 191)))
  (SSeq (SExpr (EAssign "p" ENull))
  (SReturn (Some (ELit false 0))))
  (SSkip))
  (SSeq (SDecl (TAuto) "uc2" (Some (ECast (TI UChar) (EDeref (EPreInc "p")))))
  (SSeq (SIf (EBin Eq (EVar "uc2") (ELit false 0))
  (SReturn (Some (ELit false 0)))
  (SSkip))
  (SSeq (SIf (EOr (EBin Lt (EVar "uc2") (ELit true 128)) (EBin Gt (EVar "uc2") (ELit true 191)))
  (SSeq (SExpr (EAssign "p" ENull))
  (SReturn (Some (ELit false 0))))
  (SSkip))
  (SSeq (SDecl (TI Char32) "w" (Some (ECall "rawDecodeUtf8" [(EVar "uc"); (EVar "uc1"); (EVar "uc2")])))
  (SIf (ECall "isFirstHalfUtf16" [(EVar "w")])
  (SSeq (SDecl (TAuto) "uc3" (Some (ECast (TI UChar) (EDeref (EPreInc "p")))))
  (SSeq (SIf (EBin Eq (EVar "uc3") (ELit false 0))
  (SReturn (Some (ELit false 0)))
  (SSkip))
  (SSeq (SIf (EOr (EBin Lt (EVar "uc3") (ELit true 224)) (EBin Gt (EVar "uc3") (ELit true 239)))
  (SSeq (SExpr (EAssign "p" ENull))
  (SReturn (Some (ELit false 0))))
  (SSkip))
  (SSeq (SDecl (TAuto) "uc4" (Some (ECast (TI UChar) (EDeref (EPreInc "p")))))
  (SSeq (SIf (EBin Eq (EVar "uc4") (ELit false 0))
  (SReturn (Some (ELit false 0)))
  (SSkip))
  (SSeq (SIf (EOr (EBin Lt (EVar "uc4") (ELit true 128)) (EBin Gt (EVar "uc4") (ELit true 191)))
  (SSeq (SExpr (EAssign "p" ENull))
  (SReturn (Some (ELit false 0))))
  (SSkip))
  (SSeq (SDecl (TAuto) "uc5" (Some (ECast (TI UChar) (EDeref (EPreInc "p")))))
  (SSeq (SIf (EBin Eq (EVar "uc5") (ELit false 0))
  (SReturn (Some (ELit false 0)))
  (SSkip))
  (SSeq (SIf (EOr (EBin Lt (EVar "uc5") (ELit true 128)) (EBin Gt (EVar "uc5") (ELit true 191)))
  (SSeq (SExpr (EAssign "p" ENull))
  (SReturn (Some (ELit false 0))))
  (SSkip))
  (SSeq (SDecl (TI Char32) "w2" (Some (ECall "rawDecodeUtf8" [(EVar "uc3"); (EVar "uc4"); (EVar "uc5")])))
  (SIf (ECall "isSecondHalfUtf16" [(EVar "w2")])
  (SReturn (Some (EBin Add (EBin Add (ELit true 65536) (EBin Shl (EBin BAnd (EVar "w") (ELit true 1023)) (ELit false 10))) (EBin BAnd (EVar "w2") (ELit true 1023)))))
  (SSeq (SExpr (EAssign "p" ENull))
  (SReturn (Some (ELit false 0)))))))))))))))
  (SIf (EOr (EBin Lt (EVar "w") (ELit true 2048)) (ECall "isSecondHalfUtf16" [(EVar "w")]))
  (SSeq (SExpr (EAssign "p" ENull))
  (SReturn (Some (ELit false 0))))
  (SReturn (Some (EVar "w"))))))))))))
  (SIf (EBin Le (EVar "uc") (ELit true 247))
  (SSeq (SDecl (TAuto) "uc1" (Some (ECast (TI UChar) (EDeref (EPreInc "p")))))
  (SSeq (SIf (EBin Eq (EVar "uc1") (ELit false 0))
  (SReturn (Some (ELit false 0)))
  (SSkip))
  (SSeq (SIf (EOr (EBin Lt (EVar "uc1") (ELit true 128)) (EBin Gt (EVar "uc1") (ELit true 191)))
  (SSeq (SExpr (EAssign "p" ENull))
  (SReturn (Some (ELit false 0))))
  (SSkip))
  (SSeq (SDecl (TAuto) "uc2" (Some (ECast (TI UChar) (EDeref (EPreInc "p")))))
  (SSeq (SIf (EBin Eq (EVar "uc2") (ELit false 0))
  (SReturn (Some (ELit false 0)))
  (SSkip))
  (SSeq (SIf (EOr (EBin Lt (EVar "uc2") (ELit true 128)) (EBin Gt (EVar "uc2") (ELit true 191)))
  (SSeq (SExpr (EAssign "p" ENull))
  (SReturn (Some (ELit false 0))))
  (SSkip))
  (SSeq (SDecl (TAuto) "uc3" (Some (ECast (TI UChar) (EDeref (EPreInc "p")))))
  (SSeq (SIf (EBin Eq (EVar "uc3") (ELit false 0))
  (SReturn (Some (ELit false 0)))
  (SSkip))
  (SSeq (SIf (EOr (EBin Lt (EVar "uc3") (ELit true 128)) (EBin Gt (EVar "uc3") (ELit true 191)))
  (SSeq (SExpr (EAssign "p" ENull))
  (SReturn (Some (ELit false 0))))
  (SSkip))
  (SSeq (SDecl (TAuto) "r" (Some (ECall "rawDecodeUtf8" [(EVar "uc"); (EVar "uc1"); (EVar "uc2"); (EVar "uc3")])))
  (SSeq (SIf (EBin Lt (EVar "r") (ELit true 65536))
  (SSeq (SExpr (EAssign "p" ENull))
  (SReturn (Some (ELit false 0))))
  (SSkip))
  (SReturn (Some (EVar "r"))))))))))))))
  (SIf (EBin Le (EVar "uc") (ELit true 251))
  (SSeq (SDecl (TAuto) "uc1" (Some (ECast (TI UChar) (EDeref (EPreInc "p")))))
  (SSeq (SIf (EBin Eq (EVar "uc1") (ELit false 0))
  (SReturn (Some (ELit false 0)))
  (SSkip))
  (SSeq (SIf (EOr (EBin Lt (EVar "uc1") (ELit true 128)) (EBin Gt (EVar "uc1") (ELit true 191)))
  (SSeq (SExpr (EAssign "p" ENull))
  (SReturn (Some (ELit false 0))))
  (SSkip))
  (SSeq (SDecl (TAuto) "uc2" (Some (ECast (TI UChar) (EDeref (EPreInc "p")))))
  (SSeq (SIf (EBin Eq (EVar "uc2") (ELit false 0))
  (SReturn (Some (ELit false 0)))
  (SSkip))
  (SSeq (SIf (EOr (EBin Lt (EVar "uc2") (ELit true 128)) (EBin Gt (EVar "uc2") (ELit true 191)))
  (SSeq (SExpr (EAssign "p" ENull))
  (SReturn (Some (ELit false 0))))
  (SSkip))
  (SSeq (SDecl (TAuto) "uc3" (Some (ECast (TI UChar) (EDeref (EPreInc "p")))))
  (SSeq (SIf (EBin Eq (EVar "uc3") (ELit false 0))
  (SReturn (Some (ELit false 0)))
  (SSkip))
  (SSeq (SIf (EOr (EBin Lt (EVar "uc3") (ELit true 128)) (EBin Gt (EVar "uc3") (ELit true 191)))
  (SSeq (SExpr (EAssign "p" ENull))
  (SReturn (Some (ELit false 0))))
  (SSkip))
  (SSeq (SDecl (TAuto) "uc4" (Some (ECast (TI UChar) (EDeref (EPreInc "p")))))
  (SSeq (SIf (EBin Eq (EVar "uc4") (ELit false 0))
  (SReturn (Some (ELit false 0)))
  (SSkip))
  (SSeq (SIf (EOr (EBin Lt (EVar "uc4") (ELit true 128)) (EBin Gt (EVar "uc4") (ELit true 191)))
  (SSeq (SExpr (EAssign "p" ENull))
  (SReturn (Some (ELit false 0))))
  (SSkip))
  (SSeq (SDecl (TAuto) "r" (Some (ECall "rawDecodeUtf8" [(EVar "uc"); (EVar "uc1"); (EVar "uc2"); (EVar "uc3"); (EVar "uc4")])))
  (SSeq (SIf (EBin Lt (EVar "r") (ELit true 2097152))
  (SSeq (SExpr (EAssign "p" ENull))
  (SReturn (Some (ELit false 0))))
  (SSkip))
  (SReturn (Some (EVar "r")))))))))))))))))
  (SIf (EBin Le (EVar "uc") (ELit true 253))
  (SSeq (SDecl (TAuto) "uc1" (Some (ECast (TI UChar) (EDeref (EPreInc "p")))))
  (SSeq (SIf (EBin Eq (EVar "uc1") (ELit false 0))
  (SReturn (Some (ELit false 0)))
  (SSkip))
  (SSeq (SIf (EOr (EBin Lt (EVar "uc1") (ELit true 128)) (EBin Gt (EVar "uc1") (ELit true 191)))
  (SSeq (SExpr (EAssign "p" ENull))
  (SReturn (Some (ELit false 0))))
  (SSkip))
  (SSeq (SDecl (TAuto) "uc2" (Some (ECast (TI UChar) (EDeref (EPreInc "p")))))
  (SSeq (SIf (EBin Eq (EVar "uc2") (ELit false 0))
  (SReturn (Some (ELit false 0)))
  (SSkip))
  (SSeq (SIf (EOr (EBin Lt (EVar "uc2") (ELit true 128)) (EBin Gt (EVar "uc2") (ELit true 191)))
  (SSeq (SExpr (EAssign "p" ENull))
  (SReturn (Some (ELit false 0))))
  (SSkip))
  (SSeq (SDecl (TAuto) "uc3" (Some (ECast (TI UChar) (EDeref (EPreInc "p")))))
  (SSeq (SIf (EBin Eq (EVar "uc3") (ELit false 0))
  (SReturn (Some (ELit false 0)))
  (SSkip))
  (SSeq (SIf (EOr (EBin Lt (EVar "uc3") (ELit true 128)) (EBin Gt (EVar "uc3") (ELit true 191)))
  (SSeq (SExpr (EAssign "p" ENull))
  (SReturn (Some (ELit false 0))))
  (SSkip))
  (SSeq (SDecl (TAuto) "uc4" (Some (ECast (TI UChar) (EDeref (EPreInc "p")))))
  (SSeq (SIf (EBin Eq (EVar "uc4") (ELit false 0))
  (SReturn (Some (ELit false 0)))
  (SSkip))
  (SSeq (SIf (EOr (EBin Lt (EVar "uc4") (ELit true 128)) (EBin Gt (EVar "uc4") (ELit true 191)))
  (SSeq (SExpr (EAssign "p" ENull))
  (SReturn (Some (ELit false 0))))
  (SSkip))
  (SSeq (SDecl (TAuto) "uc5" (Some (ECast (TI UChar) (EDeref (EPreInc "p")))))
  (SSeq (SIf (EBin Eq (EVar "uc5") (ELit false 0))
  (SReturn (Some (ELit false 0)))
  (SSkip))
  (SSeq (SIf (EOr (EBin Lt (EVar "uc5") (ELit true 128)) (EBin Gt (EVar "uc5") (ELit true 191)))
  (SSeq (SExpr (EAssign "p" ENull))
  (SReturn (Some (ELit false 0))))
  (SSkip))
  (SSeq (SDecl (TAuto) "r" (Some (ECall "rawDecodeUtf8" [(EVar "uc"); (EVar "uc1"); (EVar "uc2"); (EVar "uc3"); (EVar "uc4"); (EVar "uc5")])))
  (SSeq (SIf (EBin Lt (EVar "r") (ELit true 67108864))
  (SSeq (SExpr (EAssign "p" ENull))
  (SReturn (Some (ELit false 0))))
  (SSkip))
  (SReturn (Some (EVar "r"))))))))))))))))))))
  (SSeq (SExpr (EAssign "p" ENull))
  (SReturn (Some (ELit false 0))))))))))) |}.

(* source/string.cxx:74-85 *)
Definition c_isUtf16Encodable : fundef := {|
  f_name := "isUtf16Encodable";
  f_params := [{| p_ty := TC; p_ref := false; p_name := "c"; p_default := None |}];
  f_ret := TI Bool;
  f_body :=
  SReturn (Some (EAnd (EBin Le (EVar "c") (ELit true 1114111)) (EBin Eq (EBin BAnd (EVar "c") (ECompl (ELit true 2097151))) (ELit false 0)))) |}.

(* source/string.cxx:93-99 *)
Definition c_isUtf16EscapedRange : fundef := {|
  f_name := "isUtf16EscapedRange";
  f_params := [{| p_ty := TI Char32; p_ref := false; p_name := "c"; p_default := None |}];
  f_ret := TI Bool;
  f_body :=
  SReturn (Some (EOr (ECall "isFirstHalfUtf16" [(EVar "c")]) (ECall "isSecondHalfUtf16" [(EVar "c")]))) |}.

(* source/string.cxx:112-158 *)
Definition c_sequenceSizeCharStarts : fundef := {|
  f_name := "sequenceSizeCharStarts";
  f_params := [{| p_ty := TPtr Char; p_ref := false; p_name := "p"; p_default := None |}];
  f_ret := TI Int;
  f_body :=
  SSeq (SIf (EBin Eq (EVar "p") ENull)
  (SReturn (Some (ENeg (ELit false 1))))
  (SSkip))
  (SSeq (SDecl (TAuto) "uc" (Some (ECast (TI UChar) (EDeref (EVar "p")))))
  (SSeq (SIf (EBin Eq (EVar "uc") (ELit false 0))
  (SReturn (Some (ELit false 0)))
  (SSkip))
  (SIf (EBin Le (EVar "uc") (ELit true 127))
  (SReturn (Some (ELit false 1)))
  (SIf (EBin Le (EVar "uc") (ELit true 191))
  (SReturn (Some (ENeg (ELit false 1))))
  (SIf (EBin Le (EVar "uc") (ELit true 223))
  (SReturn (Some (ELit false 2)))
  (SIf (EBin Le (EVar "uc") (ELit true 239))
  (SReturn (Some (ELit false 3)))
  (SIf (EBin Le (EVar "uc") (ELit true 247))
  (SReturn (Some (ELit false 4)))
  (SIf (EBin Le (EVar "uc") (ELit true 251))
  (SReturn (Some (ELit false 5)))
  (SIf (EBin Le (EVar "uc") (ELit true 253))
  (SReturn (Some (ELit false 6)))
  (SReturn (Some (ENeg (ELit false 1))))))))))))) |}.

(* source/string.cxx:169-178 *)
Definition c_isFirstHalfUtf16AsUtf8 : fundef := {|
  f_name := "isFirstHalfUtf16AsUtf8";
  f_params := [{| p_ty := TPtr Char; p_ref := false; p_name := "p"; p_default := None |}];
  f_ret := TI Bool;
  f_body :=
  SReturn (Some (ECall "isFirstHalfUtf16" [(ECall "rawDecodeUtf8" [(ECast (TI UChar) (EIndex (EVar "p") (ELit false 0))); (ECast (TI UChar) (EIndex (EVar "p") (ELit false 1))); (ECast (TI UChar) (EIndex (EVar "p") (ELit false 2)))])])) |}.

(* source/string.cxx:189-198 *)
Definition c_isSecondHalfUtf16AsUtf8 : fundef := {|
  f_name := "isSecondHalfUtf16AsUtf8";
  f_params := [{| p_ty := TPtr Char; p_ref := false; p_name := "p"; p_default := None |}];
  f_ret := TI Bool;
  f_body :=
  SReturn (Some (ECall "isSecondHalfUtf16" [(ECall "rawDecodeUtf8" [(ECast (TI UChar) (EIndex (EVar "p") (ELit false 0))); (ECast (TI UChar) (EIndex (EVar "p") (ELit false 1))); (ECast (TI UChar) (EIndex (EVar "p") (ELit false 2)))])])) |}.

(* source/string.cxx:210-318 *)
Definition c_isUtf8_pChar_UInt_Enum_Pred : fundef := {|
  f_name := "isUtf8";
  f_params := [{| p_ty := TPtr Char; p_ref := false; p_name := "test"; p_default := None |};
     {| p_ty := TI UInt; p_ref := false; p_name := "testLength"; p_default := None |};
     {| p_ty := TI Enum; p_ref := false; p_name := "targetRange"; p_default := None |};
     {| p_ty := TPred; p_ref := false; p_name := "pred"; p_default := None |}];
  f_ret := TI Bool;
  f_body :=
  SSeq (SDecl (TI Bool) "lengthTerminated" (Some (EBin Ne (EVar "testLength") (ELit false 0))))
  (SSeq (SIf (EOr (EBin Lt (EVar "targetRange") (EVar "kAscii")) (EBin Gt (EVar "targetRange") (EVar "kUnicode")))
  (SReturn (Some (EBool false)))
  (SSkip))
  (SSeq (SIf (EOr (ENot (EVar "test")) (ENot (EDeref (EVar "test"))))
  (SReturn (Some (EBool true)))
  (SSkip))
  (SSeq (SDecl (TI Enum) "restrictToThis" (Some (EIndex (EVar "rangeTypeToRangeFlag") (EVar "targetRange"))))
  (SSeq (SDecl (TI Bool) "isNullPred" (Some (EBin Eq (EVar "pred") (ENew (TPred) []))))
  (SSeq (SDecl (TAuto) "lengthLeft" (Some (EVar "testLength")))
  (SSeq (SDecl (TAuto) "pLast" (Some (EBin Sub (EVar "test") (ELit false 1))))
  (SSeq (SDecl (TI UInt) "usedThisTime" (Some (ELit false 0)))
  (SSeq (SFor (SDecl (TAuto) "p" (Some (EVar "test"))) (EDeref (EVar "p")) [(EPreInc "p")]
  (SSeq (SDecl (TI Enum) "rangeFlag" (Some (ECall "getRangeFlag" [(EDeref (EVar "p"))])))
  (SSeq (SIf (EBin Eq (EBin BAnd (EVar "rangeFlag") (EVar "restrictToThis")) (ELit false 0))
  (SReturn (Some (EBool false)))
  (SSkip))
  (SSeq (SDecl (TI UInt) "seqStarts" (Some (ECall "sequenceSizeCharStarts" [(EVar "p")])))
  (SSeq (SIf (EVar "lengthTerminated")
  (SSeq (SIf (EBin Eq (EVar "seqStarts") (ELit false 3))
  (SSeq (SIf (EAnd (EBin Gt (EVar "lengthLeft") (ELit false 1)) (ECall "isSecondHalfUtf16AsUtf8" [(EVar "p")]))
  (SReturn (Some (EBool false)))
  (SSkip))
  (SIf (EAnd (EBin Ge (EVar "lengthLeft") (ELit false 3)) (ECall "isFirstHalfUtf16AsUtf8" [(EVar "p")]))
  (SExpr (EAssign "seqStarts" (ELit false 6)))
  (SSkip)))
  (SSkip))
  (SIf (EBin Gt (EVar "seqStarts") (EVar "lengthLeft"))
  (SReturn (Some (EBool true)))
  (SSkip)))
  (SSkip))
  (SSeq (SDecl (TAuto) "c" (Some (ECall "decodeUtf8" [(EVar "p")])))
  (SSeq (SIf (EBin Eq (EVar "p") ENull)
  (SReturn (Some (EBool false)))
  (SSkip))
  (SSeq (SIf (EBin Eq (EVar "c") (ELit false 0))
  (SReturn (Some (EBin Eq (EDeref (EVar "p")) (ELit false 0))))
  (SSkip))
  (SSeq (SIf (EVar "lengthTerminated")
  (SSeq (SExpr (EAssign "usedThisTime" (ECast (TI UInt) (EBin Sub (EVar "p") (EVar "pLast")))))
  (SSeq (SIf (EBin Ne (EVar "seqStarts") (EVar "usedThisTime"))
  (SReturn (Some (EBool false)))
  (SSkip))
  (SExpr (EAssign "pLast" (EVar "p")))))
  (SSkip))
  (SSeq (SDecl (TI Enum) "charFlag" (Some (ECall "getCharEncodableRangeFlags" [(EVar "c")])))
  (SSeq (SIf (EOr (EBin Eq (EBin BAnd (EVar "charFlag") (EVar "restrictToThis")) (ELit false 0)) (EAnd (ENot (EVar "isNullPred")) (ENot (ECall "pred" [(EVar "c")]))))
  (SReturn (Some (EBool false)))
  (SSkip))
  (SIf (EVar "lengthTerminated")
  (SSeq (SIf (EBin Le (EVar "lengthLeft") (EVar "usedThisTime"))
  (SReturn (Some (EBool true)))
  (SSkip))
  (SExpr (EOpAssign Sub "lengthLeft" (EVar "usedThisTime"))))
  (SSkip)))))))))))))
  (SReturn (Some (ENot (EVar "lengthTerminated")))))))))))) |}.

(* source/string.cxx:331-334 *)
Definition c_getUnicodeVersionSupported : fundef := {|
  f_name := "getUnicodeVersionSupported";
  f_params := [];
  f_ret := TStr Char;
  f_body :=
  SReturn (Some (EVar "supportedUnicodeVersion")) |}.

(* source/string.cxx:338-341 *)
Definition c_isUtf8_sChar_Enum_Pred : fundef := {|
  f_name := "isUtf8";
  f_params := [{| p_ty := TStr Char; p_ref := false; p_name := "test"; p_default := None |};
     {| p_ty := TI Enum; p_ref := false; p_name := "targetRange"; p_default := Some (EVar "kUtf8") |};
     {| p_ty := TPred; p_ref := false; p_name := "pred"; p_default := Some (ENew (TPred) []) |}];
  f_ret := TI Bool;
  f_body :=
  SReturn (Some (ECall "isUtf8" [(EMeth (EVar "test") "c_str" []); (ELit false 0); (EVar "targetRange"); (EVar "pred")])) |}.

(* source/string.cxx:343-346 *)
Definition c_isUtf8_pChar_Enum_Pred : fundef := {|
  f_name := "isUtf8";
  f_params := [{| p_ty := TPtr Char; p_ref := false; p_name := "test"; p_default := None |};
     {| p_ty := TI Enum; p_ref := false; p_name := "targetRange"; p_default := Some (EVar "kUtf8") |};
     {| p_ty := TPred; p_ref := false; p_name := "pred"; p_default := Some (ENew (TPred) []) |}];
  f_ret := TI Bool;
  f_body :=
  SReturn (Some (ECall "isUtf8" [(EVar "test"); (ELit false 0); (EVar "targetRange"); (EVar "pred")])) |}.

(* source/string.cxx:348-351 *)
Definition c_isUtf8_pChar_UInt_Pred : fundef := {|
  f_name := "isUtf8";
  f_params := [{| p_ty := TPtr Char; p_ref := false; p_name := "test"; p_default := None |};
     {| p_ty := TI UInt; p_ref := false; p_name := "testLength"; p_default := None |};
     {| p_ty := TPred; p_ref := false; p_name := "pred"; p_default := Some (ENew (TPred) []) |}];
  f_ret := TI Bool;
  f_body :=
  SReturn (Some (ECall "isUtf8" [(EVar "test"); (EVar "testLength"); (EVar "kUtf8"); (EVar "pred")])) |}.

(* source/string.cxx:355-358 *)
Definition c_isUtf16_sChar16_Enum_Pred : fundef := {|
  f_name := "isUtf16";
  f_params := [{| p_ty := TStr Char16; p_ref := false; p_name := "test"; p_default := None |};
     {| p_ty := TI Enum; p_ref := false; p_name := "targetRange"; p_default := Some (EVar "kUtf16") |};
     {| p_ty := TPred; p_ref := false; p_name := "pred"; p_default := Some (ENew (TPred) []) |}];
  f_ret := TI Bool;
  f_body :=
  SReturn (Some (ECall "isUtf16" [(EMeth (EVar "test") "c_str" []); (EVar "targetRange"); (EVar "pred")])) |}.

(* source/string.cxx:360-410 *)
Definition c_isUtf16_pChar16_Enum_Pred : fundef := {|
  f_name := "isUtf16";
  f_params := [{| p_ty := TPtr Char16; p_ref := false; p_name := "test"; p_default := None |};
     {| p_ty := TI Enum; p_ref := false; p_name := "targetRange"; p_default := Some (EVar "kUtf16") |};
     {| p_ty := TPred; p_ref := false; p_name := "pred"; p_default := Some (ENew (TPred) []) |}];
  f_ret := TI Bool;
  f_body :=
  SSeq (SIf (EOr (EBin Lt (EVar "targetRange") (EVar "kAscii")) (EBin Gt (EVar "targetRange") (EVar "kUnicode")))
  (SReturn (Some (EBool false)))
  (SSkip))
  (SSeq (SIf (EOr (ENot (EVar "test")) (ENot (EDeref (EVar "test"))))
  (SReturn (Some (EBool true)))
  (SSkip))
  (SSeq (SDecl (TI Enum) "restrictToThis" (Some (EIndex (EVar "rangeTypeToRangeFlag") (EVar "targetRange"))))
  (SSeq (SDecl (TI Bool) "isNullPred" (Some (EBin Eq (EVar "pred") (ENew (TPred) []))))
  (SSeq (SFor (SDecl (TAuto) "p" (Some (EVar "test"))) (EDeref (EVar "p")) [(EPreInc "p")]
  (SSeq (SDecl (TI Enum) "rangeFlag" (Some (ECall "getRangeFlag" [(EDeref (EVar "p"))])))
  (SSeq (SIf (EBin Eq (EBin BAnd (EVar "rangeFlag") (EVar "restrictToThis")) (ELit false 0))
  (SReturn (Some (EBool false)))
  (SSkip))
  (SSeq (SDecl (TAuto) "c" (Some (EDeref (EVar "p"))))
  (SSeq (SDecl (TI Enum) "charFlag" None)
  (SSeq (SIf (ECall "isFirstHalfUtf16" [(EVar "c")])
  (SSeq (SDecl (TI Char16) "c1" (Some (EDeref (EPreInc "p"))))
  (SSeq (SIf (EBin Eq (EVar "c1") (ELit false 0))
  (SBreak)
  (SSkip))
  (SSeq (SIf (ENot (ECall "isSecondHalfUtf16" [(EVar "c1")]))
  (SReturn (Some (EBool false)))
  (SSkip))
  (SExpr (EAssign "charFlag" (EVar "k21BitUnicodeFlags"))))))
  (SExpr (EAssign "charFlag" (ECall "getCharEncodableRangeFlags" [(EVar "c")]))))
  (SIf (EOr (EBin Eq (EBin BAnd (EVar "charFlag") (EVar "restrictToThis")) (ELit false 0)) (EAnd (ENot (EVar "isNullPred")) (ENot (ECall "pred" [(EVar "c")]))))
  (SReturn (Some (EBool false)))
  (SSkip))))))))
  (SReturn (Some (EBool true))))))) |}.

(* source/string.cxx:414-417 *)
Definition c_isUcs2_sChar16_Enum_Pred : fundef := {|
  f_name := "isUcs2";
  f_params := [{| p_ty := TStr Char16; p_ref := false; p_name := "test"; p_default := None |};
     {| p_ty := TI Enum; p_ref := false; p_name := "targetRange"; p_default := Some (EVar "kUcs2") |};
     {| p_ty := TPred; p_ref := false; p_name := "pred"; p_default := Some (ENew (TPred) []) |}];
  f_ret := TI Bool;
  f_body :=
  SReturn (Some (ECall "isUcs2" [(EMeth (EVar "test") "c_str" []); (EVar "targetRange"); (EVar "pred")])) |}.

(* source/string.cxx:419-448 *)
Definition c_isUcs2_pChar16_Enum_Pred : fundef := {|
  f_name := "isUcs2";
  f_params := [{| p_ty := TPtr Char16; p_ref := false; p_name := "test"; p_default := None |};
     {| p_ty := TI Enum; p_ref := false; p_name := "targetRange"; p_default := Some (EVar "kUcs2") |};
     {| p_ty := TPred; p_ref := false; p_name := "pred"; p_default := Some (ENew (TPred) []) |}];
  f_ret := TI Bool;
  f_body :=
  SSeq (SIf (EOr (EBin Lt (EVar "targetRange") (EVar "kAscii")) (EBin Gt (EVar "targetRange") (EVar "kUnicode")))
  (SReturn (Some (EBool false)))
  (SSkip))
  (SSeq (SIf (EOr (ENot (EVar "test")) (ENot (EDeref (EVar "test"))))
  (SReturn (Some (EBool true)))
  (SSkip))
  (SSeq (SDecl (TI Enum) "restrictToThis" (Some (EIndex (EVar "rangeTypeToRangeFlag") (EVar "targetRange"))))
  (SSeq (SDecl (TI Bool) "isNullPred" (Some (EBin Eq (EVar "pred") (ENew (TPred) []))))
  (SSeq (SFor (SDecl (TAuto) "p" (Some (EVar "test"))) (EDeref (EVar "p")) [(EPreInc "p")]
  (SSeq (SDecl (TAuto) "c" (Some (EDeref (EVar "p"))))
  (SSeq (SDecl (TI Enum) "charFlag" (Some (ECall "getCharEncodableRangeFlags" [(EVar "c")])))
  (SSeq (SIf (ECall "isUtf16EscapedRange" [(EVar "c")])
  (SReturn (Some (EBool false)))
  (SSkip))
  (SIf (EOr (EBin Eq (EBin BAnd (EVar "charFlag") (EVar "restrictToThis")) (ELit false 0)) (EAnd (ENot (EVar "isNullPred")) (ENot (ECall "pred" [(EVar "c")]))))
  (SReturn (Some (EBool false)))
  (SSkip))))))
  (SReturn (Some (EBool true))))))) |}.

(* source/string.cxx:452-455 *)
Definition c_isUcs4_sChar32_Enum_Pred : fundef := {|
  f_name := "isUcs4";
  f_params := [{| p_ty := TStr Char32; p_ref := false; p_name := "test"; p_default := None |};
     {| p_ty := TI Enum; p_ref := false; p_name := "targetRange"; p_default := Some (EVar "kUcs4") |};
     {| p_ty := TPred; p_ref := false; p_name := "pred"; p_default := Some (ENew (TPred) []) |}];
  f_ret := TI Bool;
  f_body :=
  SReturn (Some (ECall "isUcs4" [(EMeth (EVar "test") "c_str" []); (EVar "targetRange"); (EVar "pred")])) |}.

(* source/string.cxx:457-481 *)
Definition c_isUcs4_pChar32_Enum_Pred : fundef := {|
  f_name := "isUcs4";
  f_params := [{| p_ty := TPtr Char32; p_ref := false; p_name := "test"; p_default := None |};
     {| p_ty := TI Enum; p_ref := false; p_name := "targetRange"; p_default := Some (EVar "kUcs4") |};
     {| p_ty := TPred; p_ref := false; p_name := "pred"; p_default := Some (ENew (TPred) []) |}];
  f_ret := TI Bool;
  f_body :=
  SSeq (SIf (EOr (EBin Lt (EVar "targetRange") (EVar "kAscii")) (EBin Gt (EVar "targetRange") (EVar "kUnicode")))
  (SReturn (Some (EBool false)))
  (SSkip))
  (SSeq (SIf (EOr (ENot (EVar "test")) (ENot (EDeref (EVar "test"))))
  (SReturn (Some (EBool true)))
  (SSkip))
  (SSeq (SDecl (TI Enum) "restrictToThis" (Some (EIndex (EVar "rangeTypeToRangeFlag") (EVar "targetRange"))))
  (SSeq (SDecl (TI Bool) "isNullPred" (Some (EBin Eq (EVar "pred") (ENew (TPred) []))))
  (SSeq (SFor (SDecl (TAuto) "p" (Some (EVar "test"))) (EDeref (EVar "p")) [(EPreInc "p")]
  (SSeq (SDecl (TAuto) "c" (Some (EDeref (EVar "p"))))
  (SIf (EOr (EBin Eq (EBin BAnd (ECall "getCharEncodableRangeFlags" [(EVar "c")]) (EVar "restrictToThis")) (ELit false 0)) (EAnd (ENot (EVar "isNullPred")) (ENot (ECall "pred" [(EVar "c")]))))
  (SReturn (Some (EBool false)))
  (SSkip))))
  (SReturn (Some (EBool true))))))) |}.

(* source/string.cxx:487-514 *)
Definition c_toUtf8_pChar16 : fundef := {|
  f_name := "toUtf8";
  f_params := [{| p_ty := TPtr Char16; p_ref := false; p_name := "src"; p_default := None |}];
  f_ret := TStr Char;
  f_body :=
  SSeq (SDecl (TStr Char) "result" None)
  (SSeq (SIf (EAnd (EVar "src") (EDeref (EVar "src")))
  (SSeq (SAlias "adder" "result")
  (SFor (SDecl (TAuto) "p" (Some (EVar "src"))) (EDeref (EVar "p")) [(EPreInc "p")]
  (SSeq (SDecl (TAuto) "c" (Some (EDeref (EVar "p"))))
  (SIf (ECall "isFirstHalfUtf16" [(EVar "c")])
  (SSeq (SDecl (TI Char16) "c1" (Some (EDeref (EPreInc "p"))))
  (SSeq (SIf (EBin Eq (EVar "c1") (ELit false 0))
  (SBreak)
  (SSkip))
  (SSeq (SIf (ENot (ECall "isSecondHalfUtf16" [(EVar "c1")]))
  (SReturn (Some (ENew (TStr Char) [])))
  (SSkip))
  (SSeq (SDecl (TI Char32) "c32" (Some (ECall "rawDecodeUtf16" [(EVar "c"); (EVar "c1")])))
  (SExpr (ECall "encodeUtf8" [(EVar "c32"); (EVar "adder")]))))))
  (SExpr (ECall "encodeUtf8" [(EVar "c"); (EVar "adder")]))))))
  (SSkip))
  (SReturn (Some (EVar "result")))) |}.

(* source/string.cxx:516-519 *)
Definition c_toUtf8_sChar16 : fundef := {|
  f_name := "toUtf8";
  f_params := [{| p_ty := TStr Char16; p_ref := false; p_name := "src"; p_default := None |}];
  f_ret := TStr Char;
  f_body :=
  SReturn (Some (ECall "toUtf8" [(EMeth (EVar "src") "c_str" [])])) |}.

(* source/string.cxx:523-544 *)
Definition c_toUtf8_pChar32 : fundef := {|
  f_name := "toUtf8";
  f_params := [{| p_ty := TPtr Char32; p_ref := false; p_name := "src"; p_default := None |}];
  f_ret := TStr Char;
  f_body :=
  SSeq (SDecl (TStr Char) "result" None)
  (SSeq (SIf (EAnd (EVar "src") (EDeref (EVar "src")))
  (SSeq (SAlias "adder" "result")
  (SFor (SDecl (TAuto) "p" (Some (EVar "src"))) (EDeref (EVar "p")) [(EPreInc "p")]
  (SSeq (SDecl (TAuto) "c" (Some (EDeref (EVar "p"))))
  (SIf (EAnd (EAnd (EBin Eq (EBin BAnd (EVar "c") (ELit true 2147483648)) (ELit false 0)) (ENot (ECall "isFirstHalfUtf16" [(EVar "c")]))) (ENot (ECall "isSecondHalfUtf16" [(EVar "c")])))
  (SExpr (ECall "encodeUtf8" [(EVar "c"); (EVar "adder")]))
  (SReturn (Some (ENew (TStr Char) [])))))))
  (SSkip))
  (SReturn (Some (EVar "result")))) |}.

(* source/string.cxx:546-549 *)
Definition c_toUtf8_sChar32 : fundef := {|
  f_name := "toUtf8";
  f_params := [{| p_ty := TStr Char32; p_ref := false; p_name := "src"; p_default := None |}];
  f_ret := TStr Char;
  f_body :=
  SReturn (Some (ECall "toUtf8" [(EMeth (EVar "src") "c_str" [])])) |}.

(* source/string.cxx:555-576 *)
Definition c_toUcs2_pChar : fundef := {|
  f_name := "toUcs2";
  f_params := [{| p_ty := TPtr Char; p_ref := false; p_name := "src"; p_default := None |}];
  f_ret := TStr Char16;
  f_body :=
  SSeq (SDecl (TStr Char16) "result" None)
  (SSeq (SIf (EAnd (EVar "src") (EDeref (EVar "src")))
  (SFor (SDecl (TAuto) "p" (Some (EVar "src"))) (EDeref (EVar "p")) [(EPreInc "p")]
  (SSeq (SDecl (TAuto) "c" (Some (ECall "decodeUtf8" [(EVar "p")])))
  (SSeq (SIf (EOr (EBin Eq (EVar "p") ENull) (EBin Gt (EVar "c") (ELit true 65535)))
  (SReturn (Some (ENew (TStr Char16) [])))
  (SIf (EBin Eq (EVar "c") (ELit false 0))
  (SBreak)
  (SSkip)))
  (SExpr (EMeth (EVar "result") "push_back" [(ECast (TI Char16) (EVar "c"))])))))
  (SSkip))
  (SReturn (Some (EVar "result")))) |}.

(* source/string.cxx:578-581 *)
Definition c_toUcs2_sChar : fundef := {|
  f_name := "toUcs2";
  f_params := [{| p_ty := TStr Char; p_ref := false; p_name := "src"; p_default := None |}];
  f_ret := TStr Char16;
  f_body :=
  SReturn (Some (ECall "toUcs2" [(EMeth (EVar "src") "c_str" [])])) |}.

(* source/string.cxx:585-601 *)
Definition c_toUcs2_pChar32 : fundef := {|
  f_name := "toUcs2";
  f_params := [{| p_ty := TPtr Char32; p_ref := false; p_name := "src"; p_default := None |}];
  f_ret := TStr Char16;
  f_body :=
  SSeq (SDecl (TStr Char16) "result" None)
  (SSeq (SIf (EAnd (EVar "src") (EDeref (EVar "src")))
  (SFor (SDecl (TAuto) "p" (Some (EVar "src"))) (EDeref (EVar "p")) [(EPreInc "p")]
  (SSeq (SIf (EOr (EOr (ECall "isFirstHalfUtf16" [(EDeref (EVar "p"))]) (ECall "isSecondHalfUtf16" [(EDeref (EVar "p"))])) (EBin Ge (EDeref (EVar "p")) (ELit true 65536)))
  (SReturn (Some (ENew (TStr Char16) [])))
  (SSkip))
  (SExpr (EMeth (EVar "result") "push_back" [(ECast (TI Char16) (EDeref (EVar "p")))]))))
  (SSkip))
  (SReturn (Some (EVar "result")))) |}.

(* source/string.cxx:603-606 *)
Definition c_toUcs2_sChar32 : fundef := {|
  f_name := "toUcs2";
  f_params := [{| p_ty := TStr Char32; p_ref := false; p_name := "src"; p_default := None |}];
  f_ret := TStr Char16;
  f_body :=
  SReturn (Some (ECall "toUcs2" [(EMeth (EVar "src") "c_str" [])])) |}.

(* source/string.cxx:612-634 *)
Definition c_toUtf16_pChar : fundef := {|
  f_name := "toUtf16";
  f_params := [{| p_ty := TPtr Char; p_ref := false; p_name := "src"; p_default := None |}];
  f_ret := TStr Char16;
  f_body :=
  SSeq (SDecl (TStr Char16) "result" None)
  (SSeq (SIf (EAnd (EVar "src") (EDeref (EVar "src")))
  (SSeq (SAlias "adder" "result")
  (SFor (SDecl (TAuto) "p" (Some (EVar "src"))) (EDeref (EVar "p")) [(EPreInc "p")]
  (SSeq (SDecl (TAuto) "c" (Some (ECall "decodeUtf8" [(EVar "p")])))
  (SSeq (SIf (EOr (EBin Eq (EVar "p") ENull) (ENot (ECall "isUtf16Encodable" [(EVar "c")])))
  (SReturn (Some (ENew (TStr Char16) [])))
  (SIf (EBin Eq (EVar "c") (ELit false 0))
  (SBreak)
  (SSkip)))
  (SExpr (ECall "rawEncodeUtf16" [(EVar "c"); (EVar "adder")]))))))
  (SSkip))
  (SReturn (Some (EVar "result")))) |}.

(* source/string.cxx:636-639 *)
Definition c_toUtf16_sChar : fundef := {|
  f_name := "toUtf16";
  f_params := [{| p_ty := TStr Char; p_ref := false; p_name := "src"; p_default := None |}];
  f_ret := TStr Char16;
  f_body :=
  SReturn (Some (ECall "toUtf16" [(EMeth (EVar "src") "c_str" [])])) |}.

(* source/string.cxx:643-662 *)
Definition c_toUtf16_pChar32 : fundef := {|
  f_name := "toUtf16";
  f_params := [{| p_ty := TPtr Char32; p_ref := false; p_name := "src"; p_default := None |}];
  f_ret := TStr Char16;
  f_body :=
  SSeq (SDecl (TStr Char16) "result" None)
  (SSeq (SIf (EAnd (EVar "src") (EDeref (EVar "src")))
  (SSeq (SAlias "adder" "result")
  (SFor (SDecl (TAuto) "p" (Some (EVar "src"))) (EDeref (EVar "p")) [(EPreInc "p")]
  (SSeq (SDecl (TAuto) "c" (Some (EDeref (EVar "p"))))
  (SSeq (SIf (EOr (EOr (EOr (EBin Eq (EVar "p") ENull) (ENot (ECall "isUtf16Encodable" [(EVar "c")]))) (ECall "isFirstHalfUtf16" [(EVar "c")])) (ECall "isSecondHalfUtf16" [(EVar "c")]))
  (SReturn (Some (ENew (TStr Char16) [])))
  (SSkip))
  (SExpr (ECall "rawEncodeUtf16" [(EVar "c"); (EVar "adder")]))))))
  (SSkip))
  (SReturn (Some (EVar "result")))) |}.

(* source/string.cxx:664-667 *)
Definition c_toUtf16_sChar32 : fundef := {|
  f_name := "toUtf16";
  f_params := [{| p_ty := TStr Char32; p_ref := false; p_name := "src"; p_default := None |}];
  f_ret := TStr Char16;
  f_body :=
  SReturn (Some (ECall "toUtf16" [(EMeth (EVar "src") "c_str" [])])) |}.

(* source/string.cxx:673-694 *)
Definition c_toUcs4_pChar : fundef := {|
  f_name := "toUcs4";
  f_params := [{| p_ty := TPtr Char; p_ref := false; p_name := "src"; p_default := None |}];
  f_ret := TStr Char32;
  f_body :=
  SSeq (SDecl (TStr Char32) "result" None)
  (SSeq (SIf (EAnd (EVar "src") (EDeref (EVar "src")))
  (SFor (SDecl (TAuto) "p" (Some (EVar "src"))) (EDeref (EVar "p")) [(EPreInc "p")]
  (SSeq (SDecl (TAuto) "c" (Some (ECall "decodeUtf8" [(EVar "p")])))
  (SSeq (SIf (EBin Eq (EVar "p") ENull)
  (SReturn (Some (ENew (TStr Char32) [])))
  (SIf (EBin Eq (EVar "c") (ELit false 0))
  (SBreak)
  (SSkip)))
  (SExpr (EMeth (EVar "result") "push_back" [(EVar "c")])))))
  (SSkip))
  (SReturn (Some (EVar "result")))) |}.

(* source/string.cxx:696-699 *)
Definition c_toUcs4_sChar : fundef := {|
  f_name := "toUcs4";
  f_params := [{| p_ty := TStr Char; p_ref := false; p_name := "src"; p_default := None |}];
  f_ret := TStr Char32;
  f_body :=
  SReturn (Some (ECall "toUcs4" [(EMeth (EVar "src") "c_str" [])])) |}.

(* source/string.cxx:703-733 *)
Definition c_toUcs4_pChar16 : fundef := {|
  f_name := "toUcs4";
  f_params := [{| p_ty := TPtr Char16; p_ref := false; p_name := "src"; p_default := None |}];
  f_ret := TStr Char32;
  f_body :=
  SSeq (SDecl (TStr Char32) "result" None)
  (SSeq (SIf (EAnd (EVar "src") (EDeref (EVar "src")))
  (SFor (SDecl (TAuto) "p" (Some (EVar "src"))) (EDeref (EVar "p")) [(EPreInc "p")]
  (SSeq (SDecl (TAuto) "c" (Some (EDeref (EVar "p"))))
  (SIf (ECall "isFirstHalfUtf16" [(EVar "c")])
  (SSeq (SDecl (TI Char16) "c1" (Some (EDeref (EPreInc "p"))))
  (SSeq (SIf (EBin Eq (EVar "c1") (ELit false 0))
  (SBreak)
  (SSkip))
  (SSeq (SIf (ENot (ECall "isSecondHalfUtf16" [(EVar "c1")]))
  (SReturn (Some (ENew (TStr Char32) [])))
  (SSkip))
  (SSeq (SDecl (TI Char32) "c32" (Some (ECall "rawDecodeUtf16" [(EVar "c"); (EVar "c1")])))
  (SExpr (EMeth (EVar "result") "push_back" [(EVar "c32")]))))))
  (SIf (ECall "isSecondHalfUtf16" [(EVar "c")])
  (SReturn (Some (ENew (TStr Char32) [])))
  (SExpr (EMeth (EVar "result") "push_back" [(EVar "c")]))))))
  (SSkip))
  (SReturn (Some (EVar "result")))) |}.

(* source/string.cxx:735-738 *)
Definition c_toUcs4_sChar16 : fundef := {|
  f_name := "toUcs4";
  f_params := [{| p_ty := TStr Char16; p_ref := false; p_name := "src"; p_default := None |}];
  f_ret := TStr Char32;
  f_body :=
  SReturn (Some (ECall "toUcs4" [(EMeth (EVar "src") "c_str" [])])) |}.

(* source/string.cxx:744-747 *)
Definition c_unicodeLength_sChar : fundef := {|
  f_name := "unicodeLength";
  f_params := [{| p_ty := TStr Char; p_ref := false; p_name := "src"; p_default := None |}];
  f_ret := TI UInt;
  f_body :=
  SReturn (Some (ECall "unicodeLength" [(EMeth (EVar "src") "c_str" [])])) |}.

(* source/string.cxx:749-836 *)
Definition c_unicodeLength_pChar_UInt : fundef := {|
  f_name := "unicodeLength";
  f_params := [{| p_ty := TPtr Char; p_ref := false; p_name := "src"; p_default := None |};
     {| p_ty := TI UInt; p_ref := false; p_name := "testLength"; p_default := Some (ELit false 0) |}];
  f_ret := TI UInt;
  f_body :=
  SSeq (SIf (EOr (ENot (EVar "src")) (ENot (EDeref (EVar "src"))))
  (SReturn (Some (ELit false 0)))
  (SSkip))
  (SSeq (SDecl (TI Bool) "lengthTerminated" (Some (EBin Ne (EVar "testLength") (ELit false 0))))
  (SSeq (SDecl (TAuto) "lengthLeft" (Some (EVar "testLength")))
  (SSeq (SDecl (TAuto) "pLast" (Some (EBin Sub (EVar "src") (ELit false 1))))
  (SSeq (SDecl (TI UInt) "usedThisTime" (Some (ELit false 0)))
  (SSeq (SDecl (TI UInt) "r" (Some (ELit false 0)))
  (SSeq (SDecl (TI Enum) "restrictToUnicode" (Some (EIndex (EVar "rangeTypeToRangeFlag") (EVar "kUnicode"))))
  (SSeq (SFor (SDecl (TAuto) "p" (Some (EVar "src"))) (EDeref (EVar "p")) [(EPreInc "p"); (EPreInc "r")]
  (SSeq (SIf (EVar "lengthTerminated")
  (SSeq (SDecl (TI UInt) "seqStarts" (Some (ECall "sequenceSizeCharStarts" [(EVar "p")])))
  (SSeq (SIf (EBin Eq (EVar "seqStarts") (ELit false 3))
  (SSeq (SIf (EAnd (EBin Gt (EVar "lengthLeft") (ELit false 1)) (ECall "isSecondHalfUtf16AsUtf8" [(EVar "p")]))
  (SReturn (Some (ELit false 0)))
  (SSkip))
  (SIf (EAnd (EBin Ge (EVar "lengthLeft") (ELit false 3)) (ECall "isFirstHalfUtf16AsUtf8" [(EVar "p")]))
  (SExpr (EAssign "seqStarts" (ELit false 6)))
  (SSkip)))
  (SSkip))
  (SIf (EBin Gt (EVar "seqStarts") (EVar "lengthLeft"))
  (SReturn (Some (EVar "r")))
  (SSkip))))
  (SSkip))
  (SSeq (SDecl (TAuto) "c" (Some (ECall "decodeUtf8" [(EVar "p")])))
  (SSeq (SIf (EOr (EBin Eq (EVar "p") ENull) (EBin Eq (EBin BAnd (EVar "restrictToUnicode") (ECall "getCharEncodableRangeFlags" [(EVar "c")])) (ELit false 0)))
  (SReturn (Some (ELit false 0)))
  (SSkip))
  (SSeq (SIf (EBin Eq (EVar "c") (ELit false 0))
  (SReturn (Some (ECond (EBin Eq (EDeref (EVar "p")) (ELit false 0)) (EBin Sub (EVar "r") (ELit false 1)) (ELit false 0))))
  (SSkip))
  (SSeq (SIf (EVar "lengthTerminated")
  (SSeq (SExpr (EAssign "usedThisTime" (ECast (TI UInt) (EBin Sub (EVar "p") (EVar "pLast")))))
  (SExpr (EAssign "pLast" (EVar "p"))))
  (SSkip))
  (SIf (EVar "lengthTerminated")
  (SSeq (SIf (EBin Eq (EVar "lengthLeft") (EVar "usedThisTime"))
  (SReturn (Some (EBin Add (EVar "r") (ELit false 1))))
  (SSkip))
  (SExpr (EOpAssign Sub "lengthLeft" (EVar "usedThisTime"))))
  (SSkip))))))))
  (SReturn (Some (ECond (EVar "lengthTerminated") (ELit false 0) (EVar "r"))))))))))) |}.

(* source/string.cxx:842-845 *)
Definition c_unicodeLength_sChar16 : fundef := {|
  f_name := "unicodeLength";
  f_params := [{| p_ty := TStr Char16; p_ref := false; p_name := "src"; p_default := None |}];
  f_ret := TI UInt;
  f_body :=
  SReturn (Some (ECall "unicodeLength" [(EMeth (EVar "src") "c_str" [])])) |}.

(* source/string.cxx:847-915 *)
Definition c_unicodeLength_pChar16_UInt : fundef := {|
  f_name := "unicodeLength";
  f_params := [{| p_ty := TPtr Char16; p_ref := false; p_name := "src"; p_default := None |};
     {| p_ty := TI UInt; p_ref := false; p_name := "testLength"; p_default := Some (ELit false 0) |}];
  f_ret := TI UInt;
  f_body :=
  SSeq (SDecl (TI Bool) "lengthTerminated" (Some (EBin Ne (EVar "testLength") (ELit false 0))))
  (SSeq (SDecl (TAuto) "lengthLeft" (Some (EVar "testLength")))
  (SSeq (SDecl (TAuto) "pLast" (Some (EBin Sub (EVar "src") (ELit false 1))))
  (SSeq (SDecl (TI UInt) "usedThisTime" (Some (ELit false 0)))
  (SSeq (SDecl (TI UInt) "r" (Some (ELit false 0)))
  (SSeq (SFor (SDecl (TAuto) "p" (Some (EVar "src"))) (EDeref (EVar "p")) [(EPreInc "p"); (EPreInc "r")]
  (SSeq (SDecl (TAuto) "c" (Some (EDeref (EVar "p"))))
  (SSeq (SIf (ECall "isSecondHalfUtf16" [(EVar "c")])
  (SReturn (Some (ELit false 0)))
  (SSkip))
  (SSeq (SDecl (TI Bool) "isFirstHalf" (Some (ECall "isFirstHalfUtf16" [(EVar "c")])))
  (SSeq (SDecl (TI UInt) "wordsNeeded" (Some (ECond (EVar "isFirstHalf") (ELit false 2) (ELit false 1))))
  (SSeq (SIf (EAnd (EVar "lengthTerminated") (EBin Gt (EVar "wordsNeeded") (EVar "lengthLeft")))
  (SReturn (Some (EVar "r")))
  (SSkip))
  (SSeq (SDecl (TAuto) "c1" (Some (EIndex (EVar "p") (ELit false 1))))
  (SSeq (SIf (EAnd (EVar "isFirstHalf") (EBin Eq (EVar "c1") (ELit false 0)))
  (SReturn (Some (EBin Sub (EVar "r") (ELit false 1))))
  (SSkip))
  (SSeq (SDecl (TI Bool) "isTwoHalves" (Some (EAnd (EVar "isFirstHalf") (ECall "isSecondHalfUtf16" [(EVar "c1")]))))
  (SSeq (SIf (EVar "isTwoHalves")
  (SExpr (EPreInc "p"))
  (SIf (EVar "isFirstHalf")
  (SReturn (Some (ELit false 0)))
  (SSkip)))
  (SSeq (SIf (EVar "lengthTerminated")
  (SSeq (SExpr (EAssign "usedThisTime" (ECast (TI UInt) (EBin Sub (EVar "p") (EVar "pLast")))))
  (SExpr (EAssign "pLast" (EVar "p"))))
  (SSkip))
  (SIf (EVar "lengthTerminated")
  (SSeq (SIf (EBin Eq (EVar "lengthLeft") (EVar "usedThisTime"))
  (SReturn (Some (EBin Add (EVar "r") (ELit false 1))))
  (SSkip))
  (SExpr (EOpAssign Sub "lengthLeft" (EVar "usedThisTime"))))
  (SSkip)))))))))))))
  (SReturn (Some (ECond (EVar "lengthTerminated") (ELit false 0) (EVar "r"))))))))) |}.

(* source/string.cxx:921-924 *)
Definition c_unicodeLength_sChar32 : fundef := {|
  f_name := "unicodeLength";
  f_params := [{| p_ty := TStr Char32; p_ref := false; p_name := "src"; p_default := None |}];
  f_ret := TI UInt;
  f_body :=
  SReturn (Some (ECall "unicodeLength" [(EMeth (EVar "src") "c_str" [])])) |}.

(* source/string.cxx:926-946 *)
Definition c_unicodeLength_pChar32_UInt : fundef := {|
  f_name := "unicodeLength";
  f_params := [{| p_ty := TPtr Char32; p_ref := false; p_name := "src"; p_default := None |};
     {| p_ty := TI UInt; p_ref := false; p_name := "testLength"; p_default := Some (ELit false 0) |}];
  f_ret := TI UInt;
  f_body :=
  SSeq (SDecl (TI Bool) "lengthTerminated" (Some (EBin Ne (EVar "testLength") (ELit false 0))))
  (SSeq (SDecl (TI UInt) "r" (Some (ELit false 0)))
  (SSeq (SFor (SDecl (TAuto) "p" (Some (EVar "src"))) (EDeref (EVar "p")) [(EPreInc "p"); (EPreInc "r")]
  (SSeq (SIf (EOr (ECall "isFirstHalfUtf16" [(EDeref (EVar "p"))]) (ECall "isSecondHalfUtf16" [(EDeref (EVar "p"))]))
  (SReturn (Some (ELit false 0)))
  (SSkip))
  (SIf (EAnd (EVar "lengthTerminated") (EBin Eq (EBin Add (EVar "p") (ELit false 1)) (EBin Add (EVar "src") (EVar "testLength"))))
  (SReturn (Some (EBin Add (EVar "r") (ELit false 1))))
  (SSkip))))
  (SReturn (Some (ECond (EVar "lengthTerminated") (ELit false 0) (EVar "r")))))) |}.

(* source/encoding_check_predicate.cxx:66-81 *)
Definition c_Pred_EncodingCheckPredicate : fundef := {|
  f_name := "EncodingCheckPredicate::EncodingCheckPredicate";
  f_params := [{| p_ty := TPred; p_ref := false; p_name := "this"; p_default := None |};
     {| p_ty := TI Enum; p_ref := false; p_name := "t"; p_default := None |};
     {| p_ty := TI Bool; p_ref := false; p_name := "checkForIt"; p_default := Some (EBool true) |}];
  f_ret := TPred;
  f_body :=
  SSeq (SExpr (EAssignField "this" "m_mask" (ELit false 0)))
  (SSeq (SExpr (EAssignField "this" "m_value" (ELit false 0)))
  (SSeq (SIf (EAnd (EBin Gt (EVar "t") (EVar "kIsNone")) (EBin Lt (EVar "t") (EVar "kFirstInvalidEncoding")))
  (SSeq (SExpr (EAssignField "this" "m_value" (EAssignField "this" "m_mask" (EIndex (EVar "encodingTypeToEncodingFlag") (EVar "t")))))
  (SIf (ENot (EVar "checkForIt"))
  (SExpr (EOpAssignField BAnd "this" "m_value" (ECompl (EField "this" "m_value"))))
  (SSkip)))
  (SSkip))
  (SReturn (Some (EVar "this"))))) |}.

(* source/encoding_check_predicate.cxx:86-95 *)
Definition c_Pred_andIf : fundef := {|
  f_name := "EncodingCheckPredicate::andIf";
  f_params := [{| p_ty := TPred; p_ref := true; p_name := "this"; p_default := None |};
     {| p_ty := TI Enum; p_ref := false; p_name := "toCheckFor"; p_default := None |}];
  f_ret := TPred;
  f_body :=
  SSeq (SDeclNew (TPred) "other" [(EVar "toCheckFor")])
  (SSeq (SExpr (EOpAssignField BOr "this" "m_value" (EField "other" "m_value")))
  (SSeq (SExpr (EOpAssignField BOr "this" "m_mask" (EField "other" "m_mask")))
  (SReturn (Some (EVar "this"))))) |}.

(* source/encoding_check_predicate.cxx:100-109 *)
Definition c_Pred_andIfNot : fundef := {|
  f_name := "EncodingCheckPredicate::andIfNot";
  f_params := [{| p_ty := TPred; p_ref := true; p_name := "this"; p_default := None |};
     {| p_ty := TI Enum; p_ref := false; p_name := "toCheckFor"; p_default := None |}];
  f_ret := TPred;
  f_body :=
  SSeq (SDeclNew (TPred) "other" [(EVar "toCheckFor"); (EBool false)])
  (SSeq (SExpr (EOpAssignField BOr "this" "m_value" (EField "other" "m_value")))
  (SSeq (SExpr (EOpAssignField BOr "this" "m_mask" (EField "other" "m_mask")))
  (SReturn (Some (EVar "this"))))) |}.

(* source/encoding_check_predicate.cxx:114-122 *)
Definition c_Pred_eq : fundef := {|
  f_name := "EncodingCheckPredicate::operator==";
  f_params := [{| p_ty := TPred; p_ref := false; p_name := "this"; p_default := None |};
     {| p_ty := TPred; p_ref := false; p_name := "other"; p_default := None |}];
  f_ret := TI Bool;
  f_body :=
  SSeq (SIf (ESameObject "this" "other")
  (SReturn (Some (EBool true)))
  (SSkip))
  (SReturn (Some (EAnd (EBin Eq (EField "this" "m_mask") (EField "other" "m_mask")) (EBin Eq (EField "this" "m_value") (EField "other" "m_value"))))) |}.

(* source/encoding_check_predicate.cxx:127-135 *)
Definition c_Pred_call_Pred_Char : fundef := {|
  f_name := "EncodingCheckPredicate::operator()";
  f_params := [{| p_ty := TPred; p_ref := false; p_name := "this"; p_default := None |};
     {| p_ty := TI Char; p_ref := false; p_name := "c"; p_default := None |}];
  f_ret := TI Bool;
  f_body :=
  SSeq (SIf (EBin Eq (EField "this" "m_mask") (ELit false 0))
  (SReturn (Some (EBool true)))
  (SSkip))
  (SSeq (SDecl (TAuto) "cEncodingMask" (Some (ECall "charToEncodingTypeMask" [(EVar "c")])))
  (SReturn (Some (EBin Eq (EBin BAnd (EVar "cEncodingMask") (EField "this" "m_mask")) (EField "this" "m_value"))))) |}.

(* source/encoding_check_predicate.cxx:140-148 *)
Definition c_Pred_call_Pred_Char16 : fundef := {|
  f_name := "EncodingCheckPredicate::operator()";
  f_params := [{| p_ty := TPred; p_ref := false; p_name := "this"; p_default := None |};
     {| p_ty := TI Char16; p_ref := false; p_name := "c"; p_default := None |}];
  f_ret := TI Bool;
  f_body :=
  SSeq (SIf (EBin Eq (EField "this" "m_mask") (ELit false 0))
  (SReturn (Some (EBool true)))
  (SSkip))
  (SSeq (SDecl (TAuto) "cEncodingMask" (Some (ECall "charToEncodingTypeMask" [(EVar "c")])))
  (SReturn (Some (EBin Eq (EBin BAnd (EVar "cEncodingMask") (EField "this" "m_mask")) (EField "this" "m_value"))))) |}.

(* source/encoding_check_predicate.cxx:153-161 *)
Definition c_Pred_call_Pred_Char32 : fundef := {|
  f_name := "EncodingCheckPredicate::operator()";
  f_params := [{| p_ty := TPred; p_ref := false; p_name := "this"; p_default := None |};
     {| p_ty := TI Char32; p_ref := false; p_name := "c"; p_default := None |}];
  f_ret := TI Bool;
  f_body :=
  SSeq (SIf (EBin Eq (EField "this" "m_mask") (ELit false 0))
  (SReturn (Some (EBool true)))
  (SSkip))
  (SSeq (SDecl (TAuto) "cEncodingMask" (Some (ECall "charToEncodingTypeMask" [(EVar "c")])))
  (SReturn (Some (EBin Eq (EBin BAnd (EVar "cEncodingMask") (EField "this" "m_mask")) (EField "this" "m_value"))))) |}.

(* source/string_tolower.cxx:63-85 *)
Definition c_isTurkicLang : fundef := {|
  f_name := "isTurkicLang";
  f_params := [{| p_ty := TPtr Char; p_ref := false; p_name := "lang"; p_default := None |}];
  f_ret := TI Bool;
  f_body :=
  SSeq (SIf (EOr (EOr (EBin Eq (EVar "lang") ENull) (EBin Eq (EIndex (EVar "lang") (ELit false 0)) (EChr 0))) (EBin Eq (EIndex (EVar "lang") (ELit false 1)) (EChr 0)))
  (SReturn (Some (EBool false)))
  (SSkip))
  (SSeq (SIf (EBin Eq (EIndex (EVar "lang") (ELit false 2)) (EChr 0))
  (SReturn (Some (EOr (EOr (EOr (EAnd (EBin Eq (EIndex (EVar "lang") (ELit false 0)) (EChr 116)) (EBin Eq (EIndex (EVar "lang") (ELit false 1)) (EChr 114))) (EAnd (EBin Eq (EIndex (EVar "lang") (ELit false 0)) (EChr 97)) (EBin Eq (EIndex (EVar "lang") (ELit false 1)) (EChr 122)))) (EAnd (EBin Eq (EIndex (EVar "lang") (ELit false 0)) (EChr 116)) (EBin Eq (EIndex (EVar "lang") (ELit false 1)) (EChr 116)))) (EAnd (EBin Eq (EIndex (EVar "lang") (ELit false 0)) (EChr 107)) (EBin Eq (EIndex (EVar "lang") (ELit false 1)) (EChr 107))))))
  (SSkip))
  (SSeq (SIf (EBin Eq (EIndex (EVar "lang") (ELit false 3)) (EChr 0))
  (SReturn (Some (EOr (EOr (EOr (EAnd (EAnd (EBin Eq (EIndex (EVar "lang") (ELit false 0)) (EChr 116)) (EBin Eq (EIndex (EVar "lang") (ELit false 1)) (EChr 117))) (EBin Eq (EIndex (EVar "lang") (ELit false 2)) (EChr 114))) (EAnd (EAnd (EBin Eq (EIndex (EVar "lang") (ELit false 0)) (EChr 116)) (EBin Eq (EIndex (EVar "lang") (ELit false 1)) (EChr 97))) (EBin Eq (EIndex (EVar "lang") (ELit false 2)) (EChr 116)))) (EAnd (EAnd (EBin Eq (EIndex (EVar "lang") (ELit false 0)) (EChr 107)) (EBin Eq (EIndex (EVar "lang") (ELit false 1)) (EChr 97))) (EBin Eq (EIndex (EVar "lang") (ELit false 2)) (EChr 122)))) (EAnd (EAnd (EBin Eq (EIndex (EVar "lang") (ELit false 0)) (EChr 97)) (EBin Eq (EIndex (EVar "lang") (ELit false 1)) (EChr 122))) (EOr (EOr (EBin Eq (EIndex (EVar "lang") (ELit false 2)) (EChr 101)) (EBin Eq (EIndex (EVar "lang") (ELit false 2)) (EChr 98))) (EBin Eq (EIndex (EVar "lang") (ELit false 2)) (EChr 106)))))))
  (SSkip))
  (SReturn (Some (EBool false))))) |}.

(* source/string_tolower.cxx:96-108 *)
Definition c_toLower_sChar_pChar : fundef := {|
  f_name := "toLower";
  f_params := [{| p_ty := TStr Char; p_ref := false; p_name := "src"; p_default := None |};
     {| p_ty := TPtr Char; p_ref := false; p_name := "lang"; p_default := Some ENull |}];
  f_ret := TStr Char;
  f_body :=
  SSeq (SDeclNew (TStr Char32) "src4" [(ECall "toUcs4" [(EVar "src")])])
  (SSeq (SIf (EMeth (EVar "src4") "empty" [])
  (SReturn (Some (ENew (TStr Char) [])))
  (SSkip))
  (SReturn (Some (ECall "toUtf8" [(ECall "toLower" [(EVar "src4"); (EVar "lang")])])))) |}.

(* source/string_tolower.cxx:112-124 *)
Definition c_toLower_sChar16_pChar : fundef := {|
  f_name := "toLower";
  f_params := [{| p_ty := TStr Char16; p_ref := false; p_name := "src"; p_default := None |};
     {| p_ty := TPtr Char; p_ref := false; p_name := "lang"; p_default := Some ENull |}];
  f_ret := TStr Char16;
  f_body :=
  SSeq (SDeclNew (TStr Char32) "src4" [(ECall "toUcs4" [(EVar "src")])])
  (SSeq (SIf (EMeth (EVar "src4") "empty" [])
  (SReturn (Some (ENew (TStr Char16) [])))
  (SSkip))
  (SReturn (Some (ECall "toUtf16" [(ECall "toLower" [(EVar "src4"); (EVar "lang")])])))) |}.

(* source/string_tolower.cxx:128-145 *)
Definition c_toLower_sChar32_pChar : fundef := {|
  f_name := "toLower";
  f_params := [{| p_ty := TStr Char32; p_ref := false; p_name := "src"; p_default := None |};
     {| p_ty := TPtr Char; p_ref := false; p_name := "lang"; p_default := Some ENull |}];
  f_ret := TStr Char32;
  f_body :=
  SSeq (SDecl (TAuto) "toLowerFunc" (Some (ECond (ECall "isTurkicLang" [(EVar "lang")]) (EVar "internal::turkicToLower") (EVar "internal::toLower"))))
  (SSeq (SDecl (TStr Char32) "result" None)
  (SSeq (SAlias "adder" "result")
  (SSeq (SEach "c" (EVar "src")
  (SExpr (ECall "adder" [(ECall "toLowerFunc" [(EVar "c")])])))
  (SReturn (Some (EVar "result")))))) |}.

(* source/string_toutf8.cxx:51-146 *)
Definition c_toUtf8_pChar_Enum : fundef := {|
  f_name := "toUtf8";
  f_params := [{| p_ty := TPtr Char; p_ref := false; p_name := "src"; p_default := None |};
     {| p_ty := TI Enum; p_ref := false; p_name := "srcType"; p_default := None |}];
  f_ret := TStr Char;
  f_body :=
  SIf (EOr (EBin Eq (EVar "src") ENull) (EBin Eq (EDeref (EVar "src")) (EChr 0)))
  (SReturn (Some (ENew (TStr Char) [])))
  (SIf (EBin Eq (EVar "srcType") (EVar "kSrcUnicode"))
  (SReturn (Some (ENew (TStr Char) [(EVar "src")])))
  (SIf (EBin Eq (EVar "srcType") (EVar "kSrcCP1252"))
  (SSeq (SDecl (TStr Char) "result" None)
  (SSeq (SAlias "adder" "result")
  (SSeq (SFor (SDecl (TAuto) "p" (Some (EVar "src"))) (EDeref (EVar "p")) [(EPreInc "p")]
  (SSeq (SDecl (TI UChar) "uc" (Some (ECast (TI UChar) (EDeref (EVar "p")))))
  (SIf (EBin Le (EVar "uc") (ELit true 127))
  (SExpr (ECall "adder" [(EVar "uc")]))
  (SIf (EBin Le (EVar "uc") (ELit true 159))
  (SSeq (SDeclArray (TI Char16) "cp125280_9F" None [(ELit true 8364); (ELit false 0); (ELit true 8218); (ELit true 402); (ELit true 8222); (ELit true 8230); (ELit true 8224); (ELit true 8225); (ELit true 710); (ELit true 8240); (ELit true 352); (ELit true 8249); (ELit true 338); (ELit false 0); (ELit true 381); (ELit false 0); (ELit false 0); (ELit true 8216); (ELit true 8217); (ELit true 8220); (ELit true 8221); (ELit true 8226); (ELit true 8211); (ELit true 8212); (ELit true 732); (ELit true 8482); (ELit true 353); (ELit true 8250); (ELit true 339); (ELit false 0); (ELit true 382); (ELit true 376)])
  (SSeq (SDecl (TAuto) "uniP" (Some (EIndex (EVar "cp125280_9F") (EBin Sub (EVar "uc") (ELit true 128)))))
  (SIf (EBin Eq (EVar "uniP") (ELit false 0))
  (SReturn (Some (ENew (TStr Char) [])))
  (SExpr (ECall "encodeUtf8" [(EVar "uniP"); (EVar "adder")])))))
  (SExpr (ECall "encodeUtf8" [(EVar "uc"); (EVar "adder")]))))))
  (SReturn (Some (EVar "result"))))))
  (SIf (EBin Eq (EVar "srcType") (EVar "kSrcCP1250"))
  (SSeq (SDecl (TStr Char) "result" None)
  (SSeq (SAlias "adder" "result")
  (SSeq (SFor (SDecl (TAuto) "p" (Some (EVar "src"))) (EDeref (EVar "p")) [(EPreInc "p")]
  (SSeq (SDecl (TI UChar) "uc" (Some (ECast (TI UChar) (EDeref (EVar "p")))))
  (SIf (EBin Le (EVar "uc") (ELit true 127))
  (SExpr (ECall "adder" [(EVar "uc")]))
  (SSeq (SDeclArray (TI Char16) "cp125080_FF" None [(ELit true 8364); (ELit false 0); (ELit true 8218); (ELit false 0); (ELit true 8222); (ELit true 8230); (ELit true 8224); (ELit true 8225); (ELit false 0); (ELit true 8240); (ELit true 352); (ELit true 8249); (ELit true 346); (ELit true 356); (ELit true 381); (ELit true 377); (ELit false 0); (ELit true 8216); (ELit true 8217); (ELit true 8220); (ELit true 8221); (ELit true 8226); (ELit true 8211); (ELit true 8212); (ELit false 0); (ELit true 8482); (ELit true 353); (ELit true 8250); (ELit true 347); (ELit true 357); (ELit true 382); (ELit true 378); (ELit true 160); (ELit true 711); (ELit true 728); (ELit true 321); (ELit true 164); (ELit true 260); (ELit true 166); (ELit true 167); (ELit true 168); (ELit true 169); (ELit true 350); (ELit true 171); (ELit true 172); (ELit true 173); (ELit true 174); (ELit true 379); (ELit true 176); (ELit true 177); (ELit true 731); (ELit true 322); (ELit true 180); (ELit true 181); (ELit true 182); (ELit true 183); (ELit true 184); (ELit true 261); (ELit true 351); (ELit true 187); (ELit true 317); (ELit true 733); (ELit true 318); (ELit true 380); (ELit true 340); (ELit true 193); (ELit true 194); (ELit true 258); (ELit true 196); (ELit true 313); (ELit true 262); (ELit true 199); (ELit true 268); (ELit true 201); (ELit true 280); (ELit true 203); (ELit true 282); (ELit true 205); (ELit true 206); (ELit true 270); (ELit true 272); (ELit true 323); (ELit true 327); (ELit true 211); (ELit true 212); (ELit true 336); (ELit true 214); (ELit true 215); (ELit true 344); (ELit true 366); (ELit true 218); (ELit true 368); (ELit true 220); (ELit true 221); (ELit true 354); (ELit true 223); (ELit true 341); (ELit true 225); (ELit true 226); (ELit true 259); (ELit true 228); (ELit true 314); (ELit true 263); (ELit true 231); (ELit true 269); (ELit true 233); (ELit true 281); (ELit true 235); (ELit true 283); (ELit true 237); (ELit true 238); (ELit true 271); (ELit true 273); (ELit true 324); (ELit true 328); (ELit true 243); (ELit true 244); (ELit true 337); (ELit true 246); (ELit true 247); (ELit true 345); (ELit true 367); (ELit true 250); (ELit true 369); (ELit true 252); (ELit true 253); (ELit true 355); (ELit true 729)])
  (SSeq (SDecl (TAuto) "uniP" (Some (EIndex (EVar "cp125080_FF") (EBin Sub (EVar "uc") (ELit true 128)))))
  (SIf (EBin Eq (EVar "uniP") (ELit false 0))
  (SReturn (Some (ENew (TStr Char) [])))
  (SExpr (ECall "encodeUtf8" [(EVar "uniP"); (EVar "adder")]))))))))
  (SReturn (Some (EVar "result"))))))
  (SReturn (Some (ENew (TStr Char) [])))))) |}.

(* interface/string_trim.hxx:51-64 *)
Definition c_trim_sC : fundef := {|
  f_name := "trim";
  f_params := [{| p_ty := TStrC; p_ref := true; p_name := "victim"; p_default := None |}];
  f_ret := TVoid;
  f_body :=
  SSeq (SWhile (EAnd (ENot (EMeth (EVar "victim") "empty" [])) (EBin Eq (EIndex (EVar "victim") (EBin Sub (EMeth (EVar "victim") "size" []) (ELit false 1))) (ECast (TC) (EChr 32))))
  (SExpr (EMeth (EVar "victim") "erase" [(EBin Sub (EMeth (EVar "victim") "size" []) (ELit false 1))])))
  (SWhile (EAnd (ENot (EMeth (EVar "victim") "empty" [])) (EBin Eq (EIndex (EVar "victim") (ELit false 0)) (ECast (TC) (EChr 32))))
  (SExpr (EMeth (EVar "victim") "erase" [(ELit false 0); (ELit false 1)]))) |}.

(* interface/string_trim.hxx:66-80 *)
Definition c_trim_sC_sC : fundef := {|
  f_name := "trim";
  f_params := [{| p_ty := TStrC; p_ref := true; p_name := "victim"; p_default := None |};
     {| p_ty := TStrC; p_ref := false; p_name := "spaces"; p_default := None |}];
  f_ret := TVoid;
  f_body :=
  SSeq (SWhile (EAnd (ENot (EMeth (EVar "victim") "empty" [])) (EBin Ne (EMeth (EVar "spaces") "find_first_of" [(EIndex (EVar "victim") (EBin Sub (EMeth (EVar "victim") "size" []) (ELit false 1)))]) ENpos))
  (SExpr (EMeth (EVar "victim") "erase" [(EBin Sub (EMeth (EVar "victim") "size" []) (ELit false 1))])))
  (SWhile (EAnd (ENot (EMeth (EVar "victim") "empty" [])) (EBin Ne (EMeth (EVar "spaces") "find_first_of" [(EIndex (EVar "victim") (ELit false 0))]) ENpos))
  (SExpr (EMeth (EVar "victim") "erase" [(ELit false 0); (ELit false 1)]))) |}.

(* interface/string_trim.hxx:82-85 *)
Definition c_trimAscii7WhiteSpace : fundef := {|
  f_name := "trimAscii7WhiteSpace";
  f_params := [{| p_ty := TStr Char; p_ref := true; p_name := "victim"; p_default := None |}];
  f_ret := TVoid;
  f_body :=
  SExpr (ECall "trim" [(EVar "victim"); (ENew (TStr Char) [(EText Char [9; 10; 13; 32])])]) |}.

(* interface/string_trim.hxx:87-93 *)
Definition c_trimWhiteSpace_sChar32 : fundef := {|
  f_name := "trimWhiteSpace";
  f_params := [{| p_ty := TStr Char32; p_ref := true; p_name := "victim"; p_default := None |}];
  f_ret := TVoid;
  f_body :=
  SExpr (ECall "trim" [(EVar "victim"); (ENew (TStr Char32) [(EText Char32 [9; 10; 13; 32; 160; 8192; 8193; 8194; 8195; 8196; 8197; 8198; 8199; 8200; 8201; 8202; 8239; 8287; 12288])])]) |}.

(* interface/string_trim.hxx:95-100 *)
Definition c_trimWhiteSpace_sChar16 : fundef := {|
  f_name := "trimWhiteSpace";
  f_params := [{| p_ty := TStr Char16; p_ref := true; p_name := "victim"; p_default := None |}];
  f_ret := TVoid;
  f_body :=
  SExpr (ECall "trim" [(EVar "victim"); (ENew (TStr Char16) [(EText Char16 [9; 10; 13; 32; 160; 8192; 8193; 8194; 8195; 8196; 8197; 8198; 8199; 8200; 8201; 8202; 8239; 8287; 12288])])]) |}.

(* interface/string_trim.hxx:102-107 *)
Definition c_trimWhiteSpace_sChar : fundef := {|
  f_name := "trimWhiteSpace";
  f_params := [{| p_ty := TStr Char; p_ref := true; p_name := "victim"; p_default := None |}];
  f_ret := TVoid;
  f_body :=
  SSeq (SDecl (TAuto) "v16" (Some (ECall "toUtf16" [(EVar "victim")])))
  (SSeq (SExpr (ECall "trimWhiteSpace" [(EVar "v16")]))
  (SExpr (EAssign "victim" (ECall "toUtf8" [(EVar "v16")])))) |}.

(* interface/string_splitjoin.hxx:59-109 *)
Definition c_split : fundef := {|
  f_name := "split";
  f_params := [{| p_ty := TStrC; p_ref := false; p_name := "src"; p_default := None |};
     {| p_ty := TC; p_ref := false; p_name := "delim"; p_default := None |}];
  f_ret := TVec;
  f_body :=
  SSeq (SIf (EMeth (EVar "src") "empty" [])
  (SReturn (Some (ENew (TVec) [])))
  (SSkip))
  (SSeq (SDecl (TAuto) "npos" (Some ENpos))
  (SSeq (SDecl (TI Size) "n" (Some (EMeth (EVar "src") "find" [(EVar "delim")])))
  (SIf (EBin Eq (EVar "n") (EVar "npos"))
  (SSeq (SDecl (TVec) "result" None)
  (SSeq (SExpr (EMeth (EVar "result") "push_back" [(EVar "src")]))
  (SReturn (Some (EVar "result")))))
  (SSeq (SDecl (TList) "breaks" None)
  (SSeq (SDo (SSeq (SExpr (EMeth (EVar "breaks") "push_back" [(EVar "n")]))
  (SExpr (EAssign "n" (EMeth (EVar "src") "find" [(EVar "delim"); (EBin Add (EVar "n") (ELit false 1))])))) (EBin Ne (EVar "n") (EVar "npos")))
  (SSeq (SDeclNew (TVec) "result" [(EBin Add (EMeth (EVar "breaks") "size" []) (ELit false 1))])
  (SSeq (SDecl (TI Int) "iResX" (Some (ELit false 0)))
  (SSeq (SExpr (EAssignIndex "result" (EPostInc "iResX") (EMeth (EVar "src") "substr" [(ELit false 0); (EDeref (EMeth (EVar "breaks") "begin" []))])))
  (SSeq (SFor (SDecl (TAuto) "iBreak" (Some (EMeth (EVar "breaks") "begin" []))) (EBin Ne (EVar "iBreak") (EMeth (EVar "breaks") "end" [])) [(EPreInc "iBreak")]
  (SSeq (SDecl (TAuto) "nStart" (Some (EBin Add (EDeref (EVar "iBreak")) (ELit false 1))))
  (SSeq (SDecl (TAuto) "nextBreak" (Some (EVar "iBreak")))
  (SSeq (SExpr (EPreInc "nextBreak"))
  (SIf (EBin Eq (EVar "nextBreak") (EMeth (EVar "breaks") "end" []))
  (SExpr (EAssignIndex "result" (EVar "iResX") (EMeth (EVar "src") "substr" [(EVar "nStart")])))
  (SExpr (EAssignIndex "result" (EPostInc "iResX") (EMeth (EVar "src") "substr" [(EVar "nStart"); (EBin Sub (EDeref (EVar "nextBreak")) (EVar "nStart"))]))))))))
  (SReturn (Some (EVar "result")))))))))))) |}.

(* interface/string_splitjoin.hxx:116-145 *)
Definition c_join : fundef := {|
  f_name := "join";
  f_params := [{| p_ty := TVec; p_ref := false; p_name := "src"; p_default := None |};
     {| p_ty := TC; p_ref := false; p_name := "delim"; p_default := None |}];
  f_ret := TStrC;
  f_body :=
  SIf (EMeth (EVar "src") "empty" [])
  (SReturn (Some (ENew (TStrC) [])))
  (SSeq (SDeclArray (TC) "delimStr" (Some 2) [(ELit false 0)])
  (SSeq (SExpr (EAssignIndex "delimStr" (ELit false 0) (EVar "delim")))
  (SSeq (SDecl (TStrC) "r" None)
  (SSeq (SDecl (TI Bool) "first" (Some (EBool true)))
  (SSeq (SEach "s" (EVar "src")
  (SSeq (SIf (ENot (EVar "first"))
  (SExpr (EMeth (EVar "r") "append" [(EVar "delimStr")]))
  (SSkip))
  (SSeq (SExpr (EAssign "first" (EBool false)))
  (SExpr (EMeth (EVar "r") "append" [(EVar "s")])))))
  (SReturn (Some (EVar "r")))))))) |}.

(* interface/string.hxx:484-487 *)
Definition c16_isUtf8_pWChar16 : fundef := {|
  f_name := "isUtf8";
  f_params := [{| p_ty := TPtr WChar16; p_ref := false; p_name := "test"; p_default := None |}];
  f_ret := TI Bool;
  f_body :=
  SReturn (Some (ECall "isUtf16" [(EReinterpret Char16 (EVar "test")); (EVar "kUtf8")])) |}.

(* interface/string.hxx:488-488 *)
Definition c16_isUtf8_sWChar16 : fundef := {|
  f_name := "isUtf8";
  f_params := [{| p_ty := TStr WChar16; p_ref := false; p_name := "test"; p_default := None |}];
  f_ret := TI Bool;
  f_body :=
  SReturn (Some (ECall "isUtf8" [(EMeth (EVar "test") "c_str" [])])) |}.

(* interface/string.hxx:490-493 *)
Definition c16_isUtf16_pWChar16 : fundef := {|
  f_name := "isUtf16";
  f_params := [{| p_ty := TPtr WChar16; p_ref := false; p_name := "test"; p_default := None |}];
  f_ret := TI Bool;
  f_body :=
  SReturn (Some (ECall "isUtf16" [(EReinterpret Char16 (EVar "test")); (EVar "kUtf8")])) |}.

(* interface/string.hxx:494-494 *)
Definition c16_isUtf16_sWChar16 : fundef := {|
  f_name := "isUtf16";
  f_params := [{| p_ty := TStr WChar16; p_ref := false; p_name := "test"; p_default := None |}];
  f_ret := TI Bool;
  f_body :=
  SReturn (Some (ECall "isUtf16" [(EMeth (EVar "test") "c_str" [])])) |}.

(* interface/string.hxx:496-499 *)
Definition c16_isUcs2_pWChar16 : fundef := {|
  f_name := "isUcs2";
  f_params := [{| p_ty := TPtr WChar16; p_ref := false; p_name := "test"; p_default := None |}];
  f_ret := TI Bool;
  f_body :=
  SReturn (Some (ECall "isUtf16" [(EReinterpret Char16 (EVar "test")); (EVar "kUcs2")])) |}.

(* interface/string.hxx:500-500 *)
Definition c16_isUcs2_sWChar16 : fundef := {|
  f_name := "isUcs2";
  f_params := [{| p_ty := TStr WChar16; p_ref := false; p_name := "test"; p_default := None |}];
  f_ret := TI Bool;
  f_body :=
  SReturn (Some (ECall "isUcs2" [(EMeth (EVar "test") "c_str" [])])) |}.

(* interface/string.hxx:502-505 *)
Definition c16_isUcs4_pWChar16 : fundef := {|
  f_name := "isUcs4";
  f_params := [{| p_ty := TPtr WChar16; p_ref := false; p_name := "test"; p_default := None |}];
  f_ret := TI Bool;
  f_body :=
  SReturn (Some (ECall "isUtf16" [(EReinterpret Char16 (EVar "test")); (EVar "kUcs4")])) |}.

(* interface/string.hxx:506-506 *)
Definition c16_isUcs4_sWChar16 : fundef := {|
  f_name := "isUcs4";
  f_params := [{| p_ty := TStr WChar16; p_ref := false; p_name := "test"; p_default := None |}];
  f_ret := TI Bool;
  f_body :=
  SReturn (Some (ECall "isUcs4" [(EMeth (EVar "test") "c_str" [])])) |}.

(* interface/string.hxx:508-511 *)
Definition c16_isWstring_sChar : fundef := {|
  f_name := "isWstring";
  f_params := [{| p_ty := TStr Char; p_ref := false; p_name := "test"; p_default := None |}];
  f_ret := TI Bool;
  f_body :=
  SReturn (Some (ECall "isUtf8" [(EVar "test"); (EVar "kUtf16")])) |}.

(* interface/string.hxx:513-516 *)
Definition c16_isWstring_pChar : fundef := {|
  f_name := "isWstring";
  f_params := [{| p_ty := TPtr Char; p_ref := false; p_name := "test"; p_default := None |}];
  f_ret := TI Bool;
  f_body :=
  SReturn (Some (ECall "isUtf8" [(EVar "test"); (EVar "kUtf16")])) |}.

(* interface/string.hxx:518-521 *)
Definition c16_isWstring_sChar16 : fundef := {|
  f_name := "isWstring";
  f_params := [{| p_ty := TStr Char16; p_ref := false; p_name := "test"; p_default := None |}];
  f_ret := TI Bool;
  f_body :=
  SReturn (Some (ECall "isUtf16" [(EVar "test")])) |}.

(* interface/string.hxx:530-533 *)
Definition c16_isWstring_pChar16 : fundef := {|
  f_name := "isWstring";
  f_params := [{| p_ty := TPtr Char16; p_ref := false; p_name := "test"; p_default := None |}];
  f_ret := TI Bool;
  f_body :=
  SReturn (Some (ECall "isUtf16" [(EVar "test")])) |}.

(* interface/string.hxx:535-538 *)
Definition c16_isWstring_sChar32 : fundef := {|
  f_name := "isWstring";
  f_params := [{| p_ty := TStr Char32; p_ref := false; p_name := "test"; p_default := None |}];
  f_ret := TI Bool;
  f_body :=
  SReturn (Some (ECall "isUcs4" [(EVar "test"); (EVar "kUtf16")])) |}.

(* interface/string.hxx:540-543 *)
Definition c16_isWstring_pChar32 : fundef := {|
  f_name := "isWstring";
  f_params := [{| p_ty := TPtr Char32; p_ref := false; p_name := "test"; p_default := None |}];
  f_ret := TI Bool;
  f_body :=
  SReturn (Some (ECall "isUcs4" [(EVar "test"); (EVar "kUtf16")])) |}.

(* interface/string.hxx:659-660 *)
Definition c16_toUtf8_pWChar16 : fundef := {|
  f_name := "toUtf8";
  f_params := [{| p_ty := TPtr WChar16; p_ref := false; p_name := "src"; p_default := None |}];
  f_ret := TStr Char;
  f_body :=
  SReturn (Some (ECall "toUtf8" [(EReinterpret Char16 (EVar "src"))])) |}.

(* interface/string.hxx:662-663 *)
Definition c16_toUtf8_sWChar16 : fundef := {|
  f_name := "toUtf8";
  f_params := [{| p_ty := TStr WChar16; p_ref := false; p_name := "src"; p_default := None |}];
  f_ret := TStr Char;
  f_body :=
  SReturn (Some (ECall "toUtf8" [(EMeth (EVar "src") "c_str" [])])) |}.

(* interface/string.hxx:665-676 *)
Definition c16_toUtf16_pWChar16 : fundef := {|
  f_name := "toUtf16";
  f_params := [{| p_ty := TPtr WChar16; p_ref := false; p_name := "src"; p_default := None |}];
  f_ret := TStr Char16;
  f_body :=
  SSeq (SDecl (TPtr Char16) "redirect" (Some (EReinterpret Char16 (EVar "src"))))
  (SIf (ECall "isUtf16" [(EVar "redirect")])
  (SReturn (Some (ENew (TStr Char16) [(EVar "redirect")])))
  (SReturn (Some (ENew (TStr Char16) [])))) |}.

(* interface/string.hxx:678-679 *)
Definition c16_toUtf16_sWChar16 : fundef := {|
  f_name := "toUtf16";
  f_params := [{| p_ty := TStr WChar16; p_ref := false; p_name := "src"; p_default := None |}];
  f_ret := TStr Char16;
  f_body :=
  SReturn (Some (ECall "toUtf16" [(EMeth (EVar "src") "c_str" [])])) |}.

(* interface/string.hxx:681-692 *)
Definition c16_toUcs2_pWChar16 : fundef := {|
  f_name := "toUcs2";
  f_params := [{| p_ty := TPtr WChar16; p_ref := false; p_name := "src"; p_default := None |}];
  f_ret := TStr Char16;
  f_body :=
  SSeq (SDecl (TPtr Char16) "redirect" (Some (EReinterpret Char16 (EVar "src"))))
  (SIf (ECall "isUcs2" [(EVar "redirect")])
  (SReturn (Some (ENew (TStr Char16) [(EVar "redirect")])))
  (SReturn (Some (ENew (TStr Char16) [])))) |}.

(* interface/string.hxx:694-695 *)
Definition c16_toUcs2_sWChar16 : fundef := {|
  f_name := "toUcs2";
  f_params := [{| p_ty := TStr WChar16; p_ref := false; p_name := "src"; p_default := None |}];
  f_ret := TStr Char16;
  f_body :=
  SReturn (Some (ECall "toUcs2" [(EMeth (EVar "src") "c_str" [])])) |}.

(* interface/string.hxx:697-698 *)
Definition c16_toUcs4_pWChar16 : fundef := {|
  f_name := "toUcs4";
  f_params := [{| p_ty := TPtr WChar16; p_ref := false; p_name := "src"; p_default := None |}];
  f_ret := TStr Char32;
  f_body :=
  SReturn (Some (ECall "toUcs4" [(EReinterpret Char16 (EVar "src"))])) |}.

(* interface/string.hxx:700-701 *)
Definition c16_toUcs4_sWChar16 : fundef := {|
  f_name := "toUcs4";
  f_params := [{| p_ty := TStr WChar16; p_ref := false; p_name := "src"; p_default := None |}];
  f_ret := TStr Char32;
  f_body :=
  SReturn (Some (ECall "toUcs4" [(EMeth (EVar "src") "c_str" [])])) |}.

(* interface/string.hxx:703-706 *)
Definition c16_toWstring_pChar : fundef := {|
  f_name := "toWstring";
  f_params := [{| p_ty := TPtr Char; p_ref := false; p_name := "src"; p_default := None |}];
  f_ret := TStr WChar16;
  f_body :=
  SReturn (Some (ENew (TStr WChar16) [(EReinterpret WChar16 (EMeth (ECall "toUtf16" [(EVar "src")]) "c_str" []))])) |}.

(* interface/string.hxx:707-710 *)
Definition c16_toWstring_sChar : fundef := {|
  f_name := "toWstring";
  f_params := [{| p_ty := TStr Char; p_ref := false; p_name := "src"; p_default := None |}];
  f_ret := TStr WChar16;
  f_body :=
  SReturn (Some (ECall "toWstring" [(EMeth (EVar "src") "c_str" [])])) |}.

(* interface/string.hxx:712-722 *)
Definition c16_toWstring_pChar16 : fundef := {|
  f_name := "toWstring";
  f_params := [{| p_ty := TPtr Char16; p_ref := false; p_name := "src"; p_default := None |}];
  f_ret := TStr WChar16;
  f_body :=
  SIf (ECall "isUtf16" [(EVar "src")])
  (SReturn (Some (ENew (TStr WChar16) [(EReinterpret WChar16 (EVar "src"))])))
  (SReturn (Some (ENew (TStr WChar16) []))) |}.

(* interface/string.hxx:723-726 *)
Definition c16_toWstring_sChar16 : fundef := {|
  f_name := "toWstring";
  f_params := [{| p_ty := TStr Char16; p_ref := false; p_name := "src"; p_default := None |}];
  f_ret := TStr WChar16;
  f_body :=
  SReturn (Some (ECall "toWstring" [(EMeth (EVar "src") "c_str" [])])) |}.

(* interface/string.hxx:734-737 *)
Definition c16_toWstring_pChar32 : fundef := {|
  f_name := "toWstring";
  f_params := [{| p_ty := TPtr Char32; p_ref := false; p_name := "src"; p_default := None |}];
  f_ret := TStr WChar16;
  f_body :=
  SReturn (Some (ENew (TStr WChar16) [(EReinterpret WChar16 (EMeth (ECall "toUtf16" [(EVar "src")]) "c_str" []))])) |}.

(* interface/string.hxx:738-741 *)
Definition c16_toWstring_sChar32 : fundef := {|
  f_name := "toWstring";
  f_params := [{| p_ty := TStr Char32; p_ref := false; p_name := "src"; p_default := None |}];
  f_ret := TStr WChar16;
  f_body :=
  SReturn (Some (ECall "toWstring" [(EMeth (EVar "src") "c_str" [])])) |}.

(* interface/string.hxx:556-559 *)
Definition win_isUtf16_pChar : fundef := {|
  f_name := "isUtf16";
  f_params := [{| p_ty := TPtr Char; p_ref := false; p_name := "test"; p_default := None |}];
  f_ret := TI Bool;
  f_body :=
  SReturn (Some (ECall "isUtf8" [(EVar "test"); (EVar "kUtf16")])) |}.

(* interface/string.hxx:560-560 *)
Definition win_isUtf16_sChar : fundef := {|
  f_name := "isUtf16";
  f_params := [{| p_ty := TStr Char; p_ref := false; p_name := "test"; p_default := None |}];
  f_ret := TI Bool;
  f_body :=
  SReturn (Some (ECall "isUtf16" [(EMeth (EVar "test") "c_str" [])])) |}.

(* interface/string.hxx:562-565 *)
Definition win_isUcs2_pChar : fundef := {|
  f_name := "isUcs2";
  f_params := [{| p_ty := TPtr Char; p_ref := false; p_name := "test"; p_default := None |}];
  f_ret := TI Bool;
  f_body :=
  SReturn (Some (ECall "isUtf8" [(EVar "test"); (EVar "kUcs2")])) |}.

(* interface/string.hxx:566-566 *)
Definition win_isUcs2_sChar : fundef := {|
  f_name := "isUcs2";
  f_params := [{| p_ty := TStr Char; p_ref := false; p_name := "test"; p_default := None |}];
  f_ret := TI Bool;
  f_body :=
  SReturn (Some (ECall "isUcs2" [(EMeth (EVar "test") "c_str" [])])) |}.

(* interface/string.hxx:568-571 *)
Definition win_isUcs4_pChar : fundef := {|
  f_name := "isUcs4";
  f_params := [{| p_ty := TPtr Char; p_ref := false; p_name := "test"; p_default := None |}];
  f_ret := TI Bool;
  f_body :=
  SReturn (Some (ECall "isUtf8" [(EVar "test"); (EVar "kUcs4")])) |}.

(* interface/string.hxx:572-572 *)
Definition win_isUcs4_sChar : fundef := {|
  f_name := "isUcs4";
  f_params := [{| p_ty := TStr Char; p_ref := false; p_name := "test"; p_default := None |}];
  f_ret := TI Bool;
  f_body :=
  SReturn (Some (ECall "isUcs4" [(EMeth (EVar "test") "c_str" [])])) |}.

(* interface/string.hxx:747-757 *)
Definition win_toUtf8_pChar : fundef := {|
  f_name := "toUtf8";
  f_params := [{| p_ty := TPtr Char; p_ref := false; p_name := "src"; p_default := None |}];
  f_ret := TStr Char;
  f_body :=
  SIf (ECall "isUtf8" [(EVar "src")])
  (SReturn (Some (ENew (TStr Char) [(EVar "src")])))
  (SReturn (Some (ENew (TStr Char) []))) |}.

(* interface/string.hxx:759-759 *)
Definition win_toUtf8_sChar : fundef := {|
  f_name := "toUtf8";
  f_params := [{| p_ty := TStr Char; p_ref := false; p_name := "src"; p_default := None |}];
  f_ret := TStr Char;
  f_body :=
  SReturn (Some (ECall "toUtf8" [(EMeth (EVar "src") "c_str" [])])) |}.

(* interface/string.hxx:576-579 *)
Definition mbcs_isTstring_sChar : fundef := {|
  f_name := "isTstring";
  f_params := [{| p_ty := TStr Char; p_ref := false; p_name := "test"; p_default := None |}];
  f_ret := TI Bool;
  f_body :=
  SReturn (Some (ECall "isUtf8" [(EVar "test"); (EVar "kUtf16")])) |}.

(* interface/string.hxx:581-584 *)
Definition mbcs_isTstring_pChar : fundef := {|
  f_name := "isTstring";
  f_params := [{| p_ty := TPtr Char; p_ref := false; p_name := "test"; p_default := None |}];
  f_ret := TI Bool;
  f_body :=
  SReturn (Some (ECall "isUtf8" [(EVar "test"); (EVar "kUtf16")])) |}.

(* interface/string.hxx:586-589 *)
Definition mbcs_isTstring_sChar16 : fundef := {|
  f_name := "isTstring";
  f_params := [{| p_ty := TStr Char16; p_ref := false; p_name := "test"; p_default := None |}];
  f_ret := TI Bool;
  f_body :=
  SReturn (Some (ECall "isUtf16" [(EVar "test")])) |}.

(* interface/string.hxx:598-601 *)
Definition mbcs_isTstring_pChar16 : fundef := {|
  f_name := "isTstring";
  f_params := [{| p_ty := TPtr Char16; p_ref := false; p_name := "test"; p_default := None |}];
  f_ret := TI Bool;
  f_body :=
  SReturn (Some (ECall "isUtf16" [(EVar "test")])) |}.

(* interface/string.hxx:603-606 *)
Definition mbcs_isTstring_sChar32 : fundef := {|
  f_name := "isTstring";
  f_params := [{| p_ty := TStr Char32; p_ref := false; p_name := "test"; p_default := None |}];
  f_ret := TI Bool;
  f_body :=
  SReturn (Some (ECall "isUcs4" [(EVar "test"); (EVar "kUtf16")])) |}.

(* interface/string.hxx:608-611 *)
Definition mbcs_isTstring_pChar32 : fundef := {|
  f_name := "isTstring";
  f_params := [{| p_ty := TPtr Char32; p_ref := false; p_name := "test"; p_default := None |}];
  f_ret := TI Bool;
  f_body :=
  SReturn (Some (ECall "isUcs4" [(EVar "test"); (EVar "kUtf16")])) |}.

(* interface/string.hxx:763-766 *)
Definition mbcs_toTstring_sChar : fundef := {|
  f_name := "toTstring";
  f_params := [{| p_ty := TStr Char; p_ref := false; p_name := "test"; p_default := None |}];
  f_ret := TStr Char;
  f_body :=
  SReturn (Some (ECall "toTstring (seen by sChar)" [(EMeth (EVar "test") "c_str" [])])) |}.

(* interface/string.hxx:768-778 *)
Definition mbcs_toTstring_pChar : fundef := {|
  f_name := "toTstring";
  f_params := [{| p_ty := TPtr Char; p_ref := false; p_name := "test"; p_default := None |}];
  f_ret := TStr Char;
  f_body :=
  SIf (ECall "isUtf8" [(EVar "test"); (EVar "kAscii")])
  (SReturn (Some (ENew (TStr Char) [(EVar "test")])))
  (SReturn (Some (ENew (TStr Char) []))) |}.

(* interface/string.hxx:780-783 *)
Definition mbcs_toTstring_sChar16 : fundef := {|
  f_name := "toTstring";
  f_params := [{| p_ty := TStr Char16; p_ref := false; p_name := "test"; p_default := None |}];
  f_ret := TStr Char;
  f_body :=
  SReturn (Some (ECall "toTstring (seen by sChar16)" [(EMeth (EVar "test") "c_str" [])])) |}.

(* interface/string.hxx:792-802 *)
Definition mbcs_toTstring_pChar16 : fundef := {|
  f_name := "toTstring";
  f_params := [{| p_ty := TPtr Char16; p_ref := false; p_name := "test"; p_default := None |}];
  f_ret := TStr Char;
  f_body :=
  SIf (ECall "isUtf16" [(EVar "test"); (EVar "kAscii")])
  (SReturn (Some (ENew (TStr Char) [(EMeth (ECall "toUtf8" [(EVar "test")]) "c_str" [])])))
  (SReturn (Some (ENew (TStr Char) []))) |}.

(* interface/string.hxx:804-807 *)
Definition mbcs_toTstring_sChar32 : fundef := {|
  f_name := "toTstring";
  f_params := [{| p_ty := TStr Char32; p_ref := false; p_name := "test"; p_default := None |}];
  f_ret := TStr Char;
  f_body :=
  SReturn (Some (ECall "toTstring (seen by sChar32)" [(EMeth (EVar "test") "c_str" [])])) |}.

(* interface/string.hxx:809-819 *)
Definition mbcs_toTstring_pChar32 : fundef := {|
  f_name := "toTstring";
  f_params := [{| p_ty := TPtr Char32; p_ref := false; p_name := "test"; p_default := None |}];
  f_ret := TStr Char;
  f_body :=
  SIf (ECall "isUcs4" [(EVar "test"); (EVar "kAscii")])
  (SReturn (Some (ENew (TStr Char) [(EMeth (ECall "toUtf8" [(EVar "test")]) "c_str" [])])))
  (SReturn (Some (ENew (TStr Char) []))) |}.

(* interface/string.hxx:615-618 *)
Definition uni_isTstring_sChar : fundef := {|
  f_name := "isTstring";
  f_params := [{| p_ty := TStr Char; p_ref := false; p_name := "test"; p_default := None |}];
  f_ret := TI Bool;
  f_body :=
  SReturn (Some (ECall "isUtf8" [(EVar "test"); (EVar "kUtf16")])) |}.

(* interface/string.hxx:620-623 *)
Definition uni_isTstring_pChar : fundef := {|
  f_name := "isTstring";
  f_params := [{| p_ty := TPtr Char; p_ref := false; p_name := "test"; p_default := None |}];
  f_ret := TI Bool;
  f_body :=
  SReturn (Some (ECall "isUtf8" [(EVar "test"); (EVar "kUtf16")])) |}.

(* interface/string.hxx:625-628 *)
Definition uni_isTstring_sChar16 : fundef := {|
  f_name := "isTstring";
  f_params := [{| p_ty := TStr Char16; p_ref := false; p_name := "test"; p_default := None |}];
  f_ret := TI Bool;
  f_body :=
  SReturn (Some (ECall "isUtf16" [(EVar "test")])) |}.

(* interface/string.hxx:637-640 *)
Definition uni_isTstring_pChar16 : fundef := {|
  f_name := "isTstring";
  f_params := [{| p_ty := TPtr Char16; p_ref := false; p_name := "test"; p_default := None |}];
  f_ret := TI Bool;
  f_body :=
  SReturn (Some (ECall "isUtf16" [(EVar "test")])) |}.

(* interface/string.hxx:642-645 *)
Definition uni_isTstring_sChar32 : fundef := {|
  f_name := "isTstring";
  f_params := [{| p_ty := TStr Char32; p_ref := false; p_name := "test"; p_default := None |}];
  f_ret := TI Bool;
  f_body :=
  SReturn (Some (ECall "isUcs4" [(EVar "test"); (EVar "kUtf16")])) |}.

(* interface/string.hxx:647-650 *)
Definition uni_isTstring_pChar32 : fundef := {|
  f_name := "isTstring";
  f_params := [{| p_ty := TPtr Char32; p_ref := false; p_name := "test"; p_default := None |}];
  f_ret := TI Bool;
  f_body :=
  SReturn (Some (ECall "isUcs4" [(EVar "test"); (EVar "kUtf16")])) |}.

(* interface/string.hxx:823-826 *)
Definition uni_toTstring_sChar : fundef := {|
  f_name := "toTstring";
  f_params := [{| p_ty := TStr Char; p_ref := false; p_name := "test"; p_default := None |}];
  f_ret := TStr WChar16;
  f_body :=
  SReturn (Some (ENew (TStr WChar16) [(EReinterpret WChar16 (EMeth (ECall "toUtf16" [(EVar "test")]) "c_str" []))])) |}.

(* interface/string.hxx:828-831 *)
Definition uni_toTstring_pChar : fundef := {|
  f_name := "toTstring";
  f_params := [{| p_ty := TPtr Char; p_ref := false; p_name := "test"; p_default := None |}];
  f_ret := TStr WChar16;
  f_body :=
  SReturn (Some (ENew (TStr WChar16) [(EReinterpret WChar16 (EMeth (ECall "toUtf16" [(EVar "test")]) "c_str" []))])) |}.

(* interface/string.hxx:833-836 *)
Definition uni_toTstring_sChar16 : fundef := {|
  f_name := "toTstring";
  f_params := [{| p_ty := TStr Char16; p_ref := false; p_name := "test"; p_default := None |}];
  f_ret := TStr WChar16;
  f_body :=
  SReturn (Some (ENew (TStr WChar16) [(EReinterpret WChar16 (EMeth (EVar "test") "c_str" []))])) |}.

(* interface/string.hxx:845-848 *)
Definition uni_toTstring_pChar16 : fundef := {|
  f_name := "toTstring";
  f_params := [{| p_ty := TPtr Char16; p_ref := false; p_name := "test"; p_default := None |}];
  f_ret := TStr WChar16;
  f_body :=
  SReturn (Some (ENew (TStr WChar16) [(EReinterpret WChar16 (EVar "test"))])) |}.

(* interface/string.hxx:850-853 *)
Definition uni_toTstring_sChar32 : fundef := {|
  f_name := "toTstring";
  f_params := [{| p_ty := TStr Char32; p_ref := false; p_name := "test"; p_default := None |}];
  f_ret := TStr WChar16;
  f_body :=
  SReturn (Some (ENew (TStr WChar16) [(EReinterpret WChar16 (EMeth (ECall "toUtf16" [(EVar "test")]) "c_str" []))])) |}.

(* interface/string.hxx:855-858 *)
Definition uni_toTstring_pChar32 : fundef := {|
  f_name := "toTstring";
  f_params := [{| p_ty := TPtr Char32; p_ref := false; p_name := "test"; p_default := None |}];
  f_ret := TStr WChar16;
  f_body :=
  SReturn (Some (ENew (TStr WChar16) [(EReinterpret WChar16 (EMeth (ECall "toUtf16" [(EVar "test")]) "c_str" []))])) |}.

(* source/string_internal.hxx:119 *)
Definition d_isUnicodeAssigned_Char16 : fundef := {|
  f_name := "isUnicodeAssigned";
  f_params := [{| p_ty := TI Char16; p_ref := false; p_name := "c"; p_default := None |}];
  f_ret := TI Bool;
  f_body :=
  SSkip |}.

(* source/string_internal.hxx:120 *)
Definition d_isUnicodeAssigned_Char32 : fundef := {|
  f_name := "isUnicodeAssigned";
  f_params := [{| p_ty := TI Char32; p_ref := false; p_name := "c"; p_default := None |}];
  f_ret := TI Bool;
  f_body :=
  SSkip |}.

(* source/string_internal.hxx:123 *)
Definition d_isUnicodePrivate_Char16 : fundef := {|
  f_name := "isUnicodePrivate";
  f_params := [{| p_ty := TI Char16; p_ref := false; p_name := "c"; p_default := None |}];
  f_ret := TI Bool;
  f_body :=
  SSkip |}.

(* source/string_internal.hxx:124 *)
Definition d_isUnicodePrivate_Char32 : fundef := {|
  f_name := "isUnicodePrivate";
  f_params := [{| p_ty := TI Char32; p_ref := false; p_name := "c"; p_default := None |}];
  f_ret := TI Bool;
  f_body :=
  SSkip |}.

(* source/string_internal.hxx:126 *)
Definition d_isControlChar_Char : fundef := {|
  f_name := "isControlChar";
  f_params := [{| p_ty := TI Char; p_ref := false; p_name := "c"; p_default := None |}];
  f_ret := TI Bool;
  f_body :=
  SSkip |}.

(* source/string_internal.hxx:127 *)
Definition d_isControlChar_Char16 : fundef := {|
  f_name := "isControlChar";
  f_params := [{| p_ty := TI Char16; p_ref := false; p_name := "c"; p_default := None |}];
  f_ret := TI Bool;
  f_body :=
  SSkip |}.

(* source/string_internal.hxx:128 *)
Definition d_isControlChar_Char32 : fundef := {|
  f_name := "isControlChar";
  f_params := [{| p_ty := TI Char32; p_ref := false; p_name := "c"; p_default := None |}];
  f_ret := TI Bool;
  f_body :=
  SSkip |}.

(* source/string_internal.hxx:130 *)
Definition d_isWhitespaceChar_Char : fundef := {|
  f_name := "isWhitespaceChar";
  f_params := [{| p_ty := TI Char; p_ref := false; p_name := "c"; p_default := None |}];
  f_ret := TI Bool;
  f_body :=
  SSkip |}.

(* source/string_internal.hxx:131 *)
Definition d_isWhitespaceChar_Char16 : fundef := {|
  f_name := "isWhitespaceChar";
  f_params := [{| p_ty := TI Char16; p_ref := false; p_name := "c"; p_default := None |}];
  f_ret := TI Bool;
  f_body :=
  SSkip |}.

(* source/string_internal.hxx:132 *)
Definition d_isWhitespaceChar_Char32 : fundef := {|
  f_name := "isWhitespaceChar";
  f_params := [{| p_ty := TI Char32; p_ref := false; p_name := "c"; p_default := None |}];
  f_ret := TI Bool;
  f_body :=
  SSkip |}.

(* source/string_internal.hxx:453 *)
Definition d_internal_turkicToLower : fundef := {|
  f_name := "internal::turkicToLower";
  f_params := [{| p_ty := TI Char32; p_ref := false; p_name := "c"; p_default := None |}];
  f_ret := TI Char32;
  f_body :=
  SSkip |}.

(* source/string_internal.hxx:454 *)
Definition d_internal_toLower : fundef := {|
  f_name := "internal::toLower";
  f_params := [{| p_ty := TI Char32; p_ref := false; p_name := "c"; p_default := None |}];
  f_ret := TI Char32;
  f_body :=
  SSkip |}.

(* what all configurations have in common *)
Definition source : program := {|
  p_enums := [("kAscii", (Some (ELit false 0)));
    ("kUtf8", None);
    ("kUcs2", None);
    ("kUtf16", None);
    ("kUcs4", None);
    ("kUnicode", None);
    ("kFirstInvalidRange", None);
    ("kIsNone", (Some (ELit false 0)));
    ("kIsAssigned", None);
    ("kIsPrivate", None);
    ("kIsControl", None);
    ("kIsWhitespace", None);
    ("kFirstInvalidEncoding", None);
    ("kSrcUnicode", (Some (ELit false 0)));
    ("kSrcCP1252", None);
    ("kSrcCP1250", None);
    ("kNoFlag", (Some (ELit true 0)));
    ("kAsciiFlag", (Some (ELit true 1)));
    ("kUtf8Flag", (Some (ELit true 2)));
    ("kUcs2Flag", (Some (ELit true 4)));
    ("kUtf16Flag", (Some (ELit true 8)));
    ("kUcs4Flag", (Some (ELit true 16)));
    ("kUnicodeFlag", (Some (ELit true 32)));
    ("kInvalidRangeFlag", (Some (ELit true 32768)));
    ("k7BitFlags", (Some (EBin BOr (EBin BOr (EBin BOr (EBin BOr (EBin BOr (EVar "kAsciiFlag") (EVar "kUtf8Flag")) (EVar "kUcs2Flag")) (EVar "kUtf16Flag")) (EVar "kUcs4Flag")) (EVar "kUnicodeFlag"))));
    ("k16BitFlags", (Some (EBin BOr (EBin BOr (EBin BOr (EBin BOr (EVar "kUtf8Flag") (EVar "kUcs2Flag")) (EVar "kUtf16Flag")) (EVar "kUcs4Flag")) (EVar "kUnicodeFlag"))));
    ("k21BitFlags", (Some (EBin BOr (EBin BOr (EVar "kUtf8Flag") (EVar "kUtf16Flag")) (EVar "kUcs4Flag"))));
    ("k21BitUnicodeFlags", (Some (EBin BOr (EVar "k21BitFlags") (EVar "kUnicodeFlag"))));
    ("k31BitFlags", (Some (EBin BOr (EVar "kUtf8Flag") (EVar "kUcs4Flag"))));
    ("k32BitFlags", (Some (EVar "kUcs4Flag")));
    ("kNoneFlag", (Some (ELit true 0)));
    ("kIsAssignedFlag", (Some (ELit true 1)));
    ("kIsPrivateFlag", (Some (ELit true 2)));
    ("kIsControlFlag", (Some (ELit true 4)));
    ("kIsWhiteSpaceFlag", (Some (ELit true 8)))];
  p_arrays := [("rangeTypeToRangeFlag", [(EVar "kAsciiFlag"); (EVar "kUtf8Flag"); (EVar "kUcs2Flag"); (EVar "kUtf16Flag"); (EVar "kUcs4Flag"); (EVar "kUnicodeFlag")]);
    ("encodingTypeToEncodingFlag", [(EVar "kNoneFlag"); (EVar "kIsAssignedFlag"); (EVar "kIsPrivateFlag"); (EVar "kIsControlFlag"); (EVar "kIsWhiteSpaceFlag")])];
  p_funs := [c_Pred_checkIf;
    c_Pred_checkIfNot;
    c_Pred_ne;
    c_validIf;
    c_validIfNot;
    c_isUtf8_sChar_Pred;
    c_isUtf8_pChar_Pred;
    c_isUtf16_sChar16_Pred;
    c_isUtf16_pChar16_Pred;
    c_isUcs2_sChar16_Pred;
    c_isUcs2_pChar16_Pred;
    c_isUcs4_sChar32_Pred;
    c_isUcs4_pChar32_Pred;
    c_isUnicodeAssigned;
    c_isUnicodePrivate;
    c_getUnicodeEncodableRangeFlag;
    c_getCharEncodableRangeFlags;
    c_getRangeFlag_Char;
    c_getRangeFlag_Char16;
    c_charToEncodingTypeMask;
    c_isFirstHalfUtf16;
    c_isSecondHalfUtf16;
    c_rawDecodeUtf8_Char_Char;
    c_rawDecodeUtf8_Char_Char_Char;
    c_rawDecodeUtf8_Char_Char_Char_Char;
    c_rawDecodeUtf8_Char_Char_Char_Char_Char;
    c_rawDecodeUtf8_Char_Char_Char_Char_Char_Char;
    c_encodeUtf8;
    c_rawDecodeUtf16;
    c_rawEncodeUtf16;
    c_decodeUtf8;
    c_isUtf16Encodable;
    c_isUtf16EscapedRange;
    c_sequenceSizeCharStarts;
    c_isFirstHalfUtf16AsUtf8;
    c_isSecondHalfUtf16AsUtf8;
    c_isUtf8_pChar_UInt_Enum_Pred;
    c_getUnicodeVersionSupported;
    c_isUtf8_sChar_Enum_Pred;
    c_isUtf8_pChar_Enum_Pred;
    c_isUtf8_pChar_UInt_Pred;
    c_isUtf16_sChar16_Enum_Pred;
    c_isUtf16_pChar16_Enum_Pred;
    c_isUcs2_sChar16_Enum_Pred;
    c_isUcs2_pChar16_Enum_Pred;
    c_isUcs4_sChar32_Enum_Pred;
    c_isUcs4_pChar32_Enum_Pred;
    c_toUtf8_pChar16;
    c_toUtf8_sChar16;
    c_toUtf8_pChar32;
    c_toUtf8_sChar32;
    c_toUcs2_pChar;
    c_toUcs2_sChar;
    c_toUcs2_pChar32;
    c_toUcs2_sChar32;
    c_toUtf16_pChar;
    c_toUtf16_sChar;
    c_toUtf16_pChar32;
    c_toUtf16_sChar32;
    c_toUcs4_pChar;
    c_toUcs4_sChar;
    c_toUcs4_pChar16;
    c_toUcs4_sChar16;
    c_unicodeLength_sChar;
    c_unicodeLength_pChar_UInt;
    c_unicodeLength_sChar16;
    c_unicodeLength_pChar16_UInt;
    c_unicodeLength_sChar32;
    c_unicodeLength_pChar32_UInt;
    c_Pred_EncodingCheckPredicate;
    c_Pred_andIf;
    c_Pred_andIfNot;
    c_Pred_eq;
    c_Pred_call_Pred_Char;
    c_Pred_call_Pred_Char16;
    c_Pred_call_Pred_Char32;
    c_isTurkicLang;
    c_toLower_sChar_pChar;
    c_toLower_sChar16_pChar;
    c_toLower_sChar32_pChar;
    c_toUtf8_pChar_Enum;
    c_trim_sC;
    c_trim_sC_sC;
    c_trimAscii7WhiteSpace;
    c_trimWhiteSpace_sChar32;
    c_trimWhiteSpace_sChar16;
    c_trimWhiteSpace_sChar;
    c_split;
    c_join];
  p_decls := [d_isUnicodeAssigned_Char16;
    d_isUnicodeAssigned_Char32;
    d_isUnicodePrivate_Char16;
    d_isUnicodePrivate_Char32;
    d_isControlChar_Char;
    d_isControlChar_Char16;
    d_isControlChar_Char32;
    d_isWhitespaceChar_Char;
    d_isWhitespaceChar_Char16;
    d_isWhitespaceChar_Char32;
    d_internal_turkicToLower;
    d_internal_toLower] |}.

(* what each adds *)
Definition wchar32_functions : list fundef := [c_isUtf8_pWChar32;
    c_isUtf8_sWChar32;
    c_isUtf16_pWChar32;
    c_isUtf16_sWChar32;
    c_isUcs2_pWChar32;
    c_isUcs2_sWChar32;
    c_isUcs4_pWChar32;
    c_isUcs4_sWChar32;
    c_isWstring_sChar;
    c_isWstring_pChar;
    c_isWstring_sChar16;
    c_isWstring_pChar16;
    c_isWstring_sChar32;
    c_isWstring_pChar32;
    c_toUtf8_pWChar32;
    c_toUtf8_sWChar32;
    c_toUtf16_pWChar32;
    c_toUtf16_sWChar32;
    c_toUcs2_pWChar32;
    c_toUcs2_sWChar32;
    c_toUcs4_pWChar32;
    c_toUcs4_sWChar32;
    c_toWstring_pChar;
    c_toWstring_sChar;
    c_toWstring_pChar16;
    c_toWstring_sChar16;
    c_toWstring_pChar32;
    c_toWstring_sChar32].

Definition wchar16_functions : list fundef := [c16_isUtf8_pWChar16;
    c16_isUtf8_sWChar16;
    c16_isUtf16_pWChar16;
    c16_isUtf16_sWChar16;
    c16_isUcs2_pWChar16;
    c16_isUcs2_sWChar16;
    c16_isUcs4_pWChar16;
    c16_isUcs4_sWChar16;
    c16_isWstring_sChar;
    c16_isWstring_pChar;
    c16_isWstring_sChar16;
    c16_isWstring_pChar16;
    c16_isWstring_sChar32;
    c16_isWstring_pChar32;
    c16_toUtf8_pWChar16;
    c16_toUtf8_sWChar16;
    c16_toUtf16_pWChar16;
    c16_toUtf16_sWChar16;
    c16_toUcs2_pWChar16;
    c16_toUcs2_sWChar16;
    c16_toUcs4_pWChar16;
    c16_toUcs4_sWChar16;
    c16_toWstring_pChar;
    c16_toWstring_sChar;
    c16_toWstring_pChar16;
    c16_toWstring_sChar16;
    c16_toWstring_pChar32;
    c16_toWstring_sChar32].

Definition win32_functions : list fundef := [c16_isUtf8_pWChar16;
    c16_isUtf8_sWChar16;
    c16_isUtf16_pWChar16;
    c16_isUtf16_sWChar16;
    c16_isUcs2_pWChar16;
    c16_isUcs2_sWChar16;
    c16_isUcs4_pWChar16;
    c16_isUcs4_sWChar16;
    c16_isWstring_sChar;
    c16_isWstring_pChar;
    c16_isWstring_sChar16;
    c16_isWstring_pChar16;
    c16_isWstring_sChar32;
    c16_isWstring_pChar32;
    win_isUtf16_pChar;
    win_isUtf16_sChar;
    win_isUcs2_pChar;
    win_isUcs2_sChar;
    win_isUcs4_pChar;
    win_isUcs4_sChar;
    c16_toUtf8_pWChar16;
    c16_toUtf8_sWChar16;
    c16_toUtf16_pWChar16;
    c16_toUtf16_sWChar16;
    c16_toUcs2_pWChar16;
    c16_toUcs2_sWChar16;
    c16_toUcs4_pWChar16;
    c16_toUcs4_sWChar16;
    c16_toWstring_pChar;
    c16_toWstring_sChar;
    c16_toWstring_pChar16;
    c16_toWstring_sChar16;
    c16_toWstring_pChar32;
    c16_toWstring_sChar32;
    win_toUtf8_pChar;
    win_toUtf8_sChar].

Definition win32_mbcs_functions : list fundef := [c16_isUtf8_pWChar16;
    c16_isUtf8_sWChar16;
    c16_isUtf16_pWChar16;
    c16_isUtf16_sWChar16;
    c16_isUcs2_pWChar16;
    c16_isUcs2_sWChar16;
    c16_isUcs4_pWChar16;
    c16_isUcs4_sWChar16;
    c16_isWstring_sChar;
    c16_isWstring_pChar;
    c16_isWstring_sChar16;
    c16_isWstring_pChar16;
    c16_isWstring_sChar32;
    c16_isWstring_pChar32;
    win_isUtf16_pChar;
    win_isUtf16_sChar;
    win_isUcs2_pChar;
    win_isUcs2_sChar;
    win_isUcs4_pChar;
    win_isUcs4_sChar;
    mbcs_isTstring_sChar;
    mbcs_isTstring_pChar;
    mbcs_isTstring_sChar16;
    mbcs_isTstring_pChar16;
    mbcs_isTstring_sChar32;
    mbcs_isTstring_pChar32;
    c16_toUtf8_pWChar16;
    c16_toUtf8_sWChar16;
    c16_toUtf16_pWChar16;
    c16_toUtf16_sWChar16;
    c16_toUcs2_pWChar16;
    c16_toUcs2_sWChar16;
    c16_toUcs4_pWChar16;
    c16_toUcs4_sWChar16;
    c16_toWstring_pChar;
    c16_toWstring_sChar;
    c16_toWstring_pChar16;
    c16_toWstring_sChar16;
    c16_toWstring_pChar32;
    c16_toWstring_sChar32;
    win_toUtf8_pChar;
    win_toUtf8_sChar;
    mbcs_toTstring_sChar;
    mbcs_toTstring_pChar;
    mbcs_toTstring_sChar16;
    mbcs_toTstring_pChar16;
    mbcs_toTstring_sChar32;
    mbcs_toTstring_pChar32;
    seen_as "toTstring (seen by sChar)" mbcs_toTstring_sChar;
    seen_as "toTstring (seen by sChar16)" mbcs_toTstring_sChar;
    seen_as "toTstring (seen by sChar16)" mbcs_toTstring_pChar;
    seen_as "toTstring (seen by sChar16)" mbcs_toTstring_sChar16;
    seen_as "toTstring (seen by sChar32)" mbcs_toTstring_sChar;
    seen_as "toTstring (seen by sChar32)" mbcs_toTstring_pChar;
    seen_as "toTstring (seen by sChar32)" mbcs_toTstring_sChar16;
    seen_as "toTstring (seen by sChar32)" mbcs_toTstring_pChar16;
    seen_as "toTstring (seen by sChar32)" mbcs_toTstring_sChar32].

Definition win32_unicode_functions : list fundef := [c16_isUtf8_pWChar16;
    c16_isUtf8_sWChar16;
    c16_isUtf16_pWChar16;
    c16_isUtf16_sWChar16;
    c16_isUcs2_pWChar16;
    c16_isUcs2_sWChar16;
    c16_isUcs4_pWChar16;
    c16_isUcs4_sWChar16;
    c16_isWstring_sChar;
    c16_isWstring_pChar;
    c16_isWstring_sChar16;
    c16_isWstring_pChar16;
    c16_isWstring_sChar32;
    c16_isWstring_pChar32;
    win_isUtf16_pChar;
    win_isUtf16_sChar;
    win_isUcs2_pChar;
    win_isUcs2_sChar;
    win_isUcs4_pChar;
    win_isUcs4_sChar;
    uni_isTstring_sChar;
    uni_isTstring_pChar;
    uni_isTstring_sChar16;
    uni_isTstring_pChar16;
    uni_isTstring_sChar32;
    uni_isTstring_pChar32;
    c16_toUtf8_pWChar16;
    c16_toUtf8_sWChar16;
    c16_toUtf16_pWChar16;
    c16_toUtf16_sWChar16;
    c16_toUcs2_pWChar16;
    c16_toUcs2_sWChar16;
    c16_toUcs4_pWChar16;
    c16_toUcs4_sWChar16;
    c16_toWstring_pChar;
    c16_toWstring_sChar;
    c16_toWstring_pChar16;
    c16_toWstring_sChar16;
    c16_toWstring_pChar32;
    c16_toWstring_sChar32;
    win_toUtf8_pChar;
    win_toUtf8_sChar;
    uni_toTstring_sChar;
    uni_toTstring_pChar;
    uni_toTstring_sChar16;
    uni_toTstring_pChar16;
    uni_toTstring_sChar32;
    uni_toTstring_pChar32].
