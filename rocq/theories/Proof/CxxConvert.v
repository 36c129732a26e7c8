(* The parsed source of the conversions of string.cxx does what Model/Str.v says. *)
From Coq Require Import ZArith List Bool String Lia.
From Verif Require Import Machine.
From Verif.Model Require Import Tables Internal Predicate Decode Str.
From Verif.Cxx Require Import Syntax Semantics Program Values.
From Verif.Gen Require Import Source.
From Verif.Proof Require Import Bits CxxTools CxxRaw CxxInternal CxxDecode CxxPred CxxHelpers CxxChecks CxxUtf8 CxxSugar.
Import ListNotations.
Local Open Scope string_scope.
Local Open Scope list_scope.
Local Open Scope Z_scope.

Lemma raw_range a b : 0 <= rawDecodeUtf16 a b < 0x100000000.
Proof. unfold rawDecodeUtf16, wrap32. lia. Qed.

Ltac call_convert r :=
  lazymatch r with
  | call _ _ _ _ "rawDecodeUtf16" [VI Char16 ?a; VI Char16 ?b] => rewrite c_rawDecodeUtf16' by lia; pose proof (raw_range a b)
  | call _ _ _ _ "encodeUtf8" [VI Char32 ?c; VS Char ?s] => rewrite c_encodeUtf8_Char32 by first [assumption | lia]
  | call _ _ _ _ "encodeUtf8" [VI Char16 ?c; VS Char ?s] => rewrite c_encodeUtf8_Char16 by first [assumption | lia]
  | call _ _ _ _ "rawEncodeUtf16" [VI Char32 ?c; VS Char16 ?s] => rewrite c_rawEncodeUtf16' by first [assumption | lia]
  | _ => first [call_helper r | open_body r]
  end.
Ltac known r ::= call_convert r.

(* ... and so is the result so far *)
Ltac over_both :=
  lazymatch goal with
  | H : suffix (?z :: ?l) ?arr, B : Forall _ (?z :: ?l), F : (List.length (?z :: ?l) < ?fuel)%nat
    |- context [loop (rounds ?fuel) _ _ _ ((_, Var (VP _ (into ?arr (?z :: ?l)))) :: _)] =>
    revert H B F; generalize (z :: l); change fuel with (rounds fuel) at 1; generalize (rounds fuel);
    let n := fresh "n" in let r := fresh "res" in
    intros n; generalize (@nil Z) at 1 2; intros r; revert r; revert n
  end.

(* a loop that looks at one unit, or two, each time round *)
Ltac unit_loop c P f :=
  enter c;
  read_unit P; go; [reflexivity|];
  split_if; go; cbn [deref bind]; decide_eqs; [reflexivity|];
  loop_over "p"; over_both;
  let n := fresh "n" in let IH := fresh "IH" in let res := fresh "res" in let l := fresh "l" in
  let Hl := fresh "Hl" in let Bl := fresh "Bl" in let Fl := fresh "Fl" in
  intros n; induction n as [|n IH]; intros res l Hl Bl Fl; [lia|];
  rewrite loop_S; go; read_unit P; go; [reflexivity|];
  cbn [f]; cbn [List.length] in Fl;
  repeat (first [split_if | read_unit P]; go); decide_eqs; cbn [negb andb orb bind]; try reflexivity;
  try (apply IH; first [assumption | cbn [List.length] in *; lia]).

(* a loop that decodes a character each time round *)
Ltac byte_loop c f :=
  enter c;
  lazymatch goal with Hs : suffix _ ?arr, Ba : Forall byte ?arr |- _ => pose proof (suffix_Forall _ _ _ Hs Ba) end;
  read_unit byte; go; [reflexivity|];
  split_if; go; cbn [deref bind]; decide_eqs; [reflexivity|];
  lazymatch goal with |- context [f (S (List.length ?l)) ?l []] =>
    let M := fresh "M" in
    assert (M : (List.length l < S (List.length l))%nat) by lia; revert M; generalize (S (List.length l)) end;
  let m := fresh "m" in let M := fresh "M" in
  intros m M; revert m M;
  loop_over "p"; over_both;
  let n := fresh "n" in let IH := fresh "IH" in let res := fresh "res" in let l := fresh "l" in
  let Hl := fresh "Hl" in let Bl := fresh "Bl" in let Fl := fresh "Fl" in
  intros n; induction n as [|n IH]; intros res l Hl Bl Fl m M; [lia|]; destruct m as [|m]; [lia|];
  rewrite loop_S; go; read_unit byte; go; [reflexivity|];
  cbn [f]; cbn [List.length] in Fl, M; cbn [deref bind]; decide_eqs;
  split_if; go; decide_eqs; [reflexivity|];
  decoded; go; cbn [bind]; try reflexivity;
  repeat (split_if; go); cbn [deref bind]; decide_eqs; cbn [negb andb orb bind incr]; try reflexivity;
  lazymatch goal with E : decodeUtf8 ?l = _, B : Forall byte ?l |- _ =>
    let Sh := fresh "Sh" in pose proof (decode_shorter _ _ _ B E) as Sh; cbn [List.length] in Sh end;
  try (apply IH; first [assumption | lia]).

Lemma wrap16_small x : 0 <= x < 0x10000 -> wrap16 x = x.
Proof. unfold wrap16. lia. Qed.

Section Convert.
Context (I : implementation) (T : UnicodeTables) (fuel d : nat).

Lemma c_toUtf8_32 arr rest : suffix rest arr -> Forall unit32 rest -> (List.length rest < fuel)%nat ->
  call I T fuel (S (S d)) "toUtf8" [VP Char32 (into arr rest)]
  = do s <- toUtf8_32 (At rest); Done (VS Char s, [None]).
Proof.
  intros Hs Hb Hf. unfold toUtf8_32, Str.convert. unit_loop c_toUtf8_pChar32 unit32 toUtf8_32_loop.
Qed.
Lemma c_toUtf8_16 arr rest : suffix rest arr -> Forall unit16 rest -> (List.length rest < fuel)%nat ->
  call I T fuel (S (S d)) "toUtf8" [VP Char16 (into arr rest)]
  = do s <- toUtf8_16 (At rest); Done (VS Char s, [None]).
Proof.
  intros Hs Hb Hf. unfold toUtf8_16, Str.convert. unit_loop c_toUtf8_pChar16 unit16 toUtf8_16_loop.
Qed.
Lemma c_toUcs2_32 arr rest : suffix rest arr -> Forall unit32 rest -> (List.length rest < fuel)%nat ->
  call I T fuel (S (S d)) "toUcs2" [VP Char32 (into arr rest)]
  = do s <- toUcs2_32 (At rest); Done (VS Char16 s, [None]).
Proof.
  intros Hs Hb Hf. unfold toUcs2_32, Str.convert. unit_loop c_toUcs2_pChar32 unit32 toUcs2_32_loop.
  rewrite wrap16_small by lia. apply IH; first [assumption | lia].
Qed.
Lemma c_toUtf16_32 arr rest : suffix rest arr -> Forall unit32 rest -> (List.length rest < fuel)%nat ->
  call I T fuel (S (S d)) "toUtf16" [VP Char32 (into arr rest)]
  = do s <- toUtf16_32 (At rest); Done (VS Char16 s, [None]).
Proof.
  intros Hs Hb Hf. unfold toUtf16_32, Str.convert. unit_loop c_toUtf16_pChar32 unit32 toUtf16_32_loop.
Qed.
Lemma c_toUcs4_16 arr rest : suffix rest arr -> Forall unit16 rest -> (List.length rest < fuel)%nat ->
  call I T fuel (S (S d)) "toUcs4" [VP Char16 (into arr rest)]
  = do s <- toUcs4_16 (At rest); Done (VS Char32 s, [None]).
Proof.
  intros Hs Hb Hf. unfold toUcs4_16, Str.convert. unit_loop c_toUcs4_pChar16 unit16 toUcs4_16_loop.
Qed.
Lemma c_toUcs4_8 arr rest : suffix rest arr -> Forall byte arr -> (List.length rest < fuel)%nat ->
  call I T fuel (S (S (S (S d)))) "toUcs4" [VP Char (into arr rest)]
  = do s <- toUcs4_8 (At rest); Done (VS Char32 s, [None]).
Proof.
  intros Hs Ba Hf. unfold toUcs4_8, Str.convert. byte_loop c_toUcs4_pChar toUcs4_8_loop.
Qed.
Lemma c_toUcs2_8 arr rest : suffix rest arr -> Forall byte arr -> (List.length rest < fuel)%nat ->
  call I T fuel (S (S (S (S d)))) "toUcs2" [VP Char (into arr rest)]
  = do s <- toUcs2_8 (At rest); Done (VS Char16 s, [None]).
Proof.
  intros Hs Ba Hf. unfold toUcs2_8, Str.convert. byte_loop c_toUcs2_pChar toUcs2_8_loop.
  rewrite wrap16_small by lia. apply IH; first [assumption | lia].
Qed.
Lemma c_toUtf16_8 arr rest : suffix rest arr -> Forall byte arr -> (List.length rest < fuel)%nat ->
  call I T fuel (S (S (S (S d)))) "toUtf16" [VP Char (into arr rest)]
  = do s <- toUtf16_8 (At rest); Done (VS Char16 s, [None]).
Proof.
  intros Hs Ba Hf. unfold toUtf16_8, Str.convert. byte_loop c_toUtf16_pChar toUtf16_8_loop.
Qed.
End Convert.

(* any pointer *)
Section Pointers.
Context (I : implementation) (T : UnicodeTables) (fuel : nat).

Lemma c_toUtf8_16_any d arr p : points unit16 fuel arr p ->
  call I T fuel (S (S (S (S d)))) "toUtf8" [vptr Char16 arr p]
  = do s <- toUtf8_16 p; Done (VS Char s, [None]).
Proof.
  destruct p as [|rest]; cbn [points vptr].
  - intros _. unfold toUtf8_16, Str.convert. enter c_toUtf8_pChar16. reflexivity.
  - intros (Hs & Ha & Hf). apply (c_toUtf8_16 I T fuel (S (S d)) arr rest Hs); [exact (suffix_Forall _ _ _ Hs Ha) | exact Hf].
Qed.
Lemma c_toUtf8_32_any d arr p : points unit32 fuel arr p ->
  call I T fuel (S (S (S (S d)))) "toUtf8" [vptr Char32 arr p]
  = do s <- toUtf8_32 p; Done (VS Char s, [None]).
Proof.
  destruct p as [|rest]; cbn [points vptr].
  - intros _. unfold toUtf8_32, Str.convert. enter c_toUtf8_pChar32. reflexivity.
  - intros (Hs & Ha & Hf). apply (c_toUtf8_32 I T fuel (S (S d)) arr rest Hs); [exact (suffix_Forall _ _ _ Hs Ha) | exact Hf].
Qed.
Lemma c_toUcs2_8_any d arr p : points byte fuel arr p ->
  call I T fuel (S (S (S (S d)))) "toUcs2" [vptr Char arr p]
  = do s <- toUcs2_8 p; Done (VS Char16 s, [None]).
Proof.
  destruct p as [|rest]; cbn [points vptr].
  - intros _. unfold toUcs2_8, Str.convert. enter c_toUcs2_pChar. reflexivity.
  - intros (Hs & Ha & Hf). apply (c_toUcs2_8 I T fuel d arr rest Hs); [exact Ha | exact Hf].
Qed.
Lemma c_toUcs2_32_any d arr p : points unit32 fuel arr p ->
  call I T fuel (S (S (S (S d)))) "toUcs2" [vptr Char32 arr p]
  = do s <- toUcs2_32 p; Done (VS Char16 s, [None]).
Proof.
  destruct p as [|rest]; cbn [points vptr].
  - intros _. unfold toUcs2_32, Str.convert. enter c_toUcs2_pChar32. reflexivity.
  - intros (Hs & Ha & Hf). apply (c_toUcs2_32 I T fuel (S (S d)) arr rest Hs); [exact (suffix_Forall _ _ _ Hs Ha) | exact Hf].
Qed.
Lemma c_toUtf16_8_any d arr p : points byte fuel arr p ->
  call I T fuel (S (S (S (S d)))) "toUtf16" [vptr Char arr p]
  = do s <- toUtf16_8 p; Done (VS Char16 s, [None]).
Proof.
  destruct p as [|rest]; cbn [points vptr].
  - intros _. unfold toUtf16_8, Str.convert. enter c_toUtf16_pChar. reflexivity.
  - intros (Hs & Ha & Hf). apply (c_toUtf16_8 I T fuel d arr rest Hs); [exact Ha | exact Hf].
Qed.
Lemma c_toUtf16_32_any d arr p : points unit32 fuel arr p ->
  call I T fuel (S (S (S (S d)))) "toUtf16" [vptr Char32 arr p]
  = do s <- toUtf16_32 p; Done (VS Char16 s, [None]).
Proof.
  destruct p as [|rest]; cbn [points vptr].
  - intros _. unfold toUtf16_32, Str.convert. enter c_toUtf16_pChar32. reflexivity.
  - intros (Hs & Ha & Hf). apply (c_toUtf16_32 I T fuel (S (S d)) arr rest Hs); [exact (suffix_Forall _ _ _ Hs Ha) | exact Hf].
Qed.
Lemma c_toUcs4_8_any d arr p : points byte fuel arr p ->
  call I T fuel (S (S (S (S d)))) "toUcs4" [vptr Char arr p]
  = do s <- toUcs4_8 p; Done (VS Char32 s, [None]).
Proof.
  destruct p as [|rest]; cbn [points vptr].
  - intros _. unfold toUcs4_8, Str.convert. enter c_toUcs4_pChar. reflexivity.
  - intros (Hs & Ha & Hf). apply (c_toUcs4_8 I T fuel d arr rest Hs); [exact Ha | exact Hf].
Qed.
Lemma c_toUcs4_16_any d arr p : points unit16 fuel arr p ->
  call I T fuel (S (S (S (S d)))) "toUcs4" [vptr Char16 arr p]
  = do s <- toUcs4_16 p; Done (VS Char32 s, [None]).
Proof.
  destruct p as [|rest]; cbn [points vptr].
  - intros _. unfold toUcs4_16, Str.convert. enter c_toUcs4_pChar16. reflexivity.
  - intros (Hs & Ha & Hf). apply (c_toUcs4_16 I T fuel (S (S d)) arr rest Hs); [exact (suffix_Forall _ _ _ Hs Ha) | exact Hf].
Qed.
End Pointers.

Ltac call_any r :=
  lazymatch r with
  | call _ _ _ _ _ [VP _ (PAt (?s ++ [0]) 0)] => rewrite (into_all (s ++ [0]))
  | call ?I ?T ?fuel _ "toUtf8" [VP Char16 (into ?arr ?rest)] => rewrite (c_toUtf8_16_any I T fuel _ arr (At rest)) by points_side
  | call ?I ?T ?fuel _ "toUtf8" [VP Char32 (into ?arr ?rest)] => rewrite (c_toUtf8_32_any I T fuel _ arr (At rest)) by points_side
  | call ?I ?T ?fuel _ "toUcs2" [VP Char (into ?arr ?rest)] => rewrite (c_toUcs2_8_any I T fuel _ arr (At rest)) by points_side
  | call ?I ?T ?fuel _ "toUcs2" [VP Char32 (into ?arr ?rest)] => rewrite (c_toUcs2_32_any I T fuel _ arr (At rest)) by points_side
  | call ?I ?T ?fuel _ "toUtf16" [VP Char (into ?arr ?rest)] => rewrite (c_toUtf16_8_any I T fuel _ arr (At rest)) by points_side
  | call ?I ?T ?fuel _ "toUtf16" [VP Char32 (into ?arr ?rest)] => rewrite (c_toUtf16_32_any I T fuel _ arr (At rest)) by points_side
  | call ?I ?T ?fuel _ "toUcs4" [VP Char (into ?arr ?rest)] => rewrite (c_toUcs4_8_any I T fuel _ arr (At rest)) by points_side
  | call ?I ?T ?fuel _ "toUcs4" [VP Char16 (into ?arr ?rest)] => rewrite (c_toUcs4_16_any I T fuel _ arr (At rest)) by points_side
  | toUtf8_16 _ => fail
  | toUtf8_32 _ => fail
  | toUcs2_8 _ => fail
  | toUcs2_32 _ => fail
  | toUtf16_8 _ => fail
  | toUtf16_32 _ => fail
  | toUcs4_8 _ => fail
  | toUcs4_16 _ => fail
  | method _ (VS ?t ?l) "c_str" [] _ => fail
  | _ => first [call_helper r | open_body r]
  end.
Ltac known r ::= call_any r.

Section Strings.
Context (I : implementation) (T : UnicodeTables) (fuel d : nat).

Lemma c_toUtf8_16_string s : Forall unit16 s -> (S (List.length s) < fuel)%nat ->
  call I T fuel (S (S (S (S (S d))))) "toUtf8" [VS Char16 s]
  = do s <- toUtf8_16_string s; Done (VS Char s, [None]).
Proof.
  intros Hs Hf. unfold toUtf8_16_string. enter c_toUtf8_sChar16.
  unfold c_str. destruct (toUtf8_16 _); reflexivity.
Qed.
Lemma c_toUtf8_32_string s : Forall unit32 s -> (S (List.length s) < fuel)%nat ->
  call I T fuel (S (S (S (S (S d))))) "toUtf8" [VS Char32 s]
  = do s <- toUtf8_32_string s; Done (VS Char s, [None]).
Proof.
  intros Hs Hf. unfold toUtf8_32_string. enter c_toUtf8_sChar32.
  unfold c_str. destruct (toUtf8_32 _); reflexivity.
Qed.
Lemma c_toUcs2_8_string s : Forall byte s -> (S (List.length s) < fuel)%nat ->
  call I T fuel (S (S (S (S (S d))))) "toUcs2" [VS Char s]
  = do s <- toUcs2_8_string s; Done (VS Char16 s, [None]).
Proof.
  intros Hs Hf. unfold toUcs2_8_string. enter c_toUcs2_sChar.
  unfold c_str. destruct (toUcs2_8 _); reflexivity.
Qed.
Lemma c_toUcs2_32_string s : Forall unit32 s -> (S (List.length s) < fuel)%nat ->
  call I T fuel (S (S (S (S (S d))))) "toUcs2" [VS Char32 s]
  = do s <- toUcs2_32_string s; Done (VS Char16 s, [None]).
Proof.
  intros Hs Hf. unfold toUcs2_32_string. enter c_toUcs2_sChar32.
  unfold c_str. destruct (toUcs2_32 _); reflexivity.
Qed.
Lemma c_toUtf16_8_string s : Forall byte s -> (S (List.length s) < fuel)%nat ->
  call I T fuel (S (S (S (S (S d))))) "toUtf16" [VS Char s]
  = do s <- toUtf16_8_string s; Done (VS Char16 s, [None]).
Proof.
  intros Hs Hf. unfold toUtf16_8_string. enter c_toUtf16_sChar.
  unfold c_str. destruct (toUtf16_8 _); reflexivity.
Qed.
Lemma c_toUtf16_32_string s : Forall unit32 s -> (S (List.length s) < fuel)%nat ->
  call I T fuel (S (S (S (S (S d))))) "toUtf16" [VS Char32 s]
  = do s <- toUtf16_32_string s; Done (VS Char16 s, [None]).
Proof.
  intros Hs Hf. unfold toUtf16_32_string. enter c_toUtf16_sChar32.
  unfold c_str. destruct (toUtf16_32 _); reflexivity.
Qed.
Lemma c_toUcs4_8_string s : Forall byte s -> (S (List.length s) < fuel)%nat ->
  call I T fuel (S (S (S (S (S d))))) "toUcs4" [VS Char s]
  = do s <- toUcs4_8_string s; Done (VS Char32 s, [None]).
Proof.
  intros Hs Hf. unfold toUcs4_8_string. enter c_toUcs4_sChar.
  unfold c_str. destruct (toUcs4_8 _); reflexivity.
Qed.
Lemma c_toUcs4_16_string s : Forall unit16 s -> (S (List.length s) < fuel)%nat ->
  call I T fuel (S (S (S (S (S d))))) "toUcs4" [VS Char16 s]
  = do s <- toUcs4_16_string s; Done (VS Char32 s, [None]).
Proof.
  intros Hs Hf. unfold toUcs4_16_string. enter c_toUcs4_sChar16.
  unfold c_str. destruct (toUcs4_16 _); reflexivity.
Qed.
End Strings.
