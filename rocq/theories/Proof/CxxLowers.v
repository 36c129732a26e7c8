(* The parsed source of toLower for UTF-8 and UTF-16 does what Model/Lower.v says. *)
From Coq Require Import ZArith List Bool String Lia.
From Verif Require Import Machine.
From Verif.Model Require Import Tables Internal Predicate Decode Str Lower.
From Verif.Cxx Require Import Syntax Semantics Program Values.
From Verif.Gen Require Import Source.
From Verif.Spec Require Import Source.
From Verif.Proof Require Import Bits CxxTools CxxRaw CxxInternal CxxDecode CxxPred CxxHelpers CxxChecks CxxUtf8 CxxSugar CxxConvert CxxLower CxxRanges.
Import ListNotations.
Local Open Scope string_scope.
Local Open Scope list_scope.
Local Open Scope Z_scope.

Lemma map_range (P : Z -> Prop) f s : (forall c, P c -> P (f c)) -> Forall P s -> Forall P (map f s).
Proof. intros Hf H. induction H; cbn; constructor; auto. Qed.

Lemma toLower_32_units T s p : units_to_units T -> Forall unit32 s ->
  gives (fun r => Forall unit32 r /\ List.length r = List.length s) (toLower_32 T s p).
Proof.
  intros [TL TT] Hs. unfold toLower_32. destruct (isTurkicLang p) as [[|]| |]; try exact Logic.I; cbn [bind gives];
    rewrite map_length; split; try reflexivity; now apply map_range.
Qed.

Ltac call_lowers r :=
  lazymatch r with
  | call _ _ _ _ "toUcs4" [VS Char _] => rewrite c_toUcs4_8_string by first [assumption | lia]
  | call _ _ _ _ "toUcs4" [VS Char16 _] => rewrite c_toUcs4_16_string by first [assumption | lia]
  | _ => lang_index r
  end.
Ltac known r ::= call_lowers r.

Section Lowers.
Context (I : implementation) (T : UnicodeTables) (fuel d : nat).

Lemma c_toLower_8 s arr p : units_to_units T -> Forall byte s -> points byte fuel arr p -> (S (List.length s) < fuel)%nat ->
  (forall r, toUcs4_8_string s = Done r -> (S (List.length r) < fuel)%nat) ->
  call I T fuel (S (S (S (S (S (S d)))))) "toLower" [VS Char s; vptr Char arr p]
  = do r <- toLower_8 T s p; Done (VS Char r, [None; None]).
Proof.
  intros HT Hs Hp Hf Hr. unfold toLower_8.
  assert (exists q, vptr Char arr p = VP Char q) as [q E] by (destruct p; eexists; reflexivity).
  rewrite E. enter c_toLower_sChar_pChar.
  pose proof (toUcs4_8_units s Hs) as G. destruct (toUcs4_8_string s) as [r| |]; [|reflexivity|reflexivity]. cbn [gives] in G.
  specialize (Hr r eq_refl). go. destruct r as [|c r]; go; [reflexivity|].
  rewrite <- E, c_toLower_32 by assumption. cbn [bind].
  pose proof (toLower_32_units T (c :: r) p HT G) as G'.
  destruct (toLower_32 T (c :: r) p) as [l| |]; [|reflexivity|reflexivity]. destruct G' as [G' L]. cbn [bind]. go.
  rewrite c_toUtf8_32_string by (first [assumption | lia]).
  destruct (toUtf8_32_string l); reflexivity.
Qed.
Lemma c_toLower_16 s arr p : units_to_units T -> Forall unit16 s -> points byte fuel arr p -> (S (List.length s) < fuel)%nat ->
  (forall r, toUcs4_16_string s = Done r -> (S (List.length r) < fuel)%nat) ->
  call I T fuel (S (S (S (S (S (S d)))))) "toLower" [VS Char16 s; vptr Char arr p]
  = do r <- toLower_16 T s p; Done (VS Char16 r, [None; None]).
Proof.
  intros HT Hs Hp Hf Hr. unfold toLower_16.
  assert (exists q, vptr Char arr p = VP Char q) as [q E] by (destruct p; eexists; reflexivity).
  rewrite E. enter c_toLower_sChar16_pChar.
  pose proof (toUcs4_16_units s Hs) as G. destruct (toUcs4_16_string s) as [r| |]; [|reflexivity|reflexivity]. cbn [gives] in G.
  specialize (Hr r eq_refl). go. destruct r as [|c r]; go; [reflexivity|].
  rewrite <- E, c_toLower_32 by assumption. cbn [bind].
  pose proof (toLower_32_units T (c :: r) p HT G) as G'.
  destruct (toLower_32 T (c :: r) p) as [l| |]; [|reflexivity|reflexivity]. destruct G' as [G' L]. cbn [bind]. go.
  rewrite c_toUtf16_32_string by (first [assumption | lia]).
  destruct (toUtf16_32_string l); reflexivity.
Qed.

(* without a language *)
Ltac fill c :=
  rewrite !call_S;
  repeat match goal with
         | |- context [external T ?f ?vs] => change (external T f vs) with (@None value)
         | |- context [select (funs _) ?f ?vs] => resolved c
         end;
  cbv iota beta; rewrite !invoke_eq; unfold c; cbn [f_params];
  rewrite !params_cons; reflexivity.
Lemma lower8_bare s : call I T fuel (S d) "toLower" [VS Char s] = call I T fuel (S d) "toLower" [VS Char s; VP Char PNull].
Proof. fill c_toLower_sChar_pChar. Qed.
Lemma lower16_bare s : call I T fuel (S d) "toLower" [VS Char16 s] = call I T fuel (S d) "toLower" [VS Char16 s; VP Char PNull].
Proof. fill c_toLower_sChar16_pChar. Qed.
Lemma lower32_bare s : call I T fuel (S d) "toLower" [VS Char32 s] = call I T fuel (S d) "toLower" [VS Char32 s; VP Char PNull].
Proof. fill c_toLower_sChar32_pChar. Qed.
End Lowers.
