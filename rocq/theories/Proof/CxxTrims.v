(* The parsed source of the trimWhiteSpace functions does what Model/Trim.v says. *)
From Coq Require Import ZArith List Bool String Lia.
From Verif Require Import Machine.
From Verif.Model Require Import Tables Internal Predicate Decode Str SplitJoin Trim.
From Verif.Cxx Require Import Syntax Semantics Program Values.
From Verif.Gen Require Import Source.
From Verif.Proof Require Import Bits CxxTools CxxRaw CxxInternal CxxDecode CxxPred CxxHelpers CxxChecks CxxUtf8 CxxSugar CxxConvert CxxRanges CxxTrim.
Import ListNotations.
Local Open Scope string_scope.
Local Open Scope list_scope.
Local Open Scope Z_scope.

Ltac call_trims r :=
  lazymatch r with
  | construct ?I ?n ?t ?l => let r' := eval vm_compute in (construct I n t l) in change r with r'
  | _ => call_trim r
  end.
Ltac known r ::= call_trims r.

Section Trims.
Context (I : implementation) (T : UnicodeTables) (fuel d : nat).

Lemma c_trimAscii s : Forall byte s -> size s < 0x8000000000000000 -> (List.length s < fuel)%nat ->
  call I T fuel (S (S d)) "trimAscii7WhiteSpace" [VS Char s] = do r <- trimAscii7WhiteSpace s; Done (VVoid, [Some (VS Char r)]).
Proof.
  intros Hs Hz Hf. enter c_trimAscii7WhiteSpace. rewrite c_trim_set_8 by (first [assumption | lia | reflexivity]).
  unfold trimAscii7WhiteSpace. destruct (trim_set _ _); reflexivity.
Qed.
Lemma c_trimWhite_32 s : Forall unit32 s -> size s < 0x8000000000000000 -> (List.length s < fuel)%nat ->
  call I T fuel (S (S d)) "trimWhiteSpace" [VS Char32 s] = do r <- trimWhiteSpace_32 s; Done (VVoid, [Some (VS Char32 r)]).
Proof.
  intros Hs Hz Hf. enter c_trimWhiteSpace_sChar32. rewrite c_trim_set_32 by (first [assumption | lia | reflexivity]).
  unfold trimWhiteSpace_32, whiteSpaces. destruct (trim_set _ _); reflexivity.
Qed.
Lemma c_trimWhite_16 s : Forall unit16 s -> size s < 0x8000000000000000 -> (List.length s < fuel)%nat ->
  call I T fuel (S (S d)) "trimWhiteSpace" [VS Char16 s] = do r <- trimWhiteSpace_16 s; Done (VVoid, [Some (VS Char16 r)]).
Proof.
  intros Hs Hz Hf. enter c_trimWhiteSpace_sChar16. rewrite c_trim_set_16 by (first [assumption | lia | reflexivity]).
  unfold trimWhiteSpace_16, whiteSpaces. destruct (trim_set _ _); reflexivity.
Qed.
Lemma trim_front_gives P blank v : Forall P v -> Forall P (trim_front blank v) /\ (List.length (trim_front blank v) <= List.length v)%nat.
Proof.
  induction v as [|x v IH]; intros H; [split; [constructor|cbn; lia]|]. cbn [trim_front].
  destruct (blank x); [|split; [exact H|lia]]. destruct (IH (Forall_inv_tail H)). split; [assumption|cbn; lia].
Qed.
Lemma trim_set_gives P s sp : Forall P s ->
  gives (fun v => Forall P v /\ (List.length v <= List.length s)%nat) (trim_set s sp).
Proof.
  intros H. unfold trim_set. cbv zeta.
  pose proof (trim_back_gives P (fun x => match SplitJoin.find sp x with Some _ => true | None => false end) (S (List.length s)) s H) as G.
  destruct (trim_back _ _ _) as [r| |]; try exact Logic.I. cbn [bind gives] in *.
  destruct (trim_front_gives P (fun x => match SplitJoin.find sp x with Some _ => true | None => false end) r (proj1 G)) as [A B].
  split; [exact A|]. lia.
Qed.
End Trims.

Section Trims8.
Context (I : implementation) (T : UnicodeTables) (fuel d : nat).
Lemma c_trimWhite_8 s : Forall byte s -> (S (List.length s) < fuel)%nat ->
  (forall r, toUtf16_8_string s = Done r -> (S (List.length r) < fuel)%nat /\ size r < 0x8000000000000000) ->
  call I T fuel (S (S (S (S (S (S d)))))) "trimWhiteSpace" [VS Char s] = do r <- trimWhiteSpace_8 s; Done (VVoid, [Some (VS Char r)]).
Proof.
  intros Hs Hf Hr. unfold trimWhiteSpace_8. enter c_trimWhiteSpace_sChar.
  rewrite c_toUtf16_8_string by first [assumption | lia].
  pose proof (toUtf16_8_units s Hs) as G. destruct (toUtf16_8_string s) as [r| |]; [|reflexivity|reflexivity]. cbn [gives] in G.
  destruct (Hr r eq_refl) as [R1 R2]. cbn [bind]. go.
  rewrite c_trimWhite_16 by first [assumption | lia].
  pose proof (trim_set_gives _ r whiteSpaces G) as Q. unfold trimWhiteSpace_16.
  destruct (trim_set r whiteSpaces) as [v| |]; [|reflexivity|reflexivity]. destruct Q as [Q1 Q2]. cbn [bind]. go.
  rewrite c_toUtf8_16_string by first [assumption | lia].
  destruct (toUtf8_16_string v); reflexivity.
Qed.
End Trims8.
